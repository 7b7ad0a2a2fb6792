(** * Weight of a signed-digit recoding

    Used to state how good the recodings of `compute_NAF` (scalar.rs 370-389) and
    `compute_window_NAF` (scalar.rs 396-415) are: the multiplications that consume
    them (edwards.rs 136-171) add or subtract once per non-zero digit. *)

From Coq Require Import ZArith List.
Import ListNotations.
Open Scope Z_scope.

(** Number of non-zero digits (specification, models no code). *)
Fixpoint weight (ds : list Z) : Z :=
  match ds with
  | [] => 0
  | d :: ds' => (if Z.eqb d 0 then 0 else 1) + weight ds'
  end.

(** Any signed binary expansion with digits below 2^(w-1) in absolute value, of
    any length and with no condition on where the non-zero digits are. *)
Definition small_digits (w : Z) (ds : list Z) : Prop := Forall (fun d => Z.abs d < 2 ^ (w - 1)) ds.
