(** * Specification of recoding outside the reduced range *)

From Coq Require Import ZArith List.
From Verif Require Import Machine Spec.
Open Scope Z_scope.

(** A non-adjacent form of [k] in a 256-entry array: digits -1, 0, 1 that sum to
    [k], of which no two neighbours are both nonzero. *)
Definition nonadjacent_form (k : Z) (ds : list Z) : Prop :=
  length ds = 256%nat /\ digits_value ds = k /\
  Forall (fun d => d = 0 \/ d = 1 \/ d = -1) ds /\
  (forall i, nth i ds 0 = 0 \/ nth (S i) ds 0 = 0).

(** No binary prefix of [k] that is L or more ends in two ones. *)
Definition no_trap (k : Z) : Prop :=
  forall i, 0 <= i -> L <= k / 2 ^ i -> (k / 2 ^ i) mod 4 <> 3.
