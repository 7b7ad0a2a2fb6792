(** * Specification of decimal notation and of word arrays *)
From Coq Require Import ZArith List String Ascii Bool.
From Verif Require Import FieldModel ScalarModel EdwardsModel.
Import ListNotations.
Open Scope Z_scope.

(** Value of a decimal digit. *)
Definition digit_value (c : ascii) : option Z :=
  let v := Z.of_N (N_of_ascii c) - 48 in
  if (0 <=? v) && (v <=? 9) then Some v else None.

(** Value of a string of decimal digits read after [acc]; nothing else may occur. *)
Fixpoint decimal_from (acc : Z) (s : string) : option Z :=
  match s with
  | EmptyString => Some acc
  | String c s' => match digit_value c with
                   | Some v => decimal_from (10 * acc + v) s'
                   | None => None
                   end
  end.

(** [s] is the decimal notation of [x]: digits only, not empty, no superfluous zero in front. *)
Definition decimal (s : string) (x : Z) : Prop :=
  decimal_from 0 s = Some x /\ s <> EmptyString /\
  (forall s', s = String "0" s' -> s' = EmptyString).

(** Limbs that fit a u64. *)
Definition fwords (a : fe) : Prop :=
  0 <= f0 a < 2 ^ 64 /\ 0 <= f1 a < 2 ^ 64 /\ 0 <= f2 a < 2 ^ 64 /\ 0 <= f3 a < 2 ^ 64 /\ 0 <= f4 a < 2 ^ 64.
Definition swords (a : sc) : Prop :=
  0 <= s0 a < 2 ^ 64 /\ 0 <= s1 a < 2 ^ 64 /\ 0 <= s2 a < 2 ^ 64 /\ 0 <= s3 a < 2 ^ 64 /\ 0 <= s4 a < 2 ^ 64.
Definition ewords (P : ept) : Prop := fwords (eX P) /\ fwords (eY P) /\ fwords (eZ P) /\ fwords (eT P).
Definition pwords (P : ppt) : Prop := fwords (pX P) /\ fwords (pY P) /\ fwords (pZ P).
Definition awords (P : apt) : Prop := fwords (aX P) /\ fwords (aY P).
