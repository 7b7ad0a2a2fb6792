(** * Specification for points that need not lie on the curve *)

From Coq Require Import ZArith.
From Verif Require Import Machine FieldModel EdwardsModel Spec Fp Curve.
Open Scope F_scope.

(** Reduced coordinates of the pair [A], whether it satisfies the curve equation or not. *)
Definition ext_at (P : ept) (A : xy) : Prop :=
  reduced_ext P /\ residue (eZ P) <> 0 /\
  residue (eX P) = fst A * residue (eZ P) /\
  residue (eY P) = snd A * residue (eZ P) /\
  residue (eT P) = fst A * snd A * residue (eZ P).
Definition proj_at (P : ppt) (A : xy) : Prop :=
  reduced_proj P /\ residue (pZ P) <> 0 /\
  residue (pX P) = fst A * residue (pZ P) /\
  residue (pY P) = snd A * residue (pZ P).

(** The curve -x^2 + y^2 = 1 + e x^2 y^2 for any coefficient. *)
Definition on_twist (e : F) (A : xy) : Prop :=
  let (x, y) := A in - (x * x) + y * y = 1 + e * (x * x) * (y * y).

Definition swapped (A : xy) : xy := (snd A, fst A).
