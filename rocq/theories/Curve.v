(** * Specification of the curve

    Affine points of the twisted Edwards curve -x^2 + y^2 = 1 + d x^2 y^2 over
    the prime field, with the affine addition formulas.                      *)

From Coq Require Import ZArith List Bool.
From Verif Require Import Machine FieldModel EdwardsModel Spec Fp.
Import ListNotations.
Open Scope F_scope.

(** d = -126296/126297. *)
Definition cd : F := - toF 126296 / toF 126297.

(** Points are pairs of coordinates. *)
Definition xy : Set := (F * F)%type.

Definition on_curve (P : xy) : Prop :=
  let (x, y) := P in - (x * x) + y * y = 1 + cd * (x * x) * (y * y).

(** The neutral element, negation, addition and n-fold sums. *)
Definition origin : xy := (0, 1).
Definition opposite (P : xy) : xy := let (x, y) := P in (- x, y).
Definition sum (P Q : xy) : xy :=
  let (x1, y1) := P in
  let (x2, y2) := Q in
  ((x1 * y2 + y1 * x2) / (1 + cd * x1 * x2 * y1 * y2),
   (y1 * y2 + x1 * x2) / (1 - cd * x1 * x2 * y1 * y2)).
Definition multiple (n : Z) (P : xy) : xy := Z.iter n (sum P) origin.

(** ** Points of the model that represent an affine point *)

Notation residue a := (toF (fval a)).


(** Extended coordinates: reduced limbs, Z nonzero, X = xZ, Y = yZ, T = xyZ. *)
Definition ext_rep (P : ept) (A : xy) : Prop :=
  on_curve A /\
  fcanon (eX P) /\ fcanon (eY P) /\ fcanon (eZ P) /\ fcanon (eT P) /\
  residue (eZ P) <> 0 /\
  residue (eX P) = fst A * residue (eZ P) /\
  residue (eY P) = snd A * residue (eZ P) /\
  residue (eT P) = fst A * snd A * residue (eZ P).

(** Projective coordinates: reduced limbs, Z nonzero, X = xZ, Y = yZ. *)
Definition proj_rep (P : ppt) (A : xy) : Prop :=
  on_curve A /\
  fcanon (pX P) /\ fcanon (pY P) /\ fcanon (pZ P) /\
  residue (pZ P) <> 0 /\
  residue (pX P) = fst A * residue (pZ P) /\
  residue (pY P) = snd A * residue (pZ P).

(** Affine coordinates: reduced limbs of x and y. *)
Definition aff_rep (P : apt) (A : xy) : Prop :=
  on_curve A /\ fcanon (aX P) /\ fcanon (aY P) /\ residue (aX P) = fst A /\ residue (aY P) = snd A.

(** A valid point is one that represents some curve point. *)
Definition valid_ext (P : ept) : Prop := exists A, ext_rep P A.
Definition valid_proj (P : ppt) : Prop := exists A, proj_rep P A.

(** The call returns a representation of the given curve point. *)
Definition returns_ext (o : res ept) (A : xy) : Prop := exists R, o = Ok R /\ ext_rep R A.
Definition returns_proj (o : res ppt) (A : xy) : Prop := exists R, o = Ok R /\ proj_rep R A.

(** Both calls return valid points and the code's == says they are equal. *)
Definition same_ext (ck : bool) (o o' : res ept) : Prop :=
  exists R R', o = Ok R /\ o' = Ok R' /\ valid_ext R /\ valid_ext R' /\ ept_eqb ck R R' = Ok true.
Definition same_proj (ck : bool) (o o' : res ppt) : Prop :=
  exists R R', o = Ok R /\ o' = Ok R' /\ valid_proj R /\ valid_proj R' /\ ppt_eqb ck R R' = Ok true.

(** Reduced coordinates. *)
Definition reduced_ext (P : ept) : Prop :=
  fcanon (eX P) /\ fcanon (eY P) /\ fcanon (eZ P) /\ fcanon (eT P).
Definition reduced_proj (P : ppt) : Prop := fcanon (pX P) /\ fcanon (pY P) /\ fcanon (pZ P).

(** The basepoint: y = 3/5 and one of its two x coordinates. *)
Definition base_x : Z := 5543765830694772891887215782191909494666954494493566203295350876317221014088.
Definition base : xy := (toF base_x, toF 3 / toF 5).
