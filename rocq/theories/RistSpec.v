(** * Specification of the Ristretto group *)

From Coq Require Import ZArith List Bool.
From Verif Require Import Machine FieldModel ScalarModel EdwardsModel RistrettoModel Spec Fp Curve.
Import ListNotations.
Open Scope F_scope.

(** The representative at most (p-1)/2. *)
Definition nonneg (x : F) : Prop := (Fval x <= (p - 1) / 2)%Z.

(** Even curve points: 1 + d y^2 is a square.  (RistrettoStmt.v shows that they
    form a subgroup containing all doubles.) *)
Definition even_point (A : xy) : Prop := exists r, r * r = 1 + cd * (snd A * snd A).
Definition even_ext (P : ept) : Prop := exists A, ext_rep P A /\ even_point A.

(** The four points (0,1), (0,-1), (j,0), (-j,0). *)
Definition torsion4 (j : F) : list xy := [(0, 1); (0, - (1)); (j, 0); (- j, 0)].

(** Both calls return valid points that the code's == of Ristretto points equates. *)
Definition same_rist (ck : bool) (o o' : res ept) : Prop :=
  exists R R', o = Ok R /\ o' = Ok R' /\ valid_ext R /\ valid_ext R' /\ rp_eqb ck R R' = Ok true.

(** Points a program can obtain from the public constructors and operations of
    RistrettoPoint (without writing coordinates by hand). *)
Inductive obtainable (ck : bool) : ept -> Prop :=
| ob_identity : obtainable ck rp_identity
| ob_basepoint : obtainable ck RISTRETTO_BASEPOINT
| ob_decompress b P : is_bytes 32 b -> cr_decompress ck b = Ok (Some P) -> obtainable ck P
| ob_elligator r P : floadable r -> rp_elligator ck r = Ok P -> obtainable ck P
| ob_uniform b P : is_bytes 64 b -> rp_from_uniform_bytes ck b = Ok P -> obtainable ck P
| ob_random b P : is_bytes 64 b -> rp_new_random_point ck b = Ok P -> obtainable ck P
| ob_neg P R : obtainable ck P -> rp_neg ck P = Ok R -> obtainable ck R
| ob_add P Q R : obtainable ck P -> obtainable ck Q -> rp_add ck P Q = Ok R -> obtainable ck R
| ob_sub P Q R : obtainable ck P -> obtainable ck Q -> rp_sub ck P Q = Ok R -> obtainable ck R
| ob_double P R : obtainable ck P -> rp_double ck P = Ok R -> obtainable ck R
| ob_mul P n R : obtainable ck P -> sloadable n -> rp_mul ck P n = Ok R -> obtainable ck R.

(** The Ristretto flavour of Elligator 2 for a = -1: with j and b the non-negative
    square roots of -1 and -1-d, r = j r0^2, N = (r+1)(1-d^2) and D = (-1-dr)(r+d),
    s is the non-negative root of N/D or the non-positive root of rN/D. *)
Definition elligator_image (r0 : F) (A : xy) : Prop :=
  exists j b, j * j = - (1) /\ nonneg j /\ b * b = - (1) - cd /\ nonneg b /\
  let r := j * (r0 * r0) in
  let N := (r + 1) * (1 - cd * cd) in
  let D := (- (1) - cd * r) * (r + cd) in
  (D = 0 /\ A = origin) \/
  (D <> 0 /\ exists s c,
    ((is_sq (N / D) /\ c = - (1) /\ nonneg s /\ s * s * D = N) \/
     (~ is_sq (N / D) /\ c = r /\ nonneg (- s) /\ s * s * D = r * N)) /\
    snd A * (1 + s * s) = 1 - s * s /\
    fst A * ((c * (r - 1) * ((cd - 1) * (cd - 1)) - D) * b) = (s + s) * D).
