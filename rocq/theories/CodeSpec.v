(** * Specification of square roots and of the two point encodings *)

From Coq Require Import ZArith List Bool.
From Verif Require Import Machine FieldModel ScalarModel EdwardsModel RistrettoModel Spec Fp Curve RistSpec.
Import ListNotations.
Open Scope F_scope.

(** The preferred one of x and -x: its quartic character x^((p-1)/4) is 1 or the
    non-negative square root of -1. *)
Definition principal (x : F) : Prop :=
  x = 0 \/ x ^ ((p - 1) / 4) = 1 \/
  exists j, j * j = - (1) /\ nonneg j /\ x ^ ((p - 1) / 4) = j.

(** 32-byte encoding of an Edwards point: y, and bit 255 set unless x is preferred. *)
Definition edwards_code (A : xy) (b : list Z) : Prop :=
  is_bytes 32 b /\
  ((principal (fst A) /\ le_value b = Fval (snd A)) \/
   (~ principal (fst A) /\ le_value b = Fval (snd A) + 2 ^ 255)%Z).

(** The point with the given y coordinate whose x, or -x when the sign is set, is preferred. *)
Definition has_y (y : F) (sign : bool) (A : xy) : Prop :=
  on_curve A /\ snd A = y /\ principal (if sign then - fst A else fst A).

(** The point a 32-byte string stands for: y in bits 0 to 251, the sign in bit 255. *)
Definition edwards_decoded (b : list Z) (A : xy) : Prop :=
  has_y (toF (le_value b mod 2 ^ 252)) (2 ^ 255 <=? le_value b)%Z A.

(** Two curve points represent the same Ristretto element when they differ by one of
    the four points killed by 4. *)
Definition coset4 (A B : xy) : Prop := exists T, on_curve T /\ multiple 4 T = origin /\ B = sum A T.

(** The distinguished representative of a Ristretto element: x and xy non-negative,
    y neither 0 nor -1. *)
Definition canonical (A : xy) : Prop :=
  on_curve A /\ nonneg (fst A) /\ nonneg (fst A * snd A) /\ snd A <> 0 /\ snd A <> - (1).

(** Its encoding: the non-negative s with y = (1 - s^2) / (1 + s^2), in 32 bytes. *)
Definition canonical_code (A : xy) (b : list Z) : Prop :=
  is_bytes 32 b /\ exists s, nonneg s /\ 1 + s * s <> 0 /\ snd A = (1 - s * s) / (1 + s * s) /\ le_value b = Fval s.
