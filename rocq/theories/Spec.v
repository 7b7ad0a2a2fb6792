(** * Specification vocabulary

    Small definitions used to state the properties.  Nothing here refers to how
    the code computes; the only link to the model is the projections of the
    limb records and the coordinates of the point records.                  *)

From Coq Require Import ZArith List Bool Znumtheory.
From Verif Require Import Machine FieldModel ScalarModel.
Import ListNotations.
Open Scope Z_scope.

(** The field prime and the order of the prime subgroup. *)
Definition p : Z := 2 ^ 252 + 27742317777372353535851937790883648493.
Definition L : Z := 2 ^ 249 + 14490550575682688738086195780655237219.

(** Value of five limbs in radix 2^52. *)
Definition val5 (a0 a1 a2 a3 a4 : Z) : Z :=
  a0 + a1 * 2 ^ 52 + a2 * 2 ^ 104 + a3 * 2 ^ 156 + a4 * 2 ^ 208.

Definition fval (a : fe) : Z := val5 (f0 a) (f1 a) (f2 a) (f3 a) (f4 a).

(** Limbs below 2^52. *)
Definition flimbs (a : fe) : Prop :=
  0 <= f0 a < 2 ^ 52 /\ 0 <= f1 a < 2 ^ 52 /\ 0 <= f2 a < 2 ^ 52 /\
  0 <= f3 a < 2 ^ 52 /\ 0 <= f4 a < 2 ^ 52.

(** Loadable from 32 bytes: 52-bit limbs and a value below 2^256. *)
Definition floadable (a : fe) : Prop := flimbs a /\ fval a < 2 ^ 256.

(** Reduced: 52-bit limbs and a value below p. *)
Definition fcanon (a : fe) : Prop := flimbs a /\ fval a < p.

(** The same for scalars. *)
Definition sval (a : sc) : Z := val5 (s0 a) (s1 a) (s2 a) (s3 a) (s4 a).
Definition slimbs (a : sc) : Prop :=
  0 <= s0 a < 2 ^ 52 /\ 0 <= s1 a < 2 ^ 52 /\ 0 <= s2 a < 2 ^ 52 /\
  0 <= s3 a < 2 ^ 52 /\ 0 <= s4 a < 2 ^ 52.
(** 52-bit limbs and a value below 2^256. *)
Definition sloadable (a : sc) : Prop := slimbs a /\ sval a < 2 ^ 256.
(** 52-bit limbs and a value below L. *)
Definition scanon (a : sc) : Prop := slimbs a /\ sval a < L.

(** A 32-byte (n-byte) string. *)
Definition is_bytes (n : nat) (b : list Z) : Prop :=
  length b = n /\ Forall (fun x => 0 <= x < 256) b.

(** Little-endian value of a byte string. *)
Fixpoint le_value (b : list Z) : Z :=
  match b with
  | [] => 0
  | x :: b' => x + 256 * le_value b'
  end.

(** Value of a list of signed binary digits, least significant first. *)
Fixpoint digits_value (ds : list Z) : Z :=
  match ds with
  | [] => 0
  | d :: ds' => d + 2 * digits_value ds'
  end.

(** The call returns the reduced element (scalar) of the given residue. *)
Definition returns_field (o : res fe) (v : Z) : Prop :=
  exists r, o = Ok r /\ fcanon r /\ fval r = v mod p.
Definition returns_scalar (o : res sc) (v : Z) : Prop :=
  exists r, o = Ok r /\ scanon r /\ sval r = v mod L.

(** Reduced and non-negative: at most (p-1)/2. *)
Definition fnonneg (a : fe) : Prop := fcanon a /\ fval a <= (p - 1) / 2.

(** Quadratic residues modulo p, zero included. *)
Definition square_mod_p (x : Z) : Prop := exists y, (y * y) mod p = x mod p.

(** [ds] is a width-[w] signed-digit recoding of [k] in a 256-entry array:
    digits sum to [k], every nonzero digit is odd and below 2^(w-1) in absolute
    value, any two nonzero digits are at least [w] apart, and everything from
    index 250 on is zero. *)
Definition signed_recoding (w k : Z) (ds : list Z) : Prop :=
  length ds = 256%nat /\ digits_value ds = k /\
  Forall (fun d => d = 0 \/ (Z.odd d = true /\ Z.abs d < 2 ^ (w - 1))) ds /\
  (forall i j, (i < j)%nat -> Z.of_nat j < Z.of_nat i + w -> nth i ds 0 = 0 \/ nth j ds 0 = 0) /\
  (forall i, (250 <= i)%nat -> nth i ds 0 = 0).

(** Signed residue: the representative of [x] modulo 2^w in [-2^(w-1), 2^(w-1)). *)
Definition signed_residue (w x r : Z) : Prop :=
  (x - r) mod 2 ^ w = 0 /\ - 2 ^ (w - 1) <= r < 2 ^ (w - 1).
