(** * Specification of the search for the coefficient *)

From Coq Require Import ZArith Znumtheory List.
From Verif Require Import Machine Spec Fp Curve DocModel SearchModel.
Open Scope Z_scope.

(** Squares and primes answered correctly. *)
Definition sound (O : oracle) : Prop :=
  (forall x, orc_square O x = true <-> exists y, (y * y) mod p = x mod p) /\ (forall x, orc_prime O x = true <-> prime x).
(** [n] is the number of points of B v^2 = u^3 + A u^2 + u with the one at infinity. *)
Definition counts (A : Z) (B : F) (n : Z) : Prop :=
  exists l, NoDup l /\ (forall P, In P l <-> on_montgomery (toF A) B P) /\ n = Z.of_nat (length l) + 1.
(** All orders answered correctly. *)
Definition right (O : oracle) : Prop := sound O /\ forall A,
  counts A 1%F (orc_order O A) /\ exists B, ~ is_sq B /\ counts A B (orc_twist O A).
(** What the script asks of the i-th candidate. *)
Definition wanted (O : oracle) (i : Z) : Prop :=
  let A := 4 * i + 2 in
  ~ ((exists y, (y * y) mod p = (A * A - 4) mod p) /\ (A + 2) mod p <> 0 /\ (exists y, (y * y) mod p = (A + 2) mod p)) /\
  exists r s, prime r /\ prime s /\ orc_order O (A mod p) = 8 * r /\ orc_twist O (A mod p) = 4 * s.
