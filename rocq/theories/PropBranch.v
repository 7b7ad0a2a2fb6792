(** * Properties proved in BranchStmt.v, restated (written by tools/genprops.py) *)

From Coq Require Import ZArith Znumtheory List Bool Lia.
From Verif Require Import Machine FieldModel Spec MachineFacts FieldLimb FieldMul FieldOps FieldBytes
  NumTheory Primes Fp FieldF FieldInv FieldStmt BranchModel BranchSpec.
Import ListNotations.
Open Scope Z_scope.
From Verif Require Import BranchStmt.

(** ** C94: Which branches the field operations take *)

(** The logging variants return what the functions of the model return, for all inputs. *)
Theorem C94_result : forall ck a b e s,
  result_of (fe_cmp_log a b) = Ok (fe_cmp a b) /\
  result_of (fe_is_positive_log a) = Ok (fe_is_positive a) /\
  result_of (fe_pow_log ck a e) = fe_pow ck a e /\
  result_of (fe_legendre_symbol_log ck a) = fe_legendre_symbol ck a /\
  result_of (fe_inverse_log ck a) = fe_inverse ck a /\
  result_of (fe_div_log ck a b) = fe_div ck a b /\
  result_of (fe_div_val_log ck a b) = fe_div_val ck a b /\
  result_of (fe_mod_sqrt_log ck a s) = fe_mod_sqrt ck a s /\
  result_of (fe_sqrt_ratio_i_log ck a b) = fe_sqrt_ratio_i ck a b /\
  result_of (fe_inv_sqrt_log ck a) = fe_inv_sqrt ck a.
Proof. exact C94_result_stmt. Qed.
Print Assumptions C94_result.

(** The branches of `pow` are the same for all bases, and they determine the exponent. *)
Theorem C94_pow : forall ck ck' a a' e e', floadable a -> floadable a' -> flimbs e -> flimbs e' ->
  (log_of (fe_pow_log ck a e) = log_of (fe_pow_log ck' a' e') <-> e = e').
Proof. exact C94_pow_stmt. Qed.
Print Assumptions C94_pow.

(** The branches of `legendre_symbol` are the same for all inputs. *)
Theorem C94_legendre : forall ck ck' a a', floadable a -> floadable a' ->
  log_of (fe_legendre_symbol_log ck a) = log_of (fe_legendre_symbol_log ck' a').
Proof. exact C94_legendre_stmt. Qed.
Print Assumptions C94_legendre.

(** The branches of `inverse` determine its operand completely, and do not depend on the build. *)
Theorem C94_inverse : forall ck ck' a b, fcanon a -> fcanon b -> a <> fe_zero -> b <> fe_zero ->
  (log_of (fe_inverse_log ck a) = log_of (fe_inverse_log ck' b) <-> a = b).
Proof. exact C94_inverse_stmt. Qed.
Print Assumptions C94_inverse.

(** The number of rounds of its loop lies between 253 and 505, for every operand. *)
Theorem C94_rounds : forall ck a, fcanon a -> a <> fe_zero ->
  253 <= Z.of_nat (length (at_line 882 (log_of (fe_inverse_log ck a)))) <= 505.
Proof. exact C94_rounds_stmt. Qed.
Print Assumptions C94_rounds.

(** The branches of `mod_sqrt` reveal whether the operand is zero, whether it is a square,
    and whether its power (p-1)/4 is 1; they reveal nothing else. *)
Theorem C94_mod_sqrt : forall ck ck' a b s s', fcanon a -> fcanon b ->
  (log_of (fe_mod_sqrt_log ck a s) = log_of (fe_mod_sqrt_log ck' b s') <->
   (fval a = 0 <-> fval b = 0) /\ (square_mod_p (fval a) <-> square_mod_p (fval b)) /\
   (fval a ^ ((p - 1) / 4) mod p = 1 <-> fval b ^ ((p - 1) / 4) mod p = 1)).
Proof. exact C94_mod_sqrt_stmt. Qed.
Print Assumptions C94_mod_sqrt.

(** The branches of `/` on references and by value determine the divisor and nothing else. *)
Theorem C94_div : forall ck ck' a b a' b', fcanon b -> fcanon b' -> b <> fe_zero -> b' <> fe_zero ->
  (log_of (fe_div_log ck a b) = log_of (fe_div_log ck' a' b') <-> b = b') /\
  (log_of (fe_div_val_log ck a b) = log_of (fe_div_val_log ck' a' b') <-> b = b').
Proof. exact C94_div_stmt. Qed.
Print Assumptions C94_div.

(** So do those of `sqrt_ratio_i`. *)
Theorem C94_sqrt_ratio : forall ck ck' u v u' v', fcanon u -> fcanon v -> fcanon u' -> fcanon v' ->
  u <> fe_zero -> v <> fe_zero -> u' <> fe_zero -> v' <> fe_zero ->
  log_of (fe_sqrt_ratio_i_log ck u v) = log_of (fe_sqrt_ratio_i_log ck' u' v') -> v = v'.
Proof. exact C94_sqrt_ratio_stmt. Qed.
Print Assumptions C94_sqrt_ratio.

(** The branches of `inv_sqrt` determine its operand, and do not depend on the build. *)
Theorem C94_inv_sqrt : forall ck ck' a b, fcanon a -> fcanon b -> a <> fe_zero -> b <> fe_zero ->
  (log_of (fe_inv_sqrt_log ck a) = log_of (fe_inv_sqrt_log ck' b) <-> a = b).
Proof. exact C94_inv_sqrt_stmt. Qed.
Print Assumptions C94_inv_sqrt.

Example C94_nonvacuous : fcanon fe_one /\ fcanon top_bit /\ fe_one <> fe_zero /\ top_bit <> fe_zero /\ fval top_bit = 2 ^ 252 /\
  (forall ck, length (at_line 882 (log_of (fe_inverse_log ck fe_one))) = 253%nat) /\
  (forall ck, length (at_line 882 (log_of (fe_inverse_log ck top_bit))) = 505%nat) /\
  (forall ck, log_of (fe_mod_sqrt_log ck (FE 16 0 0 0 0) true) = log_of (fe_mod_sqrt_log ck fe_one true)) /\
  (forall ck, log_of (fe_mod_sqrt_log ck (FE 6 0 0 0 0) true) <> log_of (fe_mod_sqrt_log ck fe_one true)).
Proof. exact C94_ex. Qed.
