(** * Properties proved in ToolsStmt.v, restated (written by tools/genprops.py) *)

From Coq Require Import ZArith Znumtheory Zpow_facts List Bool Lia.
From Verif Require Import Machine FieldModel ScalarModel Spec MachineFacts NumTheory Primes ToolsModel.
Import ListNotations.
Open Scope Z_scope.
From Verif Require Import ToolsStmt.

(** ** C85: The parameter translator for numbers and moduli of every size *)

(** The arrays hold the low 260 (255) bits of the number, as digits; below that bound the
    translation back gives the number. *)
Theorem C85_limbs : forall x, 0 <= x ->
  Forall (fun d => 0 <= d < 2 ^ 52) (to_scalar_base_52 x) /\ from_scalar_base_52 (to_scalar_base_52 x) = x mod 2 ^ 260 /\
  Forall (fun d => 0 <= d < 2 ^ 51) (to_field_elem_51 x) /\ from_field_elem_base_51 (to_field_elem_51 x) = x mod 2 ^ 255.
Proof. exact C85_limbs_stmt. Qed.
Print Assumptions C85_limbs.

(** The base 2^52 arrays are the limbs of the crate's elements and scalars of that value. *)
Theorem C85_limbs_elements : forall x, 0 <= x ->
  (forall a, flimbs a -> fval a = x -> to_scalar_base_52 x = [f0 a; f1 a; f2 a; f3 a; f4 a]) /\
  (forall a, slimbs a -> sval a = x -> to_scalar_base_52 x = [s0 a; s1 a; s2 a; s3 a; s4 a]).
Proof. exact C85_limbs_elements_stmt. Qed.
Print Assumptions C85_limbs_elements.

(** [to_field_elem_51] announces the representation of the crate's field elements; it is not. *)
Theorem C85_elem51_refuted : exists a, fcanon a /\ to_field_elem_51 (fval a) <> [f0 a; f1 a; f2 a; f3 a; f4 a].
Proof. exact C85_elem51_refuted_stmt. Qed.
Print Assumptions C85_elem51_refuted.

(** Numbers too large for the array are cut off without notice. *)
Theorem C85_overflow_refuted : exists x, 0 <= x /\ from_scalar_base_52 (to_scalar_base_52 x) <> x.
Proof. exact C85_overflow_refuted_stmt. Qed.
Print Assumptions C85_overflow_refuted.

(** Bytes: the number comes back, for every size, and no shorter string stands for it. *)
Theorem C85_bytes : forall x, 0 <= x -> num_from_bytes_le (hex_bytes_le x) = x /\ Forall (fun b => 0 <= b < 256) (hex_bytes_le x) /\
  forall l, Forall (fun b => 0 <= b < 256) l -> l <> [] -> num_from_bytes_le l = x -> (length (hex_bytes_le x) <= length l)%nat.
Proof. exact C85_bytes_stmt. Qed.
Print Assumptions C85_bytes.

Theorem C85_main : tools_main =
  ([s0 SCALAR_INVERSE_MOD_TWO; s1 SCALAR_INVERSE_MOD_TWO; s2 SCALAR_INVERSE_MOD_TWO; s3 SCALAR_INVERSE_MOD_TWO; s4 SCALAR_INVERSE_MOD_TWO],
   [0; 0; 0; 0; 2 ^ 40]).
Proof. exact C85_main_stmt. Qed.
Print Assumptions C85_main.

(** [Montgomery::new] accepts exactly the odd moduli. *)
Theorem C85_new : forall m, 0 <= m ->
  (Z.even m = true <-> montgomery_new m = None) /\
  (bits m < 2 ^ 31 -> forall M, montgomery_new m = Some M ->
     m_m M = m /\ 2 ^ (m_n M - 1) <= m < 2 ^ m_n M /\ 0 < m_n M /\ m_rrm M = 2 ^ (2 * m_n M) mod m).
Proof. exact C85_new_stmt. Qed.
Print Assumptions C85_new.

(** [reduce] divides by 2^n modulo m, for moduli of any size, and reduces fully below m 2^n. *)
Theorem C85_reduce : forall m M a, 0 < m -> bits m < 2 ^ 31 -> montgomery_new m = Some M -> 0 <= a ->
  exists r, reduce M a = Ok r /\ 0 <= r /\ (r * 2 ^ m_n M) mod m = a mod m /\ (a < m * 2 ^ m_n M -> r < m).
Proof. exact C85_reduce_stmt. Qed.
Print Assumptions C85_reduce.

(** [reduction]: on numbers of at most as many bits as the modulus the Montgomery forms are
    x 2^n mod m and the "recovered" numbers are the residues; even moduli panic. *)
Theorem C85_reduction : forall m x1 x2, 0 <= m -> bits m < 2 ^ 31 -> 0 <= x1 < 2 ^ bits m -> 0 <= x2 < 2 ^ bits m ->
  (Z.even m = true -> reduction m x1 x2 = Panic) /\
  (Z.even m = false -> exists t1 t2, reduction m x1 x2 =
     Ok [2; bits m; 2 ^ bits m; m; t1; t2; x1 * 2 ^ bits m mod m; x2 * 2 ^ bits m mod m; x1; x1 mod m; x2; x2 mod m; x1 ^ x2 mod m]).
Proof. exact C85_reduction_stmt. Qed.
Print Assumptions C85_reduction.

(** The conversion of the length to 32 bits: moduli of 2^31 to 2^32 - 1 bits get a negative
    length and the program panics; there are such moduli. *)
Theorem C85_long_modulus :
  (forall m x1 x2, 0 <= m -> 2 ^ 31 <= bits m < 2 ^ 32 -> reduction m x1 x2 = Panic) /\
  (exists m, 0 < m /\ Z.even m = false /\ bits m = 2 ^ 31).
Proof. exact C85_long_modulus_stmt. Qed.
Print Assumptions C85_long_modulus.

(** What is printed as recovered need not be the original. *)
Theorem C85_recovered_refuted : exists m x1 x2 l, 0 <= x1 < 2 ^ bits m /\ reduction m x1 x2 = Ok l /\ nth 8 l 0 <> nth 9 l 0.
Proof. exact C85_recovered_refuted_stmt. Qed.
Print Assumptions C85_recovered_refuted.

(** [phase1] ends within 255 + log2 x iterations on every input, never panics, and returns an
    almost inverse d: d x is the greatest common divisor times a power of two. *)
Theorem C85_phase1 : forall x, 0 <= x -> exists d k, 0 < d <= phase1_p /\ 0 <= k /\
  (d * x) mod phase1_p = (Z.gcd phase1_p x * 2 ^ k) mod phase1_p /\
  forall fuel, 255 + Z.log2 x <= Z.of_nat fuel -> phase1 fuel x = Ok d.
Proof. exact C85_phase1_stmt. Qed.
Print Assumptions C85_phase1.

(** Its modulus is not the field modulus; it is divisible by 5, so not every element below it
    gets an inverse. *)
Theorem C85_phase1_modulus : phase1_p <> p /\ (5 | phase1_p).
Proof. exact C85_phase1_modulus_stmt. Qed.
Print Assumptions C85_phase1_modulus.

Theorem C85_phase1_inverse_refuted : exists x, 0 < x < phase1_p /\
  forall fuel d k, 0 <= k -> phase1 fuel x = Ok d -> (d * x) mod phase1_p <> 2 ^ k mod phase1_p.
Proof. exact C85_phase1_inverse_refuted_stmt. Qed.
Print Assumptions C85_phase1_inverse_refuted.

(** Numbers are read from text as positional numerals, for every base from 2 to 36, and
    everything that is not a numeral of the base panics. *)
Theorem C85_text : forall b s, 2 <= b <= 36 ->
  (forall x, numeral b s x -> parse b s = Ok x) /\ ((forall x, ~ numeral b s x) -> parse b s = Panic).
Proof. exact C85_text_stmt. Qed.
Print Assumptions C85_text.

(** [from_radix_to_radix_10] prints the shortest decimal numeral of the same number. *)
Theorem C85_radix : forall b s x, 2 <= b <= 36 -> numeral b s x ->
  exists out, from_radix_to_radix_10 s b = Ok out /\ numeral 10 out x /\ forall out', numeral 10 out' x -> (length out <= length out')%nat.
Proof. exact C85_radix_stmt. Qed.
Print Assumptions C85_radix.

(** Decimal text to bytes and back to decimal text. *)
Theorem C85_bytes_text : forall s x, numeral 10 s x ->
  exists l, hex_bytes_le_str s = Ok l /\ numeral 10 (num_from_bytes_le_str l) x.
Proof. exact C85_bytes_text_stmt. Qed.
Print Assumptions C85_bytes_text.

(** [EdwardsPoint::new] turns the decimal values of four coordinates into their limbs, each in
    its place. *)
Theorem C85_point : forall X Y Z T sx sy sz st, flimbs X -> flimbs Y -> flimbs Z -> flimbs T ->
  numeral 10 sx (fval X) -> numeral 10 sy (fval Y) -> numeral 10 sz (fval Z) -> numeral 10 st (fval T) ->
  let limbs a := [f0 a; f1 a; f2 a; f3 a; f4 a] in
  tools_point_str sx sy sz st = Ok (limbs X, limbs Y, limbs Z, limbs T) /\
  tools_point (fval X) (fval Y) (fval Z) (fval T) = (limbs X, limbs Y, limbs Z, limbs T).
Proof. exact C85_point_stmt. Qed.
Print Assumptions C85_point.

Example C85_nonvacuous : montgomery_new 15 = Some (MG 2 15 1 4) /\ bits 15 = 4 /\ reduce (MG 2 15 1 4) 7 = Ok 7 /\
  reduction 13 9 5 = Ok [2; 4; 16; 13; 81; 45; 1; 2; 9; 9; 5; 5; 3] /\ hex_bytes_le 65536 = [0; 0; 1] /\
  to_scalar_base_52 (2 ^ 53 + 7) = [7; 2; 0; 0; 0] /\
  numeral 16 [49; 97; 70] 431 /\ from_radix_to_radix_10 [49; 97; 70] 16 = Ok [52; 51; 49] /\ parse 16 [49; 103] = Panic /\
  numeral 10 [49] (fval (FE 1 0 0 0 0)) /\ flimbs (FE 1 0 0 0 0).
Proof. exact C85_ex. Qed.
