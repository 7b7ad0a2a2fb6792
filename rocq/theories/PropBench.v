(** * Properties proved in BenchStmt.v, restated (written by tools/genprops.py) *)

From Coq Require Import ZArith Znumtheory List Bool Lia Ring Field.
From Verif Require Import Machine FieldModel ScalarModel EdwardsModel TableModel RistrettoModel DocTestModel BenchModel Spec MachineFacts
  FieldLimb FieldOps FieldBytes NumTheory Primes Fp FieldF FieldInv FieldStmt ScalarLimb ScalarOps ScalarBits ScalarStmt Curve CurveGroup EdwardsF
  PointMul EdwardsY EdwardsStmt Rist RistF RistSpec RistrettoStmt CodeSpec CodeStmt GroupCheck GroupOrder GroupStmt LawsStmt ProtoStmt MiscStmt.
Import ListNotations.
Open Scope Z_scope.
From Verif Require Import BenchStmt.

(** ** C104: The benchmark programs *)

(** The field group: it runs to its end exactly if both inputs are nonzero and the exponent
    is at most 252, and then it computes what its labels say. *)
Theorem C104_field : forall ck A B s k draw, fcanon A -> fcanon B -> 0 <= k -> is_bytes 32 draw ->
  let a := fval A in let b := fval B in
  (a <> 0 -> b <> 0 -> k <= 252 ->
   exists l q h inv leg root s1 r1 s2 r2,
     bench_field_element_ops ck A B s k draw = Ok (l, leg, root, (s1, r1), (s2, r2)) /\ Forall fcanon l /\
     map fval l = [(b + a) mod p; (a - b) mod p; (a * b) mod p; q; (b * b) mod p; h; 2 ^ k; a ^ b mod p; inv; le_value draw mod 2 ^ 251] /\
     (q * b) mod p = a /\ (h + h) mod p = a /\ (a * inv) mod p = 1 /\
     (leg = true <-> square_mod_p a) /\
     match root with Some r => fcanon r /\ (fval r * fval r) mod p = a | None => ~ square_mod_p a end /\
     fnonneg r1 /\ (if s1 then (b * fval r1 ^ 2) mod p = a else (b * fval r1 ^ 2) mod p = (fval SQRT_MINUS_ONE * a) mod p) /\
     fnonneg r2 /\ (s2 = true <-> square_mod_p a) /\
     (if s2 then (a * fval r2 ^ 2) mod p = 1 else (a * fval r2 ^ 2) mod p = fval SQRT_MINUS_ONE)) /\
  (a = 0 \/ b = 0 \/ 252 < k -> bench_field_element_ops ck A B s k draw = Panic).
Proof. exact C104_field_stmt. Qed.
Print Assumptions C104_field.

(** The scalar group: the sums, products, powers and halves are those of the integers modulo L,
    the bits and digits recode D, "mod 4" is D mod 2^w. *)
Theorem C104_scalar : forall ck C D w k n draw, scanon C -> scanon D -> 2 <= w <= 6 -> (w = 6 -> sval D <> L - 2) ->
  0 <= k -> 0 <= n -> is_bytes 32 draw ->
  let c := sval C in let d := sval D in
  (k < 250 -> exists l h m bits naf wnaf,
     bench_scalar_element_ops ck C D w k n draw = Ok (l, m, bits, naf, wnaf) /\ Forall scanon l /\
     map sval l = [(c + d) mod L; (c - d) mod L; (c * d) mod L; (d * d) mod L; h; 2 ^ k; c ^ d mod L; d / 2 ^ n; le_value draw mod 2 ^ 249] /\
     (h + h) mod L = c /\ m = d mod 2 ^ w /\
     length bits = 256%nat /\ (forall i, nth i bits 0 = Z.b2z (Z.testbit d (Z.of_nat i))) /\
     signed_recoding 2 d naf /\ signed_recoding w d wnaf) /\
  (250 <= k -> bench_scalar_element_ops ck C D w k n draw = Panic).
Proof. exact C104_scalar_stmt. Qed.
Print Assumptions C104_scalar.

(** The benchmark named "Scalar mod 4" does not reduce modulo four. *)
Theorem C104_mod4_refuted : exists C l m bits naf wnaf, scanon C /\ scanon bench_D /\
  bench_scalar_element_ops true C bench_D 4 215 135 (repeat 0 32) = Ok (l, m, bits, naf, wnaf) /\
  m <> sval bench_D mod 4 /\ m = sval bench_D mod 16.
Proof. exact C104_mod4_refuted_stmt. Qed.
Print Assumptions C104_mod4_refuted.

(** The groups of extended and of projective points: sums, differences, doubles and multiples of
    the points represented, the point with the given ordinate and sign, and a random point. *)
Theorem C104_extended : forall ck P Q D y s draws A B, ext_rep P A -> ext_rep Q B -> sloadable D -> fcanon y ->
  Forall (is_bytes 32) draws ->
  (bench_extended_point_ops ck P Q D y s draws = NoFuel /\
   Forall (fun d => forall x, ~ on_curve (x, toF (le_value d mod 2 ^ 251))) draws) \/
  exists r1 r2 r3 r4 r5 o, bench_extended_point_ops ck P Q D y s draws = Ok ([r1; r2; r3; r4; r5], o) /\
    ext_rep r1 (sum A B) /\ ext_rep r2 (sum A (opposite B)) /\ ext_rep r3 (sum A A) /\ ext_rep r4 (multiple (sval D) A) /\
    valid_ext r5 /\
    match o with
    | Some R => exists C, has_y (residue y) s C /\ ext_rep R C
    | None => forall x, ~ on_curve (x, residue y)
    end.
Proof. exact C104_extended_stmt. Qed.
Print Assumptions C104_extended.

Theorem C104_projective : forall ck P Q D y s draws A B, proj_rep P A -> proj_rep Q B -> sloadable D -> fcanon y ->
  Forall (is_bytes 32) draws ->
  (bench_projective_point_ops ck P Q D y s draws = NoFuel /\
   Forall (fun d => forall x, ~ on_curve (x, toF (le_value d mod 2 ^ 251))) draws) \/
  exists r1 r2 r3 r4 r5 o, bench_projective_point_ops ck P Q D y s draws = Ok ([r1; r2; r3; r4; r5], o) /\
    proj_rep r1 (sum A B) /\ proj_rep r2 (sum A (opposite B)) /\ proj_rep r3 (sum A A) /\ proj_rep r4 (multiple (sval D) A) /\
    valid_proj r5 /\
    match o with
    | Some R => exists C, has_y (residue y) s C /\ proj_rep R C
    | None => forall x, ~ on_curve (x, residue y)
    end.
Proof. exact C104_projective_stmt. Qed.
Print Assumptions C104_projective.

(** Compression returns the encoding of the point; decompression returns the point the bytes
    stand for and panics if there is none. *)
Theorem C104_compression : forall ck b P A, is_bytes 32 b -> ext_rep P A ->
  (forall B, edwards_decoded b B -> exists c Q, bench_point_compression_decompression ck b P = Ok (c, Q) /\
     edwards_code A c /\ ext_rep Q B) /\
  ((forall B, ~ edwards_decoded b B) -> bench_point_compression_decompression ck b P = Panic).
Proof. exact C104_compression_stmt. Qed.
Print Assumptions C104_compression.

(** Ristretto points: the second sum is that of P and -P. *)
Theorem C104_ristretto : forall ck P D draw A, ext_rep P A -> sloadable D -> is_bytes 64 draw ->
  exists r1 r2 r3 r4 r5, bench_ristretto_point_ops ck P D draw = Ok [r1; r2; r3; r4; r5] /\
    ext_rep r1 (sum A A) /\ ext_rep r2 origin /\ ext_rep r3 (sum A A) /\ ext_rep r4 (multiple (sval D) A) /\ even_ext r5.
Proof. exact C104_ristretto_stmt. Qed.
Print Assumptions C104_ristretto.

(** Encoding and decoding of even points, the Elligator map and equality; a string that is no
    encoding makes the group panic. *)
Theorem C104_protocol : forall ck P r b A, ext_rep P A -> even_point A -> floadable r -> is_bytes 32 b ->
  exists c R, rp_compress ck P = Ok c /\ cr_decompress ck c = Ok (Some R) /\ rp_eqb ck R P = Ok true /\
  ((exists Q E B, bench_ristretto_protocol_impl ck P r b = Ok (c, Q, E, true) /\
      even_ext Q /\ rp_compress ck Q = Ok b /\ ext_rep E B /\ elligator_image (residue r) B) \/
   (bench_ristretto_protocol_impl ck P r b = Panic /\ forall Q, even_ext Q -> rp_compress ck Q <> Ok b)).
Proof. exact C104_protocol_stmt. Qed.
Print Assumptions C104_protocol.

(** The comparison of implementations: both equality benchmarks answer yes.  Double and add and
    the signed digits give D P; left to right gives (D mod 2^249) P; the table gives the
    multiple of the basepoint that C56 describes. *)
Theorem C104_comparison : forall ck i P D w A, valid_ext i -> ext_rep P A -> scanon D -> 2 <= w <= 6 -> (w = 6 -> sval D <> L - 2) ->
  exists h m1 m2 m3 m4 ds, bench_point_ops_impl ck i P D w = Ok (h, true, true, [m1; m2; m3; m4]) /\
    (fval h + fval h) mod p = fval (eT i) /\
    ext_rep m1 (multiple (sval D) A) /\ ext_rep m2 (multiple (sval D mod 2 ^ 249) A) /\ ext_rep m3 (multiple (sval D) A) /\
    digits_value ds = sval D /\ signed_recoding w (sval D) ds /\ ext_rep m4 (multiple (digits_value (map table_digit ds) mod L) base).
Proof. exact C104_comparison_stmt. Qed.
Print Assumptions C104_comparison.

(** The three key exchanges: whatever the generator returns, both sides obtain the multiple
    a b of the basepoint, where a and b are the low 249 bits of the two draws. *)
Theorem C104_ecdh : forall ck d1 d2, is_bytes 32 d1 -> is_bytes 32 d2 ->
  Forall (fun o => exists S1 S2, o = Ok (S1, S2) /\
    ext_rep S1 (multiple ((le_value d1 mod 2 ^ 249) * (le_value d2 mod 2 ^ 249)) base) /\
    ext_rep S2 (multiple ((le_value d1 mod 2 ^ 249) * (le_value d2 mod 2 ^ 249)) base) /\
    rp_eqb ck S1 S2 = Ok true)
  [ecdh_ltrs ck d1 d2; ecdh_binary_naf ck d1 d2; ecdh_double_add ck d1 d2].
Proof. exact C104_ecdh_stmt. Qed.
Print Assumptions C104_ecdh.

(** The whole program on its literals: in both builds it ends, unless the generator never
    yields a usable ordinate for one of the two random points. *)
Theorem C104_literals : forall ck d ds ds' b64, length d = 8%nat -> Forall (is_bytes 32) d ->
  Forall (is_bytes 32) ds -> Forall (is_bytes 32) ds' -> is_bytes 64 b64 ->
  let rejected := Forall (fun d => forall x, ~ on_curve (x, toF (le_value d mod 2 ^ 251))) in
  benchmarks_literals ck d ds ds' b64 = Ok tt \/
  (benchmarks_literals ck d ds ds' b64 = NoFuel /\ (rejected ds \/ rejected ds')).
Proof. exact C104_literals_stmt. Qed.
Print Assumptions C104_literals.

(** Non-trivial values: the exchange with keys 3 and 5, nonzero field inputs, a string that is
    no encoding. *)
Example C104_nonvacuous : fcanon bench_A /\ fcanon bench_B /\ fval bench_A <> 0 /\ fval bench_B <> 0 /\ scanon bench_C /\ scanon bench_D /\
  ext_rep bench_P1 (toF 13, residue (eY bench_P1)) /\ ext_rep bench_P2 (toF 67, residue bench_y) /\
  is_bytes 32 bench_P1_compressed /\ (exists B, edwards_decoded bench_P1_compressed B) /\
  even_point base /\ is_bytes 32 (3 :: repeat 0 31) /\ is_bytes 32 (5 :: repeat 0 31) /\
  (le_value (3 :: repeat 0 31) mod 2 ^ 249) * (le_value (5 :: repeat 0 31) mod 2 ^ 249) = 15 /\ is_bytes 64 (repeat 255 64).
Proof. exact C104_ex. Qed.
