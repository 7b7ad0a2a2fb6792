(** * Statements about the benchmark programs: C104 *)

From Coq Require Import ZArith Znumtheory List Bool Lia Ring Field.
From Verif Require Import Machine FieldModel ScalarModel EdwardsModel TableModel RistrettoModel DocTestModel BenchModel Spec MachineFacts
  FieldLimb FieldOps FieldBytes NumTheory Primes Fp FieldF FieldInv FieldStmt ScalarLimb ScalarOps ScalarBits ScalarStmt Curve CurveGroup EdwardsF
  PointMul EdwardsY EdwardsStmt Rist RistF RistSpec RistrettoStmt CodeSpec CodeStmt GroupCheck GroupOrder GroupStmt LawsStmt ProtoStmt MiscStmt.
Import ListNotations.
Open Scope Z_scope.

Lemma square_dec a : square_mod_p a \/ ~ square_mod_p a.
Proof. rewrite <- is_sq_Z. destruct (is_sq_dec (toF a)); [left|right]; assumption. Qed.

Lemma ratio_dec (ck : bool) A B : fcanon A -> fcanon B -> fval B <> 0 ->
  (exists w, (fval B * w ^ 2) mod p = fval A) \/ ~ (exists w, (fval B * w ^ 2) mod p = fval A).
Proof.
  intros CA CB Zb. destruct (square_dec (fval B * fval A)) as [[t Q]|Q].
  - left. destruct (C04_div_stmt ck (enc (toF t)) B (enc_c _) CB Zb) as (u & _ & _ & _ & U).
    rewrite fval_enc, Fval_toF in U. exists (fval u).
    assert (Ra : 0 <= fval A < p) by (split; [apply fval_nonneg, CA|apply CA]).
    assert (Rb : 0 <= fval B < p) by (split; [apply fval_nonneg, CB|apply CB]).
    assert (E : (fval B * (fval B * fval u ^ 2 - fval A)) mod p = 0).
    { replace (fval B * (fval B * fval u ^ 2 - fval A)) with ((fval u * fval B) * (fval u * fval B) - fval B * fval A) by ring.
      rewrite Zminus_mod, Z.mul_mod, U, <- Z.mul_mod, Q by discriminate. rewrite Z.sub_diag. reflexivity. }
    apply Z.mod_divide in E; [|discriminate]. apply prime_mult in E; [|exact prime_p].
    destruct E as [E|E].
    + exfalso. apply Z.divide_pos_le in E; [|clear - Rb Zb; lia]. clear - E Rb. lia.
    + apply Z.mod_divide in E; [|discriminate]. rewrite <- (Z.mod_small (fval A) p Ra) at 1.
      replace (fval B * fval u ^ 2) with ((fval B * fval u ^ 2 - fval A) + fval A) by ring.
      rewrite Zplus_mod, E. rewrite Z.add_0_l, Zmod_mod. reflexivity.
  - right. intros [w W]. apply Q. exists (fval B * w). rewrite <- W, Z.mul_mod_idemp_r by discriminate. f_equal. ring.
Qed.

Lemma canon_zero_eq a : fcanon a -> fval a = 0 -> a = fe_zero.
Proof. intros C E. apply fval_inj; [apply C|apply flimbs_zero|rewrite E; reflexivity]. Qed.

Lemma from_y_cases ck y s : fcanon y ->
  (exists C P R, has_y (residue y) s C /\ ept_new_from_y_coord ck y s = Ok (Some P) /\ ext_rep P C /\
     ppt_new_from_y_coord ck y s = Ok (Some R) /\ proj_rep R C) \/
  (ept_new_from_y_coord ck y s = Ok None /\ ppt_new_from_y_coord ck y s = Ok None /\ forall x, ~ on_curve (x, residue y)).
Proof.
  intros H. destruct (C76_from_y_stmt ck y s H) as [H1 H2]. destruct (lift (residue y) s) as [A|] eqn:E.
  - left. apply lift_has_y in E. destruct (H1 _ E) as [(P & EP & RP) (R & ER & RR)]. exists (pxy A), P, R. auto.
  - right. destruct H2 as [N1 N2].
    { intros A G. destruct (has_y_pt _ _ _ G) as (A' & _ & G'). rewrite E in G'. discriminate G'. }
    split; [exact N1|]. split; [exact N2|]. destruct (C41_ext_stmt ck y s H) as (o & Eo & Vo).
    rewrite N1 in Eo. injection Eo as <-. exact Vo.
Qed.

Lemma multiple_twice a b : 0 <= a -> 0 <= b -> multiple a (multiple b base) = multiple (a * b) base.
Proof.
  intros Ha Hb. rewrite (multiple_B b Hb), multiple_smul by exact Ha. rewrite multiple_B by (apply Z.mul_nonneg_nonneg; assumption).
  rewrite smul_mul. reflexivity.
Qed.

Lemma valid_rp_eqb ck P : valid_ext P -> rp_eqb ck P P = Ok true.
Proof. intros H. exact (proj1 (C47_equivalence_stmt ck P P P H H H)). Qed.

Lemma rp_compress_total P : reduced_ext P -> exists b, forall ck, rp_compress ck P = Ok b.
Proof. intros H. destruct (reduced_EPF P H) as (x & y & z & t & ->). eexists. intros ck. apply rp_compress_enc. Qed.

Lemma rep_reduced P A : ext_rep P A -> reduced_ext P.
Proof. intros (_ & X & Y & Z & T & _). exact (conj X (conj Y (conj Z T))). Qed.

Lemma rp_add_eq : rp_add = ept_add. Proof. reflexivity. Qed.
Lemma rp_double_eq : rp_double = ept_double. Proof. reflexivity. Qed.
Lemma rp_identity_eq : rp_identity = ept_identity. Proof. reflexivity. Qed.

Lemma rp_naf_mul ck P A n : ext_rep P A -> scanon n ->
  returns_ext (binary_naf_mul ck (ept_add ck) (rp_sub ck) (ept_double ck) ept_identity P n) (multiple (sval n) A).
Proof.
  intros HP Hn. apply ext_rep_rext in HP. destruct HP as (A' & -> & HP).
  destruct (binary_naf_mul_ok ept rext ept_add rp_sub ept_double ept_identity rext_id rext_add rp_sub_rext rext_dbl n P A' Hn HP) as (R & E & HR).
  exists R. split; [apply E|]. rewrite multiple_smul by (apply sval_nonneg, Hn). apply rext_rep. exact HR.
Qed.

Lemma bench_P1_rep : ext_rep bench_P1 (toF 13, residue (eY bench_P1)).
Proof.
  split; [unfold on_curve; rewrite cd_FD; apply Feq; vm_compute; reflexivity|]. cbn [fst snd].
  do 4 (split; [apply canon_check; vm_compute; reflexivity|]).
  split; [intros H; apply (f_equal Fval) in H; vm_compute in H; discriminate|].
  repeat split; apply Feq; vm_compute; reflexivity.
Qed.
Lemma bench_P2_rep : ext_rep bench_P2 (toF 67, residue bench_y).
Proof.
  split; [unfold on_curve; rewrite cd_FD; apply Feq; vm_compute; reflexivity|]. cbn [fst snd].
  do 4 (split; [apply canon_check; vm_compute; reflexivity|]).
  split; [intros H; apply (f_equal Fval) in H; vm_compute in H; discriminate|].
  repeat split; apply Feq; vm_compute; reflexivity.
Qed.
Lemma bench_P1_proj_rep : proj_rep bench_P1_proj (toF 13, residue (eY bench_P1)).
Proof. exact (C33_ext_to_proj_stmt _ _ bench_P1_rep). Qed.
Lemma bench_P2_proj_rep : proj_rep bench_P2_proj (toF 67, residue bench_y).
Proof. exact (C33_ext_to_proj_stmt _ _ bench_P2_rep). Qed.
Lemma bench_bytes : is_bytes 32 bench_P1_compressed.
Proof. split; [reflexivity|]. repeat (constructor; [split; discriminate || reflexivity|]). constructor. Qed.
Lemma bench_decoded : exists B, edwards_decoded bench_P1_compressed B.
Proof.
  unfold edwards_decoded.
  replace (toF (le_value bench_P1_compressed mod 2 ^ 252)) with (residue (eY bench_P1)) by (apply Feq; vm_compute; reflexivity).
  destruct (from_y_cases true (eY bench_P1) (2 ^ 255 <=? le_value bench_P1_compressed)) as [(C & _ & _ & H & _)|(_ & _ & N)].
  - apply canon_check. vm_compute. reflexivity.
  - exists C. exact H.
  - exfalso. exact (N _ (proj1 bench_P1_rep)).
Qed.

(** ** C104 *)
(** The field group: it runs to its end exactly if both inputs are nonzero and the exponent
    is at most 252, and then it computes what its labels say. *)
Lemma C104_field_stmt : forall ck A B s k draw, fcanon A -> fcanon B -> 0 <= k -> is_bytes 32 draw ->
  let a := fval A in let b := fval B in
  (a <> 0 -> b <> 0 -> k <= 252 ->
   exists l q h inv leg root s1 r1 s2 r2,
     bench_field_element_ops ck A B s k draw = Ok (l, leg, root, (s1, r1), (s2, r2)) /\ Forall fcanon l /\
     map fval l = [(b + a) mod p; (a - b) mod p; (a * b) mod p; q; (b * b) mod p; h; 2 ^ k; a ^ b mod p; inv; le_value draw mod 2 ^ 251] /\
     (q * b) mod p = a /\ (h + h) mod p = a /\ (a * inv) mod p = 1 /\
     (leg = true <-> square_mod_p a) /\
     match root with Some r => fcanon r /\ (fval r * fval r) mod p = a | None => ~ square_mod_p a end /\
     fnonneg r1 /\ (if s1 then (b * fval r1 ^ 2) mod p = a else (b * fval r1 ^ 2) mod p = (fval SQRT_MINUS_ONE * a) mod p) /\
     fnonneg r2 /\ (s2 = true <-> square_mod_p a) /\
     (if s2 then (a * fval r2 ^ 2) mod p = 1 else (a * fval r2 ^ 2) mod p = fval SQRT_MINUS_ONE)) /\
  (a = 0 \/ b = 0 \/ 252 < k -> bench_field_element_ops ck A B s k draw = Panic).
Proof.
  intros ck A B s k draw CA CB K D a b. unfold bench_field_element_ops.
  pose proof (fcanon_loadable _ CA) as LA. pose proof (fcanon_loadable _ CB) as LB.
  assert (Pa : a mod p = a) by (apply Z.mod_small; split; [apply fval_nonneg, CA|apply CA]).
  destruct (C01_add_stmt ck B A CB CA) as (r1 & -> & C1 & V1). rewrite bind_ok.
  destruct (C01_sub_stmt ck A B CA CB) as (r2 & -> & C2 & V2). rewrite bind_ok.
  destruct (C02_mul_stmt ck A B LA LB) as (r3 & -> & C3 & V3). rewrite bind_ok.
  destruct (Z.eq_dec b 0) as [Zb|Zb].
  { split; [intros _ G; elim (G Zb)|]. intros _. assert (E : B = fe_zero) by (apply canon_zero_eq; assumption).
    rewrite E, (proj2 (C04_div_zero_stmt ck A)). reflexivity. }
  destruct (C04_div_stmt ck A B CA CB Zb) as (r4 & _ & -> & C4 & V4). rewrite bind_ok.
  destruct (C02_square_stmt ck B LB) as (r5 & -> & C5 & V5). rewrite bind_ok.
  destruct (C05_half_stmt ck A LA) as (r6 & -> & C6 & V6). rewrite bind_ok.
  destruct (C14_two_pow_k_stmt ck k K) as [T1 T2].
  destruct (Z_le_dec k 252) as [Lk|Lk].
  2: { split; [intros _ _ G; contradiction|]. intros _. rewrite T2 by lia. reflexivity. }
  destruct (T1 Lk) as (r7 & -> & C7 & V7). rewrite bind_ok. clear T1 T2.
  destruct (C06_pow_stmt ck A B LA (proj1 CB)) as (r8 & -> & C8 & V8). rewrite bind_ok.
  destruct (C07_legendre_stmt ck A LA) as (leg & -> & Vl). rewrite bind_ok.
  destruct (C08_mod_sqrt_stmt ck A s CA) as [S1 S2].
  assert (S : exists root, fe_mod_sqrt ck A s = Ok root /\ match root with Some r => fcanon r /\ (fval r * fval r) mod p = a | None => ~ square_mod_p a end).
  { destruct (square_dec a) as [Q|Q]; [destruct (S1 Q) as (r & E & Cr & Vr); exists (Some r); split; [exact E|split; assumption]|].
    exists None. split; [exact (S2 Q)|exact Q]. }
  destruct S as (root & -> & Vroot). rewrite bind_ok. clear S1 S2.
  destruct (Z.eq_dec a 0) as [Za|Za].
  { split; [intros G; elim (G Za)|]. intros _. assert (E : A = fe_zero) by (apply canon_zero_eq; assumption).
    rewrite E, C03_inverse_zero_stmt. reflexivity. }
  destruct (C03_inverse_stmt ck A LA) as (r9 & -> & C9 & V9); [fold a; rewrite Pa; exact Za|]. rewrite bind_ok.
  destruct (C10_sqrt_ratio_i_stmt ck A B CA CB) as (s1 & q1 & -> & N1 & _ & _ & R1 & R2). rewrite bind_ok.
  destruct (C10_inv_sqrt_stmt ck A CA) as (s2 & q2 & -> & N2 & _ & I1 & I2). rewrite bind_ok.
  destruct (C16_random_stmt draw D) as (r10 & -> & C10 & V10). rewrite bind_ok.
  split; [intros _ _ _|intros [G|[G|G]]; contradiction || (exfalso; clear - G Lk; lia)].
  exists [r1; r2; r3; r4; r5; r6; r7; r8; r9; r10], (fval r4), (fval r6), (fval r9), leg, root, s1, q1, s2, q2.
  split; [reflexivity|]. split; [repeat (constructor; [assumption|]); constructor|].
  split; [cbn [map]; rewrite V1, V2, V3, V5, V7, V8, V10; reflexivity|].
  split; [exact V4|]. split; [rewrite V6; exact Pa|]. split; [exact V9|]. split; [exact Vl|]. split; [exact Vroot|].
  split; [exact N1|]. split.
  { destruct (ratio_dec ck A B CA CB Zb) as [X|X]; [destruct (R1 Za Zb X) as [-> W]|destruct (R2 Za Zb X) as [-> W]]; exact W. }
  split; [exact N2|]. destruct (square_dec a) as [Q|Q]; [destruct (I1 Za Q) as [-> W]|destruct (I2 Q) as [-> W]].
  - split; [split; [intros _; exact Q|reflexivity]|exact W].
  - split; [split; [discriminate|intros G; elim (Q G)]|exact W].
Qed.
(** The scalar group: the sums, products, powers and halves are those of the integers modulo L,
    the bits and digits recode D, "mod 4" is D mod 2^w. *)
Lemma C104_scalar_stmt : forall ck C D w k n draw, scanon C -> scanon D -> 2 <= w <= 6 -> (w = 6 -> sval D <> L - 2) ->
  0 <= k -> 0 <= n -> is_bytes 32 draw ->
  let c := sval C in let d := sval D in
  (k < 250 -> exists l h m bits naf wnaf,
     bench_scalar_element_ops ck C D w k n draw = Ok (l, m, bits, naf, wnaf) /\ Forall scanon l /\
     map sval l = [(c + d) mod L; (c - d) mod L; (c * d) mod L; (d * d) mod L; h; 2 ^ k; c ^ d mod L; d / 2 ^ n; le_value draw mod 2 ^ 249] /\
     (h + h) mod L = c /\ m = d mod 2 ^ w /\
     length bits = 256%nat /\ (forall i, nth i bits 0 = Z.b2z (Z.testbit d (Z.of_nat i))) /\
     signed_recoding 2 d naf /\ signed_recoding w d wnaf) /\
  (250 <= k -> bench_scalar_element_ops ck C D w k n draw = Panic).
Proof.
  intros ck C D w k n draw CC CD W W6 K N Dr c d. unfold bench_scalar_element_ops.
  assert (Pc : c mod L = c) by (apply Z.mod_small; split; [apply sval_nonneg, CC|apply CC]).
  destruct (C17_add_stmt ck C D CC CD) as (r1 & -> & C1 & V1). rewrite bind_ok.
  destruct (C17_sub_stmt ck C D CC CD) as (r2 & -> & C2 & V2). rewrite bind_ok.
  destruct (C18_mul_stmt ck C D (proj1 CC) CD) as (r3 & -> & C3 & V3). rewrite bind_ok.
  destruct (C18_square_stmt ck D CD) as (r4 & -> & C4 & V4). rewrite bind_ok.
  destruct (C19_half_stmt ck C (proj1 CC)) as (r5 & -> & C5 & V5). rewrite bind_ok.
  destruct (C27_two_pow_k_stmt ck k K) as [T1 T2]. split; [intros Lk|intros Lk; rewrite (T2 Lk); reflexivity].
  destruct (T1 Lk) as (r6 & -> & C6 & V6). rewrite bind_ok.
  destruct (C20_pow_stmt ck C D CC CD) as (r7 & -> & C7 & V7). rewrite bind_ok. cbv zeta.
  destruct (C22_into_bits_stmt D (scanon_loadable _ CD)) as [B1 B2].
  destruct (C19_shr_stmt D n (proj1 CD) N) as [S1 S2].
  assert (CS : scanon (sc_shr D n)).
  { split; [exact S1|]. rewrite S2. apply Z.le_lt_trans with (sval D); [|apply CD].
    apply Z.div_le_upper_bound; [apply Z.pow_pos_nonneg; [reflexivity|exact N]|].
    rewrite <- (Z.mul_1_l (sval D)) at 1. apply Z.mul_le_mono_nonneg_r; [apply sval_nonneg, CD|].
    pose proof (Z.pow_pos_nonneg 2 n eq_refl N) as G. clear - G. lia. }
  rewrite (C25_mod_stmt ck D w (proj1 CD)) by (clear - W; lia). rewrite bind_ok.
  destruct (C23_naf_stmt ck D CD) as (naf & -> & Vn). rewrite bind_ok.
  destruct (C24_wnaf_stmt ck w D CD W W6) as (wnaf & -> & Vw). rewrite bind_ok.
  destruct (C28_random_stmt draw Dr) as (r9 & -> & C9 & V9). rewrite bind_ok.
  exists [r1; r2; r3; r4; r5; r6; r7; sc_shr D n; r9], (sval r5), (sval D mod 2 ^ w), (sc_into_bits D), naf, wnaf.
  split; [reflexivity|]. split; [repeat (constructor; [assumption|]); constructor|].
  split; [cbn [map]; rewrite V1, V2, V3, V4, V6, V7, S2, V9; reflexivity|].
  split; [rewrite V5; exact Pc|]. split; [reflexivity|]. split; [exact B1|]. split; [exact B2|]. split; assumption.
Qed.
(** The benchmark named "Scalar mod 4" does not reduce modulo four. *)
Lemma C104_mod4_refuted_stmt : exists C l m bits naf wnaf, scanon C /\ scanon bench_D /\
  bench_scalar_element_ops true C bench_D 4 215 135 (repeat 0 32) = Ok (l, m, bits, naf, wnaf) /\
  m <> sval bench_D mod 4 /\ m = sval bench_D mod 16.
Proof.
  assert (C1 : scanon bench_C) by (apply scanon_check; vm_compute; reflexivity).
  assert (C2 : scanon bench_D) by (apply scanon_check; vm_compute; reflexivity).
  destruct (C104_scalar_stmt true bench_C bench_D 4 215 135 (repeat 0 32) C1 C2) as [H _];
    [split; discriminate|discriminate|discriminate|discriminate|split; [reflexivity|repeat (constructor; [split; discriminate || reflexivity|]); constructor]|].
  destruct (H eq_refl) as (l & h & m & bits & naf & wnaf & E & _ & _ & _ & V & _).
  exists bench_C, l, m, bits, naf, wnaf. split; [exact C1|]. split; [exact C2|]. split; [exact E|].
  rewrite V. split; [vm_compute; discriminate|reflexivity].
Qed.

(** The groups of extended and of projective points: sums, differences, doubles and multiples of
    the points represented, the point with the given ordinate and sign, and a random point. *)
Lemma C104_extended_stmt : forall ck P Q D y s draws A B, ext_rep P A -> ext_rep Q B -> sloadable D -> fcanon y ->
  Forall (is_bytes 32) draws ->
  (bench_extended_point_ops ck P Q D y s draws = NoFuel /\
   Forall (fun d => forall x, ~ on_curve (x, toF (le_value d mod 2 ^ 251))) draws) \/
  exists r1 r2 r3 r4 r5 o, bench_extended_point_ops ck P Q D y s draws = Ok ([r1; r2; r3; r4; r5], o) /\
    ext_rep r1 (sum A B) /\ ext_rep r2 (sum A (opposite B)) /\ ext_rep r3 (sum A A) /\ ext_rep r4 (multiple (sval D) A) /\
    valid_ext r5 /\
    match o with
    | Some R => exists C, has_y (residue y) s C /\ ext_rep R C
    | None => forall x, ~ on_curve (x, residue y)
    end.
Proof.
  intros ck P Q D y s draws A B HP HQ HD Hy Hd. unfold bench_extended_point_ops.
  destruct (C29_add_stmt ck P Q A B HP HQ) as (r1 & -> & V1). rewrite bind_ok.
  destruct (C31_sub_stmt ck P Q A B HP HQ) as (r2 & -> & V2). rewrite bind_ok.
  destruct (C29_double_stmt ck P A HP) as (r3 & -> & V3). rewrite bind_ok.
  destruct (C36_ext_mul_stmt ck P A D HP HD) as (r4 & -> & V4). rewrite bind_ok.
  assert (O : exists o, ept_new_from_y_coord ck y s = Ok o /\
    match o with Some R => exists C, has_y (residue y) s C /\ ext_rep R C | None => forall x, ~ on_curve (x, residue y) end).
  { destruct (from_y_cases ck y s Hy) as [(C & R & R' & HC & E & HR & _)|(E & _ & N)]; rewrite E; eexists;
      (split; [reflexivity|]); cbv iota; [exists C; split; assumption|exact N]. }
  destruct O as (o & -> & Vo). rewrite bind_ok.
  destruct (C45_ext_stmt ck draws Hd) as [(r5 & -> & V5)|[-> N]].
  - right. rewrite bind_ok. exists r1, r2, r3, r4, r5, o. split; [reflexivity|].
    exact (conj V1 (conj V2 (conj V3 (conj V4 (conj V5 Vo))))).
  - left. split; [reflexivity|exact N].
Qed.
Lemma C104_projective_stmt : forall ck P Q D y s draws A B, proj_rep P A -> proj_rep Q B -> sloadable D -> fcanon y ->
  Forall (is_bytes 32) draws ->
  (bench_projective_point_ops ck P Q D y s draws = NoFuel /\
   Forall (fun d => forall x, ~ on_curve (x, toF (le_value d mod 2 ^ 251))) draws) \/
  exists r1 r2 r3 r4 r5 o, bench_projective_point_ops ck P Q D y s draws = Ok ([r1; r2; r3; r4; r5], o) /\
    proj_rep r1 (sum A B) /\ proj_rep r2 (sum A (opposite B)) /\ proj_rep r3 (sum A A) /\ proj_rep r4 (multiple (sval D) A) /\
    valid_proj r5 /\
    match o with
    | Some R => exists C, has_y (residue y) s C /\ proj_rep R C
    | None => forall x, ~ on_curve (x, residue y)
    end.
Proof.
  intros ck P Q D y s draws A B HP HQ HD Hy Hd. unfold bench_projective_point_ops.
  destruct (C32_add_stmt ck P Q A B HP HQ) as (r1 & -> & V1). rewrite bind_ok.
  destruct (C32_sub_stmt ck P Q A B HP HQ) as (r2 & -> & V2). rewrite bind_ok.
  destruct (C32_double_stmt ck P A HP) as (r3 & -> & V3). rewrite bind_ok.
  destruct (C36_proj_mul_stmt ck P A D HP HD) as (r4 & -> & V4). rewrite bind_ok.
  assert (O : exists o, ppt_new_from_y_coord ck y s = Ok o /\
    match o with Some R => exists C, has_y (residue y) s C /\ proj_rep R C | None => forall x, ~ on_curve (x, residue y) end).
  { destruct (from_y_cases ck y s Hy) as [(C & R & R' & HC & _ & _ & E & HR)|(_ & E & N)]; rewrite E; eexists;
      (split; [reflexivity|]); cbv iota; [exists C; split; assumption|exact N]. }
  destruct O as (o & -> & Vo). rewrite bind_ok.
  destruct (C45_proj_stmt ck draws Hd) as [(r5 & -> & V5)|[-> N]].
  - right. rewrite bind_ok. exists r1, r2, r3, r4, r5, o. split; [reflexivity|].
    exact (conj V1 (conj V2 (conj V3 (conj V4 (conj V5 Vo))))).
  - left. split; [reflexivity|exact N].
Qed.
(** Compression returns the encoding of the point; decompression returns the point the bytes
    stand for and panics if there is none. *)
Lemma C104_compression_stmt : forall ck b P A, is_bytes 32 b -> ext_rep P A ->
  (forall B, edwards_decoded b B -> exists c Q, bench_point_compression_decompression ck b P = Ok (c, Q) /\
     edwards_code A c /\ ext_rep Q B) /\
  ((forall B, ~ edwards_decoded b B) -> bench_point_compression_decompression ck b P = Panic).
Proof.
  intros ck b P A Hb HP. unfold bench_point_compression_decompression.
  destruct (C76_compress_stmt ck P A HP) as (c & -> & Vc). rewrite bind_ok.
  destruct (C76_decompress_stmt ck b Hb) as [H1 H2]. split.
  - intros B HB. destruct (H1 B HB) as (Q & -> & HQ). exists c, Q. split; [reflexivity|]. split; assumption.
  - intros N. rewrite (H2 N). reflexivity.
Qed.
(** Ristretto points: the second sum is that of P and -P. *)
Lemma C104_ristretto_stmt : forall ck P D draw A, ext_rep P A -> sloadable D -> is_bytes 64 draw ->
  exists r1 r2 r3 r4 r5, bench_ristretto_point_ops ck P D draw = Ok [r1; r2; r3; r4; r5] /\
    ext_rep r1 (sum A A) /\ ext_rep r2 origin /\ ext_rep r3 (sum A A) /\ ext_rep r4 (multiple (sval D) A) /\ even_ext r5.
Proof.
  intros ck P D draw A HP HD Hd. unfold bench_ristretto_point_ops.
  destruct (C29_add_stmt ck P P A A HP HP) as (r1 & E1 & V1). unfold rp_add at 1. rewrite E1, bind_ok. clear E1.
  destruct (C31_neg_stmt ck P A HP) as (n & E & Vn). unfold rp_neg. rewrite E, bind_ok. clear E.
  destruct (C29_add_stmt ck P n A _ HP Vn) as (r2 & E2 & V2). unfold rp_add at 1. rewrite E2, bind_ok. clear E2.
  destruct (C29_double_stmt ck P A HP) as (r3 & E3 & V3). unfold rp_double at 1. rewrite E3, bind_ok. clear E3.
  destruct (C54_mul_stmt ck P A D HP HD) as (r4 & -> & V4). rewrite bind_ok.
  destruct (C53_random_stmt ck draw Hd) as [_ (r5 & -> & V5)]. rewrite bind_ok.
  exists r1, r2, r3, r4, r5. split; [reflexivity|]. split; [exact V1|]. split.
  - apply ext_rep_rext in HP. destruct HP as (A' & -> & _).
    change (sum (pxy A') (opposite (pxy A'))) with (pxy (padd A' (popp A'))) in V2. rewrite padd_opp_r in V2. exact V2.
  - split; [exact V3|]. split; [exact V4|exact V5].
Qed.
(** Encoding and decoding of even points, the Elligator map and equality; a string that is no
    encoding makes the group panic. *)
Lemma C104_protocol_stmt : forall ck P r b A, ext_rep P A -> even_point A -> floadable r -> is_bytes 32 b ->
  exists c R, rp_compress ck P = Ok c /\ cr_decompress ck c = Ok (Some R) /\ rp_eqb ck R P = Ok true /\
  ((exists Q E B, bench_ristretto_protocol_impl ck P r b = Ok (c, Q, E, true) /\
      even_ext Q /\ rp_compress ck Q = Ok b /\ ext_rep E B /\ elligator_image (residue r) B) \/
   (bench_ristretto_protocol_impl ck P r b = Panic /\ forall Q, even_ext Q -> rp_compress ck Q <> Ok b)).
Proof.
  intros ck P r b A HP HE Hr Hb. unfold bench_ristretto_protocol_impl.
  destruct (C50_even_stmt ck P (ex_intro _ A (conj HP HE))) as (c & R & -> & _ & E2 & E3). exists c, R.
  split; [reflexivity|]. split; [exact E2|]. split; [exact E3|]. rewrite bind_ok.
  destruct (C49_decode_stmt ck b Hb) as (o & -> & Vo). rewrite bind_ok. destruct o as [Q|]; unfold unwrap_option.
  - left. rewrite bind_ok. destruct (C52_elligator_stmt ck r Hr) as (E & B & -> & VE & _ & VB). rewrite bind_ok.
    rewrite (valid_rp_eqb ck P (ex_intro _ A HP)), bind_ok. exists Q, E, B. destruct Vo as (V1 & V2 & _).
    split; [reflexivity|]. split; [exact V1|]. split; [exact V2|]. split; assumption.
  - right. split; [reflexivity|exact Vo].
Qed.
(** The comparison of implementations: both equality benchmarks answer yes.  Double and add and
    the signed digits give D P; left to right gives (D mod 2^249) P; the table gives the
    multiple of the basepoint that C56 describes. *)
Lemma C104_comparison_stmt : forall ck i P D w A, valid_ext i -> ext_rep P A -> scanon D -> 2 <= w <= 6 -> (w = 6 -> sval D <> L - 2) ->
  exists h m1 m2 m3 m4 ds, bench_point_ops_impl ck i P D w = Ok (h, true, true, [m1; m2; m3; m4]) /\
    (fval h + fval h) mod p = fval (eT i) /\
    ext_rep m1 (multiple (sval D) A) /\ ext_rep m2 (multiple (sval D mod 2 ^ 249) A) /\ ext_rep m3 (multiple (sval D) A) /\
    digits_value ds = sval D /\ signed_recoding w (sval D) ds /\ ext_rep m4 (multiple (digits_value (map table_digit ds) mod L) base).
Proof.
  intros ck i P D w A Hi HP HD W W6. unfold bench_point_ops_impl. destruct (Hi) as (I & HI).
  pose proof (rep_reduced _ _ HI) as (_ & _ & _ & CT).
  destruct (C05_half_stmt ck (eT i) (fcanon_loadable _ CT)) as (h & -> & _ & Vh). rewrite bind_ok.
  rewrite (Z.mod_small (fval (eT i)) p) in Vh by (split; [apply fval_nonneg, CT|apply CT]).
  destruct (rp_compress_total i (rep_reduced _ _ HI)) as (c & Ec). rewrite Ec, bind_ok, bind_ok.
  rewrite (valid_rp_eqb ck i Hi), bind_ok.
  rewrite rp_add_eq, rp_double_eq, rp_identity_eq.
  destruct (C36_double_and_add_stmt ck P A D HP (scanon_loadable _ HD)) as (m1 & -> & V1). rewrite bind_ok.
  destruct (proj1 (C37_ltr_low_bits_stmt ck P A D HP (scanon_loadable _ HD))) as (m2 & -> & V2). rewrite bind_ok.
  destruct (rp_naf_mul ck P A D HP HD) as (m3 & -> & V3). rewrite bind_ok.
  destruct (C56_window_stmt ck w D HD W W6) as (ds & Ed & Vd & (m4 & -> & V4)). rewrite bind_ok.
  destruct (C24_wnaf_stmt ck w D HD W W6) as (ds' & Ed' & Vd'). rewrite Ed in Ed'. injection Ed' as <-.
  exists h, m1, m2, m3, m4, ds. split.
  { unfold cr_eqb. rewrite bytes_eqb_refl. reflexivity. }
  split; [exact Vh|]. split; [exact V1|]. split; [exact V2|]. split; [exact V3|]. split; [exact Vd|]. split; [exact Vd'|exact V4].
Qed.
(** The three key exchanges: whatever the generator returns, both sides obtain the multiple
    a b of the basepoint, where a and b are the low 249 bits of the two draws. *)
Lemma C104_ecdh_stmt : forall ck d1 d2, is_bytes 32 d1 -> is_bytes 32 d2 ->
  Forall (fun o => exists S1 S2, o = Ok (S1, S2) /\
    ext_rep S1 (multiple ((le_value d1 mod 2 ^ 249) * (le_value d2 mod 2 ^ 249)) base) /\
    ext_rep S2 (multiple ((le_value d1 mod 2 ^ 249) * (le_value d2 mod 2 ^ 249)) base) /\
    rp_eqb ck S1 S2 = Ok true)
  [ecdh_ltrs ck d1 d2; ecdh_binary_naf ck d1 d2; ecdh_double_add ck d1 d2].
Proof.
  intros ck d1 d2 H1 H2.
  assert (R : forall d, 0 <= le_value d mod 2 ^ 249 < 2 ^ 249) by (intros d; apply Z.mod_pos_bound; reflexivity).
  assert (G : forall mul, (forall P A n, ext_rep P A -> scanon n -> sval n < 2 ^ 249 -> returns_ext (mul P n) (multiple (sval n) A)) ->
    exists S1 S2, ecdh mul d1 d2 = Ok (S1, S2) /\
    ext_rep S1 (multiple ((le_value d1 mod 2 ^ 249) * (le_value d2 mod 2 ^ 249)) base) /\
    ext_rep S2 (multiple ((le_value d1 mod 2 ^ 249) * (le_value d2 mod 2 ^ 249)) base) /\
    rp_eqb ck S1 S2 = Ok true).
  { intros mul M. unfold ecdh, generate_kp.
    destruct (C28_random_stmt d1 H1) as (a & -> & Ca & Va). destruct (C28_random_stmt d2 H2) as (b & -> & Cb & Vb).
    assert (La : sval a < 2 ^ 249) by (rewrite Va; apply R). assert (Lb : sval b < 2 ^ 249) by (rewrite Vb; apply R).
    rewrite !bind_ok.
    destruct (M RISTRETTO_BASEPOINT base a base_rep Ca La) as (A & -> & VA). rewrite !bind_ok.
    destruct (M RISTRETTO_BASEPOINT base b base_rep Cb Lb) as (B & -> & VB). rewrite !bind_ok.
    destruct (M B _ a VB Ca La) as (S1 & -> & V1). rewrite bind_ok.
    destruct (M A _ b VA Cb Lb) as (S2 & -> & V2). rewrite bind_ok.
    rewrite multiple_twice, Va, Vb in V1 by (apply sval_nonneg; (apply Ca || apply Cb)).
    rewrite multiple_twice, Va, Vb in V2 by (apply sval_nonneg; (apply Ca || apply Cb)).
    rewrite (Z.mul_comm (le_value d2 mod 2 ^ 249)) in V2.
    exists S1, S2. split; [reflexivity|]. split; [exact V1|]. split; [exact V2|].
    apply C47_edwards_stmt; [exists (multiple (le_value d1 mod 2 ^ 249 * (le_value d2 mod 2 ^ 249)) base); assumption..|].
    destruct (C34_valid_eq_stmt ck _ _ _ _ V1 V2) as (e & -> & [_ Ve]). rewrite (Ve eq_refl). reflexivity. }
  unfold ecdh_ltrs, ecdh_binary_naf, ecdh_double_add. rewrite rp_add_eq, rp_double_eq, rp_identity_eq.
  constructor; [|constructor; [|constructor; [|constructor]]]; apply G; intros P A n HP Hn Ln.
  - exact (C37_ltr_partial_stmt ck P A n HP Hn Ln).
  - exact (rp_naf_mul ck P A n HP Hn).
  - exact (C36_double_and_add_stmt ck P A n HP (scanon_loadable _ Hn)).
Qed.
(** The whole program on its literals: in both builds it ends, unless the generator never
    yields a usable ordinate for one of the two random points. *)
Lemma C104_literals_stmt : forall ck d ds ds' b64, length d = 8%nat -> Forall (is_bytes 32) d ->
  Forall (is_bytes 32) ds -> Forall (is_bytes 32) ds' -> is_bytes 64 b64 ->
  let rejected := Forall (fun d => forall x, ~ on_curve (x, toF (le_value d mod 2 ^ 251))) in
  benchmarks_literals ck d ds ds' b64 = Ok tt \/
  (benchmarks_literals ck d ds ds' b64 = NoFuel /\ (rejected ds \/ rejected ds')).
Proof.
  intros ck d ds ds' b64 Hl Hd H1 H2 H3 rejected. unfold benchmarks_literals.
  assert (N : forall i, (i < 8)%nat -> is_bytes 32 (nth i d [])).
  { intros i Hi. apply (proj1 (Forall_forall _ _) Hd). apply nth_In. rewrite Hl. exact Hi. }
  assert (CD : scanon bench_D) by (apply scanon_check; vm_compute; reflexivity).
  assert (CD' : scanon bench_D') by (apply scanon_check; vm_compute; reflexivity).
  assert (CC : scanon bench_C) by (apply scanon_check; vm_compute; reflexivity).
  assert (CA : fcanon bench_A) by (apply canon_check; vm_compute; reflexivity).
  assert (CB : fcanon bench_B) by (apply canon_check; vm_compute; reflexivity).
  assert (Cy : fcanon bench_y) by (apply canon_check; vm_compute; reflexivity).
  destruct (C104_comparison_stmt ck bench_P1 RISTRETTO_BASEPOINT bench_D' 5 base (ex_intro _ _ bench_P1_rep) base_rep CD')
    as (h & m1 & m2 & m3 & m4 & dl & -> & _); [split; discriminate|discriminate|]. rewrite bind_ok.
  assert (E : forall i j, (i < 8)%nat -> (j < 8)%nat ->
    (exists r, ecdh_ltrs ck (nth i d []) (nth j d []) = Ok r) /\ (exists r, ecdh_binary_naf ck (nth i d []) (nth j d []) = Ok r) /\
    (exists r, ecdh_double_add ck (nth i d []) (nth j d []) = Ok r)).
  { intros i j Hi Hj. pose proof (C104_ecdh_stmt ck _ _ (N i Hi) (N j Hj)) as G.
    inversion G as [|? ? (S1 & S2 & E1 & _) G']; subst. inversion G' as [|? ? (S3 & S4 & E2 & _) G'']; subst.
    inversion G'' as [|? ? (S5 & S6 & E3 & _) _]; subst.
    split; [exists (S1, S2); exact E1|]. split; [exists (S3, S4); exact E2|exists (S5, S6); exact E3]. }
  destruct (E 0%nat 1%nat) as (_ & _ & (s1 & ->)); [repeat constructor..|]. rewrite bind_ok.
  destruct (E 2%nat 3%nat) as ((s2 & ->) & _ & _); [repeat constructor..|]. rewrite bind_ok.
  destruct (E 4%nat 5%nat) as (_ & (s3 & ->) & _); [repeat constructor..|]. rewrite bind_ok. clear E.
  destruct (C104_field_stmt ck bench_A bench_B true 249 (nth 6 d []) CA CB) as [F _]; [discriminate|apply N; repeat constructor|].
  destruct F as (l & q & k & inv & leg & root & t1 & u1 & t2 & u2 & -> & _); [vm_compute; discriminate..|]. rewrite bind_ok.
  destruct (C104_scalar_stmt ck bench_C bench_D 4 215 135 (nth 7 d []) CC CD) as [F _];
    [split; discriminate|discriminate|discriminate|discriminate|apply N; repeat constructor|].
  destruct F as (l' & h' & m & bits & naf & wnaf & -> & _); [reflexivity|]. rewrite bind_ok.
  destruct (C104_extended_stmt ck bench_P1 bench_P2 bench_D bench_y true ds _ _ bench_P1_rep bench_P2_rep (scanon_loadable _ CD) Cy H1)
    as [[-> R]|(r1 & r2 & r3 & r4 & r5 & o & -> & _)].
  { right. split; [reflexivity|left; exact R]. }
  rewrite bind_ok.
  destruct (C104_projective_stmt ck bench_P1_proj bench_P2_proj bench_D bench_y true ds' _ _ bench_P1_proj_rep bench_P2_proj_rep (scanon_loadable _ CD) Cy H2)
    as [[-> R]|(p1 & p2 & p3 & p4 & p5 & po & -> & _)].
  { right. split; [reflexivity|right; exact R]. }
  rewrite bind_ok. left.
  destruct bench_decoded as (B & HB).
  destruct (proj1 (C104_compression_stmt ck _ _ _ bench_bytes bench_P1_rep) B HB) as (c & Q & -> & _). rewrite bind_ok.
  destruct (C104_ristretto_stmt ck RISTRETTO_BASEPOINT bench_D b64 base base_rep (scanon_loadable _ CD) H3)
    as (x1 & x2 & x3 & x4 & x5 & -> & _). rewrite bind_ok.
  assert (Ev : even_point base) by exact base_even.
  destruct (C104_protocol_stmt ck RISTRETTO_BASEPOINT bench_y RISTRETTO_BASEPOINT_COMPRESSED base base_rep Ev (fcanon_loadable _ Cy) rbc_bytes)
    as (cc & RR & E1 & E2 & _ & [(Q' & EE & BB & -> & _)|[_ Bad]]); [reflexivity|].
  exfalso. apply (Bad RISTRETTO_BASEPOINT (ex_intro _ base (conj base_rep Ev))). exact (proj2 (proj2 (proj2 (proj2 (C60_basepoint_stmt ck))))).
Qed.

(** Non-trivial values: the exchange with keys 3 and 5, nonzero field inputs, a string that is
    no encoding. *)
Lemma C104_ex : fcanon bench_A /\ fcanon bench_B /\ fval bench_A <> 0 /\ fval bench_B <> 0 /\ scanon bench_C /\ scanon bench_D /\
  ext_rep bench_P1 (toF 13, residue (eY bench_P1)) /\ ext_rep bench_P2 (toF 67, residue bench_y) /\
  is_bytes 32 bench_P1_compressed /\ (exists B, edwards_decoded bench_P1_compressed B) /\
  even_point base /\ is_bytes 32 (3 :: repeat 0 31) /\ is_bytes 32 (5 :: repeat 0 31) /\
  (le_value (3 :: repeat 0 31) mod 2 ^ 249) * (le_value (5 :: repeat 0 31) mod 2 ^ 249) = 15 /\ is_bytes 64 (repeat 255 64).
Proof.
  split; [apply canon_check; vm_compute; reflexivity|]. split; [apply canon_check; vm_compute; reflexivity|].
  split; [vm_compute; discriminate|]. split; [vm_compute; discriminate|].
  split; [apply scanon_check; vm_compute; reflexivity|]. split; [apply scanon_check; vm_compute; reflexivity|].
  split; [exact bench_P1_rep|]. split; [exact bench_P2_rep|]. split; [exact bench_bytes|]. split; [exact bench_decoded|].
  split; [exact base_even|].
  do 2 (split; [split; [reflexivity|repeat (constructor; [split; discriminate || reflexivity|]); constructor]|]).
  split; [vm_compute; reflexivity|]. exact C53_ex.
Qed.
