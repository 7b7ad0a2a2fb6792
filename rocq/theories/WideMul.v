(** * Products of operands that are not reduced

    The limb-level results of FieldMul.v and ScalarLimb.v without the bound on the operands:
    any five limbs of 52 bits. *)

From Coq Require Import ZArith Znumtheory List Bool Lia.
From Verif Require Import Machine FieldModel ScalarModel Spec MachineFacts FieldLimb FieldMul FieldOps
  ScalarLimb ScalarOps.
Import ListNotations.
Open Scope Z_scope.

(** The top step of the borrow chain without a borrow. *)
Lemma wsub_top a t : 0 <= t <= a -> a - t < 4503599627370496 ->
  shr (wsub W64 a t) 63 = 0 /\ Z.land (wsub W64 a t) mask52 = a - t.
Proof.
  intros H1 H2. unfold wsub, mask52. rewrite cast64, shr63, land52.
  rewrite (Z.mod_small (a - t)) by lia. split; [apply Z.div_small|apply Z.mod_small]; lia.
Qed.
Lemma small_shr x : 0 <= x < 4503599627370496 -> shr x 52 = 0.
Proof. intros. rewrite shr52. apply Z.div_small. lia. Qed.
Lemma small_land x : 0 <= x < 4503599627370496 -> Z.land x mask52 = x.
Proof. intros. unfold mask52. rewrite land52. apply Z.mod_small. lia. Qed.
Lemma fmul_bound x y : 0 <= x < 2 ^ 260 -> 0 <= y < p -> x * y < 2 ^ 260 * p.
Proof. intros. rewrite p_num in *. nia. Qed.
Lemma wide_bound x y : 0 <= x < 2 ^ 260 -> 0 <= y < 2 ^ 260 -> x * y < 2 ^ 520.
Proof. intros. change (2 ^ 520) with (2 ^ 260 * 2 ^ 260). nia. Qed.

(** ** Field elements *)

(** Subtracting the modulus from a value above 2^260 whose top limb takes 53 bits. *)
Lemma fe_sub_wide ck a0 a1 a2 a3 a4 :
  lim a0 -> lim a1 -> lim a2 -> lim a3 -> 4503599627370496 <= a4 ->
  fval (FE a0 a1 a2 a3 a4) < 2 ^ 260 + p ->
  exists r, fe_sub ck (FE a0 a1 a2 a3 a4) FIELD_L = Ok r /\ flimbs r /\
    fval r = fval (FE a0 a1 a2 a3 a4) - p.
Proof.
  intros A0 A1 A2 A3 A4 HB.
  rewrite fval_num in *. cbn [f0 f1 f2 f3 f4] in *. rewrite p_num in *.
  change (2 ^ 260) with 1852673427797059126777135760139006525652319754650249024631321344126610074238976 in HB.
  unfold fe_sub, FIELD_L. cbn [f0 f1 f2 f3 f4]. rewrite !shr0.
  rewrite uadd_ok by (unfold W64; lia). rewrite bind_ok.
  destruct (wsub_step a0 (671914833335277 + 0)) as (k0 & K0 & S0 & D0 & R0 & _); [assumption|lia|].
  cbv zeta. rewrite S0, D0.
  rewrite uadd_ok by (unfold W64; lia). rewrite bind_ok.
  destruct (wsub_step a1 (3916664325105025 + k0)) as (k1 & K1 & S1 & D1 & R1 & _); [assumption|lia|].
  rewrite S1, D1.
  rewrite uadd_ok by (unfold W64; lia). rewrite bind_ok.
  destruct (wsub_step a2 (1367801 + k1)) as (k2 & K2 & S2 & D2 & R2 & _); [assumption|lia|].
  rewrite S2, D2.
  rewrite uadd_ok by (unfold W64; lia). rewrite bind_ok.
  destruct (wsub_step a3 (0 + k2)) as (k3 & K3 & S3 & D3 & R3 & _); [assumption|lia|].
  rewrite S3, D3.
  rewrite uadd_ok by (unfold W64; lia). rewrite bind_ok.
  unfold lim in *.
  assert (B4 : a4 < 9007199254740992) by lia.
  assert (T4 : a4 - (17592186044416 + k3) < 4503599627370496) by lia.
  destruct (wsub_top a4 (17592186044416 + k3)) as (S4 & D4); [lia|lia|].
  rewrite S4, D4.
  rewrite !(uf_mask 0 (or_introl eq_refl)) by (unfold lim; lia).
  clear S0 S1 S2 S3 S4 D0 D1 D2 D3 D4.
  rewrite !Z.mul_0_r, !Z.add_0_l. rewrite Z.add_0_l in R3.
  remember (a0 - (671914833335277 + 0) + 4503599627370496 * k0) as d0 eqn:E0.
  remember (a1 - (3916664325105025 + k0) + 4503599627370496 * k1) as d1 eqn:E1.
  remember (a2 - (1367801 + k1) + 4503599627370496 * k2) as d2 eqn:E2.
  remember (a3 - k2 + 4503599627370496 * k3) as d3 eqn:E3.
  remember (a4 - (17592186044416 + k3)) as d4 eqn:E4.
  assert (R4 : 0 <= d4 < 4503599627370496) by lia.
  unfold lim in R0, R1, R2, R3. clear B4 T4.
  rewrite uadd_ok by (unfold W64; lia). rewrite bind_ok.
  rewrite uadd_ok by (unfold W64; lia). rewrite bind_ok.
  rewrite !Z.add_0_r, !Z.add_0_l, (small_shr d0), (small_land d0) by assumption.
  rewrite uadd_ok by (unfold W64; lia). rewrite bind_ok.
  rewrite uadd_ok by (unfold W64; lia). rewrite bind_ok.
  rewrite !Z.add_0_r, !Z.add_0_l, (small_shr d1), (small_land d1) by assumption.
  rewrite uadd_ok by (unfold W64; lia). rewrite bind_ok.
  rewrite uadd_ok by (unfold W64; lia). rewrite bind_ok.
  rewrite !Z.add_0_r, !Z.add_0_l, (small_shr d2), (small_land d2) by assumption.
  rewrite uadd_ok by (unfold W64; lia). rewrite bind_ok.
  rewrite uadd_ok by (unfold W64; lia). rewrite bind_ok.
  rewrite !Z.add_0_r, !Z.add_0_l, (small_shr d3), (small_land d3) by assumption.
  rewrite uadd_ok by (unfold W64; lia). rewrite bind_ok.
  rewrite uadd_ok by (unfold W64; lia). rewrite bind_ok.
  rewrite !Z.add_0_r, !Z.add_0_l, (small_land d4) by assumption.
  eexists. split; [reflexivity|]. split.
  { rewrite flimbs_lim; cbn [f0 f1 f2 f3 f4]. unfold lim. auto. }
  rewrite fval_num; cbn [f0 f1 f2 f3 f4].
  rewrite E0, E1, E2, E3, E4. lia.
Qed.

(** Montgomery reduction of any product of 52-bit limbs: 52-bit limbs again, below the
    modulus only if the product was below 2^260 times the modulus. *)
Lemma fe_montgomery_reduce_wide ck t : wide_ok t -> wval t < 2 ^ 520 ->
  exists r k, fe_montgomery_reduce ck t = Ok r /\ flimbs r /\
    fval r * 2 ^ 260 = wval t + k * p.
Proof.
  destruct t as [t0 t1 t2 t3 t4 t5 t6 t7 t8].
  unfold wide_ok, wval; cbn [w0 w1 w2 w3 w4 w5 w6 w7 w8].
  intros (T0 & T1 & T2 & T3 & T4 & T5 & T6 & T7 & T8) HT.
  pose proof limc0 as K0. pose proof limc1 as K1. pose proof limc2 as K2. pose proof limc4 as K4.
  unfold fe_montgomery_reduce; cbn [w0 w1 w2 w3 w4 w5 w6 w7 w8].
  cbv zeta.
  change (f1 FIELD_L) with 3916664325105025. change (f2 FIELD_L) with 1367801.
  change (f4 FIELD_L) with 17592186044416.
  change (fe_adjustment_fact ck t0) with (bind (Ok t0) (fe_adjustment_fact ck)).
  unfold col in *.
  destruct (okb_adjust ck (Ok t0) t0 _ (conj eq_refl T0) eq_refl) as (c0 & n0 & -> & L0 & B0 & E0).
  rewrite bind_ok; cbv iota beta.
  adj E1 L1 B1. adj E2 L2 B2. adj E3 L3 B3. adj E4 L4 B4.
  mred E5 L5 B5. mred E6 L6 B6. mred E7 L7 B7. mred E8 L8 B8.
  match goal with |- exists r k, fe_sub ck (FE ?a0 ?a1 ?a2 ?a3 (cast W64 ?a4)) _ = _ /\ _ =>
    rename a0 into r0; rename a1 into r1; rename a2 into r2; rename a3 into r3; rename a4 into c8 end.
  unfold lim in *. clear B0 B1 B2 B3 B4 B5 B6 B7 K0 K1 K2 K4.
  set (N := n0 + x0 * 2^52 + x2 * 2^104 + x4 * 2^156 + x6 * 2^208).
  set (T := t0 + t1 * 2 ^ 52 + t2 * 2 ^ 104 + t3 * 2 ^ 156 + t4 * 2 ^ 208 + t5 * 2 ^ 260 +
     t6 * 2 ^ 312 + t7 * 2 ^ 364 + t8 * 2 ^ 416) in *.
  set (pv := r0 + r1 * 2^52 + r2 * 2^104 + r3 * 2^156 + c8 * 2^208).
  assert (KEY : 2 ^ 260 * pv = T + N * p).
  { assert (H0 : t0 = 4503599627370496 * c0 - n0 * 671914833335277) by (clear - E0; lia).
    assert (H1 : t1 = 4503599627370496 * x -
       (c0 + n0 * 3916664325105025 + x0 * 671914833335277)) by (clear - E1; lia).
    assert (H2 : t2 = 4503599627370496 * x1 -
       (x + n0 * 1367801 + x0 * 3916664325105025 + x2 * 671914833335277)) by (clear - E2; lia).
    assert (H3 : t3 = 4503599627370496 * x3 -
       (x1 + x0 * 1367801 + x2 * 3916664325105025 + x4 * 671914833335277)) by (clear - E3; lia).
    assert (H4 : t4 = 4503599627370496 * x5 -
       (x3 + n0 * 17592186044416 + x2 * 1367801 + x4 * 3916664325105025 +
       x6 * 671914833335277)) by (clear - E4; lia).
    assert (H5 : t5 = 4503599627370496 * x7 + r0 -
      (x5 + x0 * 17592186044416 + x4 * 1367801 + x6 * 3916664325105025)) by (clear - E5; lia).
    assert (H6 : t6 = 4503599627370496 * x9 + r1 -
      (x7 + x2 * 17592186044416 + x6 * 1367801)) by (clear - E6; lia).
    assert (H7 : t7 = 4503599627370496 * x11 + r2 - (x9 + x4 * 17592186044416))
      by (clear - E7; lia).
    assert (H8 : t8 = 4503599627370496 * c8 + r3 - (x11 + x6 * 17592186044416))
      by (clear - E8; lia).
    unfold T, N, pv. rewrite p_num, H0, H1, H2, H3, H4, H5, H6, H7, H8. ring. }
  assert (HT0 : 0 <= T) by (unfold T; clear - T0 T1 T2 T3 T4 T5 T6 T7 T8; lia).
  assert (HN : 0 <= N < 2 ^ 260) by (unfold N; clear - L0 L1 L2 L3 L4; lia).
  clear E0 E1 E2 E3 E4 E5 E6 E7 E8 T0 T1 T2 T3 T4 T5 T6 T7 T8 L0 L1 L2 L3 L4. clearbody T N.
  assert (Bpv : 0 <= pv < 2 ^ 260 + p) by (rewrite p_num in *; clear - KEY HT HT0 HN; lia).
  assert (B9 : 0 <= c8 < 9007199254740992).
  { unfold pv in Bpv. rewrite p_num in Bpv. clear - L5 L6 L7 L8 B8 Bpv. lia. }
  assert (Ec : cast W64 c8 = c8) by (rewrite cast64; apply Z.mod_small; lia).
  rewrite Ec.
  assert (Vpre : fval (FE r0 r1 r2 r3 c8) = pv) by reflexivity.
  destruct (Z.lt_ge_cases c8 4503599627370496) as [HC|HC].
  - assert (Lpre : flimbs (FE r0 r1 r2 r3 c8)) by (rewrite flimbs_lim; cbn; unfold lim; auto 10 with zarith).
    destruct (fe_sub_gen ck _ FIELD_L Lpre flimbs_FIELD_L) as (r & Er & Lr & Vr).
    { rewrite fval_FIELD_L, Vpre. rewrite p_num. clear - Bpv. lia. }
    rewrite fval_FIELD_L, Vpre in Vr.
    exists r, (if pv <? p then N else N - 2 ^ 260).
    split; [exact Er|]. split; [exact Lr|]. rewrite Vr. clear - KEY.
    match goal with |- context [if ?b then _ else _] => destruct b end; lia.
  - destruct (fe_sub_wide ck r0 r1 r2 r3 c8 L5 L6 L7 L8 HC) as (r & Er & Lr & Vr).
    { rewrite Vpre. apply Bpv. }
    exists r, (N - 2 ^ 260). split; [exact Er|]. split; [exact Lr|]. rewrite Vr, Vpre. clear - KEY. lia.
Qed.

Lemma fe_second_wide ck prod x k : flimbs prod -> fval prod * 2 ^ 260 = x + k * p ->
  exists r, (w' <- fe_mul_internal ck prod RR_FIELD ;; fe_montgomery_reduce ck w') = Ok r /\
    fcanon r /\ fval r = x mod p.
Proof.
  intros F1 E. pose proof (fval_nonneg _ F1).
  destruct RR_canon as [R1 R2]. pose proof (fval_nonneg _ R1).
  destruct (fe_mul_internal_ok ck prod RR_FIELD F1 R1) as (t & -> & Wt & Vt).
  rewrite bind_ok.
  destruct (fe_montgomery_reduce_ok ck t Wt) as (r & k2 & -> & Cr & Vr).
  { rewrite Vt. apply fmul_bound; lia. }
  exists r. split; [reflexivity|]. split; [assumption|].
  rewrite Vt, RR_val in Vr.
  set (m := 2 ^ 520 / p) in *. clearbody m.
  destruct (cancel_R (fval r - x) (k * 2 ^ 260 - fval prod * m + k2)) as (j & Hj).
  { rewrite Z.mul_sub_distr_r, Vr.
    replace (fval prod * (2 ^ 260 * 2 ^ 260 - m * p)) with
      (fval prod * 2 ^ 260 * 2 ^ 260 - fval prod * m * p) by ring.
    rewrite E. ring. }
  apply canon_mod with j; auto. lia.
Qed.

Lemma fe_mul_any ck a b : flimbs a -> flimbs b ->
  exists r, fe_mul ck a b = Ok r /\ fcanon r /\ fval r = (fval a * fval b) mod p.
Proof.
  intros A B. unfold fe_mul.
  destruct (fe_mul_internal_ok ck a b A B) as (t & -> & Wt & Vt). rewrite bind_ok.
  destruct (fe_montgomery_reduce_wide ck t Wt) as (r & k & -> & Cr & Vr).
  { rewrite Vt. apply wide_bound; apply fval_nonneg; assumption. }
  rewrite bind_ok. rewrite Vt in Vr.
  exact (fe_second_wide ck r _ k Cr Vr).
Qed.

Lemma fe_square_any ck a : flimbs a ->
  exists r, fe_square ck a = Ok r /\ fcanon r /\ fval r = (fval a * fval a) mod p.
Proof.
  intros A. unfold fe_square.
  destruct (fe_square_internal_ok ck a A) as (t & -> & Wt & Vt). rewrite bind_ok.
  destruct (fe_montgomery_reduce_wide ck t Wt) as (r & k & -> & Cr & Vr).
  { rewrite Vt. apply wide_bound; apply fval_nonneg; assumption. }
  rewrite bind_ok. rewrite Vt in Vr.
  exact (fe_second_wide ck r _ k Cr Vr).
Qed.

Lemma fe_montgomery_mul_any ck a b : flimbs a -> flimbs b ->
  exists r k, fe_montgomery_mul ck a b = Ok r /\ flimbs r /\
    fval r * 2 ^ 260 = fval a * fval b + k * p.
Proof.
  intros A B. unfold fe_montgomery_mul.
  destruct (fe_mul_internal_ok ck a b A B) as (t & -> & Wt & Vt). rewrite bind_ok.
  destruct (fe_montgomery_reduce_wide ck t Wt) as (r & k & E & Cr & Vr).
  { rewrite Vt. apply wide_bound; apply fval_nonneg; assumption. }
  exists r, k. rewrite Vt in Vr. auto.
Qed.

(** ** Scalars *)

(** Subtracting the modulus from a value above 2^260 whose top limb takes 53 bits. *)
Lemma sc_sub_wide ck a0 a1 a2 a3 a4 :
  lim a0 -> lim a1 -> lim a2 -> lim a3 -> 4503599627370496 <= a4 ->
  sval (SC a0 a1 a2 a3 a4) < 2 ^ 260 + L ->
  exists r, sc_sub ck (SC a0 a1 a2 a3 a4) SC_L = Ok r /\ slimbs r /\
    sval r = sval (SC a0 a1 a2 a3 a4) - L.
Proof.
  intros A0 A1 A2 A3 A4 HB.
  rewrite sval_num in *. cbn [s0 s1 s2 s3 s4] in *. rewrite L_num in *.
  change (2 ^ 260) with 1852673427797059126777135760139006525652319754650249024631321344126610074238976 in HB.
  unfold sc_sub, SC_L. cbn [s0 s1 s2 s3 s4]. rewrite !shr0.
  rewrite uadd_ok by (unfold W64; lia). rewrite bind_ok.
  destruct (wsub_step a0 (1129677152307299 + 0)) as (k0 & K0 & S0 & D0 & R0 & _); [assumption|lia|].
  cbv zeta. rewrite S0, D0.
  rewrite uadd_ok by (unfold W64; lia). rewrite bind_ok.
  destruct (wsub_step a1 (1363544697812651 + k0)) as (k1 & K1 & S1 & D1 & R1 & _); [assumption|lia|].
  rewrite S1, D1.
  rewrite uadd_ok by (unfold W64; lia). rewrite bind_ok.
  destruct (wsub_step a2 (714439 + k1)) as (k2 & K2 & S2 & D2 & R2 & _); [assumption|lia|].
  rewrite S2, D2.
  rewrite uadd_ok by (unfold W64; lia). rewrite bind_ok.
  destruct (wsub_step a3 (0 + k2)) as (k3 & K3 & S3 & D3 & R3 & _); [assumption|lia|].
  rewrite S3, D3.
  rewrite uadd_ok by (unfold W64; lia). rewrite bind_ok.
  unfold lim in *.
  assert (B4 : a4 < 9007199254740992) by lia.
  assert (T4 : a4 - (2199023255552 + k3) < 4503599627370496) by lia.
  destruct (wsub_top a4 (2199023255552 + k3)) as (S4 & D4); [lia|lia|].
  rewrite S4, D4.
  rewrite !(uf_mask 0 (or_introl eq_refl)) by (unfold lim; lia).
  clear S0 S1 S2 S3 S4 D0 D1 D2 D3 D4.
  rewrite !Z.mul_0_r, !Z.add_0_l. rewrite Z.add_0_l in R3.
  remember (a0 - (1129677152307299 + 0) + 4503599627370496 * k0) as d0 eqn:E0.
  remember (a1 - (1363544697812651 + k0) + 4503599627370496 * k1) as d1 eqn:E1.
  remember (a2 - (714439 + k1) + 4503599627370496 * k2) as d2 eqn:E2.
  remember (a3 - k2 + 4503599627370496 * k3) as d3 eqn:E3.
  remember (a4 - (2199023255552 + k3)) as d4 eqn:E4.
  assert (R4 : 0 <= d4 < 4503599627370496) by lia.
  unfold lim in R0, R1, R2, R3. clear B4 T4.
  rewrite uadd_ok by (unfold W64; lia). rewrite bind_ok.
  rewrite uadd_ok by (unfold W64; lia). rewrite bind_ok.
  rewrite !Z.add_0_r, !Z.add_0_l, (small_shr d0), (small_land d0) by assumption.
  rewrite uadd_ok by (unfold W64; lia). rewrite bind_ok.
  rewrite uadd_ok by (unfold W64; lia). rewrite bind_ok.
  rewrite !Z.add_0_r, !Z.add_0_l, (small_shr d1), (small_land d1) by assumption.
  rewrite uadd_ok by (unfold W64; lia). rewrite bind_ok.
  rewrite uadd_ok by (unfold W64; lia). rewrite bind_ok.
  rewrite !Z.add_0_r, !Z.add_0_l, (small_shr d2), (small_land d2) by assumption.
  rewrite uadd_ok by (unfold W64; lia). rewrite bind_ok.
  rewrite uadd_ok by (unfold W64; lia). rewrite bind_ok.
  rewrite !Z.add_0_r, !Z.add_0_l, (small_shr d3), (small_land d3) by assumption.
  rewrite uadd_ok by (unfold W64; lia). rewrite bind_ok.
  rewrite uadd_ok by (unfold W64; lia). rewrite bind_ok.
  rewrite !Z.add_0_r, !Z.add_0_l, (small_land d4) by assumption.
  eexists. split; [reflexivity|]. split.
  { rewrite slimbs_lim; cbn [s0 s1 s2 s3 s4]. unfold lim. auto. }
  rewrite sval_num; cbn [s0 s1 s2 s3 s4].
  rewrite E0, E1, E2, E3, E4. lia.
Qed.

(** Montgomery reduction of any product of 52-bit limbs: 52-bit limbs again, below the
    modulus only if the product was below 2^260 times the modulus. *)
Lemma sc_montgomery_reduce_wide ck t : wide_ok t -> wval t < 2 ^ 520 ->
  exists r k, sc_montgomery_reduce ck t = Ok r /\ slimbs r /\
    sval r * 2 ^ 260 = wval t + k * L.
Proof.
  destruct t as [t0 t1 t2 t3 t4 t5 t6 t7 t8].
  unfold wide_ok, wval; cbn [w0 w1 w2 w3 w4 w5 w6 w7 w8].
  intros (T0 & T1 & T2 & T3 & T4 & T5 & T6 & T7 & T8) HT.
  pose proof slimc0 as K0. pose proof slimc1 as K1. pose proof slimc2 as K2. pose proof slimc4 as K4. pose proof slimc3 as K3.
  unfold sc_montgomery_reduce; cbn [w0 w1 w2 w3 w4 w5 w6 w7 w8].
  cbv zeta.
  change (s1 SC_L) with 1363544697812651. change (s2 SC_L) with 714439.
  change (s4 SC_L) with 2199023255552. change (s3 SC_L) with 0.
  change (sc_adjustment_fact ck t0) with (bind (Ok t0) (sc_adjustment_fact ck)).
  unfold col in *.
  destruct (okb_sadjust ck (Ok t0) t0 _ (conj eq_refl T0) eq_refl) as (c0 & n0 & -> & L0 & B0 & E0).
  rewrite bind_ok; cbv iota beta.
  sadj E1 L1 B1. sadj E2 L2 B2. sadj E3 L3 B3. sadj E4 L4 B4.
  mred E5 L5 B5. mred E6 L6 B6. mred E7 L7 B7. mred E8 L8 B8.
  match goal with |- exists r k, sc_sub ck (SC ?a0 ?a1 ?a2 ?a3 (cast W64 ?a4)) _ = _ /\ _ =>
    rename a0 into r0; rename a1 into r1; rename a2 into r2; rename a3 into r3; rename a4 into c8 end.
  unfold lim in *. clear B0 B1 B2 B3 B4 B5 B6 B7 K0 K1 K2 K4. clear K3.
  set (N := n0 + x0 * 2^52 + x2 * 2^104 + x4 * 2^156 + x6 * 2^208).
  set (T := t0 + t1 * 2 ^ 52 + t2 * 2 ^ 104 + t3 * 2 ^ 156 + t4 * 2 ^ 208 + t5 * 2 ^ 260 +
     t6 * 2 ^ 312 + t7 * 2 ^ 364 + t8 * 2 ^ 416) in *.
  set (pv := r0 + r1 * 2^52 + r2 * 2^104 + r3 * 2^156 + c8 * 2^208).
  assert (KEY : 2 ^ 260 * pv = T + N * L).
  { assert (H0 : t0 = 4503599627370496 * c0 - n0 * 1129677152307299) by (clear - E0; lia).
    assert (H1 : t1 = 4503599627370496 * x -
       (c0 + n0 * 1363544697812651 + x0 * 1129677152307299)) by (clear - E1; lia).
    assert (H2 : t2 = 4503599627370496 * x1 -
       (x + n0 * 714439 + x0 * 1363544697812651 + x2 * 1129677152307299)) by (clear - E2; lia).
    assert (H3 : t3 = 4503599627370496 * x3 -
       (x1 + x0 * 714439 + x2 * 1363544697812651 + x4 * 1129677152307299)) by (clear - E3; lia).
    assert (H4 : t4 = 4503599627370496 * x5 -
       (x3 + n0 * 2199023255552 + x2 * 714439 + x4 * 1363544697812651 +
       x6 * 1129677152307299)) by (clear - E4; lia).
    assert (H5 : t5 = 4503599627370496 * x7 + r0 -
      (x5 + x0 * 2199023255552 + x4 * 714439 + x6 * 1363544697812651)) by (clear - E5; lia).
    assert (H6 : t6 = 4503599627370496 * x9 + r1 -
      (x7 + x2 * 2199023255552 + x6 * 714439)) by (clear - E6; lia).
    assert (H7 : t7 = 4503599627370496 * x11 + r2 - (x9 + x4 * 2199023255552))
      by (clear - E7; lia).
    assert (H8 : t8 = 4503599627370496 * c8 + r3 - (x11 + x6 * 2199023255552))
      by (clear - E8; lia).
    unfold T, N, pv. rewrite L_num, H0, H1, H2, H3, H4, H5, H6, H7, H8. ring. }
  assert (HT0 : 0 <= T) by (unfold T; clear - T0 T1 T2 T3 T4 T5 T6 T7 T8; lia).
  assert (HN : 0 <= N < 2 ^ 260) by (unfold N; clear - L0 L1 L2 L3 L4; lia).
  clear E0 E1 E2 E3 E4 E5 E6 E7 E8 T0 T1 T2 T3 T4 T5 T6 T7 T8 L0 L1 L2 L3 L4. clearbody T N.
  assert (Bpv : 0 <= pv < 2 ^ 260 + L) by (rewrite L_num in *; clear - KEY HT HT0 HN; lia).
  assert (B9 : 0 <= c8 < 9007199254740992).
  { unfold pv in Bpv. rewrite L_num in Bpv. clear - L5 L6 L7 L8 B8 Bpv. lia. }
  assert (Ec : cast W64 c8 = c8) by (rewrite cast64; apply Z.mod_small; lia).
  rewrite Ec.
  assert (Vpre : sval (SC r0 r1 r2 r3 c8) = pv) by reflexivity.
  destruct (Z.lt_ge_cases c8 4503599627370496) as [HC|HC].
  - assert (Lpre : slimbs (SC r0 r1 r2 r3 c8)) by (rewrite slimbs_lim; cbn; unfold lim; auto 10 with zarith).
    destruct (sc_sub_gen ck _ SC_L Lpre slimbs_SC_L) as (r & Er & Lr & Vr).
    { rewrite sval_SC_L, Vpre. rewrite L_num. clear - Bpv. lia. }
    rewrite sval_SC_L, Vpre in Vr.
    exists r, (if pv <? L then N else N - 2 ^ 260).
    split; [exact Er|]. split; [exact Lr|]. rewrite Vr. clear - KEY.
    match goal with |- context [if ?b then _ else _] => destruct b end; lia.
  - destruct (sc_sub_wide ck r0 r1 r2 r3 c8 L5 L6 L7 L8 HC) as (r & Er & Lr & Vr).
    { rewrite Vpre. apply Bpv. }
    exists r, (N - 2 ^ 260). split; [exact Er|]. split; [exact Lr|]. rewrite Vr, Vpre. clear - KEY. lia.
Qed.

Lemma sc_second_wide ck prod x k : slimbs prod -> sval prod * 2 ^ 260 = x + k * L ->
  exists r, (w' <- sc_mul_internal ck prod SC_RR ;; sc_montgomery_reduce ck w') = Ok r /\
    scanon r /\ sval r = x mod L.
Proof.
  intros F1 E. pose proof (sval_nonneg _ F1).
  destruct SRR_canon as [R1 R2]. pose proof (sval_nonneg _ R1).
  destruct (sc_mul_internal_ok ck prod SC_RR F1 R1) as (t & -> & Wt & Vt).
  rewrite bind_ok.
  destruct (sc_montgomery_reduce_ok ck t Wt) as (r & k2 & -> & Cr & Vr).
  { rewrite Vt. apply smul_bound; lia. }
  exists r. split; [reflexivity|]. split; [assumption|].
  rewrite Vt, SRR_val in Vr.
  set (m := 2 ^ 520 / L) in *. clearbody m.
  destruct (cancel_SR (sval r - x) (k * 2 ^ 260 - sval prod * m + k2)) as (j & Hj).
  { rewrite Z.mul_sub_distr_r, Vr.
    replace (sval prod * (2 ^ 260 * 2 ^ 260 - m * L)) with
      (sval prod * 2 ^ 260 * 2 ^ 260 - sval prod * m * L) by ring.
    rewrite E. ring. }
  apply scanon_mod with j; auto. lia.
Qed.

Lemma sc_mul_any ck a b : slimbs a -> slimbs b ->
  exists r, sc_mul ck a b = Ok r /\ scanon r /\ sval r = (sval a * sval b) mod L.
Proof.
  intros A B. unfold sc_mul.
  destruct (sc_mul_internal_ok ck a b A B) as (t & -> & Wt & Vt). rewrite bind_ok.
  destruct (sc_montgomery_reduce_wide ck t Wt) as (r & k & -> & Cr & Vr).
  { rewrite Vt. apply wide_bound; apply sval_nonneg; assumption. }
  rewrite bind_ok. rewrite Vt in Vr.
  exact (sc_second_wide ck r _ k Cr Vr).
Qed.

Lemma sc_square_any ck a : slimbs a ->
  exists r, sc_square ck a = Ok r /\ scanon r /\ sval r = (sval a * sval a) mod L.
Proof.
  intros A. unfold sc_square.
  destruct (sc_square_internal_ok ck a A) as (t & -> & Wt & Vt). rewrite bind_ok.
  destruct (sc_montgomery_reduce_wide ck t Wt) as (r & k & -> & Cr & Vr).
  { rewrite Vt. apply wide_bound; apply sval_nonneg; assumption. }
  rewrite bind_ok. rewrite Vt in Vr.
  exact (sc_second_wide ck r _ k Cr Vr).
Qed.

Lemma sc_montgomery_mul_any ck a b : slimbs a -> slimbs b ->
  exists r k, sc_montgomery_mul ck a b = Ok r /\ slimbs r /\
    sval r * 2 ^ 260 = sval a * sval b + k * L.
Proof.
  intros A B. unfold sc_montgomery_mul.
  destruct (sc_mul_internal_ok ck a b A B) as (t & -> & Wt & Vt). rewrite bind_ok.
  destruct (sc_montgomery_reduce_wide ck t Wt) as (r & k & E & Cr & Vr).
  { rewrite Vt. apply wide_bound; apply sval_nonneg; assumption. }
  exists r, k. rewrite Vt in Vr. auto.
Qed.
