(** * Limb-level correctness of the scalar code *)

From Coq Require Import ZArith Znumtheory List Bool Lia.
From Verif Require Import Machine FieldModel ScalarModel Spec MachineFacts FieldLimb FieldMul.
Import ListNotations.
Open Scope Z_scope.

Lemma L_num : L = 904625697166532776746648320380374280118162305775999595296348570842476562531.
Proof. reflexivity. Qed.

Lemma sval_num a : sval a = s0 a + s1 a * 4503599627370496
  + s2 a * 20282409603651670423947251286016
  + s3 a * 91343852333181432387730302044767688728495783936
  + s4 a * 411376139330301510538742295639337626245683966408394965837152256.
Proof. reflexivity. Qed.

Lemma slimbs_lim a : slimbs a <-> lim (s0 a) /\ lim (s1 a) /\ lim (s2 a) /\ lim (s3 a) /\ lim (s4 a).
Proof. reflexivity. Qed.

(** General subtraction on 52-bit limbs. *)
Lemma sc_sub_gen ck a b : slimbs a -> slimbs b -> sval b <= sval a + L ->
  exists r, sc_sub ck a b = Ok r /\ slimbs r /\
    sval r = (if sval a <? sval b then sval a - sval b + L else sval a - sval b).
Proof.
  destruct a as [a0 a1 a2 a3 a4], b as [b0 b1 b2 b3 b4].
  rewrite !slimbs_lim. cbn [s0 s1 s2 s3 s4].
  intros (A0 & A1 & A2 & A3 & A4) (B0 & B1 & B2 & B3 & B4) Hle.
  unfold sc_sub, SC_L. cbn [s0 s1 s2 s3 s4].
  rewrite !shr0.
  rewrite uadd_ok by (unfold lim, W64 in *; lia). rewrite bind_ok.
  destruct (wsub_step a0 (b0 + 0)) as (k0 & K0 & S0 & D0 & R0 & _); [assumption|unfold lim in *; lia|].
  cbv zeta. rewrite S0, D0.
  rewrite uadd_ok by (unfold lim, W64 in *; lia). rewrite bind_ok.
  destruct (wsub_step a1 (b1 + k0)) as (k1 & K1 & S1 & D1 & R1 & _); [assumption|unfold lim in *; lia|].
  rewrite S1, D1.
  rewrite uadd_ok by (unfold lim, W64 in *; lia). rewrite bind_ok.
  destruct (wsub_step a2 (b2 + k1)) as (k2 & K2 & S2 & D2 & R2 & _); [assumption|unfold lim in *; lia|].
  rewrite S2, D2.
  rewrite uadd_ok by (unfold lim, W64 in *; lia). rewrite bind_ok.
  destruct (wsub_step a3 (b3 + k2)) as (k3 & K3 & S3 & D3 & R3 & _); [assumption|unfold lim in *; lia|].
  rewrite S3, D3.
  rewrite uadd_ok by (unfold lim, W64 in *; lia). rewrite bind_ok.
  destruct (wsub_step a4 (b4 + k3)) as (k4 & K4 & S4 & D4 & R4 & _); [assumption|unfold lim in *; lia|].
  rewrite S4, D4.
  rewrite !(uf_mask k4 K4) by (unfold lim; lia).
  clear S0 S1 S2 S3 S4 D0 D1 D2 D3 D4.
  remember (a0 - (b0 + 0) + 4503599627370496 * k0) as d0 eqn:E0.
  remember (a1 - (b1 + k0) + 4503599627370496 * k1) as d1 eqn:E1.
  remember (a2 - (b2 + k1) + 4503599627370496 * k2) as d2 eqn:E2.
  remember (a3 - (b3 + k2) + 4503599627370496 * k3) as d3 eqn:E3.
  remember (a4 - (b4 + k3) + 4503599627370496 * k4) as d4 eqn:E4.
  rewrite !sval_num in Hle; cbn [s0 s1 s2 s3 s4] in Hle. rewrite L_num in Hle.
  unfold lim in R0, R1, R2, R3, R4.
  (* carry chain *)
  rewrite uadd_ok by (unfold W64; lia). rewrite bind_ok.
  rewrite uadd_ok by (unfold W64; lia). rewrite bind_ok.
  set (c0 := 0 + d0 + 1129677152307299 * k4).
  assert (H0 : 0 <= c0 < 4503599627370496 * 2) by (unfold c0; lia).
  destruct (carry_split c0) as (C0 & M0 & _); [lia|].
  pose proof (shr_le c0 2 H0) as P0.
  generalize dependent (shr c0 52). intros q0 C0 P0.
  rewrite uadd_ok by (unfold W64; lia). rewrite bind_ok.
  rewrite uadd_ok by (unfold W64; lia). rewrite bind_ok.
  set (c1 := q0 + d1 + 1363544697812651 * k4).
  assert (H1 : 0 <= c1 < 4503599627370496 * 2) by (unfold c1; lia).
  destruct (carry_split c1) as (C1 & M1 & _); [lia|].
  pose proof (shr_le c1 2 H1) as P1.
  generalize dependent (shr c1 52). intros q1 C1 P1.
  rewrite uadd_ok by (unfold W64; lia). rewrite bind_ok.
  rewrite uadd_ok by (unfold W64; lia). rewrite bind_ok.
  set (c2 := q1 + d2 + 714439 * k4).
  assert (H2 : 0 <= c2 < 4503599627370496 * 2) by (unfold c2; lia).
  destruct (carry_split c2) as (C2 & M2 & _); [lia|].
  pose proof (shr_le c2 2 H2) as P2.
  generalize dependent (shr c2 52). intros q2 C2 P2.
  rewrite uadd_ok by (unfold W64; lia). rewrite bind_ok.
  rewrite uadd_ok by (unfold W64; lia). rewrite bind_ok.
  set (c3 := q2 + d3 + 0 * k4).
  assert (H3 : 0 <= c3 < 4503599627370496 * 2) by (unfold c3; lia).
  destruct (carry_split c3) as (C3 & M3 & _); [lia|].
  pose proof (shr_le c3 2 H3) as P3.
  generalize dependent (shr c3 52). intros q3 C3 P3.
  rewrite uadd_ok by (unfold W64; lia). rewrite bind_ok.
  rewrite uadd_ok by (unfold W64; lia). rewrite bind_ok.
  set (c4 := q3 + d4 + 2199023255552 * k4).
  assert (H4 : 0 <= c4 < 4503599627370496 * 2) by (unfold c4; lia).
  destruct (carry_split c4) as (C4 & M4 & _); [lia|].
  pose proof (shr_le c4 2 H4) as P4.
  generalize dependent (shr c4 52). intros q4 C4 P4.
  eexists. split; [reflexivity|]. split.
  { rewrite slimbs_lim; cbn [s0 s1 s2 s3 s4]. auto. }
  rewrite !sval_num; cbn [s0 s1 s2 s3 s4]. rewrite L_num.
  generalize dependent (Z.land c0 mask52). intros m0 C0 M0.
  generalize dependent (Z.land c1 mask52). intros m1 C1 M1.
  generalize dependent (Z.land c2 mask52). intros m2 C2 M2.
  generalize dependent (Z.land c3 mask52). intros m3 C3 M3.
  generalize dependent (Z.land c4 mask52). intros m4 C4 M4.
  unfold c0, c1, c2, c3, c4, lim in *.
  clear c0 c1 c2 c3 c4.
  destruct (Z.ltb_spec (a0 + a1 * 4503599627370496 + a2 * 20282409603651670423947251286016 +
     a3 * 91343852333181432387730302044767688728495783936 +
     a4 * 411376139330301510538742295639337626245683966408394965837152256)
    (b0 + b1 * 4503599627370496 + b2 * 20282409603651670423947251286016 +
     b3 * 91343852333181432387730302044767688728495783936 +
     b4 * 411376139330301510538742295639337626245683966408394965837152256)) as [HL|HL];
  destruct K4 as [-> | ->]; lia.
Qed.

Lemma sc_add_gen ck a b : slimbs a -> slimbs b -> sval a + sval b < 2 ^ 260 ->
  exists r, sc_add ck a b = Ok r /\ slimbs r /\
    sval r = (if sval a + sval b <? L then sval a + sval b else sval a + sval b - L).
Proof.
  destruct a as [a0 a1 a2 a3 a4], b as [b0 b1 b2 b3 b4].
  rewrite !slimbs_lim. cbn [s0 s1 s2 s3 s4].
  intros (A0 & A1 & A2 & A3 & A4) (B0 & B1 & B2 & B3 & B4) Hlt.
  unfold sc_add. cbn [s0 s1 s2 s3 s4].
  rewrite !shr0. unfold lim in *.
  rewrite uadd_ok by (unfold W64; lia). rewrite bind_ok.
  rewrite uadd_ok by (unfold W64; lia). rewrite bind_ok.
  set (c0 := a0 + b0 + 0).
  assert (H0 : 0 <= c0 < 4503599627370496 * 2) by (unfold c0; lia).
  destruct (carry_split c0) as (C0 & M0 & _); [lia|].
  pose proof (shr_le c0 2 H0) as P0.
  generalize dependent (shr c0 52). intros q0 C0 P0.
  rewrite uadd_ok by (unfold W64; lia). rewrite bind_ok.
  rewrite uadd_ok by (unfold W64; lia). rewrite bind_ok.
  set (c1 := a1 + b1 + q0).
  assert (H1 : 0 <= c1 < 4503599627370496 * 2) by (unfold c1; lia).
  destruct (carry_split c1) as (C1 & M1 & _); [lia|].
  pose proof (shr_le c1 2 H1) as P1.
  generalize dependent (shr c1 52). intros q1 C1 P1.
  rewrite uadd_ok by (unfold W64; lia). rewrite bind_ok.
  rewrite uadd_ok by (unfold W64; lia). rewrite bind_ok.
  set (c2 := a2 + b2 + q1).
  assert (H2 : 0 <= c2 < 4503599627370496 * 2) by (unfold c2; lia).
  destruct (carry_split c2) as (C2 & M2 & _); [lia|].
  pose proof (shr_le c2 2 H2) as P2.
  generalize dependent (shr c2 52). intros q2 C2 P2.
  rewrite uadd_ok by (unfold W64; lia). rewrite bind_ok.
  rewrite uadd_ok by (unfold W64; lia). rewrite bind_ok.
  set (c3 := a3 + b3 + q2).
  assert (H3 : 0 <= c3 < 4503599627370496 * 2) by (unfold c3; lia).
  destruct (carry_split c3) as (C3 & M3 & _); [lia|].
  pose proof (shr_le c3 2 H3) as P3.
  generalize dependent (shr c3 52). intros q3 C3 P3.
  rewrite uadd_ok by (unfold W64; lia). rewrite bind_ok.
  rewrite uadd_ok by (unfold W64; lia). rewrite bind_ok.
  set (c4 := a4 + b4 + q3).
  assert (H4 : 0 <= c4 < 4503599627370496 * 2) by (unfold c4; lia).
  destruct (carry_split c4) as (C4 & M4 & _); [lia|].
  pose proof (shr_le c4 2 H4) as P4.
  generalize dependent (shr c4 52). intros q4 C4 P4.
  rewrite !sval_num in *; cbn [s0 s1 s2 s3 s4] in *.
  generalize dependent (Z.land c0 mask52). intros m0 C0 M0.
  generalize dependent (Z.land c1 mask52). intros m1 C1 M1.
  generalize dependent (Z.land c2 mask52). intros m2 C2 M2.
  generalize dependent (Z.land c3 mask52). intros m3 C3 M3.
  generalize dependent (Z.land c4 mask52). intros m4 C4 M4.
  change (2 ^ 260) with 1852673427797059126777135760139006525652319754650249024631321344126610074238976 in Hlt.
  unfold c0, c1, c2, c3, c4, lim in *. clear c0 c1 c2 c3 c4.
  assert (LS : slimbs (SC m0 m1 m2 m3 m4)) by (rewrite slimbs_lim; cbn; unfold lim; auto).
  assert (LP : slimbs SC_L) by (rewrite slimbs_lim; cbn; unfold lim; lia).
  destruct (sc_sub_gen ck (SC m0 m1 m2 m3 m4) SC_L LS LP) as (r & -> & Lr & Vr).
  { rewrite !sval_num, L_num; cbn. lia. }
  exists r. split; [reflexivity|]. split; [assumption|].
  rewrite Vr, !sval_num, L_num; unfold SC_L; cbn [s0 s1 s2 s3 s4].
  assert (E : m0 + m1 * 4503599627370496 + m2 * 20282409603651670423947251286016 +
     m3 * 91343852333181432387730302044767688728495783936 +
     m4 * 411376139330301510538742295639337626245683966408394965837152256 =
     a0 + a1 * 4503599627370496 + a2 * 20282409603651670423947251286016 +
    a3 * 91343852333181432387730302044767688728495783936 +
    a4 * 411376139330301510538742295639337626245683966408394965837152256 +
    (b0 + b1 * 4503599627370496 + b2 * 20282409603651670423947251286016 +
     b3 * 91343852333181432387730302044767688728495783936 +
     b4 * 411376139330301510538742295639337626245683966408394965837152256)).
  { assert (q4 = 0) by lia. lia. }
  rewrite E.
  match goal with |- (if ?x <? ?y then _ else _) = (if ?x' <? ?y' then _ else _) =>
    destruct (Z.ltb_spec x y), (Z.ltb_spec x' y') end; lia.
Qed.

Lemma sc_mul_internal_ok ck a b : slimbs a -> slimbs b ->
  exists t, sc_mul_internal ck a b = Ok t /\ wide_ok t /\ wval t = sval a * sval b.
Proof.
  destruct a as [a0 a1 a2 a3 a4], b as [b0 b1 b2 b3 b4].
  rewrite !slimbs_lim. cbn [s0 s1 s2 s3 s4].
  intros (A0 & A1 & A2 & A3 & A4) (B0 & B1 & B2 & B3 & B4).
  unfold sc_mul_internal. cbn [s0 s1 s2 s3 s4].
  do 9 step_col.
  eexists. split; [reflexivity|]. split.
  - unfold wide_ok; cbn [w0 w1 w2 w3 w4 w5 w6 w7 w8]. repeat (split; [assumption|]). assumption.
  - rewrite !sval_num. unfold wval; cbn [w0 w1 w2 w3 w4 w5 w6 w7 w8 s0 s1 s2 s3 s4]. ring.
Qed.

Lemma sc_square_internal_ok ck a : slimbs a ->
  exists t, sc_square_internal ck a = Ok t /\ wide_ok t /\ wval t = sval a * sval a.
Proof.
  destruct a as [a0 a1 a2 a3 a4].
  rewrite !slimbs_lim. cbn [s0 s1 s2 s3 s4].
  intros (A0 & A1 & A2 & A3 & A4).
  unfold sc_square_internal. cbn [s0 s1 s2 s3 s4].
  rewrite !umul_ok by limW. rewrite !bind_ok.
  do 9 step_col.
  eexists. split; [reflexivity|]. split.
  - unfold wide_ok; cbn [w0 w1 w2 w3 w4 w5 w6 w7 w8]. repeat (split; [assumption|]). assumption.
  - rewrite !sval_num. unfold wval; cbn [w0 w1 w2 w3 w4 w5 w6 w7 w8 s0 s1 s2 s3 s4]. ring.
Qed.

Lemma sc_adjust_ok ck s : 0 <= s < 170141183460469231731687303715884105728 ->
  exists c n, sc_adjustment_fact ck s = Ok (c, n) /\ lim n /\
    4503599627370496 * c = s + n * 1129677152307299.
Proof.
  intros Hs. unfold sc_adjustment_fact. cbv zeta.
  set (n := Z.land (wmul W64 (cast W64 s) LFACTOR) mask52).
  assert (Hn : exists k, n = s * LFACTOR + 4503599627370496 * k /\ lim n).
  { unfold n, wmul, mask52. rewrite land52, !cast64. unfold LFACTOR, lim.
    pose proof (Z.div_mod s 18446744073709551616 ltac:(lia)) as E1.
    set (sm := s mod 18446744073709551616) in *.
    pose proof (Z.div_mod (sm * 1331240223835829) 18446744073709551616 ltac:(lia)) as E2.
    set (sn := (sm * 1331240223835829) mod 18446744073709551616) in *.
    pose proof (Z.div_mod sn 4503599627370496 ltac:(lia)) as E3.
    exists (- (4096 * (s / 18446744073709551616) * 1331240223835829)
            - 4096 * (sm * 1331240223835829 / 18446744073709551616) - sn / 4503599627370496).
    split; [lia|]. apply Z.mod_pos_bound. lia. }
  destruct Hn as (k & En & Ln).
  clearbody n. cbn [s0 SC_L].
  rewrite mm_ok by limW. rewrite bind_ok.
  rewrite uadd_ok by limW. rewrite bind_ok.
  exists (shr (s + n * 1129677152307299) 52), n. split; [reflexivity|]. split; [assumption|].
  rewrite shr52.
  assert (E : s + n * 1129677152307299 = (s * 333926589735032 + k * 1129677152307299) * 4503599627370496).
  { rewrite En. unfold LFACTOR. ring_simplify. lia. }
  rewrite E. rewrite Z.div_mul by lia. ring.
Qed.

Lemma slimbs_SC_L : slimbs SC_L.
Proof. rewrite slimbs_lim; cbn; unfold lim; lia. Qed.

Lemma sval_SC_L : sval SC_L = L.
Proof. reflexivity. Qed.

Lemma okb_sadjust ck r s B : okb r s B -> (B <=? 170141183460469231731687303715884105728) = true ->
  exists c n, bind r (sc_adjustment_fact ck) = Ok (c, n) /\ lim n /\
    0 <= c < 75557863725914323419136 /\
    4503599627370496 * c = s + n * 1129677152307299.
Proof.
  intros [-> H] HB. apply Z.leb_le in HB. rewrite bind_ok.
  destruct (sc_adjust_ok ck s) as (c & n & E & Ln & V); [lia|].
  exists c, n. repeat split; auto; unfold lim in *; lia.
Qed.

Ltac sadj E L B :=
  match goal with |- context [bind ?r (fun x => bind (sc_adjustment_fact ?ck x) ?g)] =>
    let C := fresh "C" in
    eassert (C : okb r _ _) by sums;
    rewrite <- (bind_assoc r (sc_adjustment_fact ck) g);
    destruct (okb_sadjust ck _ _ _ C eq_refl) as (? & ? & -> & L & B & E);
    clear C; rewrite bind_ok; cbv iota beta
  end.

Lemma slimc0 : lim 1129677152307299. Proof. unfold lim; lia. Qed.

Lemma slimc1 : lim 1363544697812651. Proof. unfold lim; lia. Qed.

Lemma slimc2 : lim 714439. Proof. unfold lim; lia. Qed.

Lemma slimc4 : lim 2199023255552. Proof. unfold lim; lia. Qed.

Lemma slimc3 : lim 0. Proof. unfold lim; lia. Qed.

(** Montgomery reduction of any T below 2^260 * L. *)
Lemma sc_montgomery_reduce_ok ck t : wide_ok t -> wval t < 2 ^ 260 * L ->
  exists r k, sc_montgomery_reduce ck t = Ok r /\ scanon r /\
    sval r * 2 ^ 260 = wval t + k * L.
Proof.
  destruct t as [t0 t1 t2 t3 t4 t5 t6 t7 t8].
  unfold wide_ok, wval; cbn [w0 w1 w2 w3 w4 w5 w6 w7 w8].
  intros (T0 & T1 & T2 & T3 & T4 & T5 & T6 & T7 & T8) HT.
  pose proof slimc0 as K0. pose proof slimc1 as K1. pose proof slimc2 as K2. pose proof slimc4 as K4. pose proof slimc3 as K3.
  unfold sc_montgomery_reduce; cbn [w0 w1 w2 w3 w4 w5 w6 w7 w8].
  cbv zeta.
  change (s1 SC_L) with 1363544697812651. change (s2 SC_L) with 714439.
  change (s4 SC_L) with 2199023255552. change (s3 SC_L) with 0.
  change (sc_adjustment_fact ck t0) with (bind (Ok t0) (sc_adjustment_fact ck)).
  unfold col in *.
  destruct (okb_sadjust ck (Ok t0) t0 _ (conj eq_refl T0) eq_refl) as (c0 & n0 & -> & L0 & B0 & E0).
  rewrite bind_ok; cbv iota beta.
  sadj E1 L1 B1. sadj E2 L2 B2. sadj E3 L3 B3. sadj E4 L4 B4.
  mred E5 L5 B5. mred E6 L6 B6. mred E7 L7 B7. mred E8 L8 B8.
  match goal with |- exists r k, sc_sub ck (SC ?a0 ?a1 ?a2 ?a3 (cast W64 ?a4)) _ = _ /\ _ =>
    rename a0 into r0; rename a1 into r1; rename a2 into r2; rename a3 into r3; rename a4 into c8 end.
  unfold lim in *. clear B0 B1 B2 B3 B4 B5 B6 B7 K0 K1 K2 K3 K4.
  set (N := n0 + x0 * 2^52 + x2 * 2^104 + x4 * 2^156 + x6 * 2^208).
  set (T := t0 + t1 * 2 ^ 52 + t2 * 2 ^ 104 + t3 * 2 ^ 156 + t4 * 2 ^ 208 + t5 * 2 ^ 260 +
     t6 * 2 ^ 312 + t7 * 2 ^ 364 + t8 * 2 ^ 416) in *.
  set (pv := r0 + r1 * 2^52 + r2 * 2^104 + r3 * 2^156 + c8 * 2^208).
  assert (KEY : 2 ^ 260 * pv = T + N * L).
  { assert (H0 : t0 = 4503599627370496 * c0 - n0 * 1129677152307299) by (clear - E0; lia).
    assert (H1 : t1 = 4503599627370496 * x -
       (c0 + n0 * 1363544697812651 + x0 * 1129677152307299)) by (clear - E1; lia).
    assert (H2 : t2 = 4503599627370496 * x1 -
       (x + n0 * 714439 + x0 * 1363544697812651 + x2 * 1129677152307299)) by (clear - E2; lia).
    assert (H3 : t3 = 4503599627370496 * x3 -
       (x1 + x0 * 714439 + x2 * 1363544697812651 + x4 * 1129677152307299)) by (clear - E3; lia).
    assert (H4 : t4 = 4503599627370496 * x5 -
       (x3 + n0 * 2199023255552 + x2 * 714439 + x4 * 1363544697812651 +
       x6 * 1129677152307299)) by (clear - E4; lia).
    assert (H5 : t5 = 4503599627370496 * x7 + r0 -
      (x5 + x0 * 2199023255552 + x4 * 714439 + x6 * 1363544697812651)) by (clear - E5; lia).
    assert (H6 : t6 = 4503599627370496 * x9 + r1 -
      (x7 + x2 * 2199023255552 + x6 * 714439)) by (clear - E6; lia).
    assert (H7 : t7 = 4503599627370496 * x11 + r2 - (x9 + x4 * 2199023255552))
      by (clear - E7; lia).
    assert (H8 : t8 = 4503599627370496 * c8 + r3 - (x11 + x6 * 2199023255552))
      by (clear - E8; lia).
    unfold T, N, pv. rewrite L_num, H0, H1, H2, H3, H4, H5, H6, H7, H8. ring. }
  assert (HT0 : 0 <= T) by (unfold T; clear - T0 T1 T2 T3 T4 T5 T6 T7 T8; lia).
  assert (HN : 0 <= N < 2 ^ 260) by (unfold N; clear - L0 L1 L2 L3 L4; lia).
  clear E0 E1 E2 E3 E4 E5 E6 E7 E8 T0 T1 T2 T3 T4 T5 T6 T7 T8 L0 L1 L2 L3 L4. clearbody T N.
  assert (Bpv : 0 <= pv < 2 * L) by (rewrite L_num in *; clear - KEY HT HT0 HN; lia).
  assert (B9 : 0 <= c8 < 4503599627370496).
  { unfold pv in Bpv. rewrite L_num in Bpv. clear - L5 L6 L7 L8 B8 Bpv. lia. }
  assert (Ec : cast W64 c8 = c8) by (rewrite cast64; apply Z.mod_small; lia).
  rewrite Ec.
  set (pre := SC r0 r1 r2 r3 c8).
  assert (Lpre : slimbs pre) by (rewrite slimbs_lim; cbn; unfold lim; auto).
  assert (Vpre : sval pre = pv) by reflexivity.
  clearbody pre pv.
  destruct (sc_sub_gen ck pre SC_L Lpre slimbs_SC_L) as (r & Er & Lr & Vr).
  { rewrite sval_SC_L. rewrite L_num in *. clear - Vpre Bpv. lia. }
  rewrite sval_SC_L, Vpre in Vr.
  exists r, (if pv <? L then N else N - 2 ^ 260).
  split; [exact Er|].
  unfold scanon. rewrite Vr. rewrite L_num in *. clear - KEY HN Bpv Lr.
  match goal with |- context [if ?b then _ else _] => destruct b eqn:E end.
  - apply Z.ltb_lt in E. split; [split; [assumption|lia]|]. lia.
  - apply Z.ltb_ge in E. split; [split; [assumption|lia]|]. lia.
Qed.

