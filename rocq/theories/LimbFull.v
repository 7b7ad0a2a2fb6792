(** * Addition and subtraction of arbitrary 52-bit limbs, without reducing the operands first *)

From Coq Require Import ZArith Lia List Bool.
From Verif Require Import Machine FieldModel ScalarModel Spec MachineFacts FieldLimb FieldMul ScalarLimb.
Open Scope Z_scope.

Lemma fe_sub_full ck a b : flimbs a -> flimbs b ->
  exists r, fe_sub ck a b = Ok r /\ flimbs r /\
    fval r = (if fval a <? fval b then (fval a - fval b + p) mod 2 ^ 260 else fval a - fval b).
Proof.
  destruct a as [a0 a1 a2 a3 a4], b as [b0 b1 b2 b3 b4].
  rewrite !flimbs_lim. cbn [f0 f1 f2 f3 f4].
  intros (A0 & A1 & A2 & A3 & A4) (B0 & B1 & B2 & B3 & B4).
  unfold fe_sub, FIELD_L. cbn [f0 f1 f2 f3 f4].
  rewrite !shr0.
  rewrite uadd_ok by (unfold lim, W64 in *; lia). rewrite bind_ok.
  destruct (wsub_step a0 (b0 + 0)) as (k0 & K0 & S0 & D0 & R0 & _); [assumption|unfold lim in *; lia|].
  cbv zeta. rewrite S0, D0.
  rewrite uadd_ok by (unfold lim, W64 in *; lia). rewrite bind_ok.
  destruct (wsub_step a1 (b1 + k0)) as (k1 & K1 & S1 & D1 & R1 & _); [assumption|unfold lim in *; lia|].
  rewrite S1, D1.
  rewrite uadd_ok by (unfold lim, W64 in *; lia). rewrite bind_ok.
  destruct (wsub_step a2 (b2 + k1)) as (k2 & K2 & S2 & D2 & R2 & _); [assumption|unfold lim in *; lia|].
  rewrite S2, D2.
  rewrite uadd_ok by (unfold lim, W64 in *; lia). rewrite bind_ok.
  destruct (wsub_step a3 (b3 + k2)) as (k3 & K3 & S3 & D3 & R3 & _); [assumption|unfold lim in *; lia|].
  rewrite S3, D3.
  rewrite uadd_ok by (unfold lim, W64 in *; lia). rewrite bind_ok.
  destruct (wsub_step a4 (b4 + k3)) as (k4 & K4 & S4 & D4 & R4 & _); [assumption|unfold lim in *; lia|].
  rewrite S4, D4.
  rewrite !(uf_mask k4 K4) by (unfold lim; lia).
  clear S0 S1 S2 S3 S4 D0 D1 D2 D3 D4.
  remember (a0 - (b0 + 0) + 4503599627370496 * k0) as d0 eqn:E0.
  remember (a1 - (b1 + k0) + 4503599627370496 * k1) as d1 eqn:E1.
  remember (a2 - (b2 + k1) + 4503599627370496 * k2) as d2 eqn:E2.
  remember (a3 - (b3 + k2) + 4503599627370496 * k3) as d3 eqn:E3.
  remember (a4 - (b4 + k3) + 4503599627370496 * k4) as d4 eqn:E4.
  unfold lim in R0, R1, R2, R3, R4.
  (* carry chain *)
  rewrite uadd_ok by (unfold W64; lia). rewrite bind_ok.
  rewrite uadd_ok by (unfold W64; lia). rewrite bind_ok.
  set (c0 := 0 + d0 + 671914833335277 * k4).
  assert (H0 : 0 <= c0 < 4503599627370496 * 2) by (unfold c0; lia).
  destruct (carry_split c0) as (C0 & M0 & _); [lia|].
  pose proof (shr_le c0 2 H0) as P0.
  generalize dependent (shr c0 52). intros q0 C0 P0.
  rewrite uadd_ok by (unfold W64; lia). rewrite bind_ok.
  rewrite uadd_ok by (unfold W64; lia). rewrite bind_ok.
  set (c1 := q0 + d1 + 3916664325105025 * k4).
  assert (H1 : 0 <= c1 < 4503599627370496 * 2) by (unfold c1; lia).
  destruct (carry_split c1) as (C1 & M1 & _); [lia|].
  pose proof (shr_le c1 2 H1) as P1.
  generalize dependent (shr c1 52). intros q1 C1 P1.
  rewrite uadd_ok by (unfold W64; lia). rewrite bind_ok.
  rewrite uadd_ok by (unfold W64; lia). rewrite bind_ok.
  set (c2 := q1 + d2 + 1367801 * k4).
  assert (H2 : 0 <= c2 < 4503599627370496 * 2) by (unfold c2; lia).
  destruct (carry_split c2) as (C2 & M2 & _); [lia|].
  pose proof (shr_le c2 2 H2) as P2.
  generalize dependent (shr c2 52). intros q2 C2 P2.
  rewrite uadd_ok by (unfold W64; lia). rewrite bind_ok.
  rewrite uadd_ok by (unfold W64; lia). rewrite bind_ok.
  set (c3 := q2 + d3 + 0 * k4).
  assert (H3 : 0 <= c3 < 4503599627370496 * 2) by (unfold c3; lia).
  destruct (carry_split c3) as (C3 & M3 & _); [lia|].
  pose proof (shr_le c3 2 H3) as P3.
  generalize dependent (shr c3 52). intros q3 C3 P3.
  rewrite uadd_ok by (unfold W64; lia). rewrite bind_ok.
  rewrite uadd_ok by (unfold W64; lia). rewrite bind_ok.
  set (c4 := q3 + d4 + 17592186044416 * k4).
  assert (H4 : 0 <= c4 < 4503599627370496 * 2) by (unfold c4; lia).
  destruct (carry_split c4) as (C4 & M4 & _); [lia|].
  pose proof (shr_le c4 2 H4) as P4.
  generalize dependent (shr c4 52). intros q4 C4 P4.
  eexists. split; [reflexivity|]. split.
  { rewrite flimbs_lim; cbn [f0 f1 f2 f3 f4]. auto. }
  rewrite !fval_num; cbn [f0 f1 f2 f3 f4]. rewrite p_num.
  generalize dependent (Z.land c0 mask52). intros m0 C0 M0.
  generalize dependent (Z.land c1 mask52). intros m1 C1 M1.
  generalize dependent (Z.land c2 mask52). intros m2 C2 M2.
  generalize dependent (Z.land c3 mask52). intros m3 C3 M3.
  generalize dependent (Z.land c4 mask52). intros m4 C4 M4.
  unfold c0, c1, c2, c3, c4, lim in *.
  clear c0 c1 c2 c3 c4.
  destruct (Z.ltb_spec (a0 + a1 * 4503599627370496 + a2 * 20282409603651670423947251286016 +
     a3 * 91343852333181432387730302044767688728495783936 +
     a4 * 411376139330301510538742295639337626245683966408394965837152256)
    (b0 + b1 * 4503599627370496 + b2 * 20282409603651670423947251286016 +
     b3 * 91343852333181432387730302044767688728495783936 +
     b4 * 411376139330301510538742295639337626245683966408394965837152256)) as [HL|HL];
  destruct K4 as [-> | ->]; lia.
Qed.

Lemma fe_add_full ck a b : flimbs a -> flimbs b ->
  exists r, fe_add ck a b = Ok r /\ flimbs r /\
    fval r = (if (fval a + fval b) mod 2 ^ 260 <? p then (fval a + fval b) mod 2 ^ 260
              else (fval a + fval b) mod 2 ^ 260 - p).
Proof.
  destruct a as [a0 a1 a2 a3 a4], b as [b0 b1 b2 b3 b4].
  rewrite !flimbs_lim. cbn [f0 f1 f2 f3 f4].
  intros (A0 & A1 & A2 & A3 & A4) (B0 & B1 & B2 & B3 & B4).
  unfold fe_add. cbn [f0 f1 f2 f3 f4].
  rewrite !shr0. unfold lim in *.
  rewrite uadd_ok by (unfold W64; lia). rewrite bind_ok.
  rewrite uadd_ok by (unfold W64; lia). rewrite bind_ok.
  set (c0 := a0 + b0 + 0).
  assert (H0 : 0 <= c0 < 4503599627370496 * 2) by (unfold c0; lia).
  destruct (carry_split c0) as (C0 & M0 & _); [lia|].
  pose proof (shr_le c0 2 H0) as P0.
  generalize dependent (shr c0 52). intros q0 C0 P0.
  rewrite uadd_ok by (unfold W64; lia). rewrite bind_ok.
  rewrite uadd_ok by (unfold W64; lia). rewrite bind_ok.
  set (c1 := a1 + b1 + q0).
  assert (H1 : 0 <= c1 < 4503599627370496 * 2) by (unfold c1; lia).
  destruct (carry_split c1) as (C1 & M1 & _); [lia|].
  pose proof (shr_le c1 2 H1) as P1.
  generalize dependent (shr c1 52). intros q1 C1 P1.
  rewrite uadd_ok by (unfold W64; lia). rewrite bind_ok.
  rewrite uadd_ok by (unfold W64; lia). rewrite bind_ok.
  set (c2 := a2 + b2 + q1).
  assert (H2 : 0 <= c2 < 4503599627370496 * 2) by (unfold c2; lia).
  destruct (carry_split c2) as (C2 & M2 & _); [lia|].
  pose proof (shr_le c2 2 H2) as P2.
  generalize dependent (shr c2 52). intros q2 C2 P2.
  rewrite uadd_ok by (unfold W64; lia). rewrite bind_ok.
  rewrite uadd_ok by (unfold W64; lia). rewrite bind_ok.
  set (c3 := a3 + b3 + q2).
  assert (H3 : 0 <= c3 < 4503599627370496 * 2) by (unfold c3; lia).
  destruct (carry_split c3) as (C3 & M3 & _); [lia|].
  pose proof (shr_le c3 2 H3) as P3.
  generalize dependent (shr c3 52). intros q3 C3 P3.
  rewrite uadd_ok by (unfold W64; lia). rewrite bind_ok.
  rewrite uadd_ok by (unfold W64; lia). rewrite bind_ok.
  set (c4 := a4 + b4 + q3).
  assert (H4 : 0 <= c4 < 4503599627370496 * 2) by (unfold c4; lia).
  destruct (carry_split c4) as (C4 & M4 & _); [lia|].
  pose proof (shr_le c4 2 H4) as P4.
  generalize dependent (shr c4 52). intros q4 C4 P4.
  rewrite !fval_num in *; cbn [f0 f1 f2 f3 f4] in *.
  generalize dependent (Z.land c0 mask52). intros m0 C0 M0.
  generalize dependent (Z.land c1 mask52). intros m1 C1 M1.
  generalize dependent (Z.land c2 mask52). intros m2 C2 M2.
  generalize dependent (Z.land c3 mask52). intros m3 C3 M3.
  generalize dependent (Z.land c4 mask52). intros m4 C4 M4.
  unfold c0, c1, c2, c3, c4, lim in *. clear c0 c1 c2 c3 c4.
  assert (LS : flimbs (FE m0 m1 m2 m3 m4)) by (rewrite flimbs_lim; cbn; unfold lim; auto).
  assert (LP : flimbs FIELD_L) by (rewrite flimbs_lim; cbn; unfold lim; lia).
  destruct (fe_sub_full ck (FE m0 m1 m2 m3 m4) FIELD_L LS LP) as (r & -> & Lr & Vr).
  exists r. split; [reflexivity|]. split; [assumption|].
  rewrite Vr, !fval_num, p_num; unfold FIELD_L; cbn [f0 f1 f2 f3 f4].
  change (2 ^ 260) with 1852673427797059126777135760139006525652319754650249024631321344126610074238976.
  assert (E : (     a0 + a1 * 4503599627370496 + a2 * 20282409603651670423947251286016 +
    a3 * 91343852333181432387730302044767688728495783936 +
    a4 * 411376139330301510538742295639337626245683966408394965837152256 +
    (b0 + b1 * 4503599627370496 + b2 * 20282409603651670423947251286016 +
     b3 * 91343852333181432387730302044767688728495783936 +
     b4 * 411376139330301510538742295639337626245683966408394965837152256)) mod 1852673427797059126777135760139006525652319754650249024631321344126610074238976 =
     m0 + m1 * 4503599627370496 + m2 * 20282409603651670423947251286016 +
     m3 * 91343852333181432387730302044767688728495783936 +
     m4 * 411376139330301510538742295639337626245683966408394965837152256).
  { symmetry. apply Zmod_unique with q4; lia. }
  rewrite E.
  match goal with |- (if ?x <? ?y then _ else _) = (if ?x' <? ?y' then _ else _) =>
    destruct (Z.ltb_spec x y), (Z.ltb_spec x' y') end; lia.
Qed.

Lemma sc_sub_full ck a b : slimbs a -> slimbs b ->
  exists r, sc_sub ck a b = Ok r /\ slimbs r /\
    sval r = (if sval a <? sval b then (sval a - sval b + L) mod 2 ^ 260 else sval a - sval b).
Proof.
  destruct a as [a0 a1 a2 a3 a4], b as [b0 b1 b2 b3 b4].
  rewrite !slimbs_lim. cbn [s0 s1 s2 s3 s4].
  intros (A0 & A1 & A2 & A3 & A4) (B0 & B1 & B2 & B3 & B4).
  unfold sc_sub, SC_L. cbn [s0 s1 s2 s3 s4].
  rewrite !shr0.
  rewrite uadd_ok by (unfold lim, W64 in *; lia). rewrite bind_ok.
  destruct (wsub_step a0 (b0 + 0)) as (k0 & K0 & S0 & D0 & R0 & _); [assumption|unfold lim in *; lia|].
  cbv zeta. rewrite S0, D0.
  rewrite uadd_ok by (unfold lim, W64 in *; lia). rewrite bind_ok.
  destruct (wsub_step a1 (b1 + k0)) as (k1 & K1 & S1 & D1 & R1 & _); [assumption|unfold lim in *; lia|].
  rewrite S1, D1.
  rewrite uadd_ok by (unfold lim, W64 in *; lia). rewrite bind_ok.
  destruct (wsub_step a2 (b2 + k1)) as (k2 & K2 & S2 & D2 & R2 & _); [assumption|unfold lim in *; lia|].
  rewrite S2, D2.
  rewrite uadd_ok by (unfold lim, W64 in *; lia). rewrite bind_ok.
  destruct (wsub_step a3 (b3 + k2)) as (k3 & K3 & S3 & D3 & R3 & _); [assumption|unfold lim in *; lia|].
  rewrite S3, D3.
  rewrite uadd_ok by (unfold lim, W64 in *; lia). rewrite bind_ok.
  destruct (wsub_step a4 (b4 + k3)) as (k4 & K4 & S4 & D4 & R4 & _); [assumption|unfold lim in *; lia|].
  rewrite S4, D4.
  rewrite !(uf_mask k4 K4) by (unfold lim; lia).
  clear S0 S1 S2 S3 S4 D0 D1 D2 D3 D4.
  remember (a0 - (b0 + 0) + 4503599627370496 * k0) as d0 eqn:E0.
  remember (a1 - (b1 + k0) + 4503599627370496 * k1) as d1 eqn:E1.
  remember (a2 - (b2 + k1) + 4503599627370496 * k2) as d2 eqn:E2.
  remember (a3 - (b3 + k2) + 4503599627370496 * k3) as d3 eqn:E3.
  remember (a4 - (b4 + k3) + 4503599627370496 * k4) as d4 eqn:E4.
  unfold lim in R0, R1, R2, R3, R4.
  (* carry chain *)
  rewrite uadd_ok by (unfold W64; lia). rewrite bind_ok.
  rewrite uadd_ok by (unfold W64; lia). rewrite bind_ok.
  set (c0 := 0 + d0 + 1129677152307299 * k4).
  assert (H0 : 0 <= c0 < 4503599627370496 * 2) by (unfold c0; lia).
  destruct (carry_split c0) as (C0 & M0 & _); [lia|].
  pose proof (shr_le c0 2 H0) as P0.
  generalize dependent (shr c0 52). intros q0 C0 P0.
  rewrite uadd_ok by (unfold W64; lia). rewrite bind_ok.
  rewrite uadd_ok by (unfold W64; lia). rewrite bind_ok.
  set (c1 := q0 + d1 + 1363544697812651 * k4).
  assert (H1 : 0 <= c1 < 4503599627370496 * 2) by (unfold c1; lia).
  destruct (carry_split c1) as (C1 & M1 & _); [lia|].
  pose proof (shr_le c1 2 H1) as P1.
  generalize dependent (shr c1 52). intros q1 C1 P1.
  rewrite uadd_ok by (unfold W64; lia). rewrite bind_ok.
  rewrite uadd_ok by (unfold W64; lia). rewrite bind_ok.
  set (c2 := q1 + d2 + 714439 * k4).
  assert (H2 : 0 <= c2 < 4503599627370496 * 2) by (unfold c2; lia).
  destruct (carry_split c2) as (C2 & M2 & _); [lia|].
  pose proof (shr_le c2 2 H2) as P2.
  generalize dependent (shr c2 52). intros q2 C2 P2.
  rewrite uadd_ok by (unfold W64; lia). rewrite bind_ok.
  rewrite uadd_ok by (unfold W64; lia). rewrite bind_ok.
  set (c3 := q2 + d3 + 0 * k4).
  assert (H3 : 0 <= c3 < 4503599627370496 * 2) by (unfold c3; lia).
  destruct (carry_split c3) as (C3 & M3 & _); [lia|].
  pose proof (shr_le c3 2 H3) as P3.
  generalize dependent (shr c3 52). intros q3 C3 P3.
  rewrite uadd_ok by (unfold W64; lia). rewrite bind_ok.
  rewrite uadd_ok by (unfold W64; lia). rewrite bind_ok.
  set (c4 := q3 + d4 + 2199023255552 * k4).
  assert (H4 : 0 <= c4 < 4503599627370496 * 2) by (unfold c4; lia).
  destruct (carry_split c4) as (C4 & M4 & _); [lia|].
  pose proof (shr_le c4 2 H4) as P4.
  generalize dependent (shr c4 52). intros q4 C4 P4.
  eexists. split; [reflexivity|]. split.
  { rewrite slimbs_lim; cbn [s0 s1 s2 s3 s4]. auto. }
  rewrite !sval_num; cbn [s0 s1 s2 s3 s4]. rewrite L_num.
  generalize dependent (Z.land c0 mask52). intros m0 C0 M0.
  generalize dependent (Z.land c1 mask52). intros m1 C1 M1.
  generalize dependent (Z.land c2 mask52). intros m2 C2 M2.
  generalize dependent (Z.land c3 mask52). intros m3 C3 M3.
  generalize dependent (Z.land c4 mask52). intros m4 C4 M4.
  unfold c0, c1, c2, c3, c4, lim in *.
  clear c0 c1 c2 c3 c4.
  destruct (Z.ltb_spec (a0 + a1 * 4503599627370496 + a2 * 20282409603651670423947251286016 +
     a3 * 91343852333181432387730302044767688728495783936 +
     a4 * 411376139330301510538742295639337626245683966408394965837152256)
    (b0 + b1 * 4503599627370496 + b2 * 20282409603651670423947251286016 +
     b3 * 91343852333181432387730302044767688728495783936 +
     b4 * 411376139330301510538742295639337626245683966408394965837152256)) as [HL|HL];
  destruct K4 as [-> | ->]; lia.
Qed.

Lemma sc_add_full ck a b : slimbs a -> slimbs b ->
  exists r, sc_add ck a b = Ok r /\ slimbs r /\
    sval r = (if (sval a + sval b) mod 2 ^ 260 <? L then (sval a + sval b) mod 2 ^ 260
              else (sval a + sval b) mod 2 ^ 260 - L).
Proof.
  destruct a as [a0 a1 a2 a3 a4], b as [b0 b1 b2 b3 b4].
  rewrite !slimbs_lim. cbn [s0 s1 s2 s3 s4].
  intros (A0 & A1 & A2 & A3 & A4) (B0 & B1 & B2 & B3 & B4).
  unfold sc_add. cbn [s0 s1 s2 s3 s4].
  rewrite !shr0. unfold lim in *.
  rewrite uadd_ok by (unfold W64; lia). rewrite bind_ok.
  rewrite uadd_ok by (unfold W64; lia). rewrite bind_ok.
  set (c0 := a0 + b0 + 0).
  assert (H0 : 0 <= c0 < 4503599627370496 * 2) by (unfold c0; lia).
  destruct (carry_split c0) as (C0 & M0 & _); [lia|].
  pose proof (shr_le c0 2 H0) as P0.
  generalize dependent (shr c0 52). intros q0 C0 P0.
  rewrite uadd_ok by (unfold W64; lia). rewrite bind_ok.
  rewrite uadd_ok by (unfold W64; lia). rewrite bind_ok.
  set (c1 := a1 + b1 + q0).
  assert (H1 : 0 <= c1 < 4503599627370496 * 2) by (unfold c1; lia).
  destruct (carry_split c1) as (C1 & M1 & _); [lia|].
  pose proof (shr_le c1 2 H1) as P1.
  generalize dependent (shr c1 52). intros q1 C1 P1.
  rewrite uadd_ok by (unfold W64; lia). rewrite bind_ok.
  rewrite uadd_ok by (unfold W64; lia). rewrite bind_ok.
  set (c2 := a2 + b2 + q1).
  assert (H2 : 0 <= c2 < 4503599627370496 * 2) by (unfold c2; lia).
  destruct (carry_split c2) as (C2 & M2 & _); [lia|].
  pose proof (shr_le c2 2 H2) as P2.
  generalize dependent (shr c2 52). intros q2 C2 P2.
  rewrite uadd_ok by (unfold W64; lia). rewrite bind_ok.
  rewrite uadd_ok by (unfold W64; lia). rewrite bind_ok.
  set (c3 := a3 + b3 + q2).
  assert (H3 : 0 <= c3 < 4503599627370496 * 2) by (unfold c3; lia).
  destruct (carry_split c3) as (C3 & M3 & _); [lia|].
  pose proof (shr_le c3 2 H3) as P3.
  generalize dependent (shr c3 52). intros q3 C3 P3.
  rewrite uadd_ok by (unfold W64; lia). rewrite bind_ok.
  rewrite uadd_ok by (unfold W64; lia). rewrite bind_ok.
  set (c4 := a4 + b4 + q3).
  assert (H4 : 0 <= c4 < 4503599627370496 * 2) by (unfold c4; lia).
  destruct (carry_split c4) as (C4 & M4 & _); [lia|].
  pose proof (shr_le c4 2 H4) as P4.
  generalize dependent (shr c4 52). intros q4 C4 P4.
  rewrite !sval_num in *; cbn [s0 s1 s2 s3 s4] in *.
  generalize dependent (Z.land c0 mask52). intros m0 C0 M0.
  generalize dependent (Z.land c1 mask52). intros m1 C1 M1.
  generalize dependent (Z.land c2 mask52). intros m2 C2 M2.
  generalize dependent (Z.land c3 mask52). intros m3 C3 M3.
  generalize dependent (Z.land c4 mask52). intros m4 C4 M4.
  unfold c0, c1, c2, c3, c4, lim in *. clear c0 c1 c2 c3 c4.
  assert (LS : slimbs (SC m0 m1 m2 m3 m4)) by (rewrite slimbs_lim; cbn; unfold lim; auto).
  assert (LP : slimbs SC_L) by (rewrite slimbs_lim; cbn; unfold lim; lia).
  destruct (sc_sub_full ck (SC m0 m1 m2 m3 m4) SC_L LS LP) as (r & -> & Lr & Vr).
  exists r. split; [reflexivity|]. split; [assumption|].
  rewrite Vr, !sval_num, L_num; unfold SC_L; cbn [s0 s1 s2 s3 s4].
  change (2 ^ 260) with 1852673427797059126777135760139006525652319754650249024631321344126610074238976.
  assert (E : (     a0 + a1 * 4503599627370496 + a2 * 20282409603651670423947251286016 +
    a3 * 91343852333181432387730302044767688728495783936 +
    a4 * 411376139330301510538742295639337626245683966408394965837152256 +
    (b0 + b1 * 4503599627370496 + b2 * 20282409603651670423947251286016 +
     b3 * 91343852333181432387730302044767688728495783936 +
     b4 * 411376139330301510538742295639337626245683966408394965837152256)) mod 1852673427797059126777135760139006525652319754650249024631321344126610074238976 =
     m0 + m1 * 4503599627370496 + m2 * 20282409603651670423947251286016 +
     m3 * 91343852333181432387730302044767688728495783936 +
     m4 * 411376139330301510538742295639337626245683966408394965837152256).
  { symmetry. apply Zmod_unique with q4; lia. }
  rewrite E.
  match goal with |- (if ?x <? ?y then _ else _) = (if ?x' <? ?y' then _ else _) =>
    destruct (Z.ltb_spec x y), (Z.ltb_spec x' y') end; lia.
Qed.
