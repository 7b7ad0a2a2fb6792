(** * Limb-level correctness of the field code *)

From Coq Require Import ZArith List Bool Lia.
From Verif Require Import Machine FieldModel Spec MachineFacts.
Import ListNotations.
Open Scope Z_scope.

Lemma p_num : p = 7237005577332262213973186563042994240857116359379907606001950938285454250989.
Proof. reflexivity. Qed.

Lemma fval_num a : fval a = f0 a + f1 a * 4503599627370496
  + f2 a * 20282409603651670423947251286016
  + f3 a * 91343852333181432387730302044767688728495783936
  + f4 a * 411376139330301510538742295639337626245683966408394965837152256.
Proof. reflexivity. Qed.

Definition lim (x : Z) := 0 <= x < 4503599627370496.

Lemma flimbs_lim a : flimbs a <-> lim (f0 a) /\ lim (f1 a) /\ lim (f2 a) /\ lim (f3 a) /\ lim (f4 a).
Proof. reflexivity. Qed.

(** One step of the borrow chain. *)
Lemma wsub_step a t : lim a -> 0 <= t <= 4503599627370496 ->
  exists b, (b = 0 \/ b = 1) /\ shr (wsub W64 a t) 63 = b /\
    Z.land (wsub W64 a t) mask52 = a - t + 4503599627370496 * b /\
    lim (a - t + 4503599627370496 * b) /\ (b = 1 <-> a < t).
Proof.
  unfold lim, mask52. intros Ha Ht. exists (if a <? t then 1 else 0).
  unfold wsub. rewrite cast64, shr63, land52.
  destruct (Z.ltb_spec a t).
  - assert (E : (a - t) mod 18446744073709551616 = a - t + 18446744073709551616).
    { symmetry. apply Zmod_unique with (-1); lia. }
    rewrite E. repeat split; try lia.
  - assert (E : (a - t) mod 18446744073709551616 = a - t) by (apply Z.mod_small; lia).
    rewrite E. repeat split; try lia.
Qed.

(** One step of a carry chain. *)
Lemma carry_split c : 0 <= c ->
  c = 4503599627370496 * shr c 52 + Z.land c mask52 /\ lim (Z.land c mask52) /\ 0 <= shr c 52.
Proof.
  intros H. unfold lim, mask52. rewrite shr52, land52. lia.
Qed.

Lemma uf_mask b : b = 0 \/ b = 1 ->
  forall l, lim l -> Z.land l (wsub W64 (Z.lxor b 1) 1) = l * b.
Proof.
  intros [-> | ->] l Hl; unfold lim in *.
  - change (wsub W64 (Z.lxor 0 1) 1) with 0. rewrite Z.land_0_r. lia.
  - change (wsub W64 (Z.lxor 1 1) 1) with (2 ^ 64 - 1).
    rewrite land_mask_mod by lia. rewrite Z.mod_small; lia.
Qed.

Lemma shr0 k : shr 0 k = 0.
Proof. unfold shr. apply Z.shiftr_0_l. Qed.

Lemma shr_le c n : 0 <= c < 4503599627370496 * n -> 0 <= shr c 52 < n.
Proof. rewrite shr52. lia. Qed.

(** General subtraction on 52-bit limbs. *)
Lemma fe_sub_gen ck a b : flimbs a -> flimbs b -> fval b <= fval a + p ->
  exists r, fe_sub ck a b = Ok r /\ flimbs r /\
    fval r = (if fval a <? fval b then fval a - fval b + p else fval a - fval b).
Proof.
  destruct a as [a0 a1 a2 a3 a4], b as [b0 b1 b2 b3 b4].
  rewrite !flimbs_lim. cbn [f0 f1 f2 f3 f4].
  intros (A0 & A1 & A2 & A3 & A4) (B0 & B1 & B2 & B3 & B4) Hle.
  unfold fe_sub, FIELD_L. cbn [f0 f1 f2 f3 f4].
  rewrite !shr0.
  rewrite uadd_ok by (unfold lim, W64 in *; lia). rewrite bind_ok.
  destruct (wsub_step a0 (b0 + 0)) as (k0 & K0 & S0 & D0 & R0 & _); [assumption|unfold lim in *; lia|].
  cbv zeta. rewrite S0, D0.
  rewrite uadd_ok by (unfold lim, W64 in *; lia). rewrite bind_ok.
  destruct (wsub_step a1 (b1 + k0)) as (k1 & K1 & S1 & D1 & R1 & _); [assumption|unfold lim in *; lia|].
  rewrite S1, D1.
  rewrite uadd_ok by (unfold lim, W64 in *; lia). rewrite bind_ok.
  destruct (wsub_step a2 (b2 + k1)) as (k2 & K2 & S2 & D2 & R2 & _); [assumption|unfold lim in *; lia|].
  rewrite S2, D2.
  rewrite uadd_ok by (unfold lim, W64 in *; lia). rewrite bind_ok.
  destruct (wsub_step a3 (b3 + k2)) as (k3 & K3 & S3 & D3 & R3 & _); [assumption|unfold lim in *; lia|].
  rewrite S3, D3.
  rewrite uadd_ok by (unfold lim, W64 in *; lia). rewrite bind_ok.
  destruct (wsub_step a4 (b4 + k3)) as (k4 & K4 & S4 & D4 & R4 & _); [assumption|unfold lim in *; lia|].
  rewrite S4, D4.
  rewrite !(uf_mask k4 K4) by (unfold lim; lia).
  clear S0 S1 S2 S3 S4 D0 D1 D2 D3 D4.
  remember (a0 - (b0 + 0) + 4503599627370496 * k0) as d0 eqn:E0.
  remember (a1 - (b1 + k0) + 4503599627370496 * k1) as d1 eqn:E1.
  remember (a2 - (b2 + k1) + 4503599627370496 * k2) as d2 eqn:E2.
  remember (a3 - (b3 + k2) + 4503599627370496 * k3) as d3 eqn:E3.
  remember (a4 - (b4 + k3) + 4503599627370496 * k4) as d4 eqn:E4.
  rewrite !fval_num in Hle; cbn [f0 f1 f2 f3 f4] in Hle. rewrite p_num in Hle.
  unfold lim in R0, R1, R2, R3, R4.
  (* carry chain *)
  rewrite uadd_ok by (unfold W64; lia). rewrite bind_ok.
  rewrite uadd_ok by (unfold W64; lia). rewrite bind_ok.
  set (c0 := 0 + d0 + 671914833335277 * k4).
  assert (H0 : 0 <= c0 < 4503599627370496 * 2) by (unfold c0; lia).
  destruct (carry_split c0) as (C0 & M0 & _); [lia|].
  pose proof (shr_le c0 2 H0) as P0.
  generalize dependent (shr c0 52). intros q0 C0 P0.
  rewrite uadd_ok by (unfold W64; lia). rewrite bind_ok.
  rewrite uadd_ok by (unfold W64; lia). rewrite bind_ok.
  set (c1 := q0 + d1 + 3916664325105025 * k4).
  assert (H1 : 0 <= c1 < 4503599627370496 * 2) by (unfold c1; lia).
  destruct (carry_split c1) as (C1 & M1 & _); [lia|].
  pose proof (shr_le c1 2 H1) as P1.
  generalize dependent (shr c1 52). intros q1 C1 P1.
  rewrite uadd_ok by (unfold W64; lia). rewrite bind_ok.
  rewrite uadd_ok by (unfold W64; lia). rewrite bind_ok.
  set (c2 := q1 + d2 + 1367801 * k4).
  assert (H2 : 0 <= c2 < 4503599627370496 * 2) by (unfold c2; lia).
  destruct (carry_split c2) as (C2 & M2 & _); [lia|].
  pose proof (shr_le c2 2 H2) as P2.
  generalize dependent (shr c2 52). intros q2 C2 P2.
  rewrite uadd_ok by (unfold W64; lia). rewrite bind_ok.
  rewrite uadd_ok by (unfold W64; lia). rewrite bind_ok.
  set (c3 := q2 + d3 + 0 * k4).
  assert (H3 : 0 <= c3 < 4503599627370496 * 2) by (unfold c3; lia).
  destruct (carry_split c3) as (C3 & M3 & _); [lia|].
  pose proof (shr_le c3 2 H3) as P3.
  generalize dependent (shr c3 52). intros q3 C3 P3.
  rewrite uadd_ok by (unfold W64; lia). rewrite bind_ok.
  rewrite uadd_ok by (unfold W64; lia). rewrite bind_ok.
  set (c4 := q3 + d4 + 17592186044416 * k4).
  assert (H4 : 0 <= c4 < 4503599627370496 * 2) by (unfold c4; lia).
  destruct (carry_split c4) as (C4 & M4 & _); [lia|].
  pose proof (shr_le c4 2 H4) as P4.
  generalize dependent (shr c4 52). intros q4 C4 P4.
  eexists. split; [reflexivity|]. split.
  { rewrite flimbs_lim; cbn [f0 f1 f2 f3 f4]. auto. }
  rewrite !fval_num; cbn [f0 f1 f2 f3 f4]. rewrite p_num.
  generalize dependent (Z.land c0 mask52). intros m0 C0 M0.
  generalize dependent (Z.land c1 mask52). intros m1 C1 M1.
  generalize dependent (Z.land c2 mask52). intros m2 C2 M2.
  generalize dependent (Z.land c3 mask52). intros m3 C3 M3.
  generalize dependent (Z.land c4 mask52). intros m4 C4 M4.
  unfold c0, c1, c2, c3, c4, lim in *.
  clear c0 c1 c2 c3 c4.
  destruct (Z.ltb_spec (a0 + a1 * 4503599627370496 + a2 * 20282409603651670423947251286016 +
     a3 * 91343852333181432387730302044767688728495783936 +
     a4 * 411376139330301510538742295639337626245683966408394965837152256)
    (b0 + b1 * 4503599627370496 + b2 * 20282409603651670423947251286016 +
     b3 * 91343852333181432387730302044767688728495783936 +
     b4 * 411376139330301510538742295639337626245683966408394965837152256)) as [HL|HL];
  destruct K4 as [-> | ->]; lia.
Qed.
