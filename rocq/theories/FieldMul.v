(** * Addition, negation, multiplication and squaring of field elements *)

From Coq Require Import ZArith Znumtheory List Bool Lia.
From Verif Require Import Machine FieldModel Spec MachineFacts FieldLimb.
Import ListNotations.
Open Scope Z_scope.

Lemma fe_add_gen ck a b : flimbs a -> flimbs b -> fval a + fval b < 2 ^ 260 ->
  exists r, fe_add ck a b = Ok r /\ flimbs r /\
    fval r = (if fval a + fval b <? p then fval a + fval b else fval a + fval b - p).
Proof.
  destruct a as [a0 a1 a2 a3 a4], b as [b0 b1 b2 b3 b4].
  rewrite !flimbs_lim. cbn [f0 f1 f2 f3 f4].
  intros (A0 & A1 & A2 & A3 & A4) (B0 & B1 & B2 & B3 & B4) Hlt.
  unfold fe_add. cbn [f0 f1 f2 f3 f4].
  rewrite !shr0. unfold lim in *.
  rewrite uadd_ok by (unfold W64; lia). rewrite bind_ok.
  rewrite uadd_ok by (unfold W64; lia). rewrite bind_ok.
  set (c0 := a0 + b0 + 0).
  assert (H0 : 0 <= c0 < 4503599627370496 * 2) by (unfold c0; lia).
  destruct (carry_split c0) as (C0 & M0 & _); [lia|].
  pose proof (shr_le c0 2 H0) as P0.
  generalize dependent (shr c0 52). intros q0 C0 P0.
  rewrite uadd_ok by (unfold W64; lia). rewrite bind_ok.
  rewrite uadd_ok by (unfold W64; lia). rewrite bind_ok.
  set (c1 := a1 + b1 + q0).
  assert (H1 : 0 <= c1 < 4503599627370496 * 2) by (unfold c1; lia).
  destruct (carry_split c1) as (C1 & M1 & _); [lia|].
  pose proof (shr_le c1 2 H1) as P1.
  generalize dependent (shr c1 52). intros q1 C1 P1.
  rewrite uadd_ok by (unfold W64; lia). rewrite bind_ok.
  rewrite uadd_ok by (unfold W64; lia). rewrite bind_ok.
  set (c2 := a2 + b2 + q1).
  assert (H2 : 0 <= c2 < 4503599627370496 * 2) by (unfold c2; lia).
  destruct (carry_split c2) as (C2 & M2 & _); [lia|].
  pose proof (shr_le c2 2 H2) as P2.
  generalize dependent (shr c2 52). intros q2 C2 P2.
  rewrite uadd_ok by (unfold W64; lia). rewrite bind_ok.
  rewrite uadd_ok by (unfold W64; lia). rewrite bind_ok.
  set (c3 := a3 + b3 + q2).
  assert (H3 : 0 <= c3 < 4503599627370496 * 2) by (unfold c3; lia).
  destruct (carry_split c3) as (C3 & M3 & _); [lia|].
  pose proof (shr_le c3 2 H3) as P3.
  generalize dependent (shr c3 52). intros q3 C3 P3.
  rewrite uadd_ok by (unfold W64; lia). rewrite bind_ok.
  rewrite uadd_ok by (unfold W64; lia). rewrite bind_ok.
  set (c4 := a4 + b4 + q3).
  assert (H4 : 0 <= c4 < 4503599627370496 * 2) by (unfold c4; lia).
  destruct (carry_split c4) as (C4 & M4 & _); [lia|].
  pose proof (shr_le c4 2 H4) as P4.
  generalize dependent (shr c4 52). intros q4 C4 P4.
  rewrite !fval_num in *; cbn [f0 f1 f2 f3 f4] in *.
  generalize dependent (Z.land c0 mask52). intros m0 C0 M0.
  generalize dependent (Z.land c1 mask52). intros m1 C1 M1.
  generalize dependent (Z.land c2 mask52). intros m2 C2 M2.
  generalize dependent (Z.land c3 mask52). intros m3 C3 M3.
  generalize dependent (Z.land c4 mask52). intros m4 C4 M4.
  change (2 ^ 260) with 1852673427797059126777135760139006525652319754650249024631321344126610074238976 in Hlt.
  unfold c0, c1, c2, c3, c4, lim in *. clear c0 c1 c2 c3 c4.
  assert (LS : flimbs (FE m0 m1 m2 m3 m4)) by (rewrite flimbs_lim; cbn; unfold lim; auto).
  assert (LP : flimbs FIELD_L) by (rewrite flimbs_lim; cbn; unfold lim; lia).
  destruct (fe_sub_gen ck (FE m0 m1 m2 m3 m4) FIELD_L LS LP) as (r & -> & Lr & Vr).
  { rewrite !fval_num, p_num; cbn. lia. }
  exists r. split; [reflexivity|]. split; [assumption|].
  rewrite Vr, !fval_num, p_num; unfold FIELD_L; cbn [f0 f1 f2 f3 f4].
  assert (E : m0 + m1 * 4503599627370496 + m2 * 20282409603651670423947251286016 +
     m3 * 91343852333181432387730302044767688728495783936 +
     m4 * 411376139330301510538742295639337626245683966408394965837152256 =
     a0 + a1 * 4503599627370496 + a2 * 20282409603651670423947251286016 +
    a3 * 91343852333181432387730302044767688728495783936 +
    a4 * 411376139330301510538742295639337626245683966408394965837152256 +
    (b0 + b1 * 4503599627370496 + b2 * 20282409603651670423947251286016 +
     b3 * 91343852333181432387730302044767688728495783936 +
     b4 * 411376139330301510538742295639337626245683966408394965837152256)).
  { assert (q4 = 0) by lia. lia. }
  rewrite E.
  match goal with |- (if ?x <? ?y then _ else _) = (if ?x' <? ?y' then _ else _) =>
    destruct (Z.ltb_spec x y), (Z.ltb_spec x' y') end; lia.
Qed.

Lemma mm_ok ck x y : 0 <= x < W64 -> 0 <= y < W64 -> mm ck x y = Ok (x * y).
Proof. unfold W64; intros. unfold mm. apply umul_ok. unfold W128. nia. Qed.

Lemma sum2_ok ck a b x y : a = Ok x -> b = Ok y -> x + y < W128 -> sum2 ck a b = Ok (x + y).
Proof. intros -> -> H. unfold sum2. rewrite !bind_ok. now apply uadd_ok. Qed.

(** [okb r x B]: the computation [r] returns [x], which lies in [0, B). *)
Definition okb (r : res Z) (x B : Z) : Prop := r = Ok x /\ 0 <= x < B.

Lemma okb_bind {A} r x B (f : Z -> res A) : okb r x B -> bind r f = f x.
Proof. intros [-> _]. reflexivity. Qed.

Lemma okb_mm ck x y : lim x -> lim y -> okb (mm ck x y) (x * y) 20282409603651670423947251286016.
Proof.
  unfold lim; intros. split; [|nia]. apply mm_ok; unfold W64; lia.
Qed.

Lemma okb_mm2 ck x y : lim x -> lim y ->
  okb (mm ck (x * 2) y) (x * 2 * y) 40564819207303340847894502572032.
Proof.
  unfold lim; intros. split; [|nia]. apply mm_ok; unfold W64; lia.
Qed.

Lemma okb_sum ck a b x y A B : okb a x A -> okb b y B -> (A + B <=? W128) = true ->
  okb (sum2 ck a b) (x + y) (A + B).
Proof.
  intros [-> H1] [-> H2] H. apply Z.leb_le in H. unfold sum2. rewrite !bind_ok.
  split; [apply uadd_ok; lia|lia].
Qed.

Lemma okb_uadd ck x y A B : 0 <= x < A -> 0 <= y < B -> (A + B <=? W128) = true ->
  okb (uadd ck W128 x y) (x + y) (A + B).
Proof.
  intros H1 H2 H. apply Z.leb_le in H. split; [apply uadd_ok; lia|lia].
Qed.

Definition wval (t : wide) : Z :=
  w0 t + w1 t * 2 ^ 52 + w2 t * 2 ^ 104 + w3 t * 2 ^ 156 + w4 t * 2 ^ 208 +
  w5 t * 2 ^ 260 + w6 t * 2 ^ 312 + w7 t * 2 ^ 364 + w8 t * 2 ^ 416.

(** All columns below 2^108. *)
Definition col (x : Z) := 0 <= x < 324518553658426726783156020576256.
Definition wide_ok (t : wide) : Prop :=
  col (w0 t) /\ col (w1 t) /\ col (w2 t) /\ col (w3 t) /\ col (w4 t) /\
  col (w5 t) /\ col (w6 t) /\ col (w7 t) /\ col (w8 t).

Ltac limW := unfold lim, W64, W128 in *; lia.
Ltac sums := first [eapply okb_mm2; eassumption | eapply okb_mm; eassumption
                   | eapply okb_sum; [sums|sums|reflexivity]
                   | eapply okb_uadd; [eassumption|eassumption|reflexivity] ].

Lemma okb_get r x B : okb r x B -> r = Ok x.
Proof. now intros []. Qed.
Lemma okb_col r x B : okb r x B -> (B <=? 324518553658426726783156020576256) = true -> col x.
Proof. intros [_ H] E. apply Z.leb_le in E. unfold col. lia. Qed.

Ltac step_col :=
  match goal with |- context [bind ?r _] =>
    let C := fresh "C" in
    eassert (C : okb r _ _) by sums;
    rewrite (okb_get _ _ _ C), bind_ok;
    apply okb_col in C; [|reflexivity]
  end.

Lemma fe_mul_internal_ok ck a b : flimbs a -> flimbs b ->
  exists t, fe_mul_internal ck a b = Ok t /\ wide_ok t /\ wval t = fval a * fval b.
Proof.
  destruct a as [a0 a1 a2 a3 a4], b as [b0 b1 b2 b3 b4].
  rewrite !flimbs_lim. cbn [f0 f1 f2 f3 f4].
  intros (A0 & A1 & A2 & A3 & A4) (B0 & B1 & B2 & B3 & B4).
  unfold fe_mul_internal. cbn [f0 f1 f2 f3 f4].
  do 9 step_col.
  eexists. split; [reflexivity|]. split.
  - unfold wide_ok; cbn [w0 w1 w2 w3 w4 w5 w6 w7 w8]. repeat (split; [assumption|]). assumption.
  - rewrite !fval_num. unfold wval; cbn [w0 w1 w2 w3 w4 w5 w6 w7 w8 f0 f1 f2 f3 f4]. ring.
Qed.

Lemma fe_square_internal_ok ck a : flimbs a ->
  exists t, fe_square_internal ck a = Ok t /\ wide_ok t /\ wval t = fval a * fval a.
Proof.
  destruct a as [a0 a1 a2 a3 a4].
  rewrite !flimbs_lim. cbn [f0 f1 f2 f3 f4].
  intros (A0 & A1 & A2 & A3 & A4).
  unfold fe_square_internal. cbn [f0 f1 f2 f3 f4].
  rewrite !umul_ok by limW. rewrite !bind_ok.
  do 9 step_col.
  eexists. split; [reflexivity|]. split.
  - unfold wide_ok; cbn [w0 w1 w2 w3 w4 w5 w6 w7 w8]. repeat (split; [assumption|]). assumption.
  - rewrite !fval_num. unfold wval; cbn [w0 w1 w2 w3 w4 w5 w6 w7 w8 f0 f1 f2 f3 f4]. ring.
Qed.

Lemma fe_adjust_ok ck s : 0 <= s < 170141183460469231731687303715884105728 ->
  exists c n, fe_adjustment_fact ck s = Ok (c, n) /\ lim n /\
    4503599627370496 * c = s + n * 671914833335277.
Proof.
  intros Hs. unfold fe_adjustment_fact. cbv zeta.
  set (n := Z.land (wmul W64 (cast W64 s) LFACTOR_FIELD) mask52).
  assert (Hn : exists k, n = s * LFACTOR_FIELD + 4503599627370496 * k /\ lim n).
  { unfold n, wmul, mask52. rewrite land52, !cast64. unfold LFACTOR_FIELD, lim.
    pose proof (Z.div_mod s 18446744073709551616 ltac:(lia)) as E1.
    set (sm := s mod 18446744073709551616) in *.
    pose proof (Z.div_mod (sm * 1439961107955227) 18446744073709551616 ltac:(lia)) as E2.
    set (sn := (sm * 1439961107955227) mod 18446744073709551616) in *.
    pose proof (Z.div_mod sn 4503599627370496 ltac:(lia)) as E3.
    exists (- (4096 * (s / 18446744073709551616) * 1439961107955227)
            - 4096 * (sm * 1439961107955227 / 18446744073709551616) - sn / 4503599627370496).
    split; [lia|]. apply Z.mod_pos_bound. lia. }
  destruct Hn as (k & En & Ln).
  clearbody n. cbn [f0 FIELD_L].
  rewrite mm_ok by limW. rewrite bind_ok.
  rewrite uadd_ok by limW. rewrite bind_ok.
  exists (shr (s + n * 671914833335277) 52), n. split; [reflexivity|]. split; [assumption|].
  rewrite shr52.
  assert (E : s + n * 671914833335277 = (s * 214835089243030 + k * 671914833335277) * 4503599627370496).
  { rewrite En. unfold LFACTOR_FIELD. ring_simplify. lia. }
  rewrite E. rewrite Z.div_mul by lia. ring.
Qed.

Lemma montg_red_split x : 0 <= x ->
  exists c r, montg_red_res x = (c, r) /\ lim r /\ x = 4503599627370496 * c + r /\ 0 <= c.
Proof.
  intros Hx. unfold montg_red_res, mask52. do 2 eexists. split; [reflexivity|].
  rewrite shr52, land52, cast64. unfold lim.
  assert (E : (x mod 18446744073709551616) mod 4503599627370496 = x mod 4503599627370496).
  { rewrite <- (Zmod_div_mod 4503599627370496 18446744073709551616 x); try lia.
    exists 4096; reflexivity. }
  rewrite E. lia.
Qed.

Lemma flimbs_FIELD_L : flimbs FIELD_L.
Proof. rewrite flimbs_lim; cbn; unfold lim; lia. Qed.
Lemma fval_FIELD_L : fval FIELD_L = p.
Proof. reflexivity. Qed.

Lemma okb_adjust ck r s B : okb r s B -> (B <=? 170141183460469231731687303715884105728) = true ->
  exists c n, bind r (fe_adjustment_fact ck) = Ok (c, n) /\ lim n /\
    0 <= c < 75557863725914323419136 /\
    4503599627370496 * c = s + n * 671914833335277.
Proof.
  intros [-> H] HB. apply Z.leb_le in HB. rewrite bind_ok.
  destruct (fe_adjust_ok ck s) as (c & n & E & Ln & V); [lia|].
  exists c, n. repeat split; auto; unfold lim in *; lia.
Qed.

Lemma okb_red r s B : okb r s B -> (B <=? 170141183460469231731687303715884105728) = true ->
  exists c l, (forall A (g : Z -> Z -> res A),
      bind r (fun x => let '(a, b) := montg_red_res x in g a b) = g c l) /\ lim l /\
    0 <= c < 75557863725914323419136 /\
    s = 4503599627370496 * c + l.
Proof.
  intros [-> H] HB. apply Z.leb_le in HB.
  destruct (montg_red_split s) as (c & l & E & Ln & V & P); [lia|].
  exists c, l. split. { intros A g. rewrite bind_ok, E. reflexivity. } repeat split; auto; unfold lim in *; lia.
Qed.

Lemma bind_assoc {A B C} (r : res A) (f : A -> res B) (g : B -> res C) :
  bind (bind r f) g = bind r (fun x => bind (f x) g).
Proof. destruct r; reflexivity. Qed.

Ltac adj E L B :=
  match goal with |- context [bind ?r (fun x => bind (fe_adjustment_fact ?ck x) ?g)] =>
    let C := fresh "C" in
    eassert (C : okb r _ _) by sums;
    rewrite <- (bind_assoc r (fe_adjustment_fact ck) g);
    destruct (okb_adjust ck _ _ _ C eq_refl) as (? & ? & -> & L & B & E);
    clear C; rewrite bind_ok; cbv iota beta
  end.
Ltac mred E L B :=
  match goal with |- context [bind ?r (fun x => let '(a, b) := montg_red_res x in @?g a b)] =>
    let C := fresh "C" in
    eassert (C : okb r _ _) by sums;
    let R := fresh "R" in
    destruct (okb_red _ _ _ C eq_refl) as (? & ? & R & L & B & E);
    specialize (R _ g); cbv beta in R; rewrite R; clear R C
  end.

Lemma limc0 : lim 671914833335277. Proof. unfold lim; lia. Qed.
Lemma limc1 : lim 3916664325105025. Proof. unfold lim; lia. Qed.
Lemma limc2 : lim 1367801. Proof. unfold lim; lia. Qed.
Lemma limc4 : lim 17592186044416. Proof. unfold lim; lia. Qed.

(** Montgomery reduction of any T below 2^260 * p. *)
Lemma fe_montgomery_reduce_ok ck t : wide_ok t -> wval t < 2 ^ 260 * p ->
  exists r k, fe_montgomery_reduce ck t = Ok r /\ fcanon r /\
    fval r * 2 ^ 260 = wval t + k * p.
Proof.
  destruct t as [t0 t1 t2 t3 t4 t5 t6 t7 t8].
  unfold wide_ok, wval; cbn [w0 w1 w2 w3 w4 w5 w6 w7 w8].
  intros (T0 & T1 & T2 & T3 & T4 & T5 & T6 & T7 & T8) HT.
  pose proof limc0 as K0. pose proof limc1 as K1. pose proof limc2 as K2. pose proof limc4 as K4.
  unfold fe_montgomery_reduce; cbn [w0 w1 w2 w3 w4 w5 w6 w7 w8].
  cbv zeta.
  change (f1 FIELD_L) with 3916664325105025. change (f2 FIELD_L) with 1367801.
  change (f4 FIELD_L) with 17592186044416.
  change (fe_adjustment_fact ck t0) with (bind (Ok t0) (fe_adjustment_fact ck)).
  unfold col in *.
  destruct (okb_adjust ck (Ok t0) t0 _ (conj eq_refl T0) eq_refl) as (c0 & n0 & -> & L0 & B0 & E0).
  rewrite bind_ok; cbv iota beta.
  adj E1 L1 B1. adj E2 L2 B2. adj E3 L3 B3. adj E4 L4 B4.
  mred E5 L5 B5. mred E6 L6 B6. mred E7 L7 B7. mred E8 L8 B8.
  match goal with |- exists r k, fe_sub ck (FE ?a0 ?a1 ?a2 ?a3 (cast W64 ?a4)) _ = _ /\ _ =>
    rename a0 into r0; rename a1 into r1; rename a2 into r2; rename a3 into r3; rename a4 into c8 end.
  unfold lim in *. clear B0 B1 B2 B3 B4 B5 B6 B7 K0 K1 K2 K4.
  set (N := n0 + x0 * 2^52 + x2 * 2^104 + x4 * 2^156 + x6 * 2^208).
  set (T := t0 + t1 * 2 ^ 52 + t2 * 2 ^ 104 + t3 * 2 ^ 156 + t4 * 2 ^ 208 + t5 * 2 ^ 260 +
     t6 * 2 ^ 312 + t7 * 2 ^ 364 + t8 * 2 ^ 416) in *.
  set (pv := r0 + r1 * 2^52 + r2 * 2^104 + r3 * 2^156 + c8 * 2^208).
  assert (KEY : 2 ^ 260 * pv = T + N * p).
  { assert (H0 : t0 = 4503599627370496 * c0 - n0 * 671914833335277) by (clear - E0; lia).
    assert (H1 : t1 = 4503599627370496 * x -
       (c0 + n0 * 3916664325105025 + x0 * 671914833335277)) by (clear - E1; lia).
    assert (H2 : t2 = 4503599627370496 * x1 -
       (x + n0 * 1367801 + x0 * 3916664325105025 + x2 * 671914833335277)) by (clear - E2; lia).
    assert (H3 : t3 = 4503599627370496 * x3 -
       (x1 + x0 * 1367801 + x2 * 3916664325105025 + x4 * 671914833335277)) by (clear - E3; lia).
    assert (H4 : t4 = 4503599627370496 * x5 -
       (x3 + n0 * 17592186044416 + x2 * 1367801 + x4 * 3916664325105025 +
       x6 * 671914833335277)) by (clear - E4; lia).
    assert (H5 : t5 = 4503599627370496 * x7 + r0 -
      (x5 + x0 * 17592186044416 + x4 * 1367801 + x6 * 3916664325105025)) by (clear - E5; lia).
    assert (H6 : t6 = 4503599627370496 * x9 + r1 -
      (x7 + x2 * 17592186044416 + x6 * 1367801)) by (clear - E6; lia).
    assert (H7 : t7 = 4503599627370496 * x11 + r2 - (x9 + x4 * 17592186044416))
      by (clear - E7; lia).
    assert (H8 : t8 = 4503599627370496 * c8 + r3 - (x11 + x6 * 17592186044416))
      by (clear - E8; lia).
    unfold T, N, pv. rewrite p_num, H0, H1, H2, H3, H4, H5, H6, H7, H8. ring. }
  assert (HT0 : 0 <= T) by (unfold T; clear - T0 T1 T2 T3 T4 T5 T6 T7 T8; lia).
  assert (HN : 0 <= N < 2 ^ 260) by (unfold N; clear - L0 L1 L2 L3 L4; lia).
  clear E0 E1 E2 E3 E4 E5 E6 E7 E8 T0 T1 T2 T3 T4 T5 T6 T7 T8 L0 L1 L2 L3 L4. clearbody T N.
  assert (Bpv : 0 <= pv < 2 * p) by (rewrite p_num in *; clear - KEY HT HT0 HN; lia).
  assert (B9 : 0 <= c8 < 4503599627370496).
  { unfold pv in Bpv. rewrite p_num in Bpv. clear - L5 L6 L7 L8 B8 Bpv. lia. }
  assert (Ec : cast W64 c8 = c8) by (rewrite cast64; apply Z.mod_small; lia).
  rewrite Ec.
  set (pre := FE r0 r1 r2 r3 c8).
  assert (Lpre : flimbs pre) by (rewrite flimbs_lim; cbn; unfold lim; auto).
  assert (Vpre : fval pre = pv) by reflexivity.
  clearbody pre pv.
  destruct (fe_sub_gen ck pre FIELD_L Lpre flimbs_FIELD_L) as (r & Er & Lr & Vr).
  { rewrite fval_FIELD_L. rewrite p_num in *. clear - Vpre Bpv. lia. }
  rewrite fval_FIELD_L, Vpre in Vr.
  exists r, (if pv <? p then N else N - 2 ^ 260).
  split; [exact Er|].
  unfold fcanon. rewrite Vr. rewrite p_num in *. clear - KEY HN Bpv Lr.
  match goal with |- context [if ?b then _ else _] => destruct b eqn:E end.
  - apply Z.ltb_lt in E. split; [split; [assumption|lia]|]. lia.
  - apply Z.ltb_ge in E. split; [split; [assumption|lia]|]. lia.
Qed.
