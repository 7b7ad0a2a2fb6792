(** * Bytes, shifts, powers, bits and small residues of scalars *)

From Coq Require Import ZArith Znumtheory List Bool Lia.
From Verif Require Import Machine FieldModel ScalarModel Spec MachineFacts FieldLimb FieldMul
  FieldOps FieldBytes ScalarLimb ScalarOps NumTheory.
Import ListNotations.
Open Scope Z_scope.

(** ** Loading from bytes *)

Lemma sc_word_ok b i : (forall j, 0 <= byte b j < 256) ->
  sc_word b i = byte b (i * 8 + 0) + 256 * byte b (i * 8 + 1) + 65536 * byte b (i * 8 + 2)
   + 16777216 * byte b (i * 8 + 3) + 4294967296 * byte b (i * 8 + 4)
   + 1099511627776 * byte b (i * 8 + 5)
   + 281474976710656 * byte b (i * 8 + 6) + 72057594037927936 * byte b (i * 8 + 7).
Proof.
  intros H. rewrite <- load8_ok by assumption. unfold sc_word, load8. cbn [seq fold_left].
  rewrite Z.lor_0_l. change (Z.of_nat 0 * 8) with 0. rewrite shl64 by discriminate.
  change (2 ^ 0) with 1. rewrite Z.mul_1_r, (Z.mod_small (byte b _)); [reflexivity|].
  pose proof (H (i * 8 + 0)%nat). lia.
Qed.

Lemma glue_limb w v a b c : 0 <= w < 2 ^ 64 -> 0 <= v < 2 ^ 64 ->
  0 <= b -> 0 <= c -> a + b = 64 -> b + c = 52 ->
  Z.land (Z.lor (shr w a) (shl W64 v b)) mask52 = w / 2 ^ a + 2 ^ b * (v mod 2 ^ c).
Proof.
  intros Hw Hv Hb Hc E1 E2. unfold mask52. rewrite land52.
  rewrite shl64, shr_div by lia.
  change 18446744073709551616 with (2 ^ 64). change 4503599627370496 with (2 ^ 52).
  assert (Pa : 2 ^ 64 = 2 ^ a * 2 ^ b) by (rewrite <- Z.pow_add_r by lia; f_equal; lia).
  assert (Pc : 2 ^ 52 = 2 ^ b * 2 ^ c) by (rewrite <- Z.pow_add_r by lia; f_equal; lia).
  assert (0 < 2 ^ a) by (apply Z.pow_pos_nonneg; lia).
  assert (0 < 2 ^ b) by (apply Z.pow_pos_nonneg; lia).
  assert (0 < 2 ^ c) by (apply Z.pow_pos_nonneg; lia).
  assert (Bq : 0 <= w / 2 ^ a < 2 ^ b).
  { split; [apply Z.div_pos; lia|]. apply Z.div_lt_upper_bound; [lia|]. rewrite <- Pa. lia. }
  replace ((v * 2 ^ b) mod 2 ^ 64) with ((v mod 2 ^ a) * 2 ^ b)
    by (rewrite Pa, Z.mul_mod_distr_r by lia; reflexivity).
  rewrite lor_add_low by lia.
  rewrite Pc. symmetry. apply Zmod_unique with ((v mod 2 ^ a) / 2 ^ c).
  - pose proof (Z.mod_pos_bound v (2 ^ c) ltac:(lia)). nia.
  - assert (M : (v mod 2 ^ a) mod 2 ^ c = v mod 2 ^ c).
    { symmetry. apply Zmod_div_mod; try lia. exists (2 ^ (a - c)).
      rewrite <- Z.pow_add_r by lia. f_equal. lia. }
    pose proof (Z.div_mod (v mod 2 ^ a) (2 ^ c) ltac:(lia)) as D. rewrite M in D.
    rewrite D at 1. ring.
Qed.

Lemma sc_minus_one_canon : scanon sc_minus_one.
Proof. split; [rewrite slimbs_lim; cbn; unfold lim; lia|reflexivity]. Qed.
Lemma sval_minus_one : sval sc_minus_one = L - 1.
Proof. reflexivity. Qed.

Lemma le_value_words b : is_bytes 32 b ->
  le_value b = sc_word b 0 + 2 ^ 64 * sc_word b 1 + 2 ^ 128 * sc_word b 2 + 2 ^ 192 * sc_word b 3
  /\ 0 <= sc_word b 0 < 2 ^ 64 /\ 0 <= sc_word b 1 < 2 ^ 64 /\ 0 <= sc_word b 2 < 2 ^ 64
  /\ 0 <= sc_word b 3 < 2 ^ 64.
Proof.
  intros Hb. pose proof (fun i => byte_range 32 b i Hb) as HB.
  rewrite !sc_word_ok by exact HB. clear HB.
  destruct (bytes32 b Hb) as (b0 & b1 & b2 & b3 & b4 & b5 & b6 & b7 & b8 & b9 & b10 & b11 & b12 &
    b13 & b14 & b15 & b16 & b17 & b18 & b19 & b20 & b21 & b22 & b23 & b24 & b25 & b26 & b27 &
    b28 & b29 & b30 & b31 & -> & F). clear Hb.
  repeat (apply Forall_cons_iff in F; destruct F as [? F]). clear F.
  cbn [byte nth Nat.add Nat.mul le_value]. split; [ring|].
  repeat split; lia.
Qed.

Lemma sc_from_bytes_ok b : is_bytes 32 b ->
  if le_value b <? L then
    exists r, sc_from_bytes b = Ok r /\ scanon r /\ sval r = le_value b
  else sc_from_bytes b = Panic.
Proof.
  intros Hb. destruct (le_value_words b Hb) as (V & W0 & W1 & W2 & W3).
  unfold sc_from_bytes. cbv zeta.
  rewrite (glue_limb (sc_word b 0) _ 52 12 40) by (assumption || lia).
  rewrite (glue_limb (sc_word b 1) _ 40 24 28) by (assumption || lia).
  rewrite (glue_limb (sc_word b 2) _ 28 36 16) by (assumption || lia).
  replace (Z.land (sc_word b 0) mask52) with (sc_word b 0 mod 2 ^ 52) by (symmetry; apply land52).
  change 281474976710655 with (2 ^ 48 - 1). rewrite land_mask_mod, shr_div by lia.
  remember (sc_word b 0) as w0 eqn:K0. clear K0.
  remember (sc_word b 1) as w1 eqn:K1. clear K1.
  remember (sc_word b 2) as w2 eqn:K2. clear K2.
  remember (sc_word b 3) as w3 eqn:K3. clear K3.
  pose proof (Z.div_mod w0 (2 ^ 52) ltac:(lia)) as D0.
  pose proof (Z.div_mod w1 (2 ^ 40) ltac:(lia)) as D1.
  pose proof (Z.div_mod w2 (2 ^ 28) ltac:(lia)) as D2.
  pose proof (Z.div_mod w3 (2 ^ 16) ltac:(lia)) as D3.
  pose proof (Z.mod_pos_bound w0 (2 ^ 52) ltac:(lia)) as B0.
  pose proof (Z.mod_pos_bound w1 (2 ^ 40) ltac:(lia)) as B1.
  pose proof (Z.mod_pos_bound w2 (2 ^ 28) ltac:(lia)) as B2.
  pose proof (Z.mod_pos_bound w3 (2 ^ 16) ltac:(lia)) as B3.
  assert (Q3 : (w3 / 2 ^ 16) mod 2 ^ 48 = w3 / 2 ^ 16).
  { apply Z.mod_small. split; [apply Z.div_pos; lia|]. apply Z.div_lt_upper_bound; lia. }
  rewrite Q3. clear Q3.
  generalize dependent (w0 / 2 ^ 52). generalize dependent (w0 mod 2 ^ 52).
  generalize dependent (w1 / 2 ^ 40). generalize dependent (w1 mod 2 ^ 40).
  generalize dependent (w2 / 2 ^ 28). generalize dependent (w2 mod 2 ^ 28).
  generalize dependent (w3 / 2 ^ 16). generalize dependent (w3 mod 2 ^ 16).
  intros l3 B3 h3 D3 l2 B2 h2 D2 l1 B1 h1 D1 l0 B0 h0 D0.
  set (s := SC _ _ _ _ _).
  assert (Ls : slimbs s).
  { unfold s. rewrite slimbs_lim. cbn [s0 s1 s2 s3 s4]. unfold lim. clear V s Hb.
    repeat split; lia. }
  assert (Vs : sval s = le_value b).
  { rewrite V. unfold s. rewrite sval_num. cbn [s0 s1 s2 s3 s4]. rewrite D0, D1, D2, D3. ring. }
  clearbody s. clear V D0 D1 D2 D3 B0 B1 B2 B3 W0 W1 W2 W3.
  destruct sc_minus_one_canon as [M _].
  rewrite sc_le_ok by assumption. rewrite sval_minus_one, Vs.
  destruct (Z.ltb_spec (le_value b) L).
  - replace (le_value b <=? L - 1) with true by (symmetry; apply Z.leb_le; lia).
    exists s. split; [reflexivity|]. split; [|assumption]. split; [assumption|]. now rewrite Vs.
  - replace (le_value b <=? L - 1) with false by (symmetry; apply Z.leb_gt; lia). reflexivity.
Qed.

Lemma sc_from_to_bytes a : scanon a -> sc_from_bytes (sc_to_bytes a) = Ok a.
Proof.
  intros A. pose proof (sc_from_bytes_ok _ (sc_to_bytes_bytes a)) as H.
  rewrite sc_to_bytes_ok in H by now apply scanon_loadable.
  destruct A as [A1 A2]. destruct (Z.ltb_spec (sval a) L) in H; [|lia].
  destruct H as (r & E & [C _] & V). rewrite E. f_equal. now apply sval_inj.
Qed.

Lemma sc_to_from_bytes b r : is_bytes 32 b -> sc_from_bytes b = Ok r -> sc_to_bytes r = b.
Proof.
  intros B E. pose proof (sc_from_bytes_ok b B) as H.
  destruct (le_value b <? L); [|congruence].
  destruct H as (r' & E' & C & V). assert (r' = r) by congruence. subst r'.
  destruct B as [Hl F]. destruct (sc_to_bytes_bytes r) as [Hl' F'].
  apply le_value_inj; [congruence|assumption|assumption|].
  rewrite sc_to_bytes_ok by now apply scanon_loadable. exact V.
Qed.

(** ** Random scalars *)

Lemma set_nth_ok {A} i (v : A) l : (i < length l)%nat ->
  set_nth i v l = Ok (firstn i l ++ v :: skipn (S i) l).
Proof.
  revert i. induction l as [|x l IH]; intros i H; [inversion H|].
  destruct i; [reflexivity|]. cbn [set_nth length] in *. rewrite IH by lia. reflexivity.
Qed.

Lemma set_nth_panic {A} i (v : A) l : (length l <= i)%nat -> set_nth i v l = Panic.
Proof.
  revert i. induction l as [|x l IH]; intros i H; [now destruct i|].
  destruct i; [cbn in H; lia|]. cbn [set_nth length] in *. rewrite IH by lia. reflexivity.
Qed.

Lemma le_value_app a b : le_value (a ++ b) = le_value a + 256 ^ Z.of_nat (length a) * le_value b.
Proof.
  induction a as [|x a IH]; [cbn [app le_value length]; change (256 ^ Z.of_nat 0) with 1; lia|].
  cbn [app le_value length]. rewrite IH, Nat2Z.inj_succ, Z.pow_succ_r by lia. ring.
Qed.

Lemma set_top_ok b m : is_bytes 32 b -> 0 <= m < 256 ->
  exists b', set_nth 31 m b = Ok b' /\ is_bytes 32 b' /\
    le_value b' = le_value b mod 2 ^ 248 + 2 ^ 248 * m /\ byte b 31 = le_value b / 2 ^ 248.
Proof.
  intros [Hl F] Hm. rewrite set_nth_ok by lia. eexists. split; [reflexivity|].
  assert (Hs : exists x, skipn 31 b = [x]).
  { pose proof (skipn_length 31 b) as K. rewrite Hl in K. change (32 - 31)%nat with 1%nat in K.
    destruct (skipn 31 b) as [|x [|y t]]; try discriminate. now exists x. }
  destruct Hs as [x Hs].
  assert (Hs' : skipn 32 b = []).
  { apply length_zero_iff_nil. rewrite skipn_length. lia. }
  rewrite Hs'. pose proof (firstn_skipn 31 b) as S. rewrite Hs in S.
  assert (Ll : length (firstn 31 b) = 31%nat) by (rewrite firstn_length; lia).
  assert (Ff : Forall (fun y => 0 <= y < 256) (firstn 31 b) /\ 0 <= x < 256).
  { rewrite <- S in F. apply Forall_app in F. destruct F as [F1 F2].
    split; [assumption|]. now apply Forall_inv in F2. }
  destruct Ff as [Ff Hx].
  assert (Bf : is_bytes 31 (firstn 31 b)) by (split; assumption).
  apply le_value_bound in Bf. change (256 ^ Z.of_nat 31) with (2 ^ 248) in Bf.
  assert (V : le_value b = le_value (firstn 31 b) + 2 ^ 248 * x).
  { rewrite <- S at 1. rewrite le_value_app, Ll. change (256 ^ Z.of_nat 31) with (2 ^ 248).
    cbn [le_value]. lia. }
  split; [|split].
  - split; [rewrite app_length, Ll; reflexivity|]. apply Forall_app. split; [assumption|].
    constructor; [assumption|constructor].
  - rewrite le_value_app, Ll. change (256 ^ Z.of_nat 31) with (2 ^ 248). cbn [le_value].
    rewrite V, (Z.mul_comm _ x), Z.mod_add, Z.mod_small by lia. lia.
  - rewrite V, (Z.mul_comm _ x), Z.div_add, Z.div_small by lia.
    unfold byte. rewrite <- S. rewrite app_nth2 by lia. rewrite Ll. reflexivity.
Qed.

Lemma sc_random_ok b : is_bytes 32 b ->
  exists r, sc_random b = Ok r /\ scanon r /\ sval r = le_value b mod 2 ^ 249.
Proof.
  intros B. unfold sc_random.
  assert (M : 0 <= Z.land (byte b 31) 1 < 256) by (rewrite land1; lia).
  destruct (set_top_ok b _ B M) as (b' & -> & B' & V & T). rewrite bind_ok.
  rewrite land1, T in V.
  assert (E : le_value b' = le_value b mod 2 ^ 249).
  { rewrite V. change (2 ^ 249) with (2 ^ 248 * 2). rewrite Z.rem_mul_r by lia. reflexivity. }
  pose proof (Z.mod_pos_bound (le_value b) (2 ^ 249) ltac:(lia)) as Bd.
  pose proof (sc_from_bytes_ok b' B') as H. rewrite E in H.
  destruct (Z.ltb_spec (le_value b mod 2 ^ 249) L) in H; [exact H|].
  exfalso. assert (2 ^ 249 < L) by reflexivity. lia.
Qed.

(** ** Signed bytes *)

Lemma sc_from_i8_ok ck x : -127 <= x <= 127 ->
  exists r, sc_from_i8 ck x = Ok r /\ scanon r /\ sval r = x mod L.
Proof.
  intros H. unfold sc_from_i8. destruct (Z.leb_spec 0 x).
  - rewrite cast64, Z.mod_small by lia. eexists. split; [reflexivity|].
    unfold scanon. rewrite slimbs_lim, sval_num, L_num. cbn [s0 s1 s2 s3 s4]. unfold lim.
    rewrite Z.mod_small by lia. lia.
  - unfold i8abs. destruct (Z.eqb_spec x (-128)); [lia|]. rewrite bind_ok.
    rewrite cast64, Z.mod_small by lia. rewrite Z.abs_neq by lia.
    destruct (sc_neg_ok ck (SC (- x) 0 0 0 0)) as (r & E & C & V).
    { unfold scanon. rewrite slimbs_lim, sval_num, L_num. cbn [s0 s1 s2 s3 s4]. unfold lim. lia. }
    exists r. split; [exact E|]. split; [exact C|]. rewrite V. f_equal.
    rewrite sval_num. cbn [s0 s1 s2 s3 s4]. lia.
Qed.

Lemma sc_from_i8_min_debug : sc_from_i8 true (-128) = Panic.
Proof. reflexivity. Qed.
Lemma sc_from_i8_min_release : sc_from_i8 false (-128) = Ok (SC 128 0 0 0 0).
Proof. vm_compute. reflexivity. Qed.

(** ** Right shift *)

Lemma sc_shr_ok a k : slimbs a -> 0 <= k ->
  slimbs (sc_shr a k) /\ sval (sc_shr a k) = sval a / 2 ^ k.
Proof.
  intros A Hk. unfold sc_shr. rewrite <- (Z2Nat.id k) at 3 by assumption.
  generalize (Z.to_nat k). clear Hk. intros n. induction n as [|n [IH1 IH2]].
  - cbn [Nat.iter Nat.iter nat_rect]. change (2 ^ Z.of_nat 0) with 1. rewrite Z.div_1_r. auto.
  - cbn [Nat.iter nat_rect].
    change (nat_rect (fun _ => sc) a (fun _ => sc_half_without_mod) n) with
      (Nat.iter n sc_half_without_mod a) in *.
    destruct (sc_half_without_mod_ok _ IH1) as [H1 H2]. split; [exact H1|].
    rewrite H2, IH2, Nat2Z.inj_succ, Z.pow_succ_r, Z.mul_comm, Z.div_div by lia. reflexivity.
Qed.

(** ** Powers *)

Lemma sc_pow_loop_ok ck : forall n base res_ e, scanon base -> scanon res_ -> scanon e ->
  sval e < 2 ^ Z.of_nat n ->
  exists r, sc_pow_loop (S n) ck base res_ e = Ok r /\ scanon r /\
    sval r = (sval res_ * sval base ^ sval e) mod L.
Proof.
  induction n as [|n IH]; intros base res_ e B R E H.
  - cbn [sc_pow_loop]. rewrite sc_gt_ok by (auto using slimbs_zero; apply E). rewrite sval_zero.
    pose proof (sval_nonneg _ (proj1 E)). change (2 ^ Z.of_nat 0) with 1 in H.
    assert (Ev : sval e = 0) by lia. rewrite Ev. change (0 <? 0) with false. cbv iota.
    exists res_. split; [reflexivity|]. split; [assumption|].
    rewrite Z.pow_0_r, Z.mul_1_r. destruct R as [R1 R2].
    rewrite Z.mod_small; [reflexivity|]. pose proof (sval_nonneg _ R1). lia.
  - assert (NN := sval_nonneg _ (proj1 E)).
    remember (S n) as n' eqn:Hn'. cbn [sc_pow_loop]. subst n'.
    rewrite sc_gt_ok by (auto using slimbs_zero; apply E). rewrite sval_zero.
    destruct (Z.ltb_spec 0 (sval e)) as [Hp|Hp].
    2:{ assert (Ev : sval e = 0) by lia. rewrite Ev.
        exists res_. split; [reflexivity|]. split; [assumption|].
        rewrite Z.pow_0_r, Z.mul_1_r. destruct R as [R1 R2].
        rewrite Z.mod_small; [reflexivity|]. pose proof (sval_nonneg _ R1). lia. }
    rewrite Nat2Z.inj_succ, Z.pow_succ_r in H by lia.
    rewrite sc_is_even_ok. cbv zeta.
    destruct (sc_square_ok ck base B) as (b2 & Eb & Cb & Vb).
    destruct (Z.even (sval e)) eqn:Ev.
    + destruct (sc_half_without_mod_ok e (proj1 E)) as [Le V].
      rewrite Eb, bind_ok.
      assert (D : sval e = 2 * (sval e / 2)).
      { apply Zeven_bool_iff, Zeven_div2 in Ev. rewrite Z.div2_div in Ev. exact Ev. }
      destruct (IH b2 res_ (sc_half_without_mod e)) as (r & Er & Cr & Vr); auto.
      { split; [assumption|]. rewrite V. destruct E. lia. }
      { rewrite V. lia. }
      exists r. split; [exact Er|]. split; [exact Cr|]. rewrite Vr, V, Vb.
      rewrite Zmult_mod, pow_mod_idemp, <- Zmult_mod by lia.
      rewrite D at 2. rewrite (Z.mul_comm 2), (Z.mul_comm _ 2), Z.pow_mul_r, Z.pow_2_r by lia.
      reflexivity.
    + destruct (sc_sub_ok ck e sc_one E scanon_one) as (e' & Ee & Ce & Ve).
      rewrite Ee, bind_ok. rewrite sval_one in Ve. destruct E as [E1 E2].
      rewrite Z.mod_small in Ve by lia.
      destruct (sc_mul_ok ck res_ base (proj1 R) B) as (r2 & Er2 & Cr2 & Vr2).
      rewrite Er2, bind_ok.
      destruct (sc_half_ok ck e' (proj1 Ce)) as (h & Eh & Ch & Vh). rewrite Eh, bind_ok.
      rewrite Eb, bind_ok.
      assert (D : sval e = 2 * (sval e / 2) + 1).
      { rewrite <- Z.negb_odd in Ev. apply negb_false_iff in Ev.
        apply Zodd_bool_iff, Zodd_div2 in Ev. rewrite Z.div2_div in Ev. exact Ev. }
      assert (Hh : sval h = sval e / 2).
      { destruct Ch as [Ch1 Ch2]. pose proof (sval_nonneg _ Ch1).
        rewrite Ve in Vh. rewrite (Z.mod_small (sval e - 1)) in Vh by lia.
        assert (Q : (2 * (sval h - sval e / 2)) mod L = 0).
        { replace (2 * (sval h - sval e / 2)) with (2 * sval h - (sval e - 1)) by lia.
          rewrite Zminus_mod, Vh, (Z.mod_small (sval e - 1)), Z.sub_diag by lia. reflexivity. }
        apply Z.mod_divide in Q; [|discriminate].
        apply Gauss in Q; [|apply Zgcd_1_rel_prime; reflexivity].
        destruct Q as [j Hj]. assert (0 <= sval e / 2 < L) by (rewrite L_num in *; lia).
        assert (j = 0) by (rewrite L_num in *; nia). subst j. lia. }
      destruct (IH b2 r2 h) as (r & Er & Cr & Vr); auto.
      { rewrite Hh. lia. }
      exists r. split; [exact Er|]. split; [exact Cr|].
      rewrite Vr, Hh, Vb, Vr2.
      assert (P0 : 0 <= sval e / 2) by (apply Z.div_pos; lia).
      clear - P0 D. rewrite D at 2. clear D. generalize dependent (sval e / 2). intros h P0.
      rewrite Zmult_mod, (pow_mod_idemp _ _ _ P0), Zmod_mod, <- Zmult_mod.
      rewrite Z.pow_add_r, Z.pow_mul_r by lia.
      rewrite Z.pow_2_r, Z.pow_1_r. f_equal. ring.
Qed.

Lemma sc_pow_ok ck a e : scanon a -> scanon e ->
  exists r, sc_pow ck a e = Ok r /\ scanon r /\ sval r = (sval a ^ sval e) mod L.
Proof.
  intros A E. unfold sc_pow, loop_fuel. change 600%nat with (S 599).
  destruct (sc_pow_loop_ok ck 599 a sc_one e A scanon_one E) as (r & Er & Cr & Vr).
  - destruct E as [E1 E2]. apply Z.lt_le_trans with L; [apply E2|].
    apply Z.le_trans with (2 ^ 250); [discriminate|]. apply Z.pow_le_mono_r; lia.
  - exists r. rewrite sval_one, Z.mul_1_l in Vr. auto.
Qed.

(** ** Bits *)

Lemma bits8 x (l : list Z) i : 0 <= x < 256 -> 0 <= le_value l ->
  nth i (map (fun j => if shr x j mod 2 =? 0 then 0 else 1) [0; 1; 2; 3; 4; 5; 6; 7]) 0 =
    (if (i <? 8)%nat then Z.b2z (Z.testbit (x + 256 * le_value l) (Z.of_nat i)) else 0).
Proof.
  intros Hx Hl. destruct (Nat.ltb_spec i 8).
  2:{ apply nth_overflow. cbn. lia. }
  assert (Z.testbit (x + 256 * le_value l) (Z.of_nat i) = Z.testbit x (Z.of_nat i)) as ->.
  { rewrite <- (Z.mod_pow2_bits_low (x + 256 * le_value l) 8) by lia.
    rewrite <- (Z.mod_pow2_bits_low x 8) by lia. f_equal. change (2 ^ 8) with 256.
    rewrite Z.mul_comm. apply Z_mod_plus_full. }
  assert (G : forall j, 0 <= j -> (if shr x j mod 2 =? 0 then 0 else 1) = Z.b2z (Z.testbit x j)).
  { intros j Hj. rewrite shr_div, <- Z.testbit_spec' by assumption.
    destruct (Z.testbit x j); reflexivity. }
  do 8 (destruct i as [|i]; [cbn [map nth]; rewrite G by lia; reflexivity|]). lia.
Qed.

Lemma le_value_nonneg l : Forall (fun x => 0 <= x < 256) l -> 0 <= le_value l.
Proof. intros F. apply (le_value_bound (length l)). split; auto. Qed.

Lemma bits_of_bytes l : Forall (fun x => 0 <= x < 256) l -> forall i,
  nth i (flat_map (fun b => map (fun j => if shr b j mod 2 =? 0 then 0 else 1)
     [0; 1; 2; 3; 4; 5; 6; 7]) l) 0 = Z.b2z (Z.testbit (le_value l) (Z.of_nat i)).
Proof.
  induction 1 as [|x l Hx F IH]; intros i.
  - cbn [flat_map le_value]. rewrite Z.bits_0. now destruct i.
  - cbn [flat_map le_value]. pose proof (le_value_nonneg l F) as Hl.
    destruct (Nat.ltb_spec i 8).
    + rewrite app_nth1 by (cbn; lia). rewrite (bits8 x l i) by assumption.
      now replace (i <? 8)%nat with true by (symmetry; apply Nat.ltb_lt; lia).
    + rewrite app_nth2 by (cbn; lia). cbn [length map].
      rewrite IH. f_equal.
      replace (Z.of_nat i) with (Z.of_nat (i - 8) + 8) by lia.
      rewrite <- (Z.div_pow2_bits (x + 256 * le_value l) 8) by lia.
      change (2 ^ 8) with 256. rewrite Z.mul_comm, Z.div_add, Z.div_small by lia. reflexivity.
Qed.

Lemma sc_into_bits_ok a i : sloadable a ->
  nth i (sc_into_bits a) 0 = Z.b2z (Z.testbit (sval a) (Z.of_nat i)).
Proof.
  intros A. unfold sc_into_bits. rewrite bits_of_bytes by apply sc_to_bytes_bytes.
  now rewrite sc_to_bytes_ok.
Qed.

Lemma sc_into_bits_length a : length (sc_into_bits a) = 256%nat.
Proof. reflexivity. Qed.

Lemma sc_into_bits_01 a : Forall (fun b => b = 0 \/ b = 1) (sc_into_bits a).
Proof.
  unfold sc_into_bits. apply Forall_forall. intros x H. apply in_flat_map in H.
  destruct H as (b & _ & H). apply in_map_iff in H. destruct H as (j & <- & _).
  destruct (_ =? _); auto.
Qed.

(** ** Residues modulo a power of two *)

Lemma sval_mod_pow a k : 0 <= k <= 52 -> sval a mod 2 ^ k = s0 a mod 2 ^ k.
Proof.
  intros H. rewrite sval_num.
  replace (s0 a + s1 a * 4503599627370496 + s2 a * 20282409603651670423947251286016 +
    s3 a * 91343852333181432387730302044767688728495783936 +
    s4 a * 411376139330301510538742295639337626245683966408394965837152256)
   with (s0 a + (s1 a + s2 a * 2 ^ 52 + s3 a * 2 ^ 104 + s4 a * 2 ^ 156) * 2 ^ (52 - k) * 2 ^ k).
  - apply Z_mod_plus_full.
  - rewrite <- Z.mul_assoc, <- Z.pow_add_r by lia. replace (52 - k + k) with 52 by lia. ring.
Qed.

Lemma sc_mod_2_pow_k_ok ck a k : 0 <= k <= 8 -> slimbs a ->
  sc_mod_2_pow_k ck a k = Ok (sval a mod 2 ^ k).
Proof.
  intros Hk A. unfold sc_mod_2_pow_k. rewrite ushl_small by lia. rewrite bind_ok.
  assert (1 <= 2 ^ k) by (apply (Z.pow_le_mono_r 2 0); lia).
  rewrite usub_ok by lia. rewrite bind_ok, land_mask_mod by lia. f_equal.
  rewrite sval_mod_pow by lia. rewrite cast8. apply Z.mod_small.
  pose proof (Z.mod_pos_bound (s0 a) (2 ^ k) ltac:(lia)).
  assert (2 ^ k <= 2 ^ 8) by (apply Z.pow_le_mono_r; lia). lia.
Qed.

(** Beyond 8 bits the result is truncated to a byte. *)
Lemma sc_mod_2_pow_k_trunc ck a k : 8 <= k < 52 -> slimbs a ->
  sc_mod_2_pow_k ck a k = Ok (sval a mod 256).
Proof.
  intros Hk A. unfold sc_mod_2_pow_k. rewrite ushl_small by lia. rewrite bind_ok.
  assert (1 <= 2 ^ k) by (apply (Z.pow_le_mono_r 2 0); lia).
  rewrite usub_ok by lia. rewrite bind_ok, land_mask_mod by lia. f_equal.
  rewrite cast8. change 256 with (2 ^ 8). rewrite sval_mod_pow by lia.
  symmetry. apply Zmod_div_mod; try lia.
  exists (2 ^ (k - 8)). rewrite <- Z.pow_add_r by lia. f_equal. lia.
Qed.

(** The signed residue in [-2^(w-1), 2^(w-1)). *)
Definition smods (x w : Z) : Z := (x + 2 ^ (w - 1)) mod 2 ^ w - 2 ^ (w - 1).

Lemma smods_case x w : 1 <= w ->
  smods x w = (if 2 ^ (w - 1) <=? x mod 2 ^ w then x mod 2 ^ w - 2 ^ w else x mod 2 ^ w).
Proof.
  intros Hw. unfold smods.
  assert (P : 2 ^ w = 2 * 2 ^ (w - 1)) by (rewrite <- Z.pow_succ_r by lia; f_equal; lia).
  assert (0 < 2 ^ (w - 1)) by (apply Z.pow_pos_nonneg; lia).
  pose proof (Z.mod_pos_bound x (2 ^ w) ltac:(lia)) as B.
  pose proof (Z.div_mod x (2 ^ w) ltac:(lia)) as D.
  destruct (Z.leb_spec (2 ^ (w - 1)) (x mod 2 ^ w)).
  - replace ((x + 2 ^ (w - 1)) mod 2 ^ w) with (x mod 2 ^ w + 2 ^ (w - 1) - 2 ^ w); [lia|].
    apply Zmod_unique with (x / 2 ^ w + 1); [lia|]. rewrite D at 1. ring.
  - replace ((x + 2 ^ (w - 1)) mod 2 ^ w) with (x mod 2 ^ w + 2 ^ (w - 1)); [lia|].
    apply Zmod_unique with (x / 2 ^ w); [lia|]. rewrite D at 1. ring.
Qed.

Lemma smods_range x w : 1 <= w -> - 2 ^ (w - 1) <= smods x w < 2 ^ (w - 1).
Proof.
  intros Hw. unfold smods.
  assert (P : 2 ^ w = 2 * 2 ^ (w - 1)) by (rewrite <- Z.pow_succ_r by lia; f_equal; lia).
  assert (0 < 2 ^ (w - 1)) by (apply Z.pow_pos_nonneg; lia).
  pose proof (Z.mod_pos_bound (x + 2 ^ (w - 1)) (2 ^ w) ltac:(lia)). lia.
Qed.

Lemma smods_mod x w : 1 <= w -> (x - smods x w) mod 2 ^ w = 0.
Proof.
  intros Hw. unfold smods.
  assert (0 < 2 ^ w) by (apply Z.pow_pos_nonneg; lia).
  replace (x - ((x + 2 ^ (w - 1)) mod 2 ^ w - 2 ^ (w - 1)))
    with ((x + 2 ^ (w - 1)) - (x + 2 ^ (w - 1)) mod 2 ^ w) by ring.
  rewrite Zminus_mod, Zmod_mod, Z.sub_diag. reflexivity.
Qed.

Lemma sc_mods_2_pow_k_ok ck a w : 1 <= w <= 6 -> slimbs a ->
  sc_mods_2_pow_k ck a w = Ok (smods (sval a) w).
Proof.
  intros Hw A. unfold sc_mods_2_pow_k.
  rewrite rassert_true by (apply Z.ltb_lt; lia). rewrite bind_ok.
  rewrite sc_mod_2_pow_k_ok by (assumption || lia). rewrite bind_ok. cbv zeta.
  rewrite smods_case by lia.
  assert (0 < 2 ^ w <= 2 ^ 6) by (split; [apply Z.pow_pos_nonneg|apply Z.pow_le_mono_r]; lia).
  pose proof (Z.mod_pos_bound (sval a) (2 ^ w) ltac:(lia)) as B.
  set (m := sval a mod 2 ^ w) in *.
  assert (Em : as_i8 m = m) by (unfold as_i8; rewrite Z.mod_small; lia). rewrite Em.
  rewrite usub_ok by lia. rewrite bind_ok. clearbody m.
  assert (W : w = 1 \/ w = 2 \/ w = 3 \/ w = 4 \/ w = 5 \/ w = 6) by lia.
  destruct W as [ -> | [-> | [-> | [-> | [-> | ->]]]]];
  match goal with |- context [i8shl ck 1 ?t] => 
     let v := eval vm_compute in (Z.shiftl 1 t) in change (i8shl ck 1 t) with (Ok v) end;
  rewrite bind_ok;
  match goal with |- context [ushl ck 8 W8 1 ?t] => 
     let v := eval vm_compute in (Z.shiftl 1 t) in change (ushl ck 8 W8 1 t) with (Ok v) end;
  rewrite bind_ok;
  match goal with |- context [2 ^ (?u - 1)] =>
     let v := eval vm_compute in (2 ^ (u - 1)) in change (2 ^ (u - 1)) with v end;
  match goal with |- context [2 ^ ?u] =>
     let v := eval vm_compute in (2 ^ u) in change (2 ^ u) with v in * end;
  match goal with |- context [as_i8 ?u] =>
     let v := eval vm_compute in (as_i8 u) in change (as_i8 u) with v end;
  match goal with |- context [?a <=? m] => destruct (Z.leb_spec a m) end; try reflexivity;
  unfold i8sub;
  match goal with |- context [(?a <=? ?b) && (?c <=? ?d)] =>
    replace ((a <=? b) && (c <=? d)) with true
      by (symmetry; apply andb_true_iff; split; apply Z.leb_le; lia) end; reflexivity.
Qed.
