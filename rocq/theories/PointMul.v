(** * The scalar multiplication loops, for any representation of points *)

From Coq Require Import ZArith List Bool Lia.
From Verif Require Import Machine FieldModel ScalarModel EdwardsModel Spec MachineFacts ScalarLimb ScalarOps
  ScalarBits ScalarNaf Fp Curve CurveGroup.
Import ListNotations.
Open Scope Z_scope.

(** ** Debug and release recodings agree *)

Lemma sc_from_i8_ck x : -127 <= x <= 127 -> exists r, (forall ck, sc_from_i8 ck x = Ok r) /\ scanon r.
Proof.
  intros H. destruct (sc_from_i8_ok true x H) as (r & E & C & V).
  destruct (sc_from_i8_ok false x H) as (r' & E' & C' & V').
  assert (r = r'). { apply sval_inj; [apply C|apply C'|]. congruence. }
  subst r'. exists r. split; [|exact C]. intros []; assumption.
Qed.
Lemma sc_sub_ck a b : scanon a -> scanon b -> exists r, (forall ck, sc_sub ck a b = Ok r) /\ scanon r.
Proof.
  intros A B. destruct (sc_sub_ok true a b A B) as (r & E & C & V).
  destruct (sc_sub_ok false a b A B) as (r' & E' & C' & V').
  assert (r = r'). { apply sval_inj; [apply C|apply C'|]. congruence. }
  subst r'. exists r. split; [|exact C]. intros []; assumption.
Qed.

Lemma wnaf_ck w : 1 <= w <= 6 -> forall n k i arr ck, scanon k ->
  sc_wnaf_loop n ck w k i arr = sc_wnaf_loop n false w k i arr.
Proof.
  intros W. induction n as [|n IH]; intros k i arr ck K; [reflexivity|].
  cbn [sc_wnaf_loop]. destruct (is_ge _); [|reflexivity].
  destruct (sc_is_even k); cbn [negb].
  - destruct (set_nth i 0 arr) as [arr'| |]; cbn [bind]; try reflexivity.
    apply IH. destruct (sc_half_without_mod_ok k (proj1 K)) as [A B]. split; [assumption|].
    rewrite B. destruct K as [K1 K2]. apply sval_nonneg in K1. lia.
  - rewrite !sc_mods_2_pow_k_ok by (try lia; apply K). rewrite !bind_ok.
    destruct (set_nth i (smods (sval k) w) arr) as [arr'| |]; cbn [bind]; try reflexivity.
    pose proof (smods_range (sval k) w ltac:(lia)) as R.
    assert (P2 : 2 ^ (w - 1) <= 2 ^ 5) by (apply Z.pow_le_mono_r; lia). change (2 ^ 5) with 32 in P2.
    destruct (sc_from_i8_ck (smods (sval k) w)) as (d & E & Cd); [lia|].
    rewrite !E. cbn [bind].
    destruct (sc_sub_ck k d K Cd) as (k' & E' & Ck). rewrite !E'. cbn [bind].
    apply IH. destruct (sc_half_without_mod_ok k' (proj1 Ck)) as [A B]. split; [assumption|].
    rewrite B. destruct Ck as [K1 K2]. apply sval_nonneg in K1. lia.
Qed.

Lemma compute_window_NAF_ck w k : scanon k -> no_wrap w (sval k) ->
  exists ds, (forall ck, sc_compute_window_NAF ck k w = Ok (pad256 ds)) /\ (length ds <= 250)%nat /\
    recoding w (sval k) ds.
Proof.
  intros K NW. destruct (sc_compute_window_NAF_ok false w k K NW) as (ds & E & H).
  exists ds. split; [|exact H]. intros ck. rewrite <- E. unfold sc_compute_window_NAF.
  apply wnaf_ck; [|exact K]. unfold no_wrap in NW. lia.
Qed.
Lemma compute_NAF_ck k : scanon k ->
  exists ds, (forall ck, sc_compute_NAF ck k = Ok (pad256 ds)) /\ (length ds <= 250)%nat /\
    recoding 2 (sval k) ds.
Proof.
  intros K. destruct (compute_window_NAF_ck 2 k K) as (ds & E & H); [left; lia|].
  exists ds. split; [|exact H]. intros ck. rewrite <- (E ck). unfold sc_compute_NAF, sc_compute_window_NAF.
  apply naf_loop_eq. exact K.
Qed.

Lemma nth_error_pad ds i : (i < 256)%nat -> (length ds <= 250)%nat ->
  nth_error (pad256 ds) i = Some (nth i ds 0).
Proof.
  intros H Hl. unfold pad256. destruct (Nat.lt_ge_cases i (length ds)) as [A|A].
  - rewrite nth_error_app1 by exact A. apply nth_error_nth'. exact A.
  - rewrite nth_error_app2 by exact A. rewrite (nth_overflow ds) by exact A.
    rewrite (nth_error_nth' _ 0) by (rewrite repeat_length; lia). apply f_equal. apply nth_repeat.
Qed.

(** Value of the digits from index [i] up. *)
Lemma digits_skipn ds i : digits_value (skipn i ds) = nth i ds 0 + 2 * digits_value (skipn (S i) ds).
Proof.
  revert i. induction ds as [|d ds IH]; intros i.
  - destruct i; reflexivity.
  - destruct i; [reflexivity|]. apply IH.
Qed.

Section Generic.
Variable T : Type.
Variable rep : T -> pt -> Prop.
Variables add sub : bool -> T -> T -> res T.
Variable double : bool -> T -> res T.
Variable ident : T.
Hypothesis Hid : rep ident pO.
Hypothesis Hadd : forall P Q A B, rep P A -> rep Q B ->
  exists R, (forall ck, add ck P Q = Ok R) /\ rep R (padd A B).
Hypothesis Hsub : forall P Q A B, rep P A -> rep Q B ->
  exists R, (forall ck, sub ck P Q = Ok R) /\ rep R (padd A (popp B)).
Hypothesis Hdbl : forall P A, rep P A -> exists R, (forall ck, double ck P = Ok R) /\ rep R (padd A A).


Lemma double_and_add_loop_ok : forall m n N Q A B, sloadable n -> sval n < 2 ^ Z.of_nat m ->
  rep N A -> rep Q B ->
  exists R, (forall ck, double_and_add_loop (add ck) (double ck) (S m) N n Q = Ok R) /\
    rep R (padd B (smul (sval n) A)).
Proof.
  induction m as [|m IH]; intros n N Q A B Hn Hm HN HQ.
  - assert (E : sval n = 0). { pose proof (sval_nonneg n (proj1 Hn)). change (2 ^ Z.of_nat 0) with 1 in Hm. lia. }
    exists Q. split.
    + intros ck. cbn [double_and_add_loop]. rewrite sc_eqb_ok, E by (assumption || apply scanon_loadable, scanon_zero).
      reflexivity.
    + rewrite E, smul_0, padd_O_r. exact HQ.
  - assert (Hz := sval_nonneg n (proj1 Hn)).
    destruct (Z.eq_dec (sval n) 0) as [E|NE].
    { exists Q. split.
      + intros ck. cbn [double_and_add_loop].
        rewrite sc_eqb_ok, E by (assumption || apply scanon_loadable, scanon_zero). reflexivity.
      + rewrite E, smul_0, padd_O_r. exact HQ. }
    assert (HQ' : exists Q', (forall ck, (if negb (sc_is_even n) then add ck Q N else Ok Q) = Ok Q') /\
        rep Q' (padd B (smul (sval n mod 2) A))).
    { rewrite sc_is_even_ok. rewrite Zmod_even. destruct (Z.even (sval n)); cbn [negb].
      - exists Q. split; [reflexivity|]. rewrite smul_0, padd_O_r. exact HQ.
      - destruct (Hadd Q N B A HQ HN) as (Q' & E & HR). exists Q'. split; [exact E|].
        rewrite smul_1. exact HR. }
    destruct HQ' as (Q' & EQ & HQ').
    destruct (Hdbl N A HN) as (N' & EN & HN').
    destruct (sc_half_without_mod_ok n (proj1 Hn)) as [HL HV].
    destruct (IH (sc_half_without_mod n) N' Q' (padd A A) (padd B (smul (sval n mod 2) A)))
      as (R & ER & HR).
    + split; [exact HL|]. rewrite HV. destruct Hn as [_ Hn].
      apply Z.le_lt_trans with (sval n); [apply Z.div_le_upper_bound; lia|exact Hn].
    + rewrite HV. apply Z.div_lt_upper_bound; [lia|]. rewrite <- Z.pow_succ_r by lia.
      rewrite <- Nat2Z.inj_succ. exact Hm.
    + exact HN'.
    + exact HQ'.
    + exists R. split.
      * intros ck. specialize (EQ ck). specialize (EN ck). specialize (ER ck).
        remember (S m) as m1. cbn [double_and_add_loop].
        rewrite sc_eqb_ok by (assumption || apply scanon_loadable, scanon_zero).
        rewrite sval_zero, (proj2 (Z.eqb_neq _ _) NE). cbn [negb]. rewrite EQ, bind_ok, EN, bind_ok. exact ER.
      * assert (X : padd (padd B (smul (sval n mod 2) A)) (smul (sval (sc_half_without_mod n)) (padd A A))
                    = padd B (smul (sval n) A)).
        { rewrite padd_assoc, HV, <- smul_2, <- smul_mul, <- smul_add. do 2 f_equal.
          pose proof (Z.div_mod (sval n) 2). lia. }
        rewrite <- X. exact HR.
Qed.

Lemma double_and_add_ok n P A : sloadable n -> rep P A ->
  exists R, (forall ck, double_and_add (add ck) (double ck) ident P n = Ok R) /\ rep R (smul (sval n) A).
Proof.
  intros Hn HP. destruct (double_and_add_loop_ok 599 n P ident A pO) as (R & E & HR); try assumption.
  - destruct Hn as [_ Hn]. apply Z.lt_le_trans with (1 := Hn). apply Z.pow_le_mono_r; lia.
  - exists R. split; [exact E|]. rewrite padd_O_l in HR. exact HR.
Qed.

Lemma bits_step v i : 0 <= i -> v mod 2 ^ Z.succ i = Z.b2z (Z.testbit v i) * 2 ^ i + v mod 2 ^ i.
Proof.
  intros H. rewrite Z.pow_succ_r by exact H. rewrite (Z.mul_comm 2), Z.rem_mul_r by (try apply Z.pow_nonzero; lia).
  rewrite <- Z.testbit_spec' by exact H. lia.
Qed.

Lemma ltr_loop_ok v bits P A : (forall i, (i < 249)%nat -> nth_error bits i = Some (Z.b2z (Z.testbit v (Z.of_nat i)))) ->
  rep P A -> forall i Q a, (i <= 249)%nat -> rep Q (smul a A) ->
  exists R, (forall ck, ltr_bin_mul_loop (add ck) (double ck) P bits i Q = Ok R) /\
    rep R (smul (a * 2 ^ Z.of_nat i + v mod 2 ^ Z.of_nat i) A).
Proof.
  intros HB HP. induction i as [|i IH]; intros Q a Hi HQ.
  - exists Q. split; [reflexivity|]. change (2 ^ Z.of_nat 0) with 1. rewrite Z.mod_1_r, Z.mul_1_r, Z.add_0_r.
    exact HQ.
  - destruct (Hdbl Q _ HQ) as (Q1 & E1 & H1).
    rewrite <- smul_2, <- smul_mul in H1.
    set (b := Z.b2z (Z.testbit v (Z.of_nat i))).
    assert (H2 : exists Q2, (forall ck, (if b =? 1 then add ck Q1 P else Ok Q1) = Ok Q2) /\
        rep Q2 (smul (2 * a + b) A)).
    { unfold b. destruct (Z.testbit v (Z.of_nat i)); cbn [Z.b2z Z.eqb Pos.eqb].
      - destruct (Hadd Q1 P _ A H1 HP) as (Q2 & E2 & H2). exists Q2. split; [exact E2|].
        rewrite smul_add, smul_1. exact H2.
      - exists Q1. split; [reflexivity|]. rewrite Z.add_0_r. exact H1. }
    destruct H2 as (Q2 & E2 & H2).
    destruct (IH Q2 (2 * a + b) ltac:(lia) H2) as (R & ER & HR).
    exists R. split.
    + intros ck. cbn [ltr_bin_mul_loop]. rewrite E1, bind_ok, HB by lia. cbn [unwrap]. rewrite bind_ok.
      fold b. rewrite E2, bind_ok. apply ER.
    + rewrite Nat2Z.inj_succ, bits_step by lia. fold b. rewrite Z.pow_succ_r by lia.
      replace (a * (2 * 2 ^ Z.of_nat i) + (b * 2 ^ Z.of_nat i + v mod 2 ^ Z.of_nat i))
        with ((2 * a + b) * 2 ^ Z.of_nat i + v mod 2 ^ Z.of_nat i) by ring.
      exact HR.
Qed.

Lemma into_bits_nth_error n i : sloadable n -> (i < 256)%nat ->
  nth_error (sc_into_bits n) i = Some (Z.b2z (Z.testbit (sval n) (Z.of_nat i))).
Proof.
  intros Hn Hi. rewrite (nth_error_nth' _ 0) by (rewrite sc_into_bits_length; exact Hi).
  rewrite sc_into_bits_ok by exact Hn. reflexivity.
Qed.

Lemma ltr_bin_mul_ok n P A : sloadable n -> rep P A ->
  exists R, (forall ck, ltr_bin_mul (add ck) (double ck) ident P n = Ok R) /\
    rep R (smul (sval n mod 2 ^ 249) A).
Proof.
  intros Hn HP.
  destruct (ltr_loop_ok (sval n) (sc_into_bits n) P A) with (i := 249%nat) (Q := ident) (a := 0)
    as (R & E & HR).
  - intros i Hi. apply into_bits_nth_error; [exact Hn|lia].
  - exact HP.
  - lia.
  - exact Hid.
  - exists R. split; [exact E|exact HR].
Qed.

Lemma naf_loop_ok ds P A : (length ds <= 250)%nat -> Forall (fun d => d = 0 \/ d = 1 \/ d = -1) ds ->
  rep P A -> forall i Q, (i <= 250)%nat -> rep Q (smul (digits_value (skipn i ds)) A) ->
  exists R, (forall ck, binary_naf_mul_loop (add ck) (sub ck) (double ck) P (pad256 ds) i Q = Ok R) /\
    rep R (smul (digits_value ds) A).
Proof.
  intros Hl HD HP. induction i as [|i IH]; intros Q Hi HQ.
  - exists Q. split; [reflexivity|exact HQ].
  - destruct (Hdbl Q _ HQ) as (Q1 & E1 & H1).
    rewrite <- smul_2, <- smul_mul in H1.
    assert (Hd : nth i ds 0 = 0 \/ nth i ds 0 = 1 \/ nth i ds 0 = -1).
    { destruct (Nat.lt_ge_cases i (length ds)) as [X|X].
      - rewrite Forall_forall in HD. apply HD. apply nth_In. exact X.
      - left. apply nth_overflow. exact X. }
    assert (H2 : exists Q2, (forall ck, (if nth i ds 0 =? 1 then add ck Q1 P
              else if nth i ds 0 =? -1 then sub ck Q1 P else Ok Q1) = Ok Q2) /\
        rep Q2 (smul (digits_value (skipn i ds)) A)).
    { rewrite digits_skipn. destruct Hd as [-> | [-> | ->]]; cbn [Z.eqb Pos.eqb].
      - exists Q1. split; [reflexivity|exact H1].
      - destruct (Hadd Q1 P _ A H1 HP) as (Q2 & E2 & H2). exists Q2. split; [exact E2|].
        rewrite (Z.add_comm 1), smul_add, smul_1. exact H2.
      - destruct (Hsub Q1 P _ A H1 HP) as (Q2 & E2 & H2). exists Q2. split; [exact E2|].
        rewrite (Z.add_comm (-1)), smul_add. change (-1) with (- (1)).
        rewrite smul_opp, smul_1. exact H2. }
    destruct H2 as (Q2 & E2 & H2).
    destruct (IH Q2 ltac:(lia) H2) as (R & ER & HR).
    exists R. split; [|exact HR].
    intros ck. cbn [binary_naf_mul_loop]. rewrite E1, bind_ok, nth_error_pad by lia. cbn [unwrap].
    rewrite bind_ok, E2, bind_ok. apply ER.
Qed.

Lemma binary_naf_mul_ok n P A : scanon n -> rep P A ->
  exists R, (forall ck, binary_naf_mul ck (add ck) (sub ck) (double ck) ident P n = Ok R) /\
    rep R (smul (sval n) A).
Proof.
  intros Hn HP. destruct (compute_NAF_ck n Hn) as (ds & E & Hl & V & HD & _).
  destruct (naf_loop_ok ds P A Hl) with (i := 250%nat) (Q := ident) as (R & ER & HR).
  - eapply Forall_impl; [|exact HD]. cbn beta. intros d [_ B]. change (2 ^ (2 - 1)) with 2 in B. lia.
  - exact HP.
  - lia.
  - rewrite skipn_all2 by exact Hl. exact Hid.
  - exists R. split; [|rewrite <- V; exact HR]. intros ck. unfold binary_naf_mul. rewrite E, bind_ok.
    apply ER.
Qed.
End Generic.
