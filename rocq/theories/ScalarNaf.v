(** * Signed-digit recodings of scalars *)

From Coq Require Import ZArith Znumtheory List Bool Lia.
From Verif Require Import Machine FieldModel ScalarModel Spec MachineFacts FieldLimb FieldMul
  FieldOps FieldBytes ScalarLimb ScalarOps ScalarBits.
Import ListNotations.
Open Scope Z_scope.

(** ** Digit lists *)

Lemma digits_value_app a b :
  digits_value (a ++ b) = digits_value a + 2 ^ Z.of_nat (length a) * digits_value b.
Proof.
  induction a as [|x a IH]; [cbn [app digits_value length]; change (2 ^ Z.of_nat 0) with 1; lia|].
  cbn [app digits_value length]. rewrite IH, Nat2Z.inj_succ, Z.pow_succ_r by lia. ring.
Qed.

Lemma digits_value_zeros n : digits_value (repeat 0 n) = 0.
Proof. induction n; [reflexivity|]. cbn [repeat digits_value]. lia. Qed.

Definition zero_or_odd (d : Z) := d = 0 \/ Z.odd d = true.

Lemma leading_zeros ds : Forall zero_or_odd ds -> forall m, (2 ^ Z.of_nat m | digits_value ds) ->
  forall j, (j < m)%nat -> nth j ds 0 = 0.
Proof.
  induction 1 as [|d ds Hd F IH]; intros m D j Hj; [now destruct j|].
  destruct m as [|m]; [lia|]. rewrite Nat2Z.inj_succ, Z.pow_succ_r in D by lia.
  cbn [digits_value] in D. destruct D as [q Hq].
  assert (D0 : d = 0).
  { destruct Hd as [|O]; [assumption|exfalso].
    assert (d = 2 * (q * 2 ^ Z.of_nat m - digits_value ds)) as E by lia.
    rewrite E, Z.odd_mul in O. discriminate. }
  destruct j as [|j]; [exact D0|]. cbn [nth]. apply (IH m); [|lia].
  exists q. subst d. lia.
Qed.

(** ** One step *)

Lemma smods_odd_step k w : 2 <= w -> 0 <= k -> Z.odd k = true ->
  exists q, k - smods k w = 2 ^ w * q /\ 0 <= q /\ Z.odd (smods k w) = true /\
    - 2 ^ (w - 1) < smods k w < 2 ^ (w - 1).
Proof.
  intros Hw Hk Ho.
  assert (P : 2 ^ w = 2 * 2 ^ (w - 1)) by (rewrite <- Z.pow_succ_r by lia; f_equal; lia).
  assert (P' : 2 ^ (w - 1) = 2 * 2 ^ (w - 2)) by (rewrite <- Z.pow_succ_r by lia; f_equal; lia).
  assert (0 < 2 ^ (w - 2)) by (apply Z.pow_pos_nonneg; lia).
  pose proof (smods_range k w ltac:(lia)) as R.
  pose proof (smods_mod k w ltac:(lia)) as M.
  apply Z.mod_divide in M; [|lia]. destruct M as [q Hq]. exists q.
  assert (O : Z.odd (smods k w) = true).
  { replace (smods k w) with (k + 2 * (- q * 2 ^ (w - 1))) by lia.
    rewrite Z.odd_add, Ho, Z.odd_mul. reflexivity. }
  split; [lia|]. split; [|split; [exact O|]].
  - assert (- 2 ^ (w - 1) < q * 2 ^ w) by lia. clear Hq. nia.
  - split; [|lia]. destruct (Z.eq_dec (smods k w) (- 2 ^ (w - 1))) as [E|]; [|lia].
    rewrite E, P', Z.odd_opp, Z.odd_mul in O. discriminate.
Qed.

(** Widths for which the subtraction never passes L: all scalars for w <= 5,
    all but L - 2 for w = 6. *)
Definition no_wrap (w k : Z) : Prop := 2 <= w <= 5 \/ (w = 6 /\ k <> L - 2).

Lemma no_wrap_sub w k : no_wrap w k -> 0 <= k < L -> Z.odd k = true -> 0 <= k - smods k w < L.
Proof.
  intros N Hk Ho. assert (Hw : 2 <= w <= 6) by (unfold no_wrap in N; lia).
  destruct (smods_odd_step k w) as (q & Eq & Q0 & Os & R); [lia|lia|assumption|].
  assert (0 < 2 ^ w) by (apply Z.pow_pos_nonneg; lia).
  split; [nia|].
  rewrite Zodd_mod in Ho. apply Zeq_bool_eq in Ho.
  unfold no_wrap in N. rewrite L_num in *.
  assert (W : w = 2 \/ w = 3 \/ w = 4 \/ w = 5 \/ w = 6) by lia.
  destruct W as [ -> | [-> | [-> | [-> | ->]]]].
  - change (2 ^ (2 - 1)) with 2 in R. change (2 ^ 2) with 4 in Eq. clear N. lia.
  - change (2 ^ (3 - 1)) with 4 in R. change (2 ^ 3) with 8 in Eq. clear N. lia.
  - change (2 ^ (4 - 1)) with 8 in R. change (2 ^ 4) with 16 in Eq. clear N. lia.
  - change (2 ^ (5 - 1)) with 16 in R. change (2 ^ 5) with 32 in Eq. clear N. lia.
  - change (2 ^ (6 - 1)) with 32 in R. change (2 ^ 6) with 64 in Eq.
    destruct N as [N|[_ N]]; lia.
Qed.

(** ** Bound on the number of digits *)

(** A value at step with [n] remaining positions is at most 2^n + slack. *)
Definition slack (w n : Z) : Z :=
  if 126 <=? n then 2 ^ (n - 125) + 2 ^ (w - 1) - 1 else 2 ^ (w - 1) / 2 ^ (125 - n).

Lemma slack_nonneg w n : 2 <= w -> 0 <= slack w n.
Proof.
  intros. unfold slack. assert (0 < 2 ^ (w - 1)) by (apply Z.pow_pos_nonneg; lia).
  destruct (Z.leb_spec 126 n).
  - assert (0 < 2 ^ (n - 125)) by (apply Z.pow_pos_nonneg; lia). lia.
  - apply Z.div_pos; [lia|]. apply Z.pow_pos_nonneg; lia.
Qed.

Lemma slack_step_even w n k : 2 <= w <= 6 -> 1 <= n -> 0 <= k <= 2 ^ n + slack w n ->
  k / 2 <= 2 ^ (n - 1) + slack w (n - 1).
Proof.
  intros Hw Hn Hk.
  assert (P : 2 ^ n = 2 * 2 ^ (n - 1)) by (rewrite <- Z.pow_succ_r by lia; f_equal; lia).
  enough (slack w n / 2 <= slack w (n - 1)).
  { apply Z.le_trans with ((2 ^ n + slack w n) / 2); [apply Z.div_le_mono; lia|].
    rewrite P, Z.add_comm, (Z.mul_comm 2), Z.div_add by lia. lia. }
  unfold slack. assert (0 < 2 ^ (w - 1)) by (apply Z.pow_pos_nonneg; lia).
  destruct (Z.leb_spec 126 n), (Z.leb_spec 126 (n - 1)); try lia.
  - assert (2 ^ (n - 125) = 2 * 2 ^ (n - 1 - 125))
      by (rewrite <- Z.pow_succ_r by lia; f_equal; lia).
    assert (0 < 2 ^ (n - 1 - 125)) by (apply Z.pow_pos_nonneg; lia). lia.
  - assert (n = 126) by lia. subst n. change (2 ^ (126 - 125)) with 2.
    change (2 ^ (125 - (126 - 1))) with 1. rewrite Z.div_1_r.
    assert (2 ^ (w - 1) = 2 * 2 ^ (w - 2)) by (rewrite <- Z.pow_succ_r by lia; f_equal; lia).
    assert (0 < 2 ^ (w - 2)) by (apply Z.pow_pos_nonneg; lia). lia.
  - rewrite Z.div_div by (try apply Z.pow_pos_nonneg; try apply Z.pow_nonzero; lia).
    rewrite Z.mul_comm, <- Z.pow_succ_r by lia.
    replace (Z.succ (125 - n)) with (125 - (n - 1)) by lia. lia.
Qed.

Lemma slack_step_odd w n k : 2 <= w <= 6 -> 1 <= n -> 0 <= k <= 2 ^ n + slack w n ->
  Z.odd k = true -> (k - smods k w) / 2 <= 2 ^ (n - 1) + slack w (n - 1).
Proof.
  intros Hw Hn Hk Ho.
  assert (P : 2 ^ n = 2 * 2 ^ (n - 1)) by (rewrite <- Z.pow_succ_r by lia; f_equal; lia).
  assert (Pw : 2 ^ w = 2 * 2 ^ (w - 1)) by (rewrite <- Z.pow_succ_r by lia; f_equal; lia).
  assert (0 < 2 ^ (w - 1)) by (apply Z.pow_pos_nonneg; lia).
  destruct (smods_odd_step k w) as (q & Eq & Q0 & _ & R); [lia|lia|assumption|].
  destruct (Z.leb_spec 126 n) as [H126|H126].
  - (* far from the end: the slack absorbs the digit *)
    unfold slack in Hk. rewrite (proj2 (Z.leb_le 126 n) H126) in Hk.
    assert (S1 : 2 ^ (n - 126) + 2 ^ (w - 1) - 1 <= slack w (n - 1)).
    { unfold slack. destruct (Z.leb_spec 126 (n - 1)).
      - replace (n - 1 - 125) with (n - 126) by lia. lia.
      - assert (n = 126) by lia. subst n. change (2 ^ (126 - 126)) with 1.
        change (2 ^ (125 - (126 - 1))) with 1. rewrite Z.div_1_r. lia. }
    assert (2 ^ (n - 125) = 2 * 2 ^ (n - 126))
      by (rewrite <- Z.pow_succ_r by lia; f_equal; lia).
    clear S1 Eq. enough (k - smods k w <= 2 * (2 ^ (n - 1) + (2 ^ (n - 126) + 2 ^ (w - 1) - 1))).
    { apply Z.le_trans with (2 ^ (n - 1) + (2 ^ (n - 126) + 2 ^ (w - 1) - 1)).
      - apply Z.div_le_upper_bound; lia.
      - unfold slack. destruct (Z.leb_spec 126 (n - 1)).
        + replace (n - 1 - 125) with (n - 126) by lia. lia.
        + assert (n = 126) by lia. subst n. change (2 ^ (126 - 126)) with 1.
          change (2 ^ (125 - (126 - 1))) with 1. rewrite Z.div_1_r. lia. }
    lia.
  - pose proof (slack_nonneg w (n - 1) ltac:(lia)).
    assert (SB : slack w n <= 2 ^ (w - 1)).
    { unfold slack. destruct (Z.leb_spec 126 n); [lia|].
      apply Z.div_le_upper_bound; [apply Z.pow_pos_nonneg; lia|].
      assert (1 <= 2 ^ (125 - n)) by (apply (Z.pow_le_mono_r 2 0); lia). nia. }
    enough (k - smods k w <= 2 ^ n).
    { apply Z.le_trans with (2 ^ (n - 1)); [apply Z.div_le_upper_bound; lia|lia]. }
    destruct (Z.le_gt_cases w n) as [Hwn|Hwn].
    + assert (Pn : 2 ^ n = 2 ^ w * 2 ^ (n - w)) by (rewrite <- Z.pow_add_r by lia; f_equal; lia).
      assert (0 < 2 ^ (n - w)) by (apply Z.pow_pos_nonneg; lia).
      rewrite Eq, Pn. apply Z.mul_le_mono_nonneg_l; [lia|].
      assert (2 ^ w * q < 2 ^ w * (2 ^ (n - w) + 1)) by lia. nia.
    + assert (S0 : slack w n = 0).
      { unfold slack. destruct (Z.leb_spec 126 n); [lia|]. apply Z.div_small. split; [lia|].
        apply Z.pow_lt_mono_r; lia. }
      assert (2 ^ n <= 2 ^ (w - 1)) by (apply Z.pow_le_mono_r; lia).
      assert (q = 0) by nia. subst q. rewrite Eq. lia.
Qed.

(** ** The loops *)

(** What a recoding of [k] by digits [ds] must satisfy. *)
Definition recoding (w : Z) (k : Z) (ds : list Z) : Prop :=
  digits_value ds = k /\
  Forall (fun d => zero_or_odd d /\ - 2 ^ (w - 1) < d < 2 ^ (w - 1)) ds /\
  (forall i j, (i < j)%nat -> Z.of_nat j < Z.of_nat i + w -> nth i ds 0 = 0 \/ nth j ds 0 = 0).

Lemma recoding_nil w : recoding w 0 [].
Proof.
  split; [reflexivity|]. split; [constructor|]. intros i j _ _. left. now destruct i.
Qed.

Lemma recoding_zero w k ds : 1 <= w -> recoding w k ds -> recoding w (2 * k) (0 :: ds).
Proof.
  intros Hw (V & D & N). split; [cbn [digits_value]; lia|].
  assert (0 < 2 ^ (w - 1)) by (apply Z.pow_pos_nonneg; lia).
  split; [constructor; [split; [now left|lia]|assumption]|].
  intros [|i] [|j] H1 H2; try lia; cbn [nth].
  - now left.
  - apply N; lia.
Qed.

Lemma recoding_odd w d k ds : 1 <= w -> Z.odd d = true -> - 2 ^ (w - 1) < d < 2 ^ (w - 1) ->
  (2 ^ (w - 1) | k) -> recoding w k ds -> recoding w (d + 2 * k) (d :: ds).
Proof.
  intros Hw O R Dv (V & D & N). split; [cbn [digits_value]; lia|].
  split; [constructor; [split; [now right|lia]|assumption]|].
  intros [|i] [|j] H1 H2; try lia; cbn [nth].
  - right. apply (leading_zeros ds) with (m := Z.to_nat (w - 1)); [|rewrite Z2Nat.id, V by lia; assumption|lia].
    eapply Forall_impl; [|exact D]. now intros a [].
  - apply N; lia.
Qed.

Definition pad (i : nat) (l : list Z) : list Z := l ++ repeat 0 (256 - i - length l).

Lemma set_nth_pad pre v m : set_nth (length pre) v (pre ++ repeat 0 (S m)) =
  Ok ((pre ++ [v]) ++ repeat 0 m).
Proof.
  rewrite <- app_assoc. induction pre as [|x pre IH]; [reflexivity|].
  cbn [length app set_nth]. rewrite IH. reflexivity.
Qed.

Lemma repeat_pred m : (0 < m)%nat -> repeat 0 m = repeat 0 (S (m - 1)).
Proof. intros. f_equal. lia. Qed.

Lemma no_wrap_small w k k' : no_wrap w k -> k' < L - 2 -> no_wrap w k'.
Proof. unfold no_wrap. intros. lia. Qed.

Lemma wnaf_step n ck w k i arr : sc_wnaf_loop (S n) ck w k i arr =
    if is_ge (sc_cmp k sc_one) then
      '(k, arr) <- (if negb (sc_is_even k) then
                      ki <- sc_mods_2_pow_k ck k w ;;
                      arr <- set_nth i ki arr ;;
                      d <- sc_from_i8 ck ki ;;
                      k <- sc_sub ck k d ;;
                      Ok (k, arr)
                    else
                      arr <- set_nth i 0 arr ;;
                      Ok (k, arr)) ;;
      sc_wnaf_loop n ck w (sc_half_without_mod k) (S i) arr
    else Ok arr.
Proof. reflexivity. Qed.

Section Loop.
Context (ck : bool) (w : Z).

Lemma wnaf_loop_ok : forall n k pre, scanon k -> no_wrap w (sval k) ->
  sval k <= 2 ^ Z.of_nat n + slack w (Z.of_nat n) -> (length pre + n < 256)%nat ->
  exists ds, sc_wnaf_loop (S (S n)) ck w k (length pre) (pre ++ repeat 0 (256 - length pre)) =
      Ok (pre ++ ds ++ repeat 0 (256 - length pre - length ds)) /\
    (length ds <= S n)%nat /\ recoding w (sval k) ds.
Proof.
  induction n as [|n IH]; intros k pre K NW B Hn;
  (assert (Hw : 2 <= w <= 6) by (unfold no_wrap in NW; lia));
  pose proof (sval_nonneg _ (proj1 K)) as K0;
  pose proof (proj2 K) as KL;
  (assert (S0 : slack w 0 = 0)
     by (unfold slack; cbn [Z.leb]; change (126 <=? 0) with false; cbv iota; apply Z.div_small;
         split; [apply Z.pow_nonneg; lia|apply Z.pow_lt_mono_r; lia]));
  (assert (L1 : slimbs sc_one) by apply scanon_one).
  - (* at most one more digit *)
    change (Z.of_nat 0) with 0 in B. rewrite S0 in B. change (2 ^ 0 + 0) with 1 in B.
    rewrite wnaf_step.
    rewrite sc_ge_ok by (assumption || apply K). rewrite sval_one.
    destruct (Z.leb_spec 1 (sval k)) as [Hp|Hp].
    2:{ exists []. replace (sval k) with 0 by lia.
        rewrite Nat.sub_0_r. split; [reflexivity|]. split; [cbn; lia|apply recoding_nil]. }
    assert (E : sval k = 1) by lia.
    rewrite sc_is_even_ok, E. change (Z.even 1) with false. cbn [negb].
    rewrite sc_mods_2_pow_k_ok by (try lia; apply K). rewrite bind_ok, E.
    assert (Sm : smods 1 w = 1).
    { rewrite smods_case by lia.
      assert (2 ^ (w - 1) = 2 * 2 ^ (w - 2)) by (rewrite <- Z.pow_succ_r by lia; f_equal; lia).
      assert (2 ^ w = 2 * 2 ^ (w - 1)) by (rewrite <- Z.pow_succ_r by lia; f_equal; lia).
      assert (0 < 2 ^ (w - 2)) by (apply Z.pow_pos_nonneg; lia).
      rewrite (Z.mod_small 1) by lia.
      destruct (Z.leb_spec (2 ^ (w - 1)) 1); lia. }
    rewrite Sm.
    rewrite (repeat_pred (256 - length pre)) by lia. rewrite set_nth_pad, bind_ok.
    destruct (sc_from_i8_ok ck 1) as (d & -> & Cd & Vd); [lia|]. rewrite bind_ok.
    change (1 mod L) with 1 in Vd.
    destruct (sc_sub_ok ck k d K Cd) as (k' & -> & Ck' & Vk'). rewrite !bind_ok.
    rewrite E, Vd in Vk'. change ((1 - 1) mod L) with 0 in Vk'.
    destruct (sc_half_without_mod_ok k' (proj1 Ck')) as [Lh Vh]. rewrite Vk' in Vh.
    change (0 / 2) with 0 in Vh.
    rewrite wnaf_step, sc_ge_ok by assumption. rewrite sval_one, Vh.
    change (1 <=? 0) with false. cbv iota.
    exists [1]. rewrite <- app_assoc. cbn [app length]. split; [|split; [lia|]].
    { repeat f_equal; lia. }
    apply (recoding_odd w 1 0 []); [lia|reflexivity| |apply Z.divide_0_r|apply recoding_nil].
    assert (2 ^ (w - 1) = 2 * 2 ^ (w - 2)) by (rewrite <- Z.pow_succ_r by lia; f_equal; lia).
    assert (0 < 2 ^ (w - 2)) by (apply Z.pow_pos_nonneg; lia). lia.
  - rewrite wnaf_step.
    rewrite sc_ge_ok by (assumption || apply K). rewrite sval_one.
    destruct (Z.leb_spec 1 (sval k)) as [Hp|Hp].
    2:{ exists []. replace (sval k) with 0 by lia.
        rewrite Nat.sub_0_r. split; [reflexivity|]. split; [cbn; lia|apply recoding_nil]. }
    rewrite sc_is_even_ok.
    replace (Z.of_nat (S n)) with (Z.of_nat n + 1) in B by lia.
    destruct (Z.even (sval k)) eqn:Ev; cbn [negb].
    + rewrite (repeat_pred (256 - length pre)) by lia. rewrite set_nth_pad, !bind_ok.
      destruct (sc_half_without_mod_ok k (proj1 K)) as [Lh Vh].
      assert (D : sval k = 2 * (sval k / 2)).
      { apply Zeven_bool_iff, Zeven_div2 in Ev. rewrite Z.div2_div in Ev. exact Ev. }
      destruct (IH (sc_half_without_mod k) (pre ++ [0])) as (ds & E & Hl & R).
      * split; [assumption|]. rewrite Vh. lia.
      * apply (no_wrap_small w (sval k)); [assumption|]. rewrite Vh, L_num in *. lia.
      * rewrite Vh. pose proof (slack_step_even w (Z.of_nat n + 1) (sval k)) as Q.
        replace (Z.of_nat n + 1 - 1) with (Z.of_nat n) in Q by lia. apply Q; lia.
      * rewrite app_length. cbn [length]. lia.
      * exists (0 :: ds). rewrite app_length in E. cbn [length] in E.
        replace (length pre + 1)%nat with (S (length pre)) in E by lia.
        replace (256 - S (length pre))%nat with (256 - length pre - 1)%nat in E by lia.
        rewrite E. split; [|split; [cbn [length]; lia|]].
        { rewrite <- app_assoc. cbn [app length].
          now replace (256 - length pre - S (length ds))%nat
            with (256 - length pre - 1 - length ds)%nat by lia. }
        rewrite D. apply recoding_zero; [lia|]. now rewrite <- Vh.
    + assert (Ho : Z.odd (sval k) = true) by (rewrite <- Z.negb_even, Ev; reflexivity).
      rewrite sc_mods_2_pow_k_ok by (try lia; apply K). rewrite bind_ok.
      rewrite (repeat_pred (256 - length pre)) by lia. rewrite set_nth_pad, bind_ok.
      destruct (smods_odd_step (sval k) w) as (q & Eq & Q0 & Os & R0); [lia|lia|assumption|].
      pose proof (no_wrap_sub w (sval k) NW (conj (proj1 K0) KL) Ho) as NS.
      set (dg := smods (sval k) w) in *.
      assert (2 ^ (w - 1) <= 2 ^ 5) by (apply Z.pow_le_mono_r; lia).
      destruct (sc_from_i8_ok ck dg) as (d & -> & Cd & Vd); [lia|]. rewrite bind_ok.
      destruct (sc_sub_ok ck k d K Cd) as (k' & -> & Ck' & Vk'). rewrite !bind_ok.
      rewrite Vd, Zminus_mod_idemp_r, Z.mod_small in Vk' by lia.
      destruct (sc_half_without_mod_ok k' (proj1 Ck')) as [Lh Vh]. rewrite Vk' in Vh.
      assert (P : 2 ^ w = 2 * 2 ^ (w - 1)) by (rewrite <- Z.pow_succ_r by lia; f_equal; lia).
      assert (Hh : (sval k - dg) / 2 = 2 ^ (w - 1) * q).
      { rewrite Eq, P. replace (2 * 2 ^ (w - 1) * q) with (2 ^ (w - 1) * q * 2) by ring.
        apply Z.div_mul. lia. }
      destruct (IH (sc_half_without_mod k') (pre ++ [dg])) as (ds & E & Hl & R).
      * split; [assumption|]. rewrite Vh. apply Z.div_lt_upper_bound; lia.
      * apply (no_wrap_small w (sval k)); [assumption|]. rewrite Vh.
        apply Z.div_lt_upper_bound; rewrite L_num in *; lia.
      * rewrite Vh. pose proof (slack_step_odd w (Z.of_nat n + 1) (sval k)) as Q.
        replace (Z.of_nat n + 1 - 1) with (Z.of_nat n) in Q by lia. apply Q; try lia. assumption.
      * rewrite app_length. cbn [length]. lia.
      * exists (dg :: ds). rewrite app_length in E. cbn [length] in E.
        replace (length pre + 1)%nat with (S (length pre)) in E by lia.
        replace (256 - S (length pre))%nat with (256 - length pre - 1)%nat in E by lia.
        rewrite E. split; [|split; [cbn [length]; lia|]].
        { rewrite <- app_assoc. cbn [app length].
          now replace (256 - length pre - S (length ds))%nat
            with (256 - length pre - 1 - length ds)%nat by lia. }
        replace (sval k) with (dg + 2 * ((sval k - dg) / 2)) at 1 by (rewrite Hh; lia).
        apply recoding_odd; [lia|assumption|lia|rewrite Hh; exists q; ring|]. now rewrite <- Vh.
Qed.

End Loop.

Lemma fuel_wnaf ck w k i arr r n m : sc_wnaf_loop n ck w k i arr = r -> r <> NoFuel -> (n <= m)%nat ->
  sc_wnaf_loop m ck w k i arr = r.
Proof.
  revert k i arr m. induction n as [|n IH]; intros k i arr m E N H; [cbn in E; congruence|].
  destruct m as [|m]; [lia|]. cbn [sc_wnaf_loop] in *.
  destruct (is_ge _); [|exact E].
  match goal with |- bind ?x _ = _ => destruct x as [[k' arr']| |] end; cbn [bind] in *; auto.
  apply IH; auto. lia.
Qed.

Definition pad256 (ds : list Z) : list Z := ds ++ repeat 0 (256 - length ds).

Lemma sc_compute_window_NAF_ok ck w k : scanon k -> no_wrap w (sval k) ->
  exists ds, sc_compute_window_NAF ck k w = Ok (pad256 ds) /\ (length ds <= 250)%nat /\
    recoding w (sval k) ds.
Proof.
  intros K NW.
  destruct (wnaf_loop_ok ck w 249 k [] K NW) as (ds & E & Hl & R).
  - change (Z.of_nat 249) with 249. unfold slack. change (126 <=? 249) with true. cbv iota.
    assert (0 < 2 ^ (w - 1)) by (apply Z.pow_pos_nonneg; unfold no_wrap in NW; lia).
    destruct K as [_ K]. assert (L <= 2 ^ 249 + 2 ^ (249 - 125)) by (vm_compute; discriminate). lia.
  - cbn. lia.
  - exists ds. split; [|split; assumption]. unfold sc_compute_window_NAF.
    eapply fuel_wnaf with (n := S (S 249)).
    + cbn [length app Nat.sub] in E. exact E.
    + discriminate.
    + unfold loop_fuel. lia.
Qed.

(** The binary recoding takes the same steps as the width-2 one. *)
Lemma naf_digit ck k : slimbs k -> Z.odd (sval k) = true ->
  (m <- sc_mod_2_pow_k ck k 2 ;; i8sub ck 2 (as_i8 m)) = sc_mods_2_pow_k ck k 2.
Proof.
  intros K O. rewrite sc_mod_2_pow_k_ok, sc_mods_2_pow_k_ok by (assumption || lia).
  rewrite bind_ok, smods_case by lia. change (2 ^ 2) with 4. change (2 ^ (2 - 1)) with 2.
  rewrite Zodd_mod in O. apply Zeq_bool_eq in O.
  assert (C : sval k mod 4 = 1 \/ sval k mod 4 = 3) by lia.
  destruct C as [-> | ->]; reflexivity.
Qed.

Lemma naf_loop_eq ck : forall n k i arr, scanon k ->
  sc_naf_loop n ck k i arr = sc_wnaf_loop n ck 2 k i arr.
Proof.
  induction n as [|n IH]; intros k i arr K; [reflexivity|].
  cbn [sc_naf_loop sc_wnaf_loop]. destruct (is_ge _); [|reflexivity].
  rewrite sc_is_even_ok. destruct (Z.even (sval k)) eqn:Ev; cbn [negb].
  - destruct (set_nth i 0 arr) as [arr'| |]; cbn [bind]; try reflexivity.
    apply IH. destruct (sc_half_without_mod_ok k (proj1 K)) as [A B]. split; [assumption|].
    rewrite B. destruct K as [K1 K2]. apply sval_nonneg in K1. lia.
  - assert (Ho : Z.odd (sval k) = true) by (rewrite <- Z.negb_even, Ev; reflexivity).
    pose proof (naf_digit ck k (proj1 K) Ho) as E.
    assert (E' : forall A (f : Z -> res A),
      (m <- sc_mod_2_pow_k ck k 2 ;; ki <- i8sub ck 2 (as_i8 m) ;; f ki) =
      (ki <- sc_mods_2_pow_k ck k 2 ;; f ki)).
    { intros A f. rewrite <- E. destruct (sc_mod_2_pow_k ck k 2); reflexivity. }
    rewrite E'. clear E E'.
    rewrite sc_mods_2_pow_k_ok by (try lia; apply K). rewrite bind_ok.
    destruct (set_nth i (smods (sval k) 2) arr) as [arr'| |]; cbn [bind]; try reflexivity.
    pose proof (smods_range (sval k) 2 ltac:(lia)) as R. change (2 ^ (2 - 1)) with 2 in R.
    destruct (sc_from_i8_ok ck (smods (sval k) 2)) as (d & -> & Cd & Vd); [lia|].
    cbn [bind].
    destruct (sc_sub_ok ck k d K Cd) as (k' & -> & Ck & Vk). cbn [bind].
    apply IH. destruct (sc_half_without_mod_ok k' (proj1 Ck)) as [A B]. split; [assumption|].
    rewrite B. destruct Ck as [K1 K2]. apply sval_nonneg in K1. lia.
Qed.

Lemma sc_compute_NAF_ok ck k : scanon k ->
  exists ds, sc_compute_NAF ck k = Ok (pad256 ds) /\ (length ds <= 250)%nat /\
    recoding 2 (sval k) ds.
Proof.
  intros K. unfold sc_compute_NAF. rewrite naf_loop_eq by assumption.
  apply (sc_compute_window_NAF_ok ck 2 k K). left. lia.
Qed.
