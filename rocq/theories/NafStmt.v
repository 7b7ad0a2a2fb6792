(** * Signed-digit recodings: uniqueness, least weight and number of digits

    Statement forms; PropNaf.v restates each of them.                        *)

From Coq Require Import ZArith Znumtheory List Bool Lia.
From Verif Require Import Machine FieldModel ScalarModel Spec MachineFacts FieldOps FieldBytes
  ScalarLimb ScalarOps ScalarBits ScalarNaf ScalarStmt NafSpec.
Import ListNotations.
Open Scope Z_scope.

(** ** Least weight

    [WN w n k s]: [n] has a width-w non-adjacent expansion with [k] non-zero
    digits, [s] measures its length. *)
Inductive WN (w : Z) : Z -> nat -> nat -> Prop :=
| WN0 : WN w 0 0 0
| WNe n k s : WN w n k s -> WN w (2 * n) k (S s)
| WNo d m k s : Z.odd d = true -> - 2 ^ (w - 1) < d < 2 ^ (w - 1) -> WN w m k s ->
    WN w (d + 2 ^ w * m) (S k) (Z.to_nat w + s).

Lemma WN_shift w n k s j : WN w n k s -> WN w (2 ^ Z.of_nat j * n) k (j + s).
Proof.
  intros H. induction j as [|j IH].
  - change (2 ^ Z.of_nat 0) with 1. now rewrite Z.mul_1_l.
  - rewrite Nat2Z.inj_succ, Z.pow_succ_r, <- Z.mul_assoc by lia. now apply WNe.
Qed.

Lemma pow_split w : 1 <= w -> 2 ^ w = 2 * 2 ^ (w - 1).
Proof. intros. rewrite <- Z.pow_succ_r by lia. f_equal. lia. Qed.

Lemma odd_pow_mul w d m : 1 <= w -> Z.odd (d + 2 ^ w * m) = Z.odd d.
Proof. intros. rewrite pow_split, <- Z.mul_assoc, Z.odd_add_mul_2 by lia. reflexivity. Qed.

Lemma WN_zero w n k s : 1 <= w -> WN w n k s -> n = 0 -> k = O.
Proof.
  intros Hw. induction 1 as [|n k s H IH|d m k s O R H IH]; intros E; [reflexivity|apply IH; lia|].
  exfalso. assert (Z.odd (d + 2 ^ w * m) = true) as X by (rewrite odd_pow_mul by lia; assumption).
  rewrite E in X. discriminate.
Qed.

Lemma residue_unique w d d' m m' : 1 <= w -> - 2 ^ (w - 1) < d < 2 ^ (w - 1) ->
  - 2 ^ (w - 1) < d' < 2 ^ (w - 1) -> d + 2 ^ w * m = d' + 2 ^ w * m' -> d = d' /\ m = m'.
Proof.
  intros Hw R R' E. rewrite (pow_split w) in E by lia. set (P := 2 ^ (w - 1)) in *.
  assert (m = m') by nia. subst m'. split; [lia|reflexivity].
Qed.

Lemma WN_det w n k s : 1 <= w -> WN w n k s -> forall n' k' s', WN w n' k' s' -> n = n' -> k = k'.
Proof.
  intros Hw. induction 1 as [|n k s H IH|d m k s O R H IH]; intros n' k' s' H' E.
  - symmetry. eapply WN_zero; [exact Hw|exact H'|now symmetry].
  - destruct H' as [|n' k' s' H'|d' m' k' s' O' R' H'].
    + eapply WN_zero; [exact Hw|exact H|lia].
    + eapply IH; [exact H'|lia].
    + exfalso. assert (Z.odd (2 * n) = true) as X by (rewrite E, odd_pow_mul by lia; assumption).
      rewrite Z.odd_mul in X. discriminate.
  - destruct H' as [|n' k' s' H'|d' m' k' s' O' R' H'].
    + exfalso. assert (Z.odd 0 = true) as X by (rewrite <- E, odd_pow_mul by lia; assumption). discriminate.
    + exfalso. assert (Z.odd (2 * n') = true) as X by (rewrite <- E, odd_pow_mul by lia; assumption).
      rewrite Z.odd_mul in X. discriminate.
    + f_equal. destruct (residue_unique w d d' m m') as [_ M]; try assumption.
      now apply (IH m' k' s').
Qed.

(** Every non-zero small number has an expansion of weight one. *)
Lemma WN_small w : 2 <= w -> forall n d, 0 < Z.abs d < 2 ^ (w - 1) -> (Z.to_nat (Z.abs d) <= n)%nat ->
  exists s, WN w d 1 s.
Proof.
  intros Hw. induction n as [|n IH]; intros d R B; [lia|].
  destruct (Z.odd d) eqn:O.
  - exists (Z.to_nat w + 0)%nat. replace d with (d + 2 ^ w * 0) by lia.
    apply WNo; [assumption|lia|apply WN0].
  - pose proof (Zdiv2_odd_eqn d) as Ed. rewrite O in Ed.
    destruct (IH (Z.div2 d)) as [s H]; [lia|lia|].
    exists (S s). rewrite Ed, Z.add_0_r. now apply WNe.
Qed.

(** Splitting an odd number as odd digit plus a multiple of 2^w. *)
Lemma odd_split w x : 2 <= w -> Z.odd x = true ->
  exists r q, x = r + 2 ^ w * q /\ Z.odd r = true /\ - 2 ^ (w - 1) < r < 2 ^ (w - 1).
Proof.
  intros Hw O.
  destruct (smods_odd_step (x mod 2 ^ w) w) as (q & E & _ & Or & R).
  - lia.
  - apply Z.mod_pos_bound. apply Z.pow_pos_nonneg; lia.
  - rewrite <- (odd_pow_mul w (x mod 2 ^ w) (x / 2 ^ w)) by lia.
    rewrite Z.add_comm, <- Z_div_mod_eq_full. assumption.
  - exists (smods (x mod 2 ^ w) w), (q + x / 2 ^ w). split; [|split; assumption].
    pose proof (Z_div_mod_eq_full x (2 ^ w)). lia.
Qed.

(** Stripping the leading zeros of an expansion. *)
Lemma WN_strip w n k s : WN w n k s -> n <> 0 ->
  exists j d m k' s', n = 2 ^ Z.of_nat j * (d + 2 ^ w * m) /\ Z.odd d = true /\
    - 2 ^ (w - 1) < d < 2 ^ (w - 1) /\ WN w m k' s' /\ k = S k' /\ s = (j + (Z.to_nat w + s'))%nat.
Proof.
  induction 1 as [|n k s H IH|d m k s O R H IH]; intros N.
  - now elim N.
  - destruct IH as (j & d & m & k' & s' & E & O & R & H' & -> & ->); [lia|].
    exists (S j), d, m, k', s'. rewrite Nat2Z.inj_succ, Z.pow_succ_r by lia.
    split; [lia|]. repeat (split; [assumption|]). split; [reflexivity|lia].
  - exists 0%nat, d, m, k, s. change (2 ^ Z.of_nat 0) with 1. split; [lia|].
    repeat (split; [assumption|]). split; reflexivity.
Qed.

(** Adding a small number costs at most one more non-zero digit. *)
Lemma WN_add w : 2 <= w -> forall b n k s d, (s <= b)%nat -> WN w n k s -> Z.abs d < 2 ^ (w - 1) ->
  exists k' s', WN w (n + d) k' s' /\ (k' <= S k)%nat.
Proof.
  intros Hw. assert (Pw : 2 ^ w = 2 * 2 ^ (w - 1)) by (apply pow_split; lia).
  assert (Pw1 : 2 ^ (w - 1) = 2 * 2 ^ (w - 2)) by (rewrite <- Z.pow_succ_r by lia; f_equal; lia).
  assert (P0 : 0 < 2 ^ (w - 2)) by (apply Z.pow_pos_nonneg; lia).
  induction b as [b IHb] using lt_wf_ind. intros n k s d Bs H Rd.
  destruct (Z.eq_dec d 0) as [->|Nd]; [exists k, s; rewrite Z.add_0_r; split; [exact H|lia]|].
  destruct (Z.eq_dec n 0) as [->|Nn].
  { destruct (WN_small w Hw _ d ltac:(lia) (le_n _)) as [s1 H1].
    exists 1%nat, s1. split; [exact H1|lia]. }
  destruct (WN_strip w n k s H Nn) as (j & a & m & k1 & s1 & En & Oa & Ra & H1 & -> & ->).
  destruct j as [|j].
  - (* n = a + 2^w m *)
    change (2 ^ Z.of_nat 0) with 1 in En. rewrite Z.mul_1_l in En. subst n.
    destruct (Z.odd d) eqn:Od.
    + (* the sum is even: halve *)
      assert (Oad : Z.odd (a + d) = false) by (rewrite Z.odd_add, Oa, Od; reflexivity).
      pose proof (Zdiv2_odd_eqn (a + d)) as Eh. rewrite Oad in Eh.
      pose proof (WN_shift w m k1 s1 (Z.to_nat (w - 1)) H1) as H2.
      rewrite Z2Nat.id in H2 by lia.
      edestruct (IHb (Z.to_nat (w - 1) + s1)%nat) as (k2 & s2 & H3 & L3);
        [|apply le_n|exact H2| |]; [lia| |].
      * instantiate (1 := Z.div2 (a + d)). lia.
      * exists k2, (S s2). split; [|lia].
        replace (a + 2 ^ w * m + d) with (2 * (2 ^ (w - 1) * m + Z.div2 (a + d))) by lia.
        now apply WNe.
    + (* the sum is odd: a new digit and a carry of at most one *)
      assert (Oad : Z.odd (a + d) = true) by (rewrite Z.odd_add, Oa, Od; reflexivity).
      destruct (odd_split w (a + d) Hw Oad) as (r & q & Er & Or & Rr).
      assert (Q : -1 <= q <= 1) by nia.
      edestruct (IHb s1 ltac:(lia) m k1 s1 q) as (k2 & s2 & H3 & L3); [apply le_n|exact H1|lia|].
      exists (S k2), (Z.to_nat w + s2)%nat. split; [|lia].
      replace (a + 2 ^ w * m + d) with (r + 2 ^ w * (m + q)) by lia.
      now apply WNo.
  - (* n is even *)
    rewrite Nat2Z.inj_succ, Z.pow_succ_r in En by lia.
    destruct (Z.odd d) eqn:Od.
    + (* the sum is odd *)
      assert (On : Z.odd (n + d) = true).
      { rewrite Z.odd_add, Od, En, <- Z.mul_assoc, Z.odd_mul. reflexivity. }
      destruct (odd_split w (n + d) Hw On) as (r & q & Er & Or & Rr).
      (* q = c + 2^(j+1) m with c small, or n is a multiple of 2^w *)
      destruct (Z.le_gt_cases w (Z.of_nat (S j))) as [Hj|Hj].
      * (* the digit of n is beyond the window: d is the new digit *)
        assert (Ej : 2 * 2 ^ Z.of_nat j = 2 ^ w * 2 ^ (Z.of_nat (S j) - w)).
        { rewrite <- Z.pow_succ_r, <- Z.pow_add_r by lia. f_equal. lia. }
        pose proof (WN_shift w _ _ _ (Z.to_nat (Z.of_nat (S j) - w)) (WNo w a m k1 s1 Oa Ra H1)) as H2.
        rewrite Z2Nat.id in H2 by lia.
        exists (S (S k1)), (Z.to_nat w + (Z.to_nat (Z.of_nat (S j) - w) + (Z.to_nat w + s1)))%nat.
        split; [|lia].
        replace (n + d) with (d + 2 ^ w * (2 ^ (Z.of_nat (S j) - w) * (a + 2 ^ w * m))) by (rewrite En, Ej; ring).
        apply WNo; [assumption|lia|exact H2].
      * set (J := 2 ^ Z.of_nat j) in *.
        assert (J0 : 0 < J) by (apply Z.pow_pos_nonneg; lia).
        assert (JW : 2 * J <= 2 ^ (w - 1)).
        { unfold J. rewrite <- Z.pow_succ_r by lia. apply Z.pow_le_mono_r; lia. }
        set (c := q - 2 * J * m).
        assert (Ec : 2 * J * a + d - r = 2 ^ w * c) by (unfold c; lia).
        assert (Bc : Z.abs c <= J).
        { assert (U : 2 * J * a + d - r < 2 ^ w * (J + 1)).
          { assert (2 * J * a < 2 * J * 2 ^ (w - 1)) by (apply Z.mul_lt_mono_pos_l; lia). lia. }
          assert (D : - (2 ^ w * (J + 1)) < 2 * J * a + d - r).
          { assert (2 * J * - 2 ^ (w - 1) < 2 * J * a) by (apply Z.mul_lt_mono_pos_l; lia). lia. }
          rewrite Ec in U, D. rewrite <- Z.mul_opp_r in D.
          apply Z.mul_lt_mono_pos_l in U; [|lia]. apply Z.mul_lt_mono_pos_l in D; [|lia]. lia. }
        pose proof (WN_shift w m k1 s1 (S j) H1) as H2.
        rewrite Nat2Z.inj_succ, Z.pow_succ_r in H2 by lia. fold J in H2.
        edestruct (IHb (S j + s1)%nat ltac:(lia) _ _ _ c (le_n _) H2) as (k2 & s2 & H3 & L3); [lia|].
        replace (2 * J * m + c) with q in H3 by (unfold c; lia).
        exists (S k2), (Z.to_nat w + s2)%nat. split; [|lia].
        rewrite Er. now apply WNo.
    + (* both even: halve *)
      pose proof (Zdiv2_odd_eqn d) as Eh. rewrite Od in Eh.
      pose proof (WN_shift w _ _ _ j (WNo w a m k1 s1 Oa Ra H1)) as H2.
      edestruct (IHb (j + (Z.to_nat w + s1))%nat ltac:(lia) _ _ _ (Z.div2 d) (le_n _) H2) as (k2 & s2 & H3 & L3); [lia|].
      exists k2, (S s2). split; [|exact L3].
      replace (n + d) with (2 * (2 ^ Z.of_nat j * (a + 2 ^ w * m) + Z.div2 d)) by lia.
      now apply WNe.
Qed.

Lemma weight_nonneg ds : 0 <= weight ds.
Proof. induction ds as [|d ds IH]; cbn [weight]; [lia|]. destruct (d =? 0); lia. Qed.

Lemma WN_least w ds : 2 <= w -> small_digits w ds ->
  exists k s, WN w (digits_value ds) k s /\ Z.of_nat k <= weight ds.
Proof.
  intros Hw. induction 1 as [|d ds Hd F IH].
  - exists O, O. split; [apply WN0|]. cbn. lia.
  - destruct IH as (k & s & H & B). cbn [digits_value weight].
    destruct (Z.eqb_spec d 0) as [->|N].
    + exists k, (S s). split; [|lia]. rewrite Z.add_0_l. now apply WNe.
    + destruct (WN_add w Hw _ _ _ _ d (le_n _) (WNe _ _ _ _ H) Hd) as (k' & s' & H' & B').
      exists k', s'. rewrite Z.add_comm. split; [exact H'|lia].
Qed.

(** Non-adjacent expansions of any length. *)
Definition nonadj (w : Z) (ds : list Z) : Prop :=
  Forall (fun d => d = 0 \/ (Z.odd d = true /\ Z.abs d < 2 ^ (w - 1))) ds /\
  (forall i j, (i < j)%nat -> Z.of_nat j < Z.of_nat i + w -> nth i ds 0 = 0 \/ nth j ds 0 = 0).

Lemma nonadj_tail w d ds : nonadj w (d :: ds) -> nonadj w ds.
Proof.
  intros [F N]. inversion F; subst. split; [assumption|].
  intros i j Hi Hj. apply (N (S i) (S j)); lia.
Qed.

Lemma zeros_prefix ds : forall n, (forall j, (j < n)%nat -> nth j ds 0 = 0) ->
  digits_value ds = 2 ^ Z.of_nat n * digits_value (skipn n ds) /\ weight ds = weight (skipn n ds).
Proof.
  induction ds as [|d ds IH]; intros [|n] H; cbn [skipn]; try (split; [cbn; lia|reflexivity]).
  - change (2 ^ Z.of_nat 0) with 1. split; [lia|reflexivity].
  - destruct (IH n) as [E1 E2].
    + intros j Hj. apply (H (S j)). lia.
    + pose proof (H 0%nat ltac:(lia)) as D. cbn [nth] in D. subst d.
      cbn [digits_value weight]. rewrite E1, E2, Nat2Z.inj_succ, Z.pow_succ_r by lia.
      change (0 =? 0) with true. cbv iota. split; [lia|lia].
Qed.

Lemma nonadj_skip w n : forall ds, nonadj w ds -> nonadj w (skipn n ds).
Proof.
  induction n as [|n IH]; intros [|d ds] H; cbn [skipn]; try assumption.
  apply IH. eapply nonadj_tail. exact H.
Qed.

(** A non-zero first digit clears the rest of the window. *)
Lemma nonadj_head w d ds : 1 <= w -> nonadj w (d :: ds) -> d <> 0 ->
  let tl := skipn (Z.to_nat (w - 1)) ds in
  Z.odd d = true /\ - 2 ^ (w - 1) < d < 2 ^ (w - 1) /\
  digits_value (d :: ds) = d + 2 ^ w * digits_value tl /\ weight (d :: ds) = 1 + weight tl.
Proof.
  intros Hw [F N] Nd tl. inversion F as [|x l [E|[O R]] F']; subst; [now elim Nd|].
  split; [assumption|]. split; [lia|].
  destruct (zeros_prefix ds (Z.to_nat (w - 1))) as [E1 E2].
  { intros j Hj. destruct (N 0%nat (S j)) as [E|E]; [lia|lia|cbn in E; now elim Nd|exact E]. }
  cbn [digits_value weight]. rewrite E1, E2, Z2Nat.id by lia. fold tl.
  rewrite (pow_split w) by lia. split; [lia|]. destruct (Z.eqb_spec d 0); [now elim Nd|reflexivity].
Qed.

Lemma nonadj_WN w : 1 <= w -> forall n ds, (length ds <= n)%nat -> nonadj w ds ->
  exists k s, WN w (digits_value ds) k s /\ Z.of_nat k = weight ds.
Proof.
  intros Hw. induction n as [|n IH]; intros ds B H.
  - destruct ds; [|cbn in B; lia]. exists O, O. split; [apply WN0|reflexivity].
  - destruct ds as [|d ds]; [exists O, O; split; [apply WN0|reflexivity]|].
    cbn [length] in B. destruct (Z.eq_dec d 0) as [->|Nd].
    + destruct (IH ds) as (k & s & H1 & E); [lia|eapply nonadj_tail; exact H|].
      exists k, (S s). cbn [digits_value weight]. change (0 =? 0) with true. cbv iota.
      rewrite !Z.add_0_l. split; [now apply WNe|exact E].
    + destruct (nonadj_head w d ds Hw H Nd) as (O & R & V & W). rewrite V, W.
      destruct (IH (skipn (Z.to_nat (w - 1)) ds)) as (k & s & H1 & E).
      * rewrite skipn_length. lia.
      * apply nonadj_skip. eapply nonadj_tail. exact H.
      * exists (S k), (Z.to_nat w + s)%nat. split; [now apply WNo|lia].
Qed.

Lemma nonadj_unique w : 1 <= w -> forall ds es, length ds = length es -> nonadj w ds -> nonadj w es ->
  digits_value ds = digits_value es -> ds = es.
Proof.
  intros Hw. induction ds as [|d ds IH]; intros [|e es] B H H' V; try discriminate; [reflexivity|].
  cbn [length] in B. injection B as B.
  assert (E : d = e).
  { destruct (Z.eq_dec d 0) as [Z1|N1], (Z.eq_dec e 0) as [Z2|N2]; [congruence| | |].
    - exfalso. destruct (nonadj_head w e es Hw H' N2) as (O & _). cbn [digits_value] in V.
      assert (e = 2 * (digits_value ds - digits_value es)) as E by lia.
      rewrite E, Z.odd_mul in O. discriminate.
    - exfalso. destruct (nonadj_head w d ds Hw H N1) as (O & _). cbn [digits_value] in V.
      assert (d = 2 * (digits_value es - digits_value ds)) as E by lia.
      rewrite E, Z.odd_mul in O. discriminate.
    - destruct (nonadj_head w e es Hw H' N2) as (O2 & R2 & V2 & _).
      destruct (nonadj_head w d ds Hw H N1) as (O1 & R1 & V1 & _).
      rewrite V1, V2 in V. now apply residue_unique in V. }
  subst e. f_equal. apply IH; [exact B|eapply nonadj_tail; exact H|eapply nonadj_tail; exact H'|].
  cbn [digits_value] in V. lia.
Qed.

(** Number of non-zero digits. *)
Lemma nonadj_weight w : 1 <= w -> forall n ds, (length ds <= n)%nat -> nonadj w ds ->
  w * weight ds <= Z.of_nat (length ds) + (w - 1).
Proof.
  intros Hw. induction n as [|n IH]; intros ds B H.
  - destruct ds; [cbn; lia|cbn in B; lia].
  - destruct ds as [|d ds]; [cbn; lia|]. cbn [length] in B. destruct (Z.eq_dec d 0) as [->|Nd].
    + pose proof (IH ds ltac:(lia) (nonadj_tail _ _ _ H)) as X. cbn [weight length].
      change (0 =? 0) with true. cbv iota. lia.
    + destruct (nonadj_head w d ds Hw H Nd) as (O & R & V & W). rewrite W.
      destruct (Nat.le_gt_cases (Z.to_nat (w - 1)) (length ds)) as [Hl|Hl].
      * pose proof (IH (skipn (Z.to_nat (w - 1)) ds)) as X. rewrite skipn_length in X.
        specialize (X ltac:(lia)). cbn [length].
        assert (nonadj w (skipn (Z.to_nat (w - 1)) ds)) as Y
          by (apply nonadj_skip; eapply nonadj_tail; exact H).
        specialize (X Y). lia.
      * rewrite skipn_all2 by lia. cbn [weight length]. lia.
Qed.

Lemma weight_firstn n : forall ds, (forall i, (n <= i)%nat -> nth i ds 0 = 0) ->
  weight (firstn n ds) = weight ds.
Proof.
  induction n as [|n IH]; intros [|d ds] H; cbn [firstn weight]; try reflexivity.
  - pose proof (H 0%nat (le_n 0)) as D. cbn [nth] in D. subst d. change (0 =? 0) with true. cbv iota.
    enough (weight ds = 0) by lia.
    assert (forall i, nth i ds 0 = 0) as H' by (intros i; apply (H (S i)); lia). clear H.
    induction ds as [|d ds IH]; [reflexivity|]. cbn [weight].
    pose proof (H' 0%nat) as D. cbn [nth] in D. subst d. rewrite IH; [reflexivity|].
    intros i. apply (H' (S i)).
  - rewrite IH; [reflexivity|]. intros i Hi. apply (H (S i)). lia.
Qed.

Lemma nonadj_firstn w n ds : nonadj w ds -> nonadj w (firstn n ds).
Proof.
  intros [F N]. split.
  - apply Forall_forall. intros x Hx. rewrite Forall_forall in F. apply F.
    rewrite <- (firstn_skipn n ds). apply in_or_app. now left.
  - intros i j Hi Hj. destruct (N i j Hi Hj) as [E|E].
    + left. destruct (Nat.lt_ge_cases i (length (firstn n ds))) as [H|H]; [|now apply nth_overflow].
      rewrite <- (firstn_skipn n ds), app_nth1 in E; assumption.
    + right. destruct (Nat.lt_ge_cases j (length (firstn n ds))) as [H|H]; [|now apply nth_overflow].
      rewrite <- (firstn_skipn n ds), app_nth1 in E; assumption.
Qed.

(** ** C79 *)
Lemma recoding_facts w k ds : 2 <= w -> signed_recoding w k ds ->
  (forall es, signed_recoding w k es -> es = ds) /\
  (forall es, small_digits w es -> digits_value es = k -> weight ds <= weight es) /\
  w * weight ds <= 249 + w.
Proof.
  intros Hw (Hl & V & F & N & Z). assert (A : nonadj w ds) by (split; assumption).
  split; [|split].
  - intros es (Hl' & V' & F' & N' & _).
    apply (nonadj_unique w); [lia|congruence|split; assumption|exact A|congruence].
  - intros es S E. destruct (WN_least w es Hw S) as (k1 & s1 & H1 & B1).
    destruct (nonadj_WN w ltac:(lia) _ ds (le_n _) A) as (k2 & s2 & H2 & B2).
    rewrite (WN_det w _ _ _ ltac:(lia) H2 _ _ _ H1) in B2 by congruence. lia.
  - rewrite <- (weight_firstn 250 ds Z).
    pose proof (nonadj_weight w ltac:(lia) _ _ (le_n _) (nonadj_firstn w 250 ds A)) as X.
    rewrite firstn_length, Hl in X. change (Nat.min 250 256) with 250%nat in X. lia.
Qed.
Lemma C79_naf_stmt : forall ck k, scanon k ->
  exists ds, sc_compute_NAF ck k = Ok ds /\ digits_value ds = sval k /\
    (forall es, signed_recoding 2 (sval k) es -> es = ds) /\
    (forall es, Forall (fun d => d = -1 \/ d = 0 \/ d = 1) es -> digits_value es = sval k ->
       weight ds <= weight es) /\
    weight ds <= 125.
Proof.
  intros ck k K. destruct (C23_naf_stmt ck k K) as (ds & E & R). exists ds. split; [exact E|].
  destruct (recoding_facts 2 (sval k) ds ltac:(lia) R) as (U & M & W).
  split; [apply R|]. split; [exact U|]. split; [|lia].
  intros es S V. apply M; [|exact V]. eapply Forall_impl; [|exact S]. cbn beta.
  change (2 ^ (2 - 1)) with 2. lia.
Qed.
Lemma C79_wnaf_stmt : forall ck w k, scanon k -> 2 <= w <= 6 -> (w = 6 -> sval k <> L - 2) ->
  exists ds, sc_compute_window_NAF ck k w = Ok ds /\ digits_value ds = sval k /\
    (forall es, signed_recoding w (sval k) es -> es = ds) /\
    (forall es, small_digits w es -> digits_value es = sval k -> weight ds <= weight es) /\
    w * weight ds <= 249 + w.
Proof.
  intros ck w k K Hw N. destruct (C24_wnaf_stmt ck w k K Hw N) as (ds & E & R). exists ds.
  split; [exact E|]. split; [apply R|]. apply recoding_facts; [lia|exact R].
Qed.
(** The two recodings agree at width two. *)
Lemma C79_width_two_stmt : forall ck k, scanon k -> sc_compute_window_NAF ck k 2 = sc_compute_NAF ck k.
Proof.
  intros ck k K. destruct (C23_naf_stmt ck k K) as (ds & E & R).
  destruct (C24_wnaf_stmt ck 2 k K ltac:(lia) ltac:(lia)) as (es & E' & R').
  rewrite E, E'. f_equal. apply (recoding_facts 2 (sval k) ds ltac:(lia) R). exact R'.
Qed.
(** The binary expansion of 2^40 - 1 has weight 40, its recoding weight 2. *)
Lemma C79_ex : scanon (SC (2 ^ 40 - 1) 0 0 0 0) /\ digits_value (repeat 1 40) = 2 ^ 40 - 1 /\
  weight (repeat 1 40) = 40 /\
  exists ds, sc_compute_NAF true (SC (2 ^ 40 - 1) 0 0 0 0) = Ok ds /\ weight ds = 2.
Proof.
  split; [apply scanon_check; reflexivity|]. split; [reflexivity|]. split; [reflexivity|].
  exists (-1 :: repeat 0 39 ++ 1 :: repeat 0 215). split; [vm_compute; reflexivity|reflexivity].
Qed.
