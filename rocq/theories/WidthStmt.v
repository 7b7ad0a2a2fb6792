(** * The windowed recoding at every width

    Statement forms; PropWidth.v restates each of them.                      *)

From Coq Require Import ZArith Znumtheory List Bool Lia.
From Verif Require Import Machine FieldModel ScalarModel Spec MachineFacts FieldOps FieldBytes
  ScalarLimb ScalarOps ScalarBits ScalarNaf ScalarStmt EdwardsModel RistrettoModel NafSpec NafStmt.
Import ListNotations.
Open Scope Z_scope.

(** ** The digit of an odd scalar *)

(** What a width makes of an odd scalar depends on its residue modulo 256 only. *)
Definition mods8 (ck : bool) (w r : Z) : res Z :=
  _ <- rassert (w <? 32) ;;
  let modulus := as_i8 (r mod 2 ^ Z.min w 8) in
  w1 <- usub ck W8 w 1 ;;
  t <- i8shl ck 1 w1 ;;
  if t <=? modulus then s <- ushl ck 8 W8 1 w ;; i8sub ck modulus (as_i8 s) else Ok modulus.

Lemma sc_mods_mods8 ck a w : slimbs a -> 0 <= w -> sc_mods_2_pow_k ck a w = mods8 ck w (sval a mod 256).
Proof.
  intros A Hw. unfold sc_mods_2_pow_k, mods8. destruct (Z.ltb_spec w 32) as [H|H]; [|reflexivity].
  cbn [rassert]. rewrite !bind_ok.
  assert (E : sc_mod_2_pow_k ck a w = Ok ((sval a mod 256) mod 2 ^ Z.min w 8)).
  { change 256 with (2 ^ 8). rewrite <- Zmod_div_mod; try (apply Z.pow_pos_nonneg; lia).
    - destruct (Z.le_gt_cases w 8) as [H8|H8].
      + rewrite Z.min_l by lia. apply sc_mod_2_pow_k_ok; (assumption || lia).
      + rewrite Z.min_r by lia. apply sc_mod_2_pow_k_trunc; (assumption || lia).
    - exists (2 ^ (8 - Z.min w 8)). rewrite <- Z.pow_add_r by lia. f_equal. lia. }
  rewrite E, bind_ok. reflexivity.
Qed.

Definition upto (n : nat) : list Z := map Z.of_nat (seq 0 n).
Lemma upto_check n f : forallb f (upto n) = true -> forall z, 0 <= z < Z.of_nat n -> f z = true.
Proof.
  intros H z Hz. rewrite forallb_forall in H. apply H. unfold upto. apply in_map_iff.
  exists (Z.to_nat z). split; [lia|]. apply in_seq. lia.
Qed.

Lemma L_mod_256 : L mod 256 = 99. Proof. reflexivity. Qed.

(** One step on an odd scalar whose digit leaves the rest in range. *)
Lemma odd_digit_sub ck k d : scanon k -> -127 <= d <= 127 -> 0 <= sval k - d < L ->
  exists e k', sc_from_i8 ck d = Ok e /\ sc_sub ck k e = Ok k' /\ scanon k' /\ sval k' = sval k - d.
Proof.
  intros K Hd R. destruct (sc_from_i8_ok ck d Hd) as (e & E & Ce & Ve).
  destruct (sc_sub_ok ck k e K Ce) as (k' & E' & Ck & Vk).
  exists e, k'. split; [exact E|]. split; [exact E'|]. split; [exact Ck|].
  rewrite Vk, Ve, Zminus_mod_idemp_r, Z.mod_small by lia. reflexivity.
Qed.

Lemma half_canon k : scanon k -> scanon (sc_half_without_mod k) /\ sval (sc_half_without_mod k) = sval k / 2.
Proof.
  intros [K1 K2]. destruct (sc_half_without_mod_ok k K1) as [A B]. apply sval_nonneg in K1.
  split; [split; [assumption|]|assumption]. rewrite B. lia.
Qed.

Lemma mod256_bounds k : 0 <= k < L -> 0 <= k mod 256 < 256 /\ k mod 256 <= k /\
  (k mod 256 < 99 -> k - k mod 256 <= L - 99) /\ (99 <= k mod 256 -> k - k mod 256 <= L - 355).
Proof.
  intros H. pose proof (Z.mod_pos_bound k 256 ltac:(lia)) as B.
  pose proof (Z_div_mod_eq_full k 256) as D. pose proof (Z_div_mod_eq_full L 256) as DL.
  rewrite L_mod_256 in DL.
  assert (0 <= k / 256) by (apply Z.div_pos; lia). split; [lia|]. split; [lia|].
  generalize dependent (L / 256). intros u DL. generalize dependent (k / 256). intros v D _.
  generalize dependent (k mod 256). intros r. lia.
Qed.

Lemma odd_mod256 k : Z.odd (k mod 256) = Z.odd k.
Proof.
  pose proof (Z_div_mod_eq_full k 256) as D. rewrite D at 2.
  replace (256 * (k / 256) + k mod 256) with (k mod 256 + 2 * (128 * (k / 256))) by ring.
  rewrite Z.odd_add_mul_2. reflexivity.
Qed.

Lemma set_nth_end pre v : set_nth (length pre) v (pre ++ repeat 0 0) = (Panic : res (list Z)).
Proof.
  rewrite app_nil_r. induction pre as [|x pre IH]; [reflexivity|]. cbn [length set_nth]. now rewrite IH.
Qed.

(** ** Widths at which the loop never ends *)

(** Digits for which the remaining value stays positive. *)
Definition stuck_digit (o : res Z) (r : Z) : bool :=
  match o with
  | Panic => true
  | Ok d => (-127 <=? d) && (d <=? 127) && ((d <? 0) || (2 <=? r - d)) && (r - d <=? 256)
            && ((99 <=? r) || (r - d <? 99))
  | NoFuel => false
  end.

Lemma stuck_loop ck w : 0 <= w -> (forall r, 0 <= r < 256 -> Z.odd r = true -> stuck_digit (mods8 ck w r) r = true) ->
  forall m k pre fuel, scanon k -> 1 <= sval k -> (m < fuel)%nat ->
  sc_wnaf_loop fuel ck w k (length pre) (pre ++ repeat 0 m) = Panic.
Proof.
  intros Hw HD. induction m as [|m IH]; intros k pre fuel K K1 Hf;
    (destruct fuel as [|fuel]; [lia|]); rewrite wnaf_step, sc_ge_ok by (apply K || apply scanon_one);
    rewrite sval_one; replace (1 <=? sval k) with true by (symmetry; apply Z.leb_le; exact K1);
    rewrite sc_is_even_ok; cbv iota;
    (assert (K0 : 0 <= sval k < L) by (split; [lia|apply K]));
    destruct (mod256_bounds (sval k) K0) as (B1 & B2 & B3 & B4);
    destruct (Z.even (sval k)) eqn:Ev; cbn [negb].
  - rewrite set_nth_end. reflexivity.
  - rewrite sc_mods_mods8 by (assumption || apply K).
    destruct (mods8 ck w (sval k mod 256)) as [d| |] eqn:Ed; [|reflexivity|].
    + cbn [bind]. rewrite set_nth_end. reflexivity.
    + exfalso. specialize (HD (sval k mod 256) B1). rewrite odd_mod256, <- Z.negb_even, Ev, Ed in HD.
      specialize (HD eq_refl). discriminate.
  - change (S m) with (1 + m)%nat. rewrite set_nth_pad, !bind_ok.
    destruct (half_canon k K) as [Ch Vh].
    assert (D : sval k = 2 * (sval k / 2)).
    { apply Zeven_bool_iff, Zeven_div2 in Ev. rewrite Z.div2_div in Ev. exact Ev. }
    replace (S (length pre)) with (length (pre ++ [0])) by (rewrite app_length; cbn; lia).
    apply IH; [exact Ch|rewrite Vh; lia|lia].
  - assert (Ho : Z.odd (sval k mod 256) = true) by (rewrite odd_mod256, <- Z.negb_even, Ev; reflexivity).
    specialize (HD (sval k mod 256) B1 Ho). rewrite sc_mods_mods8 by (assumption || apply K).
    destruct (mods8 ck w (sval k mod 256)) as [d| |] eqn:Ed; [|reflexivity|discriminate].
    cbn [stuck_digit] in HD. rewrite !andb_true_iff, !orb_true_iff, !Z.leb_le, !Z.ltb_lt in HD.
    rewrite bind_ok, set_nth_pad, bind_ok.
    set (r := sval k mod 256) in *. clearbody r.
    destruct (odd_digit_sub ck k d K) as (e & k' & -> & E' & Ck & Vk); [lia|lia|].
    rewrite bind_ok, E', !bind_ok. destruct (half_canon k' Ck) as [Ch Vh].
    replace (S (length pre)) with (length (pre ++ [d])) by (rewrite app_length; cbn; lia).
    apply IH; [exact Ch|rewrite Vh, Vk|lia]. apply Z.div_le_lower_bound; lia.
Qed.

Definition stuck_width (ck : bool) (w : Z) : bool :=
  forallb (fun r => negb (Z.odd r) || stuck_digit (mods8 ck w r) r) (upto 256).

Lemma stuck_width_panic ck w k : 0 <= w -> stuck_width ck w = true -> scanon k -> sval k <> 0 ->
  sc_compute_window_NAF ck k w = Panic.
Proof.
  intros Hw H K N. unfold sc_compute_window_NAF.
  enough (X : sc_wnaf_loop loop_fuel ck w k (length (@nil Z)) ([] ++ repeat 0 256) = Panic) by exact X.
  apply (stuck_loop ck w Hw).
  - intros r Hr O. pose proof (upto_check 256 _ H r ltac:(lia)) as X. cbn beta in X. rewrite O in X. exact X.
  - exact K.
  - pose proof (sval_nonneg _ (proj1 K)). lia.
  - unfold loop_fuel. lia.
Qed.

(** ** Widths at which the value is kept *)

(** [B]: bound on the digits; [j]: the digit is congruent to the scalar modulo 2^j. *)
Definition good_digit (safe : bool) (B j : Z) (o : res Z) (r : Z) : bool :=
  match o with
  | Panic => true
  | Ok d => Z.odd d && (Z.abs d <? B) && (0 <=? r - d) && (r - d <=? 256) && ((r - d) mod 2 ^ j =? 0)
            && (negb safe || (99 <=? r) || (r - d <? 99))
  | NoFuel => false
  end.

Definition recodingB (B j k : Z) (ds : list Z) : Prop :=
  digits_value ds = k /\
  Forall (fun d => zero_or_odd d /\ Z.abs d < B) ds /\
  (forall i l, (i < l)%nat -> Z.of_nat l < Z.of_nat i + j -> nth i ds 0 = 0 \/ nth l ds 0 = 0).

Lemma recodingB_nil B j : recodingB B j 0 [].
Proof.
  split; [reflexivity|]. split; [constructor|]. intros i l _ _. left. now destruct i.
Qed.
Lemma recodingB_zero B j k ds : 0 < B -> recodingB B j k ds -> recodingB B j (2 * k) (0 :: ds).
Proof.
  intros HB (V & D & N). split; [cbn [digits_value]; lia|].
  split; [constructor; [split; [now left|lia]|assumption]|].
  intros [|i] [|l] H1 H2; try lia; cbn [nth]; [now left|]. apply N; lia.
Qed.
Lemma recodingB_odd B j d k ds : 1 <= j -> Z.odd d = true -> Z.abs d < B ->
  (2 ^ (j - 1) | k) -> recodingB B j k ds -> recodingB B j (d + 2 * k) (d :: ds).
Proof.
  intros Hw O R Dv (V & D & N). split; [cbn [digits_value]; lia|].
  split; [constructor; [split; [now right|lia]|assumption]|].
  intros [|i] [|l] H1 H2; try lia; cbn [nth].
  - right. apply (leading_zeros ds) with (m := Z.to_nat (j - 1)); [|rewrite Z2Nat.id, V by lia; assumption|lia].
    eapply Forall_impl; [|exact D]. now intros a [].
  - apply N; lia.
Qed.

(** The same loop on integers, for the last few steps. *)
Fixpoint zloop (fuel : nat) (ck : bool) (w k : Z) : bool :=
  if k <=? 0 then true
  else match fuel with
  | O => false
  | S fuel' => if Z.even k then zloop fuel' ck w (k / 2)
               else match mods8 ck w (k mod 256) with
                    | Panic => true | NoFuel => false
                    | Ok d => zloop fuel' ck w ((k - d) / 2)
                    end
  end.

Section Good.
Context (ck safe : bool) (w B j : Z).
Context (Hw : 0 <= w) (HB : 0 < B <= 128) (Hj : 1 <= j <= 8).
Context (HD : forall r, 0 <= r < 256 -> Z.odd r = true -> good_digit safe B j (mods8 ck w r) r = true).
(** The odd scalars next to L are excluded when the digits do not rule out a wrap. *)
Definition fits (k : Z) : Prop := safe = true \/ k < L - 34 \/ Z.even k = true.

Context (Hsafe : forall r d, 0 <= r < 256 -> Z.odd r = true -> mods8 ck w r = Ok d ->
  99 <= r \/ r - d < 99 \/ 65 <= r).
Context (Hend : forall k, 0 <= k <= 256 -> zloop 9 ck w k = true).

Lemma good_sub k d : scanon k -> fits (sval k) -> Z.even (sval k) = false -> mods8 ck w (sval k mod 256) = Ok d ->
  Z.odd d = true /\ Z.abs d < B /\ 0 <= sval k - d < L /\ (2 ^ j | sval k - d) /\
  0 <= sval k mod 256 - d <= 256.
Proof.
  intros K F Ev Ed. pose proof (sval_nonneg _ (proj1 K)) as K0.
  destruct (mod256_bounds (sval k) (conj (proj1 K0) (proj2 K))) as (B1 & B2 & B3 & B4).
  assert (Ho : Z.odd (sval k mod 256) = true) by (rewrite odd_mod256, <- Z.negb_even, Ev; reflexivity).
  pose proof (HD _ B1 Ho) as G. rewrite Ed in G. cbn [good_digit] in G.
  rewrite !andb_true_iff, !orb_true_iff, negb_true_iff, !Z.leb_le, !Z.ltb_lt, Z.eqb_eq in G.
  destruct G as [[[[[G1 G2] G3] G4] G5] G6].
  split; [exact G1|]. split; [exact G2|].
  assert (S99 : 99 <= sval k mod 256 \/ sval k mod 256 - d < 99 \/
    (65 <= sval k mod 256 /\ sval k < L - 34)).
  { destruct F as [F|[F|F]]; [| |congruence].
    - rewrite F in G6. destruct G6 as [[X|X]|X]; [discriminate|now left|right; now left].
    - destruct (Hsafe _ d B1 Ho Ed) as [X|[X|X]]; [now left|right; now left|right; right].
      split; assumption. }
  split; [|split; [|lia]].
  - split; [lia|]. destruct S99 as [X|[X|[X X']]]; [|destruct (Z.le_gt_cases 99 (sval k mod 256))|]; try lia.
    destruct (Z.le_gt_cases 99 (sval k mod 256)); [lia|]. 
    (* 65 <= r < 99 and k < L - 34: k - r is at most L - 99 - 256 *)
    pose proof (Z_div_mod_eq_full (sval k) 256) as D. pose proof (Z_div_mod_eq_full L 256) as DL.
    rewrite L_mod_256 in DL. generalize dependent (L / 256). intros u DL.
    generalize dependent (sval k / 256). intros v D.
    assert (v < u) by lia. lia.
  - apply Z.mod_divide in G5; [|apply Z.pow_nonzero; lia]. destruct G5 as [q Hq].
    pose proof (Z_div_mod_eq_full (sval k) 256) as D.
    exists (q + (sval k / 256) * 2 ^ (8 - j)).
    rewrite Z.mul_add_distr_r, <- Hq, <- Z.mul_assoc, <- Z.pow_add_r by lia.
    replace (8 - j + j) with 8 by lia. change (2 ^ 8) with 256. lia.
Qed.

Definition may_panic : Prop := exists r, 0 <= r < 256 /\ Z.odd r = true /\ mods8 ck w r = Panic.

Definition outcome (k : Z) (n : nat) (pre : list Z) (o : res (list Z)) : Prop :=
  (o = Panic /\ may_panic) \/ exists ds, o = Ok (pre ++ ds ++ repeat 0 (256 - length pre - length ds)) /\
    (length ds <= n)%nat /\ recodingB B j k ds.

(** One iteration. *)
Lemma good_step k pre n fuel : scanon k -> fits (sval k) -> (length pre + S n <= 256)%nat ->
  (forall k' d, scanon k' -> fits (sval k') -> sval k' * 2 <= sval k + 127 ->
     (if Z.even (sval k) then d = 0 /\ sval k' = sval k / 2
      else mods8 ck w (sval k mod 256) = Ok d /\ sval k' = (sval k - d) / 2) ->
     outcome (sval k') n (pre ++ [d]) (sc_wnaf_loop fuel ck w k' (length (pre ++ [d]))
       ((pre ++ [d]) ++ repeat 0 (256 - length (pre ++ [d]))))) ->
  outcome (sval k) (S n) pre (sc_wnaf_loop (S fuel) ck w k (length pre) (pre ++ repeat 0 (256 - length pre))).
Proof.
  intros K F Hn H. pose proof (sval_nonneg _ (proj1 K)) as K0.
  rewrite wnaf_step, sc_ge_ok by (apply K || apply scanon_one). rewrite sval_one.
  destruct (Z.leb_spec 1 (sval k)) as [Hp|Hp].
  2:{ right. exists []. replace (sval k) with 0 by lia. rewrite Nat.sub_0_r.
      split; [reflexivity|]. split; [cbn; lia|apply recodingB_nil]. }
  rewrite sc_is_even_ok. destruct (Z.even (sval k)) eqn:Ev; cbn [negb].
  - rewrite (repeat_pred (256 - length pre)) by lia. rewrite set_nth_pad, !bind_ok.
    destruct (half_canon k K) as [Ch Vh].
    assert (D : sval k = 2 * (sval k / 2)).
    { apply Zeven_bool_iff, Zeven_div2 in Ev. rewrite Z.div2_div in Ev. exact Ev. }
    specialize (H (sc_half_without_mod k) 0 Ch).
    rewrite app_length in H. cbn [length] in H.
    replace (length pre + 1)%nat with (S (length pre)) in H by lia.
    replace (256 - S (length pre))%nat with (256 - length pre - 1)%nat in H by lia.
    destruct H as [H|(ds & E & Hl & R)].
    + right. left. pose proof (proj2 K). rewrite L_num in *. lia.
    + lia.
    + split; [reflexivity|exact Vh].
    + left. exact H.
    + right. exists (0 :: ds). rewrite E. rewrite app_length. cbn [length]. split; [|split; [lia|]].
      * rewrite <- app_assoc. cbn [app].
        replace (256 - (length pre + 1) - length ds)%nat with (256 - length pre - S (length ds))%nat by lia.
        reflexivity.
      * rewrite D, <- Vh. apply recodingB_zero; [lia|exact R].
  - rewrite sc_mods_mods8 by (assumption || apply K).
    destruct (mods8 ck w (sval k mod 256)) as [d| |] eqn:Ed.
    2:{ left. split; [reflexivity|]. exists (sval k mod 256).
        split; [apply Z.mod_pos_bound; lia|]. rewrite odd_mod256, <- Z.negb_even, Ev. split; [reflexivity|exact Ed]. }
    2:{ exfalso. destruct (mod256_bounds (sval k) (conj (proj1 K0) (proj2 K))) as (B1 & _).
        specialize (HD _ B1). rewrite odd_mod256, <- Z.negb_even, Ev, Ed in HD. specialize (HD eq_refl). discriminate. }
    destruct (good_sub k d K F Ev Ed) as (Od & Bd & Rd & [q Hq] & _).
    rewrite bind_ok, (repeat_pred (256 - length pre)) by lia. rewrite set_nth_pad, bind_ok.
    destruct (odd_digit_sub ck k d K) as (e & k' & -> & E' & Ck & Vk); [lia|exact Rd|].
    rewrite bind_ok, E', !bind_ok. destruct (half_canon k' Ck) as [Ch Vh]. rewrite Vk in Vh.
    assert (Pj : 2 ^ j = 2 * 2 ^ (j - 1)) by (rewrite <- Z.pow_succ_r by lia; f_equal; lia).
    assert (Hh : (sval k - d) / 2 = 2 ^ (j - 1) * q).
    { rewrite Hq, Pj. replace (q * (2 * 2 ^ (j - 1))) with (2 ^ (j - 1) * q * 2) by ring. apply Z.div_mul. lia. }
    specialize (H (sc_half_without_mod k') d Ch).
    rewrite app_length in H. cbn [length] in H.
    replace (length pre + 1)%nat with (S (length pre)) in H by lia.
    replace (256 - S (length pre))%nat with (256 - length pre - 1)%nat in H by lia.
    assert (Hb : sval (sc_half_without_mod k') * 2 <= sval k + 127) by (rewrite Vh; lia).
    destruct H as [H|(ds & E & Hl & R)].
    + right. left. pose proof (proj2 K). rewrite L_num in *. lia.
    + exact Hb.
    + split; [reflexivity|exact Vh].
    + left. exact H.
    + right. exists (d :: ds). rewrite E. rewrite app_length. cbn [length]. split; [|split; [lia|]].
      * rewrite <- app_assoc. cbn [app].
        replace (256 - (length pre + 1) - length ds)%nat with (256 - length pre - S (length ds))%nat by lia.
        reflexivity.
      * replace (sval k) with (d + 2 * ((sval k - d) / 2)) by (rewrite Hh; lia).
        apply recodingB_odd; [lia|exact Od|exact Bd|rewrite Hh; exists q; ring|].
        rewrite <- Vh. exact R.
Qed.

Lemma end_loop : forall n k pre fuel, scanon k -> fits (sval k) -> zloop n ck w (sval k) = true ->
  (length pre + n <= 256)%nat -> (n < fuel)%nat ->
  outcome (sval k) n pre (sc_wnaf_loop fuel ck w k (length pre) (pre ++ repeat 0 (256 - length pre))).
Proof.
  induction n as [|n IH]; intros k pre fuel K F Zl Hn Hf; (destruct fuel as [|fuel]; [lia|]);
    pose proof (sval_nonneg _ (proj1 K)) as K0.
  - cbn [zloop] in Zl. destruct (Z.leb_spec (sval k) 0) as [Hp|Hp]; [|discriminate].
    rewrite wnaf_step, sc_ge_ok by (apply K || apply scanon_one). rewrite sval_one.
    destruct (Z.leb_spec 1 (sval k)) as [Hq|Hq]; [lia|].
    right. exists []. replace (sval k) with 0 by lia. rewrite Nat.sub_0_r.
    split; [reflexivity|]. split; [cbn; lia|apply recodingB_nil].
  - apply good_step; [exact K|exact F|lia|].
    intros k' d K' F' _ Hd. apply IH; [exact K'|exact F'| |rewrite app_length; cbn [length]; lia|lia].
    cbn [zloop] in Zl. destruct (Z.leb_spec (sval k) 0) as [Hp|Hp].
    + destruct (Z.even (sval k)) eqn:Ev.
      * destruct Hd as [_ ->]. replace (sval k) with 0 by lia. change (0 / 2) with 0. now destruct n.
      * exfalso. replace (sval k) with 0 in Ev by lia. discriminate.
    + destruct (Z.even (sval k)) eqn:Ev.
      * destruct Hd as [_ ->]. exact Zl.
      * destruct Hd as [Ed ->]. rewrite Ed in Zl. exact Zl.
Qed.

Lemma main_loop : forall n k pre fuel, scanon k -> fits (sval k) -> sval k <= 256 * 2 ^ Z.of_nat n ->
  (length pre + (n + 9) <= 256)%nat -> (n + 9 < fuel)%nat ->
  outcome (sval k) (n + 9) pre (sc_wnaf_loop fuel ck w k (length pre) (pre ++ repeat 0 (256 - length pre))).
Proof.
  induction n as [|n IH]; intros k pre fuel K F Bk Hn Hf; pose proof (sval_nonneg _ (proj1 K)) as K0.
  - change (256 * 2 ^ Z.of_nat 0) with 256 in Bk.
    apply end_loop; [exact K|exact F|apply Hend; lia|lia|lia].
  - destruct fuel as [|fuel]; [lia|]. change (S n + 9)%nat with (S (n + 9)).
    apply good_step; [exact K|exact F|lia|].
    rewrite Nat2Z.inj_succ, Z.pow_succ_r in Bk by lia.
    assert (0 < 2 ^ Z.of_nat n) by (apply Z.pow_pos_nonneg; lia).
    intros k' d K' F' _ Hd. apply IH; [exact K'|exact F'| |rewrite app_length; cbn [length]; lia|lia].
    destruct (Z.even (sval k)) eqn:Ev.
    + destruct Hd as [_ ->]. apply Z.div_le_upper_bound; lia.
    + destruct Hd as [Ed ->]. destruct (good_sub k d K F Ev Ed) as (Od & Bd & Rd & _ & Rr).
      apply Z.div_le_upper_bound; [lia|].
      assert (Od' : Z.odd (sval k) = true) by (rewrite <- Z.negb_even, Ev; reflexivity).
      pose proof (Z_div_mod_eq_full (sval k) 256) as D.
      pose proof (Z.mod_pos_bound (sval k) 256 ltac:(lia)) as Br.
      assert (Hr : sval k mod 256 <> 0).
      { intros X. rewrite <- (odd_mod256 (sval k)), X in Od'. discriminate. }
      assert (sval k / 256 < 2 * 2 ^ Z.of_nat n) by lia. lia.
Qed.

Lemma good_width k : scanon k -> fits (sval k) ->
  (sc_compute_window_NAF ck k w = Panic /\ exists r, 0 <= r < 256 /\ Z.odd r = true /\ mods8 ck w r = Panic) \/
  exists ds, sc_compute_window_NAF ck k w = Ok (pad256 ds) /\ (length ds <= 251)%nat /\ recodingB B j (sval k) ds.
Proof.
  intros K F. destruct (main_loop 242 k [] loop_fuel K F) as [H|(ds & E & Hl & R)].
  - destruct K as [_ K]. change (Z.of_nat 242) with 242.
    assert (L <= 256 * 2 ^ 242) by (vm_compute; discriminate). lia.
  - cbn [length]. lia.
  - unfold loop_fuel. lia.
  - left. exact H.
  - right. exists ds. split; [exact E|]. split; [exact Hl|exact R].
Qed.
End Good.

(** ** Deciding the widths *)
Definition good_width_check (ck safe : bool) (B j w : Z) : bool :=
  forallb (fun r => negb (Z.odd r) || good_digit safe B j (mods8 ck w r) r) (upto 256) &&
  forallb (fun r => negb (Z.odd r) || match mods8 ck w r with
     Ok d => (99 <=? r) || (r - d <? 99) || (65 <=? r) | _ => true end) (upto 256) &&
  forallb (zloop 9 ck w) (upto 257).

Lemma good_width_ok ck safe B j w k : 0 <= w -> 0 < B <= 128 -> 1 <= j <= 8 ->
  good_width_check ck safe B j w = true -> scanon k -> fits safe (sval k) ->
  (sc_compute_window_NAF ck k w = Panic /\ exists r, 0 <= r < 256 /\ Z.odd r = true /\ mods8 ck w r = Panic) \/
  exists ds, sc_compute_window_NAF ck k w = Ok (pad256 ds) /\ (length ds <= 251)%nat /\ recodingB B j (sval k) ds.
Proof.
  intros Hw HB Hj H K F. unfold good_width_check in H. apply andb_true_iff in H. destruct H as [H H3].
  apply andb_true_iff in H. destruct H as [H1 H2].
  apply (good_width ck safe w B j); try assumption.
  - intros r Hr O. pose proof (upto_check 256 _ H1 r ltac:(lia)) as X. cbn beta in X. rewrite O in X. exact X.
  - intros r d Hr O E. pose proof (upto_check 256 _ H2 r ltac:(lia)) as X. cbn beta in X. rewrite O, E in X.
    cbn [negb orb] in X. rewrite !orb_true_iff, !Z.leb_le, Z.ltb_lt in X. lia.
  - intros z Hz. apply (upto_check 257 _ H3). lia.
Qed.


Definition never_panics (w : Z) : bool :=
  forallb (fun r => match mods8 false w r with Panic => false | _ => true end) (upto 256).

(** The top digit: a width-7 recoding of a reduced scalar has at most 250 digits. *)
Lemma nonadj7_bound : forall n ds, (length ds <= n)%nat -> nonadj 7 ds ->
  127 * Z.abs (digits_value ds) <= 63 * 64 * 2 ^ Z.of_nat (length ds) - 63.
Proof.
  induction n as [|n IH]; intros ds Hn A.
  - destruct ds; [cbn; lia|cbn in Hn; lia].
  - destruct ds as [|d ds]; [cbn; lia|]. cbn [length] in *.
    rewrite Nat2Z.inj_succ, Z.pow_succ_r by lia.
    assert (P0 : 1 <= 2 ^ Z.of_nat (length ds)) by (apply (Z.pow_le_mono_r 2 0); lia).
    destruct (Z.eq_dec d 0) as [->|Nd].
    + pose proof (IH ds ltac:(lia) (nonadj_tail _ _ _ A)) as X. cbn [digits_value]. lia.
    + destruct (nonadj_head 7 d ds ltac:(lia) A Nd) as (O & R & V & _). rewrite V.
      change (2 ^ (7 - 1)) with 64 in R. change (2 ^ 7) with 128.
      change (Z.to_nat (7 - 1)) with 6%nat.
      destruct (Nat.le_gt_cases 6 (length ds)) as [Hl|Hl].
      * pose proof (IH (skipn 6 ds)) as X. rewrite skipn_length in X.
        specialize (X ltac:(lia)). assert (A' : nonadj 7 (skipn 6 ds)) by (apply nonadj_skip; eapply nonadj_tail; exact A).
        specialize (X A').
        assert (E : 2 ^ Z.of_nat (length ds) = 64 * 2 ^ Z.of_nat (length ds - 6)).
        { change 64 with (2 ^ 6). rewrite <- Z.pow_add_r by lia. f_equal. lia. }
        rewrite E. lia.
      * rewrite skipn_all2 by lia. cbn [digits_value]. lia.
Qed.

Lemma skipn_add {A} n : forall m (l : list A), skipn n (skipn m l) = skipn (n + m) l.
Proof.
  induction m as [|m IH]; intros l; [rewrite Nat.add_0_r; reflexivity|].
  rewrite Nat.add_succ_r. destruct l as [|x l]; [now rewrite !skipn_nil|]. cbn [skipn]. apply IH.
Qed.

Lemma nonadj7_top k ds : 0 <= k < L -> (length ds <= 251)%nat -> nonadj 7 ds -> digits_value ds = k ->
  nth 250 ds 0 = 0.
Proof.
  intros Hk Hl A V. destruct (Z.eq_dec (nth 250 ds 0) 0) as [|N]; [assumption|exfalso].
  assert (El : length ds = 251%nat).
  { destruct (Nat.lt_ge_cases 250 (length ds)) as [X|X]; [lia|]. rewrite nth_overflow in N by exact X. now elim N. }
  (* the six digits below the top one are zero *)
  assert (Z6 : forall i, (244 <= i < 250)%nat -> nth i ds 0 = 0).
  { intros i Hi. destruct (proj2 A i 250%nat) as [X|X]; [lia|lia|exact X|now elim N]. }
  rewrite <- (firstn_skipn 244 ds) in V. rewrite digits_value_app in V.
  assert (Ef : length (firstn 244 ds) = 244%nat) by (rewrite firstn_length; lia).
  rewrite Ef in V. change (Z.of_nat 244) with 244 in V.
  assert (Es : digits_value (skipn 244 ds) = 64 * nth 250 ds 0).
  { destruct (zeros_prefix (skipn 244 ds) 6) as [X _].
    - intros j Hj. rewrite <- (firstn_skipn 244 ds) in Z6. specialize (Z6 (244 + j)%nat ltac:(lia)).
      rewrite app_nth2 in Z6 by lia. rewrite Ef in Z6. replace (244 + j - 244)%nat with j in Z6 by lia. exact Z6.
    - rewrite X, skipn_add. change (2 ^ Z.of_nat 6) with 64. f_equal.
      assert (E1 : length (skipn 250 ds) = 1%nat) by (rewrite skipn_length; lia).
      change (6 + 244)%nat with 250%nat. rewrite <- (firstn_skipn 250 ds) at 2.
      rewrite app_nth2 by (rewrite firstn_length; lia). rewrite firstn_length.
      replace (250 - Nat.min 250 (length ds))%nat with 0%nat by lia.
      destruct (skipn 250 ds) as [|x [|y l]]; try discriminate. cbn [digits_value nth]. lia. }
  rewrite Es in V.
  pose proof (nonadj7_bound _ (firstn 244 ds) (le_n _) (nonadj_firstn 7 244 ds A)) as X.
  rewrite Ef in X. change (Z.of_nat 244) with 244 in X.
  set (lo := digits_value (firstn 244 ds)) in *. clearbody lo. set (t := nth 250 ds 0) in *. clearbody t.
  rewrite L_num in Hk. change (2 ^ 244) with 28269553036454149273332760011886696253239742350009903329945699220681916416 in *. lia.
Qed.

Lemma seven_ok ck k : scanon k -> good_width_check ck ck 64 7 7 = true -> fits ck (sval k) ->
  (sc_compute_window_NAF ck k 7 = Panic /\ ck = true) \/
  exists ds, sc_compute_window_NAF ck k 7 = Ok ds /\ signed_recoding 7 (sval k) ds.
Proof.
  intros K G F. destruct (good_width_ok ck ck 64 7 7 k) as [[E (r & Hr & O & P)]|(ds & E & Hl & V & D & N)];
    try assumption; try lia.
  - left. split; [exact E|]. destruct ck; [reflexivity|exfalso].
    assert (X : never_panics 7 = true) by (vm_compute; reflexivity).
    pose proof (upto_check 256 _ X r ltac:(lia)) as Y. cbn beta in Y. rewrite P in Y. discriminate.
  - right. exists (pad256 ds). split; [exact E|].
    assert (F' : Forall (fun d => d = 0 \/ (Z.odd d = true /\ Z.abs d < 2 ^ (7 - 1))) ds).
    { eapply Forall_impl; [|exact D]. cbn beta. change (2 ^ (7 - 1)) with 64. intros d [[Y|Y] R]; [now left|right; split; assumption]. }
    assert (A : nonadj 7 ds) by (split; [exact F'|exact N]).
    assert (T : nth 250 ds 0 = 0).
    { apply (nonadj7_top (sval k)); [split; [apply sval_nonneg, K|apply K]|exact Hl|exact A|exact V]. }
    split; [|split; [|split; [|split]]].
    + unfold pad256. rewrite app_length, repeat_length. lia.
    + unfold pad256. rewrite digits_value_app, digits_value_zeros, V. lia.
    + unfold pad256. apply Forall_app. split; [exact F'|].
      apply Forall_forall. intros x H. apply repeat_spec in H. now left.
    + intros i l. rewrite !nth_pad256. apply N.
    + intros i Hi. rewrite nth_pad256. destruct (Nat.eq_dec i 250) as [->|X]; [exact T|].
      apply nth_overflow. lia.
Qed.

(** ** Widths 8, 16 and 24 without overflow checks: only even digits *)
Lemma set_nth_prefix : forall (pre : list Z) v t arr', set_nth (length pre) v (pre ++ t) = Ok arr' ->
  exists t', t = match t with [] => [] | x :: _ => x :: t' end /\ arr' = (pre ++ [v]) ++ t'.
Proof.
  induction pre as [|x pre IH]; intros v t arr' H.
  - destruct t as [|y t]; cbn [length app set_nth] in H; [discriminate|]. injection H as <-. exists t. split; reflexivity.
  - cbn [length app set_nth] in H. destruct (set_nth (length pre) v (pre ++ t)) as [l| |] eqn:E; try discriminate.
    cbn [bind] in H. injection H as <-. destruct (IH v t l E) as (t' & H1 & ->). exists t'. split; [exact H1|reflexivity].
Qed.

Lemma loop_prefix ck w : forall fuel k pre t arr', sc_wnaf_loop fuel ck w k (length pre) (pre ++ t) = Ok arr' ->
  exists t', arr' = pre ++ t'.
Proof.
  induction fuel as [|fuel IH]; intros k pre t arr' H; [discriminate|]. rewrite wnaf_step in H.
  destruct (is_ge _); [|injection H as <-; exists t; reflexivity].
  destruct (negb _).
  - destruct (sc_mods_2_pow_k ck k w) as [d| |]; try discriminate. rewrite bind_ok in H.
    destruct (set_nth _ _ _) as [a| |] eqn:E; try discriminate. rewrite bind_ok in H.
    apply set_nth_prefix in E. destruct E as (t' & _ & ->).
    destruct (sc_from_i8 ck d) as [e| |]; try discriminate. rewrite bind_ok in H.
    destruct (sc_sub ck k e) as [k'| |]; try discriminate. rewrite !bind_ok in H.
    replace (S (length pre)) with (length (pre ++ [d])) in H by (rewrite app_length; cbn; lia).
    apply IH in H. destruct H as (t2 & ->). exists (d :: t2). rewrite <- app_assoc. reflexivity.
  - destruct (set_nth _ _ _) as [a| |] eqn:E; try discriminate. rewrite !bind_ok in H.
    apply set_nth_prefix in E. destruct E as (t' & _ & ->).
    replace (S (length pre)) with (length (pre ++ [0])) in H by (rewrite app_length; cbn; lia).
    apply IH in H. destruct H as (t2 & ->). exists (0 :: t2). rewrite <- app_assoc. reflexivity.
Qed.

Lemma even_loop ck w : 0 <= w -> (forall r d, 0 <= r < 256 -> Z.odd r = true -> mods8 ck w r = Ok d -> Z.odd d = false) ->
  forall fuel k pre t arr', scanon k -> 1 <= sval k ->
  sc_wnaf_loop fuel ck w k (length pre) (pre ++ t) = Ok arr' ->
  exists t', arr' = pre ++ t' /\ digits_value t' <> sval k.
Proof.
  intros Hw HD. induction fuel as [|fuel IH]; intros k pre t arr' K K1 H; [discriminate|]. rewrite wnaf_step in H.
  rewrite sc_ge_ok in H by (apply K || apply scanon_one). rewrite sval_one in H.
  replace (1 <=? sval k) with true in H by (symmetry; apply Z.leb_le; exact K1). cbv iota in H.
  rewrite sc_is_even_ok in H. destruct (Z.even (sval k)) eqn:Ev; cbn [negb] in H.
  - destruct (set_nth _ _ _) as [a| |] eqn:E; try discriminate. rewrite !bind_ok in H.
    apply set_nth_prefix in E. destruct E as (t' & _ & ->).
    replace (S (length pre)) with (length (pre ++ [0])) in H by (rewrite app_length; cbn; lia).
    destruct (half_canon k K) as [Ch Vh].
    assert (D : sval k = 2 * (sval k / 2)).
    { apply Zeven_bool_iff, Zeven_div2 in Ev. rewrite Z.div2_div in Ev. exact Ev. }
    apply IH in H; [|exact Ch|rewrite Vh; lia]. destruct H as (t2 & -> & N).
    exists (0 :: t2). rewrite <- app_assoc. split; [reflexivity|]. cbn [digits_value]. rewrite Vh in N. lia.
  - rewrite sc_mods_mods8 in H by (assumption || apply K).
    destruct (mods8 ck w (sval k mod 256)) as [d| |] eqn:Ed; try discriminate. rewrite bind_ok in H.
    destruct (set_nth _ _ _) as [a| |] eqn:E; try discriminate. rewrite bind_ok in H.
    apply set_nth_prefix in E. destruct E as (t' & _ & ->).
    destruct (sc_from_i8 ck d) as [e| |]; try discriminate. rewrite bind_ok in H.
    destruct (sc_sub ck k e) as [k'| |]; try discriminate. rewrite !bind_ok in H.
    replace (S (length pre)) with (length (pre ++ [d])) in H by (rewrite app_length; cbn; lia).
    apply loop_prefix in H. destruct H as (t2 & ->). exists (d :: t2). rewrite <- app_assoc.
    split; [reflexivity|]. cbn [digits_value]. intros X.
    assert (Od : Z.odd d = false).
    { apply (HD (sval k mod 256)); [apply Z.mod_pos_bound; lia| |exact Ed].
      rewrite odd_mod256, <- Z.negb_even, Ev. reflexivity. }
    assert (Z.odd (d + 2 * digits_value t2) = false) as Y by (rewrite Z.odd_add_mul_2; exact Od).
    rewrite X, <- Z.negb_even, Ev in Y. discriminate.
Qed.

(** ** C80 *)
(** Zero is recoded as 256 zeros at every width. *)
Lemma C80_zero_stmt : forall ck w k, scanon k -> sval k = 0 -> sc_compute_window_NAF ck k w = Ok (repeat 0 256).
Proof.
  intros ck w k K Z. unfold sc_compute_window_NAF, loop_fuel. rewrite wnaf_step, sc_ge_ok by (apply K || apply scanon_one).
  rewrite sval_one, Z. reflexivity.
Qed.
(** Widths at which every other scalar panics, in a build with ([true]) or without overflow checks. *)
Lemma C80_panic_stmt : forall ck w k, scanon k -> sval k <> 0 -> 0 <= w <= 255 ->
  w <= 1 \/ 32 <= w \/ (ck = true /\ 8 <= w) \/ (ck = false /\ (w = 9 \/ w = 17 \/ w = 25)) ->
  sc_compute_window_NAF ck k w = Panic.
Proof.
  intros ck w k K N Hw C. apply stuck_width_panic; try assumption; [lia|].
  destruct (Z.le_gt_cases 32 w) as [H|H].
  - unfold stuck_width. apply forallb_forall. intros r _. unfold mods8.
    replace (w <? 32) with false by (symmetry; apply Z.ltb_ge; exact H).
    cbn [rassert bind stuck_digit]. apply orb_true_r.
  - assert (X : forallb (fun w => negb ((w <=? 1) || (8 <=? w)) || stuck_width true w) (upto 32) = true)
      by (vm_compute; reflexivity).
    assert (Y : forallb (fun w => negb ((w <=? 1) || (w =? 9) || (w =? 17) || (w =? 25)) || stuck_width false w) (upto 32) = true)
      by (vm_compute; reflexivity).
    pose proof (upto_check 32 _ X w ltac:(lia)) as X'. pose proof (upto_check 32 _ Y w ltac:(lia)) as Y'. cbn beta in X', Y'.
    clear X Y. destruct ck.
    + destruct (stuck_width true w); [reflexivity|]. rewrite orb_false_r, negb_true_iff, orb_false_iff, !Z.leb_gt in X'.
      exfalso. destruct C as [C|[C|[[_ C]|[C _]]]]; [lia|lia|lia|discriminate].
    + destruct (stuck_width false w); [reflexivity|].
      rewrite orb_false_r, negb_true_iff, !orb_false_iff, Z.leb_gt, !Z.eqb_neq in Y'.
      exfalso. destruct C as [C|[C|[[C _]|[_ C]]]]; [lia|lia|discriminate|lia].
Qed.
(** The multiplication built on the recoding panics with it. *)
Lemma C80_mul_panic_stmt : forall ck w k, scanon k -> sval k <> 0 -> 0 <= w <= 255 ->
  w <= 1 \/ 32 <= w \/ (ck = true /\ 8 <= w) \/ (ck = false /\ (w = 9 \/ w = 17 \/ w = 25)) ->
  window_naf_mul ck k w = Panic.
Proof. intros ck w k K N Hw C. unfold window_naf_mul. rewrite C80_panic_stmt by assumption. reflexivity. Qed.
(** Width 7 with overflow checks: a panic or a correct recoding. *)
Lemma C80_seven_checked_stmt : forall k, scanon k ->
  sc_compute_window_NAF true k 7 = Panic \/
  exists ds, sc_compute_window_NAF true k 7 = Ok ds /\ signed_recoding 7 (sval k) ds.
Proof.
  intros k K. destruct (seven_ok true k K) as [[H _]|H]; [vm_compute; reflexivity|now left|now left|now right].
Qed.
(** Width 7 without: correct for all but the odd scalars from L - 34 on. *)
Lemma C80_seven_unchecked_stmt : forall k, scanon k -> sval k < L - 34 \/ Z.even (sval k) = true ->
  exists ds, sc_compute_window_NAF false k 7 = Ok ds /\ signed_recoding 7 (sval k) ds.
Proof.
  intros k K F. destruct (seven_ok false k K) as [[_ H]|H]; [vm_compute; reflexivity|right; exact F|discriminate|exact H].
Qed.
(** Widths 10 to 15, 18 to 23 and 26 to 31 without overflow checks: the digits are
    those of the width modulo 8 up to a multiple of 256: their sum is right, they
    are spaced by the width modulo 8, and they need up to eight bits. *)
Lemma C80_wide_unchecked_stmt : forall w k, scanon k -> 9 <= w <= 31 -> 2 <= w mod 8 ->
  w mod 8 <= 6 \/ sval k < L - 34 \/ Z.even (sval k) = true ->
  exists ds, sc_compute_window_NAF false k w = Ok ds /\ length ds = 256%nat /\ digits_value ds = sval k /\
    Forall (fun d => d = 0 \/ (Z.odd d = true /\ -127 <= d <= 127)) ds /\
    (forall i l, (i < l)%nat -> Z.of_nat l < Z.of_nat i + w mod 8 -> nth i ds 0 = 0 \/ nth l ds 0 = 0).
Proof.
  intros w k K Hw Hm F. assert (H32 : 0 <= w < Z.of_nat 32) by lia.
  assert (X : forallb (fun w => negb ((9 <=? w) && (2 <=? w mod 8)) ||
     (good_width_check false (w mod 8 <=? 6) 128 (w mod 8) w && never_panics w)) (upto 32) = true)
    by (vm_compute; reflexivity).
  pose proof (upto_check 32 _ X w H32) as X'. cbn beta in X'. clear X.
  replace (9 <=? w) with true in X' by (symmetry; apply Z.leb_le; lia).
  replace (2 <=? w mod 8) with true in X' by (symmetry; apply Z.leb_le; lia).
  cbn [andb negb orb] in X'. apply andb_true_iff in X'. destruct X' as [X Y].
  pose proof (Z.mod_pos_bound w 8 ltac:(lia)) as B.
  destruct (good_width_ok false (w mod 8 <=? 6) 128 (w mod 8) w k) as [[E (r & Hr & O & P)]|(ds & E & Hl & V & D & N)];
    try assumption; try lia.
  - destruct F as [F|F]; [left; apply Z.leb_le; exact F|right; exact F].
  - exfalso. pose proof (upto_check 256 _ Y r ltac:(lia)) as Y'. cbn beta in Y'. rewrite P in Y'. discriminate.
  - exists (pad256 ds). split; [exact E|]. split; [unfold pad256; rewrite app_length, repeat_length; lia|].
    split; [unfold pad256; rewrite digits_value_app, digits_value_zeros, V; lia|]. split.
    + unfold pad256. apply Forall_app. split.
      * eapply Forall_impl; [|exact D]. cbn beta. intros d [[Z|Z] R]; [now left|right; split; [exact Z|lia]].
      * apply Forall_forall. intros x H. apply repeat_spec in H. now left.
    + intros i l. rewrite !nth_pad256. apply N.
Qed.
(** Widths 7, 15, 23 and 31 on the excluded scalars L - 2t: the digits sum to -1 - 2t. *)
Lemma C80_wrap_stmt : forall w t k, w = 7 \/ w = 15 \/ w = 23 \/ w = 31 -> 1 <= t <= 17 -> scanon k -> sval k = L - 2 * t ->
  exists ds, sc_compute_window_NAF false k w = Ok ds /\ digits_value ds = - 1 - 2 * t /\
    digits_value ds mod L <> sval k mod L.
Proof.
  intros w t k Hw Ht K V.
  enough (X : sc_compute_window_NAF false k w = Ok (pad256 [-29 - 2 * t; 0; 7])).
  { exists (pad256 [-29 - 2 * t; 0; 7]). split; [exact X|].
    assert (Y : digits_value (pad256 [-29 - 2 * t; 0; 7]) = -1 - 2 * t).
    { unfold pad256. rewrite digits_value_app, digits_value_zeros. cbn [digits_value]. lia. }
    split; [exact Y|]. rewrite Y, V. intros E. apply (f_equal (fun x => (x + 2 * t) mod L)) in E.
    rewrite !Zplus_mod_idemp_l in E. replace (-1 - 2 * t + 2 * t) with (-1) in E by lia.
    replace (L - 2 * t + 2 * t) with L in E by lia. revert E. vm_compute. discriminate. }
  assert (Ek : k = SC (1129677152307299 - 2 * t) 1363544697812651 714439 0 2199023255552).
  { apply sval_inj; [apply K| |].
    - unfold slimbs. cbn [s0 s1 s2 s3 s4]. lia.
    - rewrite V, sval_num. cbn [s0 s1 s2 s3 s4]. rewrite L_num. lia. }
  rewrite Ek. clear - Hw Ht.
  assert (X : forallb (fun w => forallb (fun t => (t =? 0) ||
     match sc_compute_window_NAF false (SC (1129677152307299 - 2 * t) 1363544697812651 714439 0 2199023255552) w with
     | Ok l => if list_eq_dec Z.eq_dec l (pad256 [-29 - 2 * t; 0; 7]) then true else false
     | _ => false end) (upto 18)) [7; 15; 23; 31] = true) by (vm_compute; reflexivity).
  rewrite forallb_forall in X. specialize (X w). cbn beta in X.
  assert (I : In w [7; 15; 23; 31]) by (cbn [In]; lia). specialize (X I).
  pose proof (upto_check 18 _ X t ltac:(lia)) as Y. cbn beta in Y.
  replace (t =? 0) with false in Y by (symmetry; apply Z.eqb_neq; lia). cbn [orb] in Y.
  destruct (sc_compute_window_NAF false _ w) as [l| |]; try discriminate.
  destruct (list_eq_dec Z.eq_dec l (pad256 [-29 - 2 * t; 0; 7])) as [->|]; [reflexivity|discriminate].
Qed.
(** Widths 8, 16 and 24 without overflow checks: never right, except on zero. *)
Lemma C80_eight_unchecked_stmt : forall w k ds, w = 8 \/ w = 16 \/ w = 24 -> scanon k -> sval k <> 0 ->
  sc_compute_window_NAF false k w = Ok ds -> digits_value ds <> sval k.
Proof.
  intros w k ds Hw K N H. unfold sc_compute_window_NAF in H.
  pose proof (sval_nonneg _ (proj1 K)) as K0.
  destruct (even_loop false w) with (fuel := loop_fuel) (k := k) (pre := @nil Z) (t := repeat 0 256) (arr' := ds)
    as (t' & -> & V); try assumption; try lia.
  intros r d Hr O E.
  assert (X : forallb (fun w => forallb (fun r => negb (Z.odd r) ||
     match mods8 false w r with Ok d => negb (Z.odd d) | _ => true end) (upto 256)) [8; 16; 24] = true)
    by (vm_compute; reflexivity).
  rewrite forallb_forall in X. specialize (X w ltac:(cbn [In]; lia)). cbn beta in X.
  pose proof (upto_check 256 _ X r ltac:(lia)) as Y. cbn beta in Y. rewrite O, E in Y. cbn [negb orb] in Y.
  now apply negb_true_iff in Y.
Qed.
(** 63 is recoded, 127 panics (checked) or is recoded (unchecked), at width 7; L - 2
    is one of the excluded scalars; width 8 loses the value of 1, width 15 keeps that of 127. *)
Lemma C80_ex : scanon (SC 127 0 0 0 0) /\ sval (SC 127 0 0 0 0) < L - 34 /\
  sc_compute_window_NAF true (SC 63 0 0 0 0) 7 = Ok (pad256 [63]) /\
  sc_compute_window_NAF true (SC 127 0 0 0 0) 7 = Panic /\
  sc_compute_window_NAF false (SC 127 0 0 0 0) 7 = Ok (pad256 [-1; 0; 0; 0; 0; 0; 0; 1]) /\
  sc_compute_window_NAF false (SC 127 0 0 0 0) 15 = Ok (pad256 [-1; 0; 0; 0; 0; 0; 0; 1]) /\
  sc_compute_window_NAF false (SC 1 0 0 0 0) 8 = Ok (repeat 0 256) /\
  scanon (SC 1129677152307297 1363544697812651 714439 0 2199023255552) /\
  sval (SC 1129677152307297 1363544697812651 714439 0 2199023255552) = L - 2 * 1.
Proof.
  split; [apply scanon_check; reflexivity|]. split; [reflexivity|]. split; [vm_compute; reflexivity|].
  split; [vm_compute; reflexivity|]. split; [vm_compute; reflexivity|]. split; [vm_compute; reflexivity|].
  split; [vm_compute; reflexivity|]. split; [apply scanon_check; reflexivity|reflexivity].
Qed.
