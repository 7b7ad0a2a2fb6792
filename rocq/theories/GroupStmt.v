(** * The properties about the group of points and its order

    Statement forms; PropGroup.v restates each of them and closes it with the
    lemma of the same name.                                                  *)

From Coq Require Import ZArith Znumtheory List Bool Lia Ring Field.
From Verif Require Import Machine FieldModel ScalarModel EdwardsModel TableModel RistrettoModel Spec MachineFacts FieldLimb
  FieldOps FieldBytes NumTheory Primes Fp FieldF FieldInv ScalarOps ScalarNaf Curve CurveGroup EdwardsF PointMul EdwardsY
  EdwardsStmt RistSpec Rist RistF RistE RistrettoStmt GroupCheck GroupOrder.
Import ListNotations.
Open Scope Z_scope.

(** ** Bridges *)
Lemma pxy_pB : pxy pB = base. Proof. reflexivity. Qed.
Lemma multiple_B n : 0 <= n -> multiple n base = pxy (smul n pB).
Proof. intros H. rewrite <- pxy_pB. apply multiple_smul. exact H. Qed.
Lemma rep_unique P A B : ext_rep P A -> ext_rep P B -> A = B.
Proof.
  intros H1 H2. apply ext_rep_rext in H1, H2. destruct H1 as (A' & -> & H1), H2 as (B' & -> & H2).
  rewrite (rext_det P A' B' H1 H2). reflexivity.
Qed.
Lemma returns_unique o A B : returns_ext o A -> returns_ext o B -> A = B.
Proof.
  intros (R & E & H) (R' & E' & H'). rewrite E in E'. apply Ok_inj in E'. subst R'. exact (rep_unique R A B H H').
Qed.
Lemma multiple_B_inj m n : 0 <= m -> 0 <= n -> multiple m base = multiple n base -> (L | m - n).
Proof.
  intros Hm Hn H. rewrite !multiple_B in H by assumption. apply pt_eq in H. apply order_B.
  rewrite smul_sub, H. apply padd_opp_r.
Qed.
Lemma on_pt A : on_curve A -> exists A', A = pxy A'.
Proof. intros H. exists (pt_of A H). symmetry. apply pxy_of. Qed.
Lemma SC_L_loadable : sloadable SC_L.
Proof. vm_compute. intuition discriminate. Qed.
Lemma SC_L_val : sval SC_L = L. Proof. reflexivity. Qed.

Definition sc_of_Z (v : Z) : sc :=
  SC (v mod 2 ^ 52) (v / 2 ^ 52 mod 2 ^ 52) (v / 2 ^ 104 mod 2 ^ 52) (v / 2 ^ 156 mod 2 ^ 52) (v / 2 ^ 208).
Lemma sc_of_Z_ok v : 0 <= v < L -> scanon (sc_of_Z v) /\ sval (sc_of_Z v) = v.
Proof.
  intros H. assert (H' : v < 2 ^ 250).
  { apply Z.lt_trans with L; [apply H|reflexivity]. }
  assert (E : sval (sc_of_Z v) = v).
  { unfold sval, val5, sc_of_Z. cbn [s0 s1 s2 s3 s4].
    change (2 ^ 104) with (2 ^ 52 * 2 ^ 52). change (2 ^ 156) with (2 ^ 52 * 2 ^ 52 * 2 ^ 52).
    change (2 ^ 208) with (2 ^ 52 * 2 ^ 52 * 2 ^ 52 * 2 ^ 52).
    rewrite <- !Z.div_div by lia. set (B := 2 ^ 52).
    assert (HB : B <> 0) by discriminate. clearbody B.
    pose proof (Z.div_mod v B HB) as D1. pose proof (Z.div_mod (v / B) B HB) as D2.
    pose proof (Z.div_mod (v / B / B) B HB) as D3. pose proof (Z.div_mod (v / B / B / B) B HB) as D4.
    set (q4 := v / B / B / B / B) in *. set (r3 := (v / B / B / B) mod B) in *. clearbody q4 r3.
    set (q3 := v / B / B / B) in *. set (r2 := (v / B / B) mod B) in *. clearbody q3 r2.
    set (q2 := v / B / B) in *. set (r1 := (v / B) mod B) in *. clearbody q2 r1.
    set (q1 := v / B) in *. set (r0 := v mod B) in *. clearbody q1 r0.
    rewrite D1, D2, D3, D4. ring. }
  split; [|exact E]. split; [|rewrite E; apply H].
  unfold slimbs, sc_of_Z. cbn [s0 s1 s2 s3 s4].
  assert (D : 0 <= v / 2 ^ 208 < 2 ^ 52).
  { split; [apply Z.div_pos; [apply H|reflexivity]|]. apply Z.div_lt_upper_bound; [reflexivity|].
    apply Z.lt_trans with (2 ^ 250); [exact H'|reflexivity]. }
  repeat split; try (apply Z.mod_pos_bound; reflexivity); apply D.
Qed.

(** ** C37 *)
(** The scalar 2^249, reduced since 2^249 < L, gives the neutral element instead of 2^249 B. *)
Lemma C37_ltr_refuted_stmt : exists P A n, ext_rep P A /\ scanon n /\ sval n = 2 ^ 249 /\
  forall ck, returns_ext (ltr_bin_mul (ept_add ck) (ept_double ck) ept_identity P n) origin /\
    ~ returns_ext (ltr_bin_mul (ept_add ck) (ept_double ck) ept_identity P n) (multiple (sval n) A).
Proof.
  exists BASEPOINT, base, (sc_of_Z (2 ^ 249)). destruct (sc_of_Z_ok (2 ^ 249) ltac:(split; [lia|reflexivity])) as [C V].
  split; [exact base_rep|]. split; [exact C|]. split; [exact V|]. intros ck.
  destruct (C37_ltr_low_bits_stmt ck BASEPOINT base _ base_rep (scanon_loadable _ C)) as [H _].
  rewrite V in H. rewrite Z_mod_same in H by reflexivity. split; [exact H|]. intros K.
  pose proof (returns_unique _ _ _ H K) as E. rewrite V in E.
  apply multiple_B_inj in E; [|lia|lia]. apply Z.mod_divide in E; [|discriminate]. revert E. vm_compute. discriminate.
Qed.

(** ** C39 *)
(** Arithmetic of scalars modulo L on multiples of the basepoint. *)
Lemma smul_congr A m n : smul L A = pO -> n = m mod L -> smul n A = smul m A.
Proof. intros H ->. apply smul_L_mod. exact H. Qed.
Lemma C39_scalar_add_stmt : forall ck P m a b, ext_rep P (multiple m base) -> 0 <= m -> scanon a -> scanon b ->
  same_ext ck (s <- sc_add ck a b ;; ept_mul ck P s) (aP <- ept_mul ck P a ;; bP <- ept_mul ck P b ;; ept_add ck aP bP) /\
  same_ext ck (s <- sc_sub ck a b ;; ept_mul ck P s) (aP <- ept_mul ck P a ;; bP <- ept_mul ck P b ;; ept_sub ck aP bP) /\
  same_ext ck (s <- sc_neg ck a ;; ept_mul ck P s) (aP <- ept_mul ck P a ;; ept_neg ck aP).
Proof.
  intros ck P m a b HP Hm Ca Cb. rewrite multiple_B in HP by exact Hm. apply ext_rep_rext in HP.
  destruct HP as (A & EA & HP). apply pt_eq in EA.
  assert (HA : smul L A = pO) by (apply order_L; exists m; symmetry; exact EA). clear EA.
  destruct (ept_mul_rext a P A (scanon_loadable _ Ca) HP) as (aP & E2 & H2).
  destruct (ept_mul_rext b P A (scanon_loadable _ Cb) HP) as (bP & E3 & H3).
  split; [|split].
  - destruct (sc_add_ok ck a b Ca Cb) as (s & E0 & C0 & V0).
    destruct (ept_mul_rext s P A (scanon_loadable _ C0) HP) as (R & E1 & H1).
    destruct (rext_add aP bP _ _ H2 H3) as (R2 & E4 & H4).
    apply (same_rext ck _ _ R R2 _ _) with (3 := H1) (4 := H4).
    + rewrite E0, bind_ok. apply E1.
    + rewrite E2, bind_ok, E3, bind_ok. apply E4.
    + rewrite (smul_congr A _ _ HA V0). apply smul_add.
  - destruct (sc_sub_ok ck a b Ca Cb) as (s & E0 & C0 & V0).
    destruct (ept_mul_rext s P A (scanon_loadable _ C0) HP) as (R & E1 & H1).
    destruct (rext_sub aP bP _ _ H2 H3) as (R2 & E4 & H4).
    apply (same_rext ck _ _ R R2 _ _) with (3 := H1) (4 := H4).
    + rewrite E0, bind_ok. apply E1.
    + rewrite E2, bind_ok, E3, bind_ok. apply E4.
    + rewrite (smul_congr A _ _ HA V0). apply smul_sub.
  - destruct (sc_neg_ok ck a Ca) as (s & E0 & C0 & V0).
    destruct (ept_mul_rext s P A (scanon_loadable _ C0) HP) as (R & E1 & H1).
    destruct (rext_neg aP _ H2) as (R2 & E4 & H4).
    apply (same_rext ck _ _ R R2 _ _) with (3 := H1) (4 := H4).
    + rewrite E0, bind_ok. apply E1.
    + rewrite E2, bind_ok. apply E4.
    + rewrite (smul_congr A _ _ HA V0). apply smul_opp.
Qed.
Lemma C39_scalar_mul_stmt : forall ck P m a b, ext_rep P (multiple m base) -> 0 <= m -> scanon a -> scanon b ->
  same_ext ck (s <- sc_mul ck a b ;; ept_mul ck P s) (bP <- ept_mul ck P b ;; ept_mul ck bP a).
Proof.
  intros ck P m a b HP Hm Ca Cb. rewrite multiple_B in HP by exact Hm. apply ext_rep_rext in HP.
  destruct HP as (A & EA & HP). apply pt_eq in EA.
  assert (HA : smul L A = pO) by (apply order_L; exists m; symmetry; exact EA). clear EA.
  destruct (ept_mul_rext b P A (scanon_loadable _ Cb) HP) as (bP & E3 & H3).
  destruct (ept_mul_rext a bP _ (scanon_loadable _ Ca) H3) as (R2 & E4 & H4).
  destruct (sc_mul_ok ck a b (proj1 Ca) Cb) as (s & E0 & C0 & V0).
  destruct (ept_mul_rext s P A (scanon_loadable _ C0) HP) as (R & E1 & H1).
  apply (same_rext ck _ _ R R2 _ _) with (3 := H1) (4 := H4).
  - rewrite E0, bind_ok. apply E1.
  - rewrite E3, bind_ok. apply E4.
  - rewrite (smul_congr A _ _ HA V0). apply smul_mul.
Qed.
(** Not for all valid points: (-1) + 1 = 0 in the scalars, but (L-1)P + P = P for the point (0,-1). *)
Lemma C39_all_points_refuted_stmt : exists P a b, valid_ext P /\ scanon a /\ scanon b /\ forall ck,
  ~ same_ext ck (s <- sc_add ck a b ;; ept_mul ck P s) (aP <- ept_mul ck P a ;; bP <- ept_mul ck P b ;; ept_add ck aP bP).
Proof.
  exists order2_ext, sc_minus_one, sc_one.
  split; [exists order2; exact order2_rep|].
  assert (Ca : scanon sc_minus_one) by (vm_compute; intuition discriminate).
  assert (Cb : scanon sc_one) by (vm_compute; intuition discriminate).
  split; [exact Ca|]. split; [exact Cb|].
  intros ck. pose proof order2_rep as HP. apply ext_rep_rext in HP. destruct HP as (A & EA & HP).
  destruct (ept_mul_rext _ _ A (scanon_loadable _ Ca) HP) as (aP & E2 & H2).
  destruct (ept_mul_rext _ _ A (scanon_loadable _ Cb) HP) as (bP & E3 & H3).
  destruct (sc_add_ok ck _ _ Ca Cb) as (s & E0 & C0 & V0).
  destruct (ept_mul_rext s _ A (scanon_loadable _ C0) HP) as (R & E1 & H1).
  destruct (rext_add aP bP _ _ H2 H3) as (R2 & E4 & H4).
  rewrite E0, bind_ok, E1, E2, bind_ok, E3, bind_ok, E4. intros (X & Y & EX & EY & _ & _ & K).
  apply Ok_inj in EX, EY. subst X Y. rewrite (rext_eqb R R2 _ _ H1 H4) in K.
  apply Ok_inj in K. destruct (pt_eqb_spec (smul (sval s) A) (padd (smul (sval sc_minus_one) A) (smul (sval sc_one) A))) as [E|E]; [|discriminate K].
  rewrite V0 in E. change (sval sc_minus_one) with (L - 1) in E. change (sval sc_one) with 1 in E.
  replace (L - 1 + 1) with L in E by ring. rewrite Z_mod_same_full, smul_0, <- smul_add in E.
  replace (L - 1 + 1) with L in E by ring.
  assert (D : smul 2 A = pO).
  { rewrite smul_2. apply double_zero. unfold xc. rewrite <- EA. reflexivity. }
  assert (X : L = 1 + 2 * ((L - 1) / 2)) by reflexivity. rewrite X, smul_add, Z.mul_comm, smul_mul, D, smul_O, smul_1, padd_O_r in E.
  apply (f_equal yc) in E. unfold yc in E. rewrite <- EA in E.
  apply (f_equal Fval) in E. clear - E. vm_compute in E. discriminate E.
Qed.
(** A multiple of the basepoint other than itself, and two scalars with a + b > L. *)
Lemma C39_group_ex : ext_rep BASEPOINT (multiple (L + 1) base) /\ scanon sc_minus_one /\ scanon (SC 2 0 0 0 0).
Proof.
  split.
  - rewrite multiple_B by discriminate. rewrite smul_add, smul_1, smul_L_B, padd_O_l. exact base_rep.
  - split; vm_compute; intuition discriminate.
Qed.

(** ** C55 *)
Lemma C55_primes_stmt : prime p /\ prime L.
Proof. split; [exact prime_p|exact prime_L]. Qed.
Lemma C55_order_stmt : forall n, 0 <= n -> (multiple n base = origin <-> (L | n)).
Proof.
  intros n Hn. rewrite multiple_B by exact Hn. change origin with (pxy pO). rewrite <- order_B.
  split; [apply pt_eq|intros H; rewrite H; reflexivity].
Qed.
(** The same for the code: the product of the basepoint by a scalar equals the identity
    exactly for multiples of L; in particular for L itself. *)
Lemma C55_mul_identity_stmt : forall ck n, sloadable n -> exists R r,
  ept_mul ck BASEPOINT n = Ok R /\ ept_eqb ck R ept_identity = Ok r /\ (r = true <-> (L | sval n)).
Proof.
  intros ck n Hn. destruct (ept_mul_rext n _ _ Hn rext_B) as (R & E & H). exists R, (pt_eqb (smul (sval n) pB) pO).
  split; [apply E|]. split; [exact (rext_eqb R ept_identity _ _ H rext_id ck)|]. rewrite <- order_B.
  destruct (pt_eqb_spec (smul (sval n) pB) pO) as [X|X].
  - split; [intros _; exact X|reflexivity].
  - split; [discriminate|intros K; elim (X K)].
Qed.
(** Different reduced scalars give different multiples of the basepoint. *)
Lemma C55_faithful_stmt : forall ck m n R S, scanon m -> scanon n ->
  ept_mul ck BASEPOINT m = Ok R -> ept_mul ck BASEPOINT n = Ok S -> ept_eqb ck R S = Ok true -> m = n.
Proof.
  intros ck m n R S Cm Cn ER ES Q.
  destruct (ept_mul_rext m _ _ (scanon_loadable _ Cm) rext_B) as (R' & E1 & H1).
  destruct (ept_mul_rext n _ _ (scanon_loadable _ Cn) rext_B) as (S' & E2 & H2).
  rewrite E1 in ER. rewrite E2 in ES. apply Ok_inj in ER, ES. subst R' S'.
  rewrite (rext_eqb R S _ _ H1 H2) in Q. apply Ok_inj in Q.
  destruct (pt_eqb_spec (smul (sval m) pB) (smul (sval n) pB)) as [X|X]; [|discriminate Q].
  apply sval_inj; [apply Cm|apply Cn|].
  assert (D : (L | sval m - sval n)) by (apply order_B; rewrite smul_sub, X; apply padd_opp_r).
  pose proof (sval_nonneg _ (proj1 Cm)). pose proof (sval_nonneg _ (proj1 Cn)).
  destruct Cm as [_ Bm], Cn as [_ Bn]. apply div_small_zero in D; lia.
Qed.
Lemma C55_ex : sloadable SC_L /\ sval SC_L = L /\ scanon sc_minus_one /\ scanon sc_one /\ sc_minus_one <> sc_one.
Proof.
  split; [exact SC_L_loadable|]. split; [exact SC_L_val|].
  split; [vm_compute; intuition discriminate|]. split; [vm_compute; intuition discriminate|discriminate].
Qed.

(** ** C56 *)
(** The multiple of the basepoint that digit [d] contributes: the table entry at index
    |d| is (2|d|-1)B. *)
Definition table_digit (d : Z) : Z := if d =? 0 then 0 else if 0 <? d then 2 * d - 1 else 2 * d + 1.
Lemma td_nth ds i : nth i (map table_digit ds) 0 = table_digit (nth i ds 0).
Proof. change 0 with (table_digit 0) at 1. apply map_nth. Qed.
Lemma table_some i : (i < 126)%nat -> exists P, nth_error BASEPOINT_ODD_MULTIPLES_TABLE i = Some P.
Proof.
  intros H. destruct (nth_error BASEPOINT_ODD_MULTIPLES_TABLE i) as [P|] eqn:E; [exists P; reflexivity|].
  apply nth_error_None in E. rewrite table_length in E. lia.
Qed.
Lemma wnaf_mul_loop_ok ds : (length ds <= 250)%nat -> Forall (fun d => -126 < d < 126) ds ->
  forall i Q, (i <= 250)%nat -> rext Q (smul (digits_value (skipn i (map table_digit ds))) pB) ->
  exists R, (forall ck, window_naf_mul_loop ck (pad256 ds) i Q = Ok R) /\
    rext R (smul (digits_value (map table_digit ds)) pB).
Proof.
  intros Hl HD. induction i as [|i IH]; intros Q Hi HQ.
  - exists Q. split; [reflexivity|exact HQ].
  - destruct (rext_dbl Q _ HQ) as (Q1 & E1 & H1). rewrite <- smul_2, <- smul_mul in H1.
    assert (Hd : -126 < nth i ds 0 < 126).
    { destruct (Nat.lt_ge_cases i (length ds)) as [X|X].
      - rewrite Forall_forall in HD. apply HD. apply nth_In. exact X.
      - rewrite nth_overflow by exact X. lia. }
    assert (H2 : exists Q2, (forall ck, (if nth i ds 0 =? 0 then Ok Q1
          else if 0 <? nth i ds 0 then
            t <- unwrap (nth_error BASEPOINT_ODD_MULTIPLES_TABLE (Z.to_nat (nth i ds 0))) ;;
            rp_add ck Q1 t
          else
            a <- i8abs ck (nth i ds 0) ;;
            _ <- rassert (0 <=? a) ;;
            t <- unwrap (nth_error BASEPOINT_ODD_MULTIPLES_TABLE (Z.to_nat a)) ;;
            rp_sub ck Q1 t) = Ok Q2) /\
        rext Q2 (smul (digits_value (skipn i (map table_digit ds))) pB)).
    { rewrite digits_skipn, td_nth. set (d := nth i ds 0) in *. clearbody d. unfold table_digit.
      destruct (Z.eqb_spec d 0) as [Ed|Nd].
      - exists Q1. split; [reflexivity|exact H1].
      - destruct (Z.ltb_spec 0 d) as [Pd|Pd].
        + destruct (table_some (Z.to_nat d) ltac:(lia)) as (t & Et).
          pose proof (table_entry (Z.to_nat d - 1) t) as Ht.
          replace (S (Z.to_nat d - 1)) with (Z.to_nat d) in Ht by lia. specialize (Ht Et). rewrite Z2Nat.id in Ht by lia.
          destruct (rext_add Q1 t _ _ H1 Ht) as (Q2 & E2 & H2). exists Q2. split.
          * intros ck. rewrite Et. cbn [unwrap]. rewrite bind_ok. apply E2.
          * rewrite (Z.add_comm (2 * d - 1)), smul_add. exact H2.
        + destruct (table_some (Z.to_nat (- d)) ltac:(lia)) as (t & Et).
          pose proof (table_entry (Z.to_nat (- d) - 1) t) as Ht.
          replace (S (Z.to_nat (- d) - 1)) with (Z.to_nat (- d)) in Ht by lia. specialize (Ht Et). rewrite Z2Nat.id in Ht by lia.
          destruct (rp_sub_rext Q1 t _ _ H1 Ht) as (Q2 & E2 & H2). exists Q2. split.
          * intros ck. assert (Ea : i8abs ck d = Ok (- d)).
            { unfold i8abs. destruct (Z.eqb_spec d (-128)) as [X|X]; [lia|]. rewrite Z.abs_neq by lia. reflexivity. }
            rewrite Ea, bind_ok. destruct (Z.leb_spec 0 (- d)) as [X|X]; [|lia]. cbn [rassert]. rewrite bind_ok, Et.
            cbn [unwrap]. rewrite bind_ok. apply E2.
          * rewrite (Z.add_comm (2 * d + 1)), smul_add. replace (2 * d + 1) with (- (2 * - d - 1)) by lia.
            rewrite smul_opp. exact H2. }
    destruct H2 as (Q2 & E2 & H2). destruct (IH Q2 ltac:(lia) H2) as (R & ER & HR).
    exists R. split; [|exact HR].
    intros ck. cbn [window_naf_mul_loop]. unfold rp_double. rewrite E1, bind_ok, nth_error_pad by lia.
    rewrite <- (ER ck), <- (bind_ok Q2 (window_naf_mul_loop ck (pad256 ds) i)), <- (E2 ck). cbn [unwrap]. rewrite bind_ok. reflexivity.
Qed.
Lemma map_repeat_td n : map table_digit (repeat 0 n) = repeat 0 n.
Proof. induction n as [|n IH]; [reflexivity|]. cbn [repeat map]. rewrite IH. reflexivity. Qed.
Lemma td_pad ds : (length ds <= 250)%nat -> digits_value (map table_digit (pad256 ds)) = digits_value (map table_digit ds).
Proof.
  intros H. unfold pad256. rewrite map_app, digits_value_app, map_repeat_td.
  rewrite digits_value_zeros. ring.
Qed.
Lemma window_naf_mul_ok w k : scanon k -> no_wrap w (sval k) ->
  exists ds R, (forall ck, sc_compute_window_NAF ck k w = Ok (pad256 ds)) /\ (length ds <= 250)%nat /\ recoding w (sval k) ds /\
    (forall ck, window_naf_mul ck k w = Ok R) /\ rext R (smul (digits_value (map table_digit ds)) pB).
Proof.
  intros K NW. destruct (compute_window_NAF_ck w k K NW) as (ds & E & Hl & HR).
  destruct (wnaf_mul_loop_ok ds Hl) with (i := 250%nat) (Q := rp_identity) as (R & ER & H).
  - destruct HR as (_ & F & _). eapply Forall_impl; [|exact F]. cbn beta. intros d [_ B].
    assert (Hw : w - 1 <= 5) by (unfold no_wrap in NW; lia).
    assert (P2 : 2 ^ (w - 1) <= 2 ^ 5) by (apply Z.pow_le_mono_r; lia). change (2 ^ 5) with 32 in P2. lia.
  - lia.
  - rewrite skipn_all2 by (rewrite map_length; exact Hl). exact rext_id.
  - exists ds, R. split; [exact E|]. split; [exact Hl|]. split; [exact HR|]. split; [|exact H].
    intros ck. unfold window_naf_mul. rewrite E, bind_ok. apply ER.
Qed.
(** What the code computes for every reduced scalar and width 2 to 6: the digits of the
    recoding are replaced by 2d-1 (2d+1 for negative digits). *)
Lemma C56_window_stmt : forall ck w k, scanon k -> 2 <= w <= 6 -> (w = 6 -> sval k <> L - 2) ->
  exists ds, sc_compute_window_NAF ck k w = Ok ds /\ digits_value ds = sval k /\
    returns_ext (window_naf_mul ck k w) (multiple (digits_value (map table_digit ds) mod L) base).
Proof.
  intros ck w k K Hw N. destruct (window_naf_mul_ok w k K) as (ds & R & E & Hl & HR & ER & H); [unfold no_wrap; lia|].
  exists (pad256 ds). split; [apply E|]. split.
  - rewrite <- (proj1 HR). unfold pad256. rewrite digits_value_app, digits_value_zeros. ring.
  - exists R. split; [apply ER|]. rewrite td_pad by exact Hl. rewrite multiple_B by (apply Z.mod_pos_bound, L_pos).
    rewrite smul_L_mod by exact smul_L_B. apply rext_rep. exact H.
Qed.
(** Full statement: for every width 2 to 6.  Holds for width 2 only; see below. *)
Lemma C56_window_partial_stmt : forall ck k, scanon k ->
  returns_ext (window_naf_mul ck k 2) (multiple (sval k) base).
Proof.
  intros ck k K. destruct (window_naf_mul_ok 2 k K) as (ds & R & E & Hl & (V & F & _) & ER & H); [left; lia|].
  exists R. split; [apply ER|]. rewrite multiple_B by (apply sval_nonneg, K). apply rext_rep.
  assert (X : map table_digit ds = ds); [|rewrite X, V in H; exact H]. clear - F.
  induction F as [|d ds [_ B] F IH]; [reflexivity|]. cbn [map]. rewrite IH. change (2 ^ (2 - 1)) with 2 in B.
  assert (C : d = 0 \/ d = 1 \/ d = -1) by lia. destruct C as [-> | [-> | ->]]; reflexivity.
Qed.
(** Every width from 3 to 6 is wrong: 3B comes out as 5B. *)
Lemma C56_window_refuted_stmt : forall w, 3 <= w <= 6 -> exists k, scanon k /\ sval k = 3 /\ forall ck,
  returns_ext (window_naf_mul ck k w) (multiple 5 base) /\
  ~ returns_ext (window_naf_mul ck k w) (multiple (sval k) base).
Proof.
  intros w Hw. exists (SC 3 0 0 0 0). split; [vm_compute; intuition discriminate|]. split; [reflexivity|]. intros ck.
  assert (H : returns_ext (window_naf_mul ck (SC 3 0 0 0 0) w) (multiple 5 base)).
  { destruct (C56_window_stmt ck w (SC 3 0 0 0 0)) as (ds & E & _ & H); [vm_compute; intuition discriminate|lia|intros _; discriminate|].
    assert (C : w = 3 \/ w = 4 \/ w = 5 \/ w = 6) by lia.
    assert (D : ds = pad256 [3]).
    { apply Ok_inj. rewrite <- E. destruct C as [-> | [-> | [-> | ->]]]; destruct ck; vm_compute; reflexivity. }
    rewrite D in H. exact H. }
  split; [exact H|]. intros K. pose proof (returns_unique _ _ _ H K) as X. apply multiple_B_inj in X; [|lia|discriminate].
  change (5 - sval (SC 3 0 0 0 0)) with 2 in X. apply Z.divide_pos_le in X; [|lia]. revert X. vm_compute. intros X. apply X. reflexivity.
Qed.
Lemma C56_ex : scanon sc_minus_one /\ sval sc_minus_one = L - 1 /\ L - 1 <> L - 2.
Proof. split; [vm_compute; intuition discriminate|]. split; [reflexivity|lia]. Qed.

(** ** C57 *)
(** The curve points form a group with one generator of order L and one of order 8. *)
Lemma C57_structure_stmt : exists T, on_curve T /\ multiple 8 T = origin /\ multiple 4 T <> origin /\
  forall A, on_curve A -> exists a b, 0 <= a < L /\ 0 <= b < 8 /\ A = sum (multiple a base) (multiple b T) /\
    forall a' b', 0 <= a' < L -> 0 <= b' < 8 -> A = sum (multiple a' base) (multiple b' T) -> a' = a /\ b' = b.
Proof.
  exists (pxy pT). split; [apply pt_on|].
  split; [rewrite multiple_smul by lia; rewrite T_8; reflexivity|].
  split; [rewrite multiple_smul by lia; intros H; apply T_4; apply pt_eq; exact H|].
  intros A HA. apply on_pt in HA. destruct HA as (A' & ->). destruct (point_comb A') as (a & b & Ha & Hb & E).
  exists a, b. split; [exact Ha|]. split; [exact Hb|].
  assert (G : forall a b, 0 <= a < L -> 0 <= b < 8 -> sum (multiple a base) (multiple b (pxy pT)) = pxy (comb a b)).
  { intros u v Hu Hv. rewrite multiple_B, multiple_smul by lia. reflexivity. }
  split; [rewrite G by assumption; rewrite E; reflexivity|].
  intros a' b' Ha' Hb' E'. rewrite G in E' by assumption. apply pt_eq in E'. rewrite E in E'.
  apply comb_unique; try assumption. symmetry. exact E'.
Qed.
(** The number of curve points is 8L. *)
Lemma C57_count_stmt : exists l : list xy, NoDup l /\ Z.of_nat (length l) = 8 * L /\ forall A, In A l <-> on_curve A.
Proof.
  assert (G : forall M, M = 8 * L -> exists l : list xy, NoDup l /\ Z.of_nat (length l) = M /\ forall A, In A l <-> on_curve A).
  { intros M HM. assert (HL : 0 <= M) by (rewrite HM; pose proof L_pos; lia).
    exists (map (fun i => pxy (idx (Z.of_nat i))) (seq 0 (Z.to_nat M))). split; [|split].
    - assert (X : forall i, In i (seq 0 (Z.to_nat M)) -> 0 <= Z.of_nat i < 8 * L).
      { intros i Hi. apply in_seq in Hi. rewrite <- HM. lia. }
      pose proof (seq_NoDup (Z.to_nat M) 0) as ND. revert X ND. generalize (seq 0 (Z.to_nat M)). clear.
      induction l as [|i l IH]; intros X ND; cbn [map]; [constructor|]. apply NoDup_cons_iff in ND. destruct ND as [NA ND].
      constructor; [|apply IH; [intros j Hj; apply X; right; exact Hj|exact ND]].
      intros H. apply in_map_iff in H. destruct H as (j & E & Hj). apply NA. apply pt_eq in E.
      apply idx_inj in E; [|apply X; right; exact Hj|apply X; left; reflexivity]. apply Nat2Z.inj in E. rewrite <- E. exact Hj.
    - rewrite map_length, seq_length. apply Z2Nat.id. exact HL.
    - intros A. rewrite in_map_iff. split.
      + intros (i & <- & _). apply pt_on.
      + intros H. apply on_pt in H. destruct H as (A' & ->). destruct (every_point A') as (k & Hk & E). rewrite <- HM in Hk.
        exists (Z.to_nat k). rewrite Z2Nat.id by lia. split; [rewrite E; reflexivity|]. apply in_seq. lia. }
  apply G. reflexivity.
Qed.
(** Even points, the ones RistrettoPoint works with, are the doubles. *)
Lemma C57_even_stmt : forall A, on_curve A -> (even_point A <-> exists C, on_curve C /\ A = sum C C).
Proof.
  intros A HA. apply on_pt in HA. destruct HA as (A' & ->). rewrite even_even, even_iff_double. split.
  - intros (C & ->). exists (pxy C). split; [apply pt_on|reflexivity].
  - intros (C & HC & E). exists (pt_of C HC). apply pt_eq. exact E.
Qed.
(** L times any such point is the identity for ==. *)
Lemma C57_order_stmt : forall ck P, even_ext P ->
  same_rist ck (rp_mul ck P SC_L) (Ok rp_identity).
Proof.
  intros ck P H. apply even_ext_iff in H. destruct H as (A & H & E).
  destruct (rp_mul_rext SC_L P A SC_L_loadable H) as (R & ER & HR).
  apply (same_coset ck _ _ R rp_identity _ pO (ER ck) eq_refl HR rext_id). rewrite SC_L_val. apply coset_sym. apply (proj1 (coset_pO _)).
  apply even_L. exact E.
Qed.
(** Every such point is n times the basepoint for exactly one reduced n. *)
Lemma C57_generator_stmt : forall ck P, even_ext P -> exists n, scanon n /\
  same_rist ck (rp_mul ck RISTRETTO_BASEPOINT n) (Ok P) /\
  forall m, scanon m -> same_rist ck (rp_mul ck RISTRETTO_BASEPOINT m) (Ok P) -> m = n.
Proof.
  intros ck P H. apply even_ext_iff in H. destruct H as (A & H & E).
  destruct (even_coset A E) as (v & Hv & C). destruct (sc_of_Z_ok v Hv) as [Cn Vn].
  exists (sc_of_Z v). split; [exact Cn|].
  destruct (rp_mul_rext _ _ _ (scanon_loadable _ Cn) rext_B) as (R & ER & HR). rewrite Vn in HR.
  split; [exact (same_coset ck _ _ R P _ A (ER ck) eq_refl HR H (coset_sym _ _ C))|].
  intros m Cm (R1 & R2 & E1 & E2 & _ & _ & Q).
  destruct (rp_mul_rext _ _ _ (scanon_loadable _ Cm) rext_B) as (R1' & E1' & H1).
  change RISTRETTO_BASEPOINT with BASEPOINT in E1. rewrite E1' in E1. apply Ok_inj in E1, E2. subst R1' R2.
  apply (rp_eqb_true ck R1 P _ A H1 H) in Q. pose proof (coset_trans _ _ _ Q C) as D. apply coset_B in D.
  apply sval_inj; [apply Cm|apply Cn|]. rewrite Vn. pose proof (sval_nonneg _ (proj1 Cm)). destruct Cm as [_ Bm].
  apply div_small_zero in D; lia.
Qed.
Lemma C57_ex : on_curve base /\ base <> origin /\ even_ext RISTRETTO_BASEPOINT /\
  even_ext order2_ext /\ order2 <> origin.
Proof.
  split; [exact base_on|]. split; [exact base_neq|]. split; [apply even_ext_iff; exists pB; split; [exact rext_B|exact even_B]|]. split.
  - exists order2. split; [exact order2_rep|]. pose proof order2_rep as H. apply ext_rep_rext in H. destruct H as (A & E & _).
    rewrite E. apply even_even, even_t4. left. unfold xc. rewrite <- E. reflexivity.
  - intros H. apply (f_equal snd) in H. apply (f_equal Fval) in H. vm_compute in H. discriminate H.
Qed.

(** ** C58 *)
Lemma rext_valid ck P A : rext P A -> ept_is_valid ck P = Ok true.
Proof.
  intros H. apply rext_rep in H. assert (V : valid_ext P) by (exists (pxy A); exact H).
  destruct H as (_ & C1 & C2 & C3 & C4 & N & HX & HY & HT).
  destruct (C35_ext_with_T_stmt ck P) as (b & E & K).
  - split; [exact C1|]. split; [exact C2|]. split; [exact C3|exact C4].
  - intros X. apply N. rewrite X. reflexivity.
  - rewrite HX, HY, HT. ring.
  - rewrite E. apply f_equal. apply K. exact V.
Qed.
(** For every valid point, is_valid tells whether it is a multiple of the basepoint. *)
Lemma C58_is_valid_stmt : forall ck P A, ext_rep P A -> exists r, rp_is_valid ck P = Ok r /\
  (r = true <-> multiple L A = origin) /\ (r = true <-> exists n, 0 <= n < L /\ A = multiple n base).
Proof.
  intros ck P A H. assert (HP := H). apply ext_rep_rext in H. destruct H as (A' & -> & H).
  destruct (ept_mul_rext SC_L P A' SC_L_loadable H) as (R & ER & HR). rewrite SC_L_val in HR.
  exists (pt_eqb (smul L A') pO). split; [|].
  - unfold rp_is_valid. rewrite ER, bind_ok, (rext_eqb R ept_identity _ _ HR rext_id), bind_ok.
    rewrite (rext_valid ck P A' H), bind_ok, andb_true_r. reflexivity.
  - rewrite multiple_smul by (pose proof L_pos; lia). change origin with (pxy pO).
    assert (X : pt_eqb (smul L A') pO = true <-> smul L A' = pO).
    { destruct (pt_eqb_spec (smul L A') pO) as [K|K]; [split; [intros _; exact K|reflexivity]|split; [discriminate|intros Y; elim (K Y)]]. }
    rewrite X. split.
    + split; [intros K; rewrite K; reflexivity|apply pt_eq].
    + rewrite order_L. split.
      * intros (n & ->). exists (n mod L). pose proof (Z.mod_pos_bound n L L_pos) as B. split; [exact B|].
        rewrite multiple_B by apply B. rewrite smul_L_mod by exact smul_L_B. reflexivity.
      * intros (n & B & E). exists n. apply pt_eq. rewrite E. apply multiple_B. apply B.
Qed.
(** An accepted tuple with nonzero Z is on the curve. *)
Lemma C58_on_curve_stmt : forall ck P, reduced_ext P -> fval (eZ P) <> 0 -> rp_is_valid ck P = Ok true ->
  on_curve (residue (eX P) / residue (eZ P), residue (eY P) / residue (eZ P))%F.
Proof.
  intros ck P R N H. destruct (C35_ext_partial_stmt ck P R N) as (b & E & K). apply K.
  unfold rp_is_valid in H. destruct (ept_mul ck P SC_L) as [LP| |]; cbn [bind] in H; [|discriminate H|discriminate H].
  destruct (ept_eqb ck LP ept_identity) as [h| |]; cbn [bind] in H; [|discriminate H|discriminate H].
  rewrite E in H. cbn [bind] in H. apply Ok_inj in H. apply andb_prop in H. apply H.
Qed.
(** As a validity check of Ristretto points it fails: the point decoded from the compressed
    basepoint equals the basepoint, yet it is rejected while the basepoint is accepted. *)
Lemma C58_reject_refuted_stmt : exists P, forall ck,
  cr_decompress ck RISTRETTO_BASEPOINT_COMPRESSED = Ok (Some P) /\ obtainable ck P /\
  rp_eqb ck P RISTRETTO_BASEPOINT = Ok true /\ rp_is_valid ck P = Ok false /\
  rp_is_valid ck RISTRETTO_BASEPOINT = Ok true.
Proof.
  exists (ext ptR 1%F). intros ck.
  pose proof (ptR_coset pB pxy_pB) as C.
  assert (EV : even ptR) by (apply (coset_even pB); [exact C|exact even_B]).
  assert (D : cr_decompress ck RISTRETTO_BASEPOINT_COMPRESSED = Ok (Some (ext ptR 1%F))).
  { apply (cr_decompress_some ptR (toF 2)); [exact rbc_bytes|exact ptR_canonp|exact EV|exact ptR_esc|reflexivity]. }
  pose proof (rext_ext ptR 1%F one_neq_zero) as HR.
  split; [exact D|]. split; [exact (ob_decompress ck _ _ rbc_bytes D)|].
  split; [apply (rp_eqb_true ck _ _ ptR pB HR rext_B); apply coset_sym; exact C|].
  destruct (C58_is_valid_stmt ck _ _ (rext_rep _ _ HR)) as (r & E & _ & K).
  destruct (C58_is_valid_stmt ck _ _ base_rep) as (r' & E' & _ & K'). split.
  - rewrite E. apply f_equal. destruct r; [|reflexivity]. exfalso. destruct (proj1 K eq_refl) as (n & Bn & X).
    rewrite multiple_B in X by apply Bn. apply pt_eq in X. rewrite X in C.
    rewrite <- (smul_1 pB) in C at 1. apply coset_B in C. apply order_B in C. rewrite smul_sub, smul_1 in C.
    assert (Y : ptR = pB).
    { rewrite X. apply (padd_cancel_r (popp pB)). rewrite C, padd_opp_r. reflexivity. }
    apply (f_equal yc) in Y. apply (f_equal Fval) in Y. rewrite (proj2 pB_coords) in Y. clear - Y. vm_compute in Y. discriminate Y.
  - change RISTRETTO_BASEPOINT with BASEPOINT. rewrite E'. apply f_equal. apply K'. exists 1.
    split; [split; [lia|reflexivity]|]. rewrite multiple_B by lia. rewrite smul_1. reflexivity.
Qed.
Lemma C58_ex : ext_rep BASEPOINT base /\ ext_rep order2_ext order2 /\ reduced_ext BASEPOINT /\ fval (eZ BASEPOINT) <> 0.
Proof.
  pose proof base_rep as H. destruct H as (H & C1 & C2 & C3 & C4 & N & K). split; [exact base_rep|].
  split; [exact order2_rep|]. split; [split; [exact C1|split; [exact C2|split; [exact C3|exact C4]]]|discriminate].
Qed.

(** ** C64 *)
Lemma even_rep P : even_ext P -> exists A n, rext P A /\ coset A (smul n pB).
Proof.
  intros H. apply even_ext_iff in H. destruct H as (A & H & E). destruct (even_coset A E) as (n & _ & C).
  exists A, n. split; [exact H|exact C].
Qed.
Lemma coset_mod A n m v : coset A (smul n pB) -> v = m mod L -> coset (smul v A) (smul m A).
Proof.
  intros C V. apply coset_trans with (smul v (smul n pB)); [apply coset_smul; exact C|].
  apply coset_trans with (smul m (smul n pB)); [|apply coset_smul, coset_sym; exact C].
  rewrite V, smul_L_mod; [apply coset_refl|]. apply order_L. exists n. reflexivity.
Qed.
(** Scalar arithmetic modulo L is compatible with == of Ristretto points for every point
    of the group, not only for multiples of the basepoint. *)
Lemma C64_scalar_add_stmt : forall ck P a b, even_ext P -> scanon a -> scanon b ->
  same_rist ck (s <- sc_add ck a b ;; rp_mul ck P s) (aP <- rp_mul ck P a ;; bP <- rp_mul ck P b ;; rp_add ck aP bP) /\
  same_rist ck (s <- sc_sub ck a b ;; rp_mul ck P s) (aP <- rp_mul ck P a ;; bP <- rp_mul ck P b ;; rp_sub ck aP bP) /\
  same_rist ck (s <- sc_neg ck a ;; rp_mul ck P s) (aP <- rp_mul ck P a ;; rp_neg ck aP).
Proof.
  intros ck P a b HP Ca Cb. apply even_rep in HP. destruct HP as (A & n & HP & C).
  destruct (rp_mul_rext a P A (scanon_loadable _ Ca) HP) as (aP & E2 & H2).
  destruct (rp_mul_rext b P A (scanon_loadable _ Cb) HP) as (bP & E3 & H3).
  split; [|split].
  - destruct (sc_add_ok ck a b Ca Cb) as (s & E0 & C0 & V0).
    destruct (rp_mul_rext s P A (scanon_loadable _ C0) HP) as (R & E1 & H1).
    destruct (rext_add aP bP _ _ H2 H3) as (R2 & E4 & H4).
    apply (same_coset ck _ _ R R2 _ _) with (3 := H1) (4 := H4).
    + rewrite E0, bind_ok. apply E1.
    + rewrite E2, bind_ok, E3, bind_ok. apply E4.
    + rewrite <- smul_add. exact (coset_mod A n _ _ C V0).
  - destruct (sc_sub_ok ck a b Ca Cb) as (s & E0 & C0 & V0).
    destruct (rp_mul_rext s P A (scanon_loadable _ C0) HP) as (R & E1 & H1).
    destruct (rp_sub_rext aP bP _ _ H2 H3) as (R2 & E4 & H4).
    apply (same_coset ck _ _ R R2 _ _) with (3 := H1) (4 := H4).
    + rewrite E0, bind_ok. apply E1.
    + rewrite E2, bind_ok, E3, bind_ok. apply E4.
    + rewrite <- smul_sub. exact (coset_mod A n _ _ C V0).
  - destruct (sc_neg_ok ck a Ca) as (s & E0 & C0 & V0).
    destruct (rp_mul_rext s P A (scanon_loadable _ C0) HP) as (R & E1 & H1).
    destruct (rext_neg aP _ H2) as (R2 & E4 & H4).
    apply (same_coset ck _ _ R R2 _ _) with (3 := H1) (4 := H4).
    + rewrite E0, bind_ok. apply E1.
    + rewrite E2, bind_ok. apply E4.
    + rewrite <- smul_opp. exact (coset_mod A n _ _ C V0).
Qed.
Lemma C64_scalar_mul_stmt : forall ck P a b, even_ext P -> scanon a -> scanon b ->
  same_rist ck (s <- sc_mul ck a b ;; rp_mul ck P s) (bP <- rp_mul ck P b ;; rp_mul ck bP a).
Proof.
  intros ck P a b HP Ca Cb. apply even_rep in HP. destruct HP as (A & n & HP & C).
  destruct (rp_mul_rext b P A (scanon_loadable _ Cb) HP) as (bP & E3 & H3).
  destruct (rp_mul_rext a bP _ (scanon_loadable _ Ca) H3) as (R2 & E4 & H4).
  destruct (sc_mul_ok ck a b (proj1 Ca) Cb) as (s & E0 & C0 & V0).
  destruct (rp_mul_rext s P A (scanon_loadable _ C0) HP) as (R & E1 & H1).
  apply (same_coset ck _ _ R R2 _ _) with (3 := H1) (4 := H4).
  - rewrite E0, bind_ok. apply E1.
  - rewrite E3, bind_ok. apply E4.
  - rewrite <- smul_mul. exact (coset_mod A n _ _ C V0).
Qed.
(** Every point other than the identity has order exactly L. *)
Lemma C64_prime_order_stmt : forall ck P n, even_ext P -> rp_eqb ck P rp_identity = Ok false -> sloadable n ->
  exists R r, rp_mul ck P n = Ok R /\ rp_eqb ck R rp_identity = Ok r /\ (r = true <-> (L | sval n)).
Proof.
  intros ck P n HP HN Hn. apply even_rep in HP. destruct HP as (A & m & HP & C).
  destruct (rp_mul_rext n P A Hn HP) as (R & E & HR).
  destruct (rp_eqb_spec ck R rp_identity _ _ HR rext_id) as (r & Er & K). exists R, r.
  split; [apply E|]. split; [exact Er|]. rewrite K.
  assert (ND : ~ (L | m)).
  { intros D. apply order_B in D. rewrite D in C. apply (rp_eqb_true ck P rp_identity A pO HP rext_id) in C.
    rewrite C in HN. discriminate HN. }
  assert (X : coset (smul (sval n) A) pO <-> (L | sval n * m)).
  { split.
    - intros H. assert (Y : coset (smul (sval n * m) pB) (smul 0 pB)).
      { rewrite smul_0, smul_mul. apply coset_trans with (smul (sval n) A); [apply coset_smul, coset_sym; exact C|exact H]. }
      apply coset_B in Y. replace (0 - sval n * m) with (- (sval n * m)) in Y by ring. apply Z.divide_opp_r. exact Y.
    - intros D. apply order_B in D. apply coset_trans with (smul (sval n) (smul m pB)); [apply coset_smul; exact C|].
      rewrite <- smul_mul, D. apply coset_refl. }
  rewrite X. split.
  - intros D. apply (prime_mult L prime_L) in D. destruct D as [D|D]; [exact D|elim (ND D)].
  - intros [k D]. exists (k * m). rewrite D. ring.
Qed.
Lemma C64_ex : even_ext RISTRETTO_BASEPOINT /\ (forall ck, rp_eqb ck RISTRETTO_BASEPOINT rp_identity = Ok false) /\
  sloadable SC_L /\ scanon sc_minus_one /\ scanon (SC 2 0 0 0 0).
Proof.
  split; [apply C57_ex|]. split; [intros []; vm_compute; reflexivity|]. split; [exact SC_L_loadable|].
  split; vm_compute; intuition discriminate.
Qed.
