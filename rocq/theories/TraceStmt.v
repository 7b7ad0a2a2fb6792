(** * Statements about the point operations that the scalar multiplications perform: C87 *)

From Coq Require Import ZArith List Bool Lia.
From Verif Require Import Machine FieldModel ScalarModel EdwardsModel TableModel RistrettoModel Spec MachineFacts
  ScalarLimb ScalarOps ScalarBits ScalarNaf NafSpec PointMul ScalarStmt NafStmt TraceModel TraceSpec.
Import ListNotations.
Open Scope Z_scope.

Lemma logged_bind {T} l (o : res T) t : logged l (R <- o ;; Ok (R, t)) = (R <- o ;; Ok (R, l ++ t)).
Proof. destruct o; reflexivity. Qed.
Lemma rev_seq_S n : rev (seq 0 (S n)) = n :: rev (seq 0 n).
Proof. rewrite seq_S, rev_app_distr. reflexivity. Qed.
Lemma bit_length_half k : 0 < k -> bit_length k = S (bit_length (k / 2)).
Proof.
  intros H. unfold bit_length. destruct (Z.leb_spec k 0) as [A|_]; [lia|]. pose proof (Z.log2_nonneg k) as N.
  destruct (Z.leb_spec (k / 2) 0) as [A|A].
  - assert (E : k = 1). { pose proof (Z.div_mod k 2 ltac:(lia)) as D. pose proof (Z.mod_pos_bound k 2 ltac:(lia)) as M. lia. }
    rewrite E. reflexivity.
  - assert (E : Z.log2 k = Z.log2 (k / 2) + 1).
    { rewrite <- Z.div2_div. destruct (Z.eq_dec (k mod 2) 0) as [M|M].
      - rewrite (Z.div_mod k 2) at 1 by lia. rewrite M, Z.add_0_r, Z.log2_double, Z.div2_div by lia. lia.
      - pose proof (Z.mod_pos_bound k 2 ltac:(lia)) as M'. assert (M1 : k mod 2 = 1) by lia.
        rewrite (Z.div_mod k 2) at 1 by lia. rewrite M1, Z.log2_succ_double, Z.div2_div by lia. lia. }
    pose proof (Z.log2_nonneg (k / 2)) as N2. rewrite E. rewrite <- Z2Nat.inj_succ by lia. f_equal.
Qed.
Lemma flat_map_map {A B C} (f : B -> list C) (g : A -> B) l : flat_map f (map g l) = flat_map (fun x => f (g x)) l.
Proof. induction l as [|x l IH]; [reflexivity|]. cbn [map flat_map]. rewrite IH. reflexivity. Qed.
Lemma flat_map_ext' {A B} (f g : A -> list B) l : (forall x, f x = g x) -> flat_map f l = flat_map g l.
Proof. intros H. induction l as [|x l IH]; [reflexivity|]. cbn [flat_map]. rewrite H, IH. reflexivity. Qed.
Lemma rtl_step k : 0 < k -> rtl_trace k = (if Z.odd k then [OAdd; ODbl] else [ODbl]) ++ rtl_trace (k / 2).
Proof.
  intros H. unfold rtl_trace. rewrite (bit_length_half k H). cbn [seq flat_map].
  change (Z.of_nat 0) with 0. rewrite Z.bit0_odd. apply f_equal. rewrite <- seq_shift, flat_map_map. apply flat_map_ext'.
  intros i. rewrite Nat2Z.inj_succ, <- Z.add_1_r, <- Z.div_pow2_bits by lia. reflexivity.
Qed.
Lemma rtl_zero : rtl_trace 0 = [].
Proof. reflexivity. Qed.

(** ** C87 *)
Lemma daa_log_loop {T} (add : T -> T -> res T) double : forall m n N Q, sloadable n -> sval n < 2 ^ Z.of_nat m ->
  double_and_add_loop_log add double (S m) N n Q =
  (R <- double_and_add_loop add double (S m) N n Q ;; Ok (R, rtl_trace (sval n))).
Proof.
  assert (Z0 : forall m n N Q, sloadable n -> sval n = 0 -> double_and_add_loop_log add double (S m) N n Q =
    (R <- double_and_add_loop add double (S m) N n Q ;; Ok (R, rtl_trace (sval n)))).
  { intros m n N Q Hn E. cbn [double_and_add_loop_log double_and_add_loop].
    rewrite sc_eqb_ok, E by (assumption || apply scanon_loadable, scanon_zero). reflexivity. }
  induction m as [|m IH]; intros n N Q Hn Hm; pose proof (sval_nonneg n (proj1 Hn)) as Hz.
  - apply Z0; [exact Hn|]. change (2 ^ Z.of_nat 0) with 1 in Hm. lia.
  - destruct (Z.eq_dec (sval n) 0) as [E|E]; [apply Z0; assumption|].
    remember (S m) as m1 eqn:Em1. cbn [double_and_add_loop_log double_and_add_loop].
    rewrite sc_eqb_ok by (assumption || apply scanon_loadable, scanon_zero).
    rewrite sval_zero, (proj2 (Z.eqb_neq _ _) E). cbn [negb].
    destruct (sc_half_without_mod_ok n (proj1 Hn)) as [HL HV].
    assert (Hn' : sloadable (sc_half_without_mod n)).
    { split; [exact HL|]. rewrite HV. destruct Hn as [_ Hn].
      apply Z.le_lt_trans with (sval n); [apply Z.div_le_upper_bound; lia|exact Hn]. }
    assert (Hm' : sval (sc_half_without_mod n) < 2 ^ Z.of_nat m).
    { rewrite HV. apply Z.div_lt_upper_bound; [lia|]. rewrite <- Z.pow_succ_r by lia. rewrite <- Nat2Z.inj_succ, <- Em1. exact Hm. }
    rewrite (rtl_step (sval n)) by lia. rewrite sc_is_even_ok, <- Z.negb_even.
    destruct (Z.even (sval n)); cbn [negb].
    + rewrite bind_ok. destruct (double N) as [N'| |]; [|reflexivity|reflexivity]. rewrite !bind_ok.
      rewrite IH, logged_bind, HV by assumption. reflexivity.
    + destruct (add Q N) as [Q'| |]; [|reflexivity|reflexivity]. rewrite !bind_ok.
      destruct (double N) as [N'| |]; [|reflexivity|reflexivity]. rewrite !bind_ok.
      rewrite IH, logged_bind, HV by assumption. reflexivity.
Qed.
(** The logging variants are the functions of the model with a log that depends on the
    scalar alone. *)
Lemma C87_double_and_add_stmt : forall (T : Type) (add : T -> T -> res T) double identity P n, sloadable n ->
  double_and_add_log add double identity P n =
  (R <- double_and_add add double identity P n ;; Ok (R, rtl_trace (sval n))).
Proof.
  intros T add double identity P n Hn. apply (daa_log_loop add double 599 n P identity Hn).
  destruct Hn as [_ Hn]. apply Z.lt_le_trans with (1 := Hn). apply Z.pow_le_mono_r; lia.
Qed.
Lemma C87_ltr_stmt : forall (T : Type) (add : T -> T -> res T) double identity P n, sloadable n ->
  ltr_bin_mul_log add double identity P n =
  (R <- ltr_bin_mul add double identity P n ;; Ok (R, ltr_trace 249 (sval n))).
Proof.
  intros T add double identity P n Hn. unfold ltr_bin_mul_log, ltr_bin_mul.
  destruct (C22_into_bits_stmt n Hn) as [Lb Hb]. assert (I : (249 <= length (sc_into_bits n))%nat) by lia. revert I. clear Lb.
  generalize identity as Q. generalize 249%nat as i. induction i as [|i IH]; intros Q I; [reflexivity|].
  cbn [ltr_bin_mul_loop_log ltr_bin_mul_loop]. destruct (double Q) as [Q1| |]; [|reflexivity|reflexivity]. rewrite !bind_ok.
  rewrite (nth_error_nth' _ 0) by lia. rewrite Hb. cbn [unwrap]. rewrite !bind_ok. unfold ltr_trace. rewrite rev_seq_S.
  cbn [flat_map]. fold (ltr_trace i (sval n)). destruct (Z.testbit (sval n) (Z.of_nat i)); cbn [Z.b2z Z.eqb].
  - change (1 =? 1) with true. cbv iota. destruct (add Q1 P) as [Q2| |]; [|reflexivity|reflexivity]. rewrite !bind_ok.
    rewrite IH, logged_bind by lia. reflexivity.
  - rewrite bind_ok, IH, logged_bind by lia. reflexivity.
Qed.
Lemma digit_trace_S call i ds : digit_trace call (S i) ds = (ODbl :: call (nth i ds 0)) ++ digit_trace call i ds.
Proof. unfold digit_trace. rewrite rev_seq_S. reflexivity. Qed.
Lemma C87_naf_stmt : forall (T : Type) ck (add sub : T -> T -> res T) double identity P n ds,
  sc_compute_NAF ck n = Ok ds -> length ds = 256%nat ->
  binary_naf_mul_log ck add sub double identity P n =
  (R <- binary_naf_mul ck add sub double identity P n ;; Ok (R, digit_trace naf_call 250 ds)).
Proof.
  intros T ck add sub double identity P n ds E Ld. unfold binary_naf_mul_log, binary_naf_mul. rewrite E, !bind_ok.
  assert (I : (250 <= length ds)%nat) by lia. revert I. clear Ld E.
  generalize identity as Q. generalize 250%nat as i. induction i as [|i IH]; intros Q I; [reflexivity|].
  cbn [binary_naf_mul_loop_log binary_naf_mul_loop]. destruct (double Q) as [Q1| |]; [|reflexivity|reflexivity]. rewrite !bind_ok.
  rewrite (nth_error_nth' _ 0) by lia. cbn [unwrap]. rewrite !bind_ok. rewrite digit_trace_S.
  unfold naf_call at 1.
  destruct (nth i ds 0 =? 1).
  - destruct (add Q1 P) as [Q2| |]; [|reflexivity|reflexivity]. rewrite !bind_ok. rewrite IH, logged_bind by lia. reflexivity.
  - destruct (nth i ds 0 =? -1).
    + destruct (sub Q1 P) as [Q2| |]; [|reflexivity|reflexivity]. rewrite !bind_ok. rewrite IH, logged_bind by lia. reflexivity.
    + rewrite bind_ok, IH, logged_bind by lia. reflexivity.
Qed.
Lemma C87_window_stmt : forall ck n w ds,
  sc_compute_window_NAF ck n w = Ok ds -> length ds = 256%nat ->
  window_naf_mul_log ck n w = (R <- window_naf_mul ck n w ;; Ok (R, digit_trace tab_call 250 ds)).
Proof.
  intros ck n w ds E Ld. unfold window_naf_mul_log, window_naf_mul. rewrite E, !bind_ok.
  assert (I : (250 <= length ds)%nat) by lia. revert I. clear Ld E.
  generalize rp_identity as Q. generalize 250%nat as i. induction i as [|i IH]; intros Q I; [reflexivity|].
  cbn [window_naf_mul_loop_log window_naf_mul_loop]. destruct (rp_double ck Q) as [Q1| |]; [|reflexivity|reflexivity]. rewrite !bind_ok.
  rewrite (nth_error_nth' _ 0) by lia. cbn [unwrap]. rewrite !bind_ok. rewrite digit_trace_S.
  unfold tab_call at 1.
  destruct (nth i ds 0 =? 0); [rewrite bind_ok, IH, logged_bind by lia; reflexivity|].
  destruct (0 <? nth i ds 0).
  - destruct (unwrap (nth_error BASEPOINT_ODD_MULTIPLES_TABLE (Z.to_nat (nth i ds 0)))) as [t| |]; [|reflexivity|reflexivity]. rewrite !bind_ok.
    destruct (rp_add ck Q1 t) as [Q2| |]; [|reflexivity|reflexivity]. rewrite !bind_ok, IH, logged_bind by lia. reflexivity.
  - destruct (i8abs ck (nth i ds 0)) as [a| |]; [|reflexivity|reflexivity]. rewrite !bind_ok.
    destruct (rassert (0 <=? a)) as [u| |]; [|reflexivity|reflexivity]. rewrite !bind_ok.
    destruct (unwrap (nth_error BASEPOINT_ODD_MULTIPLES_TABLE (Z.to_nat a))) as [t| |]; [|reflexivity|reflexivity]. rewrite !bind_ok.
    destruct (rp_sub ck Q1 t) as [Q2| |]; [|reflexivity|reflexivity]. rewrite !bind_ok, IH, logged_bind by lia. reflexivity.
Qed.

(** *** How many operations *)
Lemma doublings_app l l' : doublings (l ++ l') = doublings l + doublings l'.
Proof. unfold doublings. rewrite filter_app, app_length. lia. Qed.
Lemma additions_app l l' : additions (l ++ l') = additions l + additions l'.
Proof. unfold additions. rewrite filter_app, app_length. lia. Qed.
Lemma count_flat f l (P : nat -> bool) :
  (forall i : nat, doublings (f i) = 1) -> (forall i, additions (f i) = Z.b2z (P i)) ->
  doublings (flat_map f l) = Z.of_nat (length l) /\ additions (flat_map f l) = Z.of_nat (length (filter P l)).
Proof.
  intros H H'. induction l as [|x l [IH IH']]; [split; reflexivity|]. cbn [flat_map length filter].
  rewrite doublings_app, additions_app, IH, IH', H, H'. destruct (P x); cbn [length Z.b2z]; lia.
Qed.
Lemma filter_rev_length {A} (P : A -> bool) l : length (filter P (rev l)) = length (filter P l).
Proof.
  induction l as [|x l IH]; [reflexivity|]. cbn [rev filter]. rewrite filter_app, app_length, IH. cbn [filter].
  destruct (P x); cbn [length]; lia.
Qed.
Lemma weight_filter : forall ds n, (forall i, (n <= i)%nat -> nth i ds 0 = 0) ->
  Z.of_nat (length (filter (fun i => negb (nth i ds 0 =? 0)) (seq 0 n))) = weight ds.
Proof.
  assert (G : forall ds s n, (forall i, (s + n <= i)%nat -> nth (i - s) ds 0 = 0) ->
    Z.of_nat (length (filter (fun i => negb (nth (i - s) ds 0 =? 0)) (seq s n))) = weight ds).
  { induction ds as [|d ds IH]; intros s n H.
    - assert (E : forall l, filter (fun i => negb (nth (i - s) [] 0 =? 0)) l = []).
      { induction l as [|x l IHl]; [reflexivity|]. cbn [filter]. destruct (x - s)%nat; exact IHl. }
      rewrite E. reflexivity.
    - destruct n as [|n].
      + assert (Z : Forall (fun x => x = 0) (d :: ds)).
        { apply Forall_forall. intros x Hx. apply (In_nth _ _ 0) in Hx. destruct Hx as (i & _ & <-).
          specialize (H (s + i)%nat ltac:(lia)). replace (s + i - s)%nat with i in H by lia. exact H. }
        cbn [seq filter length]. symmetry. clear - Z. induction Z as [|x l E Z IH]; [reflexivity|].
        cbn [weight]. rewrite E, IH. reflexivity.
      + cbn [seq filter weight]. rewrite Nat.sub_diag. change (nth 0 (d :: ds) 0) with d.
        assert (E : filter (fun i => negb (nth (i - s) (d :: ds) 0 =? 0)) (seq (S s) n) =
          filter (fun i => negb (nth (i - S s) ds 0 =? 0)) (seq (S s) n)).
        { apply filter_ext_in. intros i Hi. apply in_seq in Hi. destruct (i - s)%nat as [|j] eqn:Ej; [lia|].
          replace (i - S s)%nat with j by lia. reflexivity. }
        assert (K : Z.of_nat (length (filter (fun i => negb (nth (i - s) (d :: ds) 0 =? 0)) (seq (S s) n))) = weight ds).
        { rewrite E. apply IH. intros i Hi. specialize (H i ltac:(lia)). destruct (i - s)%nat as [|j] eqn:Ej; [lia|].
          replace (i - S s)%nat with j by lia. exact H. }
        destruct (d =? 0); cbn [negb length]; lia. }
  intros ds n H. rewrite <- (G ds 0%nat n).
  - f_equal. f_equal. apply filter_ext. intros i. rewrite Nat.sub_0_r. reflexivity.
  - intros i Hi. rewrite Nat.sub_0_r. apply H. exact Hi.
Qed.
Lemma C87_cost_binary_stmt : forall k,
  doublings (rtl_trace k) = Z.of_nat (bit_length k) /\ additions (rtl_trace k) = ones (bit_length k) k /\
  forall n, doublings (ltr_trace n k) = Z.of_nat n /\ additions (ltr_trace n k) = ones n k.
Proof.
  intros k. unfold rtl_trace, ltr_trace, ones.
  destruct (count_flat (fun i => if Z.testbit k (Z.of_nat i) then [OAdd; ODbl] else [ODbl]) (seq 0 (bit_length k))
    (fun i => Z.testbit k (Z.of_nat i))) as [A B]; [intros i; destruct (Z.testbit _ _); reflexivity..|].
  rewrite seq_length in A. split; [exact A|]. split; [exact B|]. intros n.
  destruct (count_flat (fun i => if Z.testbit k (Z.of_nat i) then [ODbl; OAdd] else [ODbl]) (rev (seq 0 n))
    (fun i => Z.testbit k (Z.of_nat i))) as [A' B']; [intros i; destruct (Z.testbit _ _); reflexivity..|].
  rewrite rev_length, seq_length in A'. rewrite filter_rev_length in B'. split; [exact A'|exact B'].
Qed.
(** The signed recodings: 250 doublings and one addition or subtraction per non-zero
    digit, at most 125 for the binary one and (249+w)/w for width w. *)
Lemma C87_cost_naf_stmt : forall ck k, scanon k -> exists ds, sc_compute_NAF ck k = Ok ds /\ length ds = 256%nat /\
  doublings (digit_trace naf_call 250 ds) = 250 /\ additions (digit_trace naf_call 250 ds) = weight ds /\
  additions (digit_trace naf_call 250 ds) <= 125.
Proof.
  intros ck k K. destruct (C79_naf_stmt ck k K) as (ds & E & _ & _ & _ & W).
  destruct (C23_naf_stmt ck k K) as (ds' & E' & R). rewrite E in E'. injection E' as <-. exists ds. split; [exact E|].
  destruct R as (Ln & _ & F & _ & Z). split; [exact Ln|].
  destruct (count_flat (fun i => ODbl :: naf_call (nth i ds 0)) (rev (seq 0 250)) (fun i => negb (nth i ds 0 =? 0))) as [A B].
  - intros i. unfold naf_call. destruct (nth i ds 0 =? 1); [reflexivity|]. destruct (nth i ds 0 =? -1); reflexivity.
  - intros i. assert (D : nth i ds 0 = 0 \/ nth i ds 0 = 1 \/ nth i ds 0 = -1).
    { destruct (Nat.lt_ge_cases i 256) as [H|H]; [|left; apply Z; lia]. rewrite Forall_forall in F.
      destruct (F (nth i ds 0)) as [D|[_ D]]; [apply nth_In; lia|left; exact D|]. change (2 ^ (2 - 1)) with 2 in D. lia. }
    unfold naf_call. destruct D as [-> |[-> | ->]]; reflexivity.
  - rewrite filter_rev_length, weight_filter in B by exact Z. unfold digit_trace. rewrite A, B.
    split; [rewrite rev_length, seq_length; reflexivity|]. split; [reflexivity|exact W].
Qed.
Lemma C87_cost_window_stmt : forall ck w k, scanon k -> 2 <= w <= 6 -> (w = 6 -> sval k <> L - 2) ->
  exists ds, sc_compute_window_NAF ck k w = Ok ds /\ length ds = 256%nat /\
  doublings (digit_trace tab_call 250 ds) = 250 /\ additions (digit_trace tab_call 250 ds) = weight ds /\
  w * additions (digit_trace tab_call 250 ds) <= 249 + w.
Proof.
  intros ck w k K Hw N. destruct (C79_wnaf_stmt ck w k K Hw N) as (ds & E & _ & _ & _ & W).
  destruct (C24_wnaf_stmt ck w k K Hw N) as (ds' & E' & R). rewrite E in E'. injection E' as <-. exists ds. split; [exact E|].
  destruct R as (Ln & _ & F & _ & Z). split; [exact Ln|].
  destruct (count_flat (fun i => ODbl :: tab_call (nth i ds 0)) (rev (seq 0 250)) (fun i => negb (nth i ds 0 =? 0))) as [A B].
  - intros i. unfold tab_call. destruct (nth i ds 0 =? 0); reflexivity.
  - intros i. unfold tab_call. destruct (nth i ds 0 =? 0); reflexivity.
  - rewrite filter_rev_length, weight_filter in B by exact Z. unfold digit_trace. rewrite A, B.
    split; [rewrite rev_length, seq_length; reflexivity|]. split; [reflexivity|exact W].
Qed.

(** *** The log gives the scalar away *)
Lemma C87_leak_rtl_stmt : forall k k', 0 <= k -> 0 <= k' -> rtl_trace k = rtl_trace k' -> k = k'.
Proof.
  intros k k' H. revert k'. apply (Zlt_0_ind (fun k => forall k', 0 <= k' -> rtl_trace k = rtl_trace k' -> k = k')); [|exact H].
  clear k H. intros k IH Hk k' Hk' E. destruct (Z.eq_dec k 0) as [->|N], (Z.eq_dec k' 0) as [->|N'].
  - reflexivity.
  - rewrite (rtl_step k') in E by lia. destruct (Z.odd k'); discriminate E.
  - rewrite (rtl_step k) in E by lia. destruct (Z.odd k); discriminate E.
  - rewrite (rtl_step k), (rtl_step k') in E by lia.
    assert (O : Z.odd k = Z.odd k' /\ rtl_trace (k / 2) = rtl_trace (k' / 2)).
    { destruct (Z.odd k), (Z.odd k'); try discriminate E; injection E as E; split; try reflexivity; exact E. }
    destruct O as [O E2]. apply IH in E2; [|split; [apply Z.div_pos; lia|apply Z.div_lt_upper_bound; lia]|apply Z.div_pos; lia].
    rewrite (Z.div_mod k 2), (Z.div_mod k' 2), E2, !Zmod_odd, O by lia. reflexivity.
Qed.
Lemma top_bit k n : 0 <= n -> k mod 2 ^ Z.succ n = k mod 2 ^ n + Z.b2z (Z.testbit k n) * 2 ^ n.
Proof.
  intros Hn. pose proof (Z.pow_pos_nonneg 2 n ltac:(lia) Hn) as H.
  rewrite Z.pow_succ_r, (Z.mul_comm 2), Z.rem_mul_r by lia. rewrite Z.testbit_spec' by lia. ring.
Qed.
Lemma ltr_head n k : (n = 0%nat /\ ltr_trace n k = []) \/ exists t, ltr_trace n k = ODbl :: t.
Proof.
  destruct n as [|n]; [left; split; reflexivity|right]. unfold ltr_trace. rewrite rev_seq_S. cbn [flat_map].
  destruct (Z.testbit k (Z.of_nat n)); eexists; reflexivity.
Qed.
Lemma C87_leak_ltr_stmt : forall n k k', ltr_trace n k = ltr_trace n k' <-> k mod 2 ^ Z.of_nat n = k' mod 2 ^ Z.of_nat n.
Proof.
  induction n as [|n IH]; intros k k'; [split; [intros _; rewrite !Z.mod_1_r; reflexivity|reflexivity]|].
  rewrite Nat2Z.inj_succ, !top_bit by lia. specialize (IH k k').
  pose proof (Z.mod_pos_bound k (2 ^ Z.of_nat n) ltac:(apply Z.pow_pos_nonneg; lia)) as B.
  pose proof (Z.mod_pos_bound k' (2 ^ Z.of_nat n) ltac:(apply Z.pow_pos_nonneg; lia)) as B'.
  unfold ltr_trace in *. rewrite rev_seq_S. cbn [flat_map]. fold (ltr_trace n k) in *. fold (ltr_trace n k') in *.
  destruct (Z.testbit k (Z.of_nat n)), (Z.testbit k' (Z.of_nat n)); cbn [Z.b2z app].
  - split; intros E; [injection E as E; apply IH in E; lia|]. do 2 f_equal. apply IH. lia.
  - split; intros E; [|exfalso; lia]. injection E as E. destruct (ltr_head n k') as [[_ H]|[t H]]; rewrite H in E; discriminate E.
  - split; intros E; [|exfalso; lia]. injection E as E. destruct (ltr_head n k) as [[_ H]|[t H]]; rewrite H in E; discriminate E.
  - split; intros E; [injection E as E; apply IH in E; lia|]. f_equal. apply IH. lia.
Qed.
Lemma digit_inj call : (forall d d' t t', call d ++ t = call d' ++ t' -> (t = [] \/ exists u, t = ODbl :: u) ->
    (t' = [] \/ exists u, t' = ODbl :: u) -> call d = call d' /\ t = t') ->
  forall n ds ds', digit_trace call n ds = digit_trace call n ds' -> forall i, (i < n)%nat -> call (nth i ds 0) = call (nth i ds' 0).
Proof.
  intros H. assert (Hd : forall n ds, digit_trace call n ds = [] \/ exists u, digit_trace call n ds = ODbl :: u).
  { intros [|n] ds; [left; reflexivity|right]. unfold digit_trace. rewrite rev_seq_S. eexists. reflexivity. }
  induction n as [|n IH]; intros ds ds' E i Hi; [lia|]. unfold digit_trace in E. rewrite rev_seq_S in E. cbn [flat_map app] in E.
  fold (digit_trace call n ds) in E. fold (digit_trace call n ds') in E. injection E as E.
  destruct (H _ _ _ _ E (Hd n ds) (Hd n ds')) as [E1 E2].
  destruct (Nat.eq_dec i n) as [->|N]; [exact E1|]. apply IH; [exact E2|lia].
Qed.
Lemma digits_nth ds ds' : (forall i, nth i ds 0 = nth i ds' 0) -> digits_value ds = digits_value ds'.
Proof.
  revert ds'. induction ds as [|d ds IH]; intros ds' H.
  - induction ds' as [|d' ds' IH]; [reflexivity|]. cbn [digits_value]. pose proof (H 0%nat) as H0. cbn [nth] in H0.
    rewrite <- IH; [rewrite <- H0; reflexivity|]. intros i. specialize (H (S i)). cbn [nth] in H. rewrite <- H. destruct i; reflexivity.
  - destruct ds' as [|d' ds'].
    + cbn [digits_value]. pose proof (H 0%nat) as H0. cbn [nth] in H0. rewrite (IH []), H0; [reflexivity|].
      intros i. specialize (H (S i)). cbn [nth] in H. rewrite H. destruct i; reflexivity.
    + cbn [digits_value]. pose proof (H 0%nat) as H0. cbn [nth] in H0. rewrite H0, (IH ds'); [reflexivity|].
      intros i. exact (H (S i)).
Qed.
Lemma C87_leak_naf_stmt : forall ck k k' ds ds', scanon k -> scanon k' ->
  sc_compute_NAF ck k = Ok ds -> sc_compute_NAF ck k' = Ok ds' ->
  digit_trace naf_call 250 ds = digit_trace naf_call 250 ds' -> k = k'.
Proof.
  intros ck k k' ds ds' K K' E E' T. destruct (C23_naf_stmt ck k K) as (es & X & R). rewrite E in X. injection X as <-.
  destruct (C23_naf_stmt ck k' K') as (es' & X & R'). rewrite E' in X. injection X as <-.
  destruct R as (Ln & V & F & _ & Z), R' as (Ln' & V' & F' & _ & Z').
  assert (D : forall l, length l = 256%nat -> Forall (fun d => d = 0 \/ (Z.odd d = true /\ Z.abs d < 2 ^ (2 - 1))) l ->
    forall i, nth i l 0 = 0 \/ nth i l 0 = 1 \/ nth i l 0 = -1).
  { intros l Hl Fl i. destruct (Nat.lt_ge_cases i 256) as [H|H]; [|left; apply nth_overflow; lia]. rewrite Forall_forall in Fl.
    destruct (Fl (nth i l 0)) as [D|[_ D]]; [apply nth_In; lia|left; exact D|]. change (2 ^ (2 - 1)) with 2 in D. lia. }
  apply sval_inj; [apply K|apply K'|]. rewrite <- V, <- V'. apply digits_nth. intros i.
  destruct (Nat.lt_ge_cases i 250) as [H|H]; [|rewrite Z, Z' by exact H; reflexivity].
  assert (C : naf_call (nth i ds 0) = naf_call (nth i ds' 0)).
  { apply (digit_inj naf_call) with (n := 250%nat); [|exact T|exact H]. clear. intros d d' t t' E Ht Ht'. unfold naf_call in *.
    destruct (d =? 1), (d' =? 1), (d =? -1), (d' =? -1); cbn [app] in E; try (injection E as E); try (split; [reflexivity|exact E]);
      destruct Ht as [Ht|[u Ht]], Ht' as [Ht'|[u' Ht']]; subst; discriminate. }
  destruct (D ds Ln F i) as [A|[A|A]], (D ds' Ln' F' i) as [B|[B|B]]; rewrite A, B in *; reflexivity || discriminate C.
Qed.
Lemma C87_leak_window_stmt : forall ck w k k' ds ds', scanon k -> scanon k' ->
  2 <= w <= 6 -> (w = 6 -> sval k <> L - 2) -> (w = 6 -> sval k' <> L - 2) ->
  sc_compute_window_NAF ck k w = Ok ds -> sc_compute_window_NAF ck k' w = Ok ds' ->
  digit_trace tab_call 250 ds = digit_trace tab_call 250 ds' -> k = k'.
Proof.
  intros ck w k k' ds ds' K K' Hw N N' E E' T. destruct (C24_wnaf_stmt ck w k K Hw N) as (es & X & R). rewrite E in X. injection X as <-.
  destruct (C24_wnaf_stmt ck w k' K' Hw N') as (es' & X & R'). rewrite E' in X. injection X as <-.
  destruct R as (Ln & V & F & _ & Z), R' as (Ln' & V' & F' & _ & Z').
  apply sval_inj; [apply K|apply K'|]. rewrite <- V, <- V'. apply digits_nth. intros i.
  destruct (Nat.lt_ge_cases i 250) as [H|H]; [|rewrite Z, Z' by exact H; reflexivity].
  assert (C : tab_call (nth i ds 0) = tab_call (nth i ds' 0)).
  { apply (digit_inj tab_call) with (n := 250%nat); [|exact T|exact H]. clear. intros d d' t t' E Ht Ht'. unfold tab_call in *.
    destruct (d =? 0), (d' =? 0); cbn [app] in E.
    - split; [reflexivity|exact E].
    - destruct Ht as [Ht|[u Ht]]; subst; discriminate.
    - destruct Ht' as [Ht'|[u' Ht']]; subst; discriminate.
    - injection E as -> ->. split; reflexivity. }
  unfold tab_call in C. destruct (Z.eqb_spec (nth i ds 0) 0) as [A|A], (Z.eqb_spec (nth i ds' 0) 0) as [B|B]; try discriminate C.
  - rewrite A, B. reflexivity.
  - injection C as C. exact C.
Qed.
(** None of them runs in constant time: scalars of the same length need different
    numbers of operations. *)
Lemma C87_constant_refuted_stmt : exists k k' ds ds', scanon k /\ scanon k' /\ bit_length (sval k) = bit_length (sval k') /\
  length (rtl_trace (sval k)) <> length (rtl_trace (sval k')) /\
  length (ltr_trace 249 (sval k)) <> length (ltr_trace 249 (sval k')) /\
  sc_compute_NAF true k = Ok ds /\ sc_compute_NAF true k' = Ok ds' /\
  length (digit_trace naf_call 250 ds) <> length (digit_trace naf_call 250 ds') /\
  length (digit_trace tab_call 250 ds) <> length (digit_trace tab_call 250 ds').
Proof.
  exists (SC 4 0 0 0 0), (SC 5 0 0 0 0), (0 :: 0 :: 1 :: repeat 0 253), (1 :: 0 :: 1 :: repeat 0 253).
  split; [apply scanon_check; reflexivity|]. split; [apply scanon_check; reflexivity|]. split; [reflexivity|].
  split; [apply Nat.eqb_neq; vm_compute; reflexivity|]. split; [apply Nat.eqb_neq; vm_compute; reflexivity|]. split; [vm_compute; reflexivity|]. split; [vm_compute; reflexivity|].
  split; apply Nat.eqb_neq; vm_compute; reflexivity.
Qed.
Lemma C87_ex : sloadable (SC 11 0 0 0 0) /\ rtl_trace 11 = [OAdd; ODbl; OAdd; ODbl; ODbl; OAdd; ODbl] /\
  ltr_trace 4 11 = [ODbl; OAdd; ODbl; ODbl; OAdd; ODbl; OAdd] /\
  (forall ck, sc_compute_NAF ck (SC 11 0 0 0 0) = Ok (-1 :: 0 :: -1 :: 0 :: 1 :: repeat 0 251)) /\
  (forall ck, sc_compute_window_NAF ck (SC 11 0 0 0 0) 4 = Ok (-5 :: 0 :: 0 :: 0 :: 1 :: repeat 0 251)) /\
  digit_trace naf_call 5 [-1; 0; -1; 0; 1] = [ODbl; OAdd; ODbl; ODbl; OSub; ODbl; ODbl; OSub].
Proof.
  split; [apply scanon_loadable, scanon_check; reflexivity|]. split; [reflexivity|]. split; [reflexivity|].
  split; [intros []; vm_compute; reflexivity|]. split; [intros []; vm_compute; reflexivity|reflexivity].
Qed.
