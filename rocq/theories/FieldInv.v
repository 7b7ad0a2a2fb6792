(** * Inversion, division, square roots *)

From Coq Require Import ZArith Znumtheory List Bool Lia Ring Field.
From Verif Require Import Machine FieldModel Spec MachineFacts FieldLimb FieldMul FieldOps FieldBytes
  NumTheory Primes Fp FieldF.
Import ListNotations.
Open Scope Z_scope.

(** ** The almost-Montgomery inverse loop *)

Lemma toF_two_pow_succ k : 0 <= k -> (toF (2 ^ (k + 1)) = toF 2 * toF (2 ^ k))%F.
Proof. intros. rewrite Z.pow_add_r, Z.pow_1_r, Z.mul_comm by lia. apply toF_mul. Qed.

Lemma toF_half x : Z.even x = true -> (toF x = toF 2 * toF (x / 2))%F.
Proof.
  intros H. rewrite <- toF_mul. f_equal.
  apply Zeven_bool_iff, Zeven_div2 in H. rewrite Z.div2_div in H. exact H.
Qed.

Lemma even_sub_odd x y : Z.even x = false -> Z.even y = false -> Z.even (x - y) = true.
Proof. intros. rewrite Z.even_sub, H, H0. reflexivity. Qed.

Lemma gcd_half_l u v : Z.even u = true -> Z.gcd u v = 1 -> Z.gcd (u / 2) v = 1.
Proof.
  intros E G. apply Zgcd_1_rel_prime. apply Zgcd_1_rel_prime in G.
  apply rel_prime_div with u; [assumption|].
  apply Zeven_bool_iff, Zeven_div2 in E. rewrite Z.div2_div in E. exists 2. exact E.
Qed.
Lemma gcd_half_r u v : Z.even v = true -> Z.gcd u v = 1 -> Z.gcd u (v / 2) = 1.
Proof. intros E G. rewrite Z.gcd_comm in *. now apply gcd_half_l. Qed.
Lemma gcd_sub_l u v : Z.gcd (u - v) v = Z.gcd u v.
Proof.
  rewrite (Z.gcd_comm _ v), (Z.gcd_comm u v). replace u with (u - v + 1 * v) at 2 by lia.
  rewrite Z.gcd_add_mult_diag_r. reflexivity.
Qed.
Lemma gcd_sub_r u v : Z.gcd u (v - u) = Z.gcd u v.
Proof. rewrite (Z.gcd_comm u (v - u)), gcd_sub_l. apply Z.gcd_comm. Qed.

Lemma fe_phase1_loop_ok ck (a : F) : forall fuel m n u v r s k,
  (m + n < fuel)%nat -> flimbs u -> flimbs v -> fval u < 2 ^ Z.of_nat m -> fval v < 2 ^ Z.of_nat n ->
  1 <= fval u -> Z.gcd (fval u) (fval v) = 1 -> 0 <= k -> k + Z.of_nat m + Z.of_nat n < 2 ^ 64 ->
  (a * r = - (toF (fval u) * toF (2 ^ k)))%F -> (a * s = toF (fval v) * toF (2 ^ k))%F ->
  exists r' k', fe_phase1_loop fuel ck u v (enc r) (enc s) k = Ok (enc r', k') /\
    k <= k' <= k + Z.of_nat m + Z.of_nat n /\ (0 < fval v -> k < k') /\
    (a * r' = - toF (2 ^ k'))%F.
Proof.
  induction fuel as [|fuel IH]; intros m n u v r s k Hf Lu Lv Bu Bv Pu G Hk Hk64 I1 I2; [lia|].
  cbn [fe_phase1_loop]. rewrite fe_gt_ok by auto using flimbs_zero. rewrite fval_zero.
  pose proof (fval_nonneg _ Lu) as Nu. pose proof (fval_nonneg _ Lv) as Nv.
  change (2 ^ 64) with 18446744073709551616 in *.
  destruct (Z.ltb_spec 0 (fval v)) as [Pv|Pv].
  2:{ assert (Ev : fval v = 0) by lia. rewrite Ev, Z.gcd_0_r, Z.abs_eq in G by lia.
      exists r, k. split; [reflexivity|]. split; [lia|]. split; [lia|].
      rewrite I1, G. change (toF 1) with 1%F. ring. }
  assert (Hm : (1 <= m)%nat).
  { destruct m; [change (2 ^ Z.of_nat 0) with 1 in Bu; lia|lia]. }
  assert (Hn : (1 <= n)%nat).
  { destruct n; [change (2 ^ Z.of_nat 0) with 1 in Bv; lia|lia]. }
  assert (Bu2 : 2 ^ Z.of_nat m = 2 * 2 ^ Z.of_nat (m - 1)).
  { rewrite <- Z.pow_succ_r by lia. f_equal. lia. }
  assert (Bv2 : 2 ^ Z.of_nat n = 2 * 2 ^ Z.of_nat (n - 1)).
  { rewrite <- Z.pow_succ_r by lia. f_equal. lia. }
  assert (E2 : enc (toF 2) = fe_two) by reflexivity.
  rewrite !fe_is_even_ok.
  assert (Step : forall m' n' u' v' r' s', (m' + n' < fuel)%nat -> (m' + n' < m + n)%nat ->
    flimbs u' -> flimbs v' -> fval u' < 2 ^ Z.of_nat m' -> fval v' < 2 ^ Z.of_nat n' ->
    1 <= fval u' -> Z.gcd (fval u') (fval v') = 1 ->
    (a * r' = - (toF (fval u') * (toF 2 * toF (2 ^ k))))%F ->
    (a * s' = toF (fval v') * (toF 2 * toF (2 ^ k)))%F ->
    exists r'0 k', (k0 <- uadd ck W64 k 1 ;; fe_phase1_loop fuel ck u' v' (enc r') (enc s') k0) = Ok (enc r'0, k') /\
    k <= k' <= k + Z.of_nat m + Z.of_nat n /\ (0 < fval v -> k < k') /\
    (a * r'0 = - toF (2 ^ k'))%F).
  { intros m' n' u' v' r' s' X1 X2 X3 X4 X5 X6 X7 X8 X9 X10.
    rewrite uadd_ok by (unfold W64; lia). rewrite bind_ok.
    destruct (IH m' n' u' v' r' s' (k + 1)) as (r'0 & k' & E & K & K' & Q); auto; try lia.
    - rewrite toF_two_pow_succ by assumption. exact X9.
    - rewrite toF_two_pow_succ by assumption. exact X10.
    - exists r'0, k'. split; [exact E|]. split; [lia|]. split; [lia|]. exact Q. }
  cbv zeta.
  destruct (Z.even (fval u)) eqn:Eu.
  - rewrite <- E2, fe_mul_F, bind_ok.
    destruct (fe_half_without_mod_ok u Lu) as [L V].
    apply (Step (m - 1)%nat n); auto; try lia; rewrite ?V; try lia.
    + assert (fval u = 2 * (fval u / 2)).
      { apply Zeven_bool_iff, Zeven_div2 in Eu. rewrite Z.div2_div in Eu. exact Eu. }
      lia.
    + now apply gcd_half_l.
    + rewrite I1, (toF_half _ Eu). ring.
    + replace (a * (s * toF 2))%F with (a * s * toF 2)%F by ring. rewrite I2. ring.
  - destruct (Z.even (fval v)) eqn:Ev.
    + rewrite <- E2, fe_mul_F, bind_ok.
      destruct (fe_half_without_mod_ok v Lv) as [L V].
      apply (Step m (n - 1)%nat); auto; try lia; rewrite ?V; try lia.
      * now apply gcd_half_r.
      * replace (a * (r * toF 2))%F with (a * r * toF 2)%F by ring. rewrite I1. ring.
      * rewrite I2, (toF_half _ Ev). ring.
    + rewrite fe_gt_ok by assumption.
      destruct (Z.ltb_spec (fval v) (fval u)) as [Huv|Huv].
      * destruct (fe_sub_gen ck u v Lu Lv) as (d & -> & Ld & Vd); [rewrite p_num; lia|].
        destruct (Z.ltb_spec (fval u) (fval v)) in Vd; [lia|].
        rewrite bind_ok. rewrite fe_add_F, bind_ok. rewrite <- E2, fe_mul_F, bind_ok.
        destruct (fe_half_without_mod_ok d Ld) as [L V].
        pose proof (even_sub_odd _ _ Eu Ev) as Ed. rewrite <- Vd in Ed.
        assert (fval d = 2 * (fval d / 2)).
        { pose proof Ed as Ed'. apply Zeven_bool_iff, Zeven_div2 in Ed'.
          rewrite Z.div2_div in Ed'. exact Ed'. }
        apply (Step (m - 1)%nat n); auto; try lia; rewrite ?V; try lia.
        -- apply gcd_half_l; [assumption|]. rewrite Vd, gcd_sub_l. exact G.
        -- replace (a * (r + s))%F with (a * r + a * s)%F by ring. rewrite I1, I2.
           replace (- (toF (fval d / 2) * (toF 2 * toF (2 ^ k))))%F with
             (- (toF 2 * toF (fval d / 2)) * toF (2 ^ k))%F by ring.
           rewrite <- (toF_half _ Ed), Vd, toF_sub. ring.
        -- replace (a * (s * toF 2))%F with (a * s * toF 2)%F by ring. rewrite I2. ring.
      * rewrite fe_ge_ok by assumption.
        replace (fval u <=? fval v) with true by (symmetry; apply Z.leb_le; lia).
        destruct (fe_sub_gen ck v u Lv Lu) as (d & -> & Ld & Vd); [rewrite p_num; lia|].
        destruct (Z.ltb_spec (fval v) (fval u)) in Vd; [lia|].
        rewrite bind_ok. rewrite fe_add_F, bind_ok. rewrite <- E2, fe_mul_F, bind_ok.
        destruct (fe_half_without_mod_ok d Ld) as [L V].
        pose proof (even_sub_odd _ _ Ev Eu) as Ed. rewrite <- Vd in Ed.
        apply (Step m (n - 1)%nat); auto; try lia; rewrite ?V; try lia.
        -- apply gcd_half_r; [assumption|]. rewrite Vd, gcd_sub_r. exact G.
        -- replace (a * (r * toF 2))%F with (a * r * toF 2)%F by ring. rewrite I1. ring.
        -- replace (a * (r + s))%F with (a * r + a * s)%F by ring. rewrite I1, I2.
           replace (toF (fval d / 2) * (toF 2 * toF (2 ^ k)))%F with
             ((toF 2 * toF (fval d / 2)) * toF (2 ^ k))%F by ring.
           rewrite <- (toF_half _ Ed), Vd, toF_sub. ring.
Qed.

Lemma two_pow_nz k : 0 <= k -> toF (2 ^ k) <> 0%F.
Proof. intros. rewrite toF_pow by assumption. apply fpow_nz; [assumption|exact two_nz]. Qed.

Lemma R_nz : toF (2 ^ 260) <> 0%F.
Proof. apply two_pow_nz. lia. Qed.

Lemma fe_montgomery_mul_F ck a b : flimbs a -> flimbs b -> fval a * fval b < 2 ^ 260 * p ->
  fe_montgomery_mul ck a b = Ok (enc (fF a * fF b / toF (2 ^ 260))%F).
Proof.
  intros A B H. destruct (fe_montgomery_mul_ok ck a b A B H) as (r & k & E & C & V).
  rewrite E. f_equal. rewrite <- (enc_fF r C). f_equal.
  assert (X : (fF r * toF (2 ^ 260) = fF a * fF b)%F).
  { unfold fF. rewrite <- !toF_mul, V, toF_add, toF_mul, (toF_mul k), toF_p. ring. }
  rewrite <- X. field. exact R_nz.
Qed.

Theorem fe_inverse_ld ck a : floadable a -> fF a <> 0%F -> fe_inverse ck a = Ok (enc (/ fF a)%F).
Proof.
  intros [A1 A2] N. pose proof (fval_nonneg _ A1) as NN.
  unfold fe_inverse, fe_phase1.
  assert (Nz : fe_eqb a fe_zero = false).
  { rewrite fe_eqb_ok by (auto using fcanon_loadable, fcanon_zero; now split).
    apply Z.eqb_neq. rewrite fval_zero. intros E. apply N. unfold fF. rewrite E. reflexivity. }
  rewrite Nz. cbn [negb rassert]. rewrite bind_ok.
  change (FE 671914833335277 3916664325105025 1367801 0 17592186044416) with FIELD_L.
  rewrite <- enc_zero, <- enc_one.
  destruct (fe_phase1_loop_ok ck (fF a) loop_fuel 253 256 FIELD_L a 0%F 1%F 0)
    as (r & k & E & K & K' & Q).
  - unfold loop_fuel. lia.
  - apply flimbs_FIELD_L.
  - assumption.
  - rewrite fval_FIELD_L. reflexivity.
  - change (2 ^ Z.of_nat 256) with (2 ^ 256). assumption.
  - rewrite fval_FIELD_L. discriminate.
  - rewrite fval_FIELD_L. apply Zgcd_1_rel_prime. apply rel_prime_sym, prime_rel_prime_rev || idtac.
    apply prime_rel_prime; [exact prime_p|]. intros D. apply N. unfold fF. destruct D as [q D].
    rewrite D, toF_mul, toF_p. ring.
  - lia.
  - change (Z.of_nat 253) with 253. change (Z.of_nat 256) with 256. lia.
  - rewrite fval_FIELD_L, toF_p. ring.
  - change (toF (2 ^ 0)) with 1%F. unfold fF. ring.
  - rewrite enc_zero, enc_one in *. rewrite E, bind_ok.
    change (Z.of_nat 253) with 253 in K. change (Z.of_nat 256) with 256 in K.
    assert (Pa : 0 < fval a).
    { destruct (Z.eq_dec (fval a) 0) as [E0|]; [|lia].
      elim N. unfold fF. rewrite E0. reflexivity. }
    specialize (K' Pa).
    rewrite fe_gt_ok by auto using flimbs_FIELD_L with fe.
    rewrite fval_FIELD_L, fval_enc. pose proof (Frange r) as Rr.
    destruct (Z.ltb_spec p (Fval r)); [lia|]. rewrite bind_ok.
    assert (Rnz : r <> 0%F).
    { intros ->. apply (two_pow_nz k); [lia|]. apply F_opp_eq0. rewrite <- Q. ring. }
    assert (Fr : Fval r <> 0) by (intros E0; apply Rnz; apply Feq; exact E0).
    destruct (fe_sub_gen ck FIELD_L (enc r) flimbs_FIELD_L (enc_limbs r)) as (d & Ed & Ld & Vd).
    { rewrite fval_FIELD_L, fval_enc. lia. }
    rewrite fval_FIELD_L, fval_enc in Vd. destruct (Z.ltb_spec p (Fval r)) in Vd; [lia|].
    rewrite Ed, !bind_ok.
    assert (Cd : fcanon d) by (split; [assumption|lia]).
    assert (Qd : (fF a * fF d = toF (2 ^ k))%F).
    { replace (fF d) with (- r)%F.
      - replace (fF a * - r)%F with (- (fF a * r))%F by ring. rewrite Q. ring.
      - unfold fF. rewrite Vd, toF_sub, toF_p, toF_Fval. ring. }
    assert (Fin : forall d' k', fcanon d' -> 1 <= k' <= 260 -> (fF a * fF d' = toF (2 ^ k'))%F ->
      (e <- usub ck W64 260 k';; fact <- fe_inner_two_pow_k ck e;; fe_montgomery_mul ck d' fact) =
      Ok (enc (/ fF a)%F)).
    { intros d' k' C' H' Q'. rewrite usub_ok by lia. rewrite bind_ok.
      destruct (fe_inner_two_pow_k_ok ck (260 - k')) as (t & Et & Lt & Vt); [lia|].
      rewrite Et, bind_ok. destruct C' as [L' B']. pose proof (fval_nonneg _ L').
      rewrite fe_montgomery_mul_F; auto.
      - f_equal. f_equal. unfold fF at 2. rewrite Vt.
        assert (P260 : (toF (2 ^ 260) = toF (2 ^ k') * toF (2 ^ (260 - k')))%F).
        { rewrite <- toF_mul, <- Z.pow_add_r by lia. f_equal. f_equal. lia. }
        assert (T1 : toF (2 ^ (260 - k')) <> 0%F) by (apply two_pow_nz; lia).
        assert (T2 : fF d' <> 0%F).
        { intros Z0. apply (two_pow_nz k'); [lia|]. rewrite <- Q', Z0. ring. }
        rewrite P260, <- Q'. field. auto.
      - rewrite Vt. assert (0 < 2 ^ (260 - k') <= 2 ^ 260).
        { split; [apply Z.pow_pos_nonneg; lia|apply Z.pow_le_mono_r; lia]. }
        nia. }
    destruct (Z.ltb_spec 260 k).
    + rewrite fe_montgomery_mul_F.
      * rewrite bind_ok, usub_ok by lia. rewrite !bind_ok. apply Fin; auto with fe; [lia|].
        rewrite fF_enc. change (fF fe_one) with 1%F.
        replace (fF a * (fF d * 1 / toF (2 ^ 260)))%F with (fF a * fF d / toF (2 ^ 260))%F
          by (field; exact R_nz).
        rewrite Qd. replace k with (k - 260 + 260) at 1 by lia.
        rewrite Z.pow_add_r, toF_mul by lia. field. exact R_nz.
      * assumption.
      * apply fcanon_one.
      * rewrite fval_one, Vd. rewrite p_num. lia.
    + rewrite bind_ok. apply Fin; auto. lia.
Qed.

Lemma fe_inverse_F ck x : x <> 0%F -> fe_inverse ck (enc x) = Ok (enc (/ x)%F).
Proof.
  intros N. rewrite fe_inverse_ld; rewrite ?fF_enc; auto with fe.
Qed.
Lemma fe_inverse_zero ck : fe_inverse ck (enc 0) = Panic.
Proof. reflexivity. Qed.

Lemma fe_div_F ck x y : y <> 0%F -> fe_div ck (enc x) (enc y) = Ok (enc (x / y)%F).
Proof.
  intros N. unfold fe_div. rewrite <- enc_zero, fe_eqb_F.
  destruct (feqb_spec y 0); [tauto|]. cbn [negb rassert]. rewrite bind_ok.
  rewrite fe_inverse_F by assumption. rewrite bind_ok. apply fe_mul_F.
Qed.
Lemma fe_div_zero ck x : fe_div ck (enc x) (enc 0) = Panic.
Proof. reflexivity. Qed.
Lemma fe_div_val_F ck x y : y <> 0%F -> fe_div_val ck (enc x) (enc y) = Ok (enc (x / y)%F).
Proof.
  intros N. unfold fe_div_val.
  rewrite fe_inverse_F by assumption. rewrite bind_ok. apply fe_mul_F.
Qed.
Lemma fe_div_val_zero ck x : fe_div_val ck (enc x) (enc 0) = Panic.
Proof. reflexivity. Qed.

(** ** Square roots *)

Definition q4 : Z := Eval vm_compute in (p - 1) / 4.
Definition c6 : F := Eval vm_compute in toF (pwp 6 q4).

Lemma c6_ok : c6 = (toF 6 ^ q4)%F.
Proof.
  transitivity (toF (pwp 6 q4)); [apply Feq; vm_compute; reflexivity|].
  rewrite pwp_ok by discriminate. rewrite toF_mod. apply toF_pow. discriminate.
Qed.
Lemma c6_sq : (c6 * c6 = - (1))%F.
Proof. apply Feq. vm_compute. reflexivity. Qed.

(** The root found by the algorithm. *)
Definition ts_root (a : F) : F :=
  let x := (a ^ ((q4 + 1) / 2))%F in
  if feqb (a ^ q4) 1 then x else (x * c6)%F.

Lemma q4_half : (q4 + 1) / 2 + (q4 + 1) / 2 = q4 + 1. Proof. vm_compute. reflexivity. Qed.
Lemma q4_half_nn : 0 <= (q4 + 1) / 2. Proof. vm_compute. discriminate. Qed.
Lemma q4_nn : 0 <= q4. Proof. discriminate. Qed.
Lemma q4_dbl : q4 + q4 = (p - 1) / 2. Proof. vm_compute. reflexivity. Qed.

Lemma ts_root_ok a : is_sq a -> (ts_root a * ts_root a = a)%F.
Proof.
  intros S. destruct (F_dec a 0) as [->|N].
  { unfold ts_root. rewrite !fpow_zero by reflexivity. destruct (feqb 0 1); ring. }
  apply is_sq_chi in S; [|assumption].
  assert (X : (a ^ ((q4 + 1) / 2) * a ^ ((q4 + 1) / 2) = a ^ q4 * a)%F).
  { rewrite <- fpow_add by exact q4_half_nn. rewrite q4_half. apply fpow_succ. exact q4_nn. }
  assert (SQ : (a ^ q4 * a ^ q4 = 1 * 1)%F).
  { rewrite <- fpow_add by exact q4_nn. rewrite q4_dbl. unfold chi in S. rewrite S.
    symmetry. apply Feq. reflexivity. }
  unfold ts_root. cbv zeta. clear S.
  generalize dependent (a ^ ((q4 + 1) / 2))%F. generalize dependent (a ^ q4)%F. intros t SQ x X.
  destruct (feqb_spec t 1) as [E|E].
  - rewrite X, E. ring.
  - apply F_sq_eq in SQ. destruct SQ as [SQ|SQ]; [tauto|].
    transitivity ((x * x) * (c6 * c6))%F; [ring|].
    rewrite X, SQ, c6_sq. ring.
Qed.

Lemma ts_root_nz a : is_sq a -> a <> 0%F -> ts_root a <> 0%F.
Proof. intros S N E. apply N. rewrite <- (ts_root_ok a S), E. ring. Qed.

Lemma fe_sub_FIELD_L ck x : x <> 0%F -> fe_sub ck FIELD_L (enc x) = Ok (enc (- x)%F).
Proof.
  intros N. destruct (fe_sub_gen ck FIELD_L (enc x) flimbs_FIELD_L (enc_limbs x)) as (d & Ed & Ld & Vd).
  { rewrite fval_FIELD_L, fval_enc. pose proof (Frange x). lia. }
  rewrite Ed. f_equal. rewrite fval_FIELD_L, fval_enc in Vd. pose proof (Frange x).
  destruct (Z.ltb_spec p (Fval x)) in Vd; [lia|].
  apply fval_inj; auto with fe. rewrite fval_enc, Fval_opp by assumption. exact Vd.
Qed.

Lemma fe_factor_minus_one ck :
  fe_factor_loop loop_fuel ck fe_minus_one fe_zero = Ok (enc (toF q4), enc (toF 2)).
Proof. destruct ck; vm_compute; reflexivity. Qed.

Theorem fe_mod_sqrt_F ck a sign : fe_mod_sqrt ck (enc a) sign =
  Ok (if feqb a 0 then Some (enc 0) else
      if sqb_F a then Some (enc (if sign then (- ts_root a)%F else ts_root a)) else None).
Proof.
  unfold fe_mod_sqrt, fe_mod_sqrt_fuel. rewrite <- enc_zero, fe_eqb_F.
  destruct (feqb_spec a 0) as [->|N]; [reflexivity|].
  rewrite fe_legendre_F, bind_ok.
  destruct (sqb_F_spec a) as [Sq|Sq]; [|reflexivity]. cbn [negb]. cbv zeta.
  rewrite enc_zero, fe_factor_minus_one, bind_ok.
  assert (E6 : FE 6 0 0 0 0 = enc (toF 6)) by reflexivity. rewrite E6.
  assert (E2 : fe_two = enc (toF 2)) by reflexivity.
  assert (Fq : Fval (toF q4) = q4) by reflexivity.
  rewrite fe_pow_F, bind_ok, Fq, <- c6_ok. rewrite <- enc_one, fe_add_F, bind_ok.
  assert (Eh : fe_half_without_mod (enc (toF q4 + 1)%F) = enc (toF ((q4 + 1) / 2))) by reflexivity.
  assert (Fh : Fval (toF ((q4 + 1) / 2)) = (q4 + 1) / 2) by reflexivity.
  rewrite Eh, fe_pow_F, bind_ok, fe_pow_F, bind_ok, Fq, Fh.
  assert (Loop : fe_sqrt_loop loop_fuel ck (enc (a ^ ((q4 + 1) / 2))%F) (enc (a ^ q4)%F) (enc c6) (enc (toF 2)) =
    Ok (enc (ts_root a))).
  { unfold loop_fuel. change 600%nat with (S (S 598)). unfold ts_root.
    assert (X : (a ^ q4 = 1 \/ a ^ q4 = - (1))%F).
    { apply is_sq_chi in Sq; [|assumption]. apply F_sq_eq.
      rewrite <- fpow_add by exact q4_nn. rewrite q4_dbl.
      unfold chi in Sq. rewrite Sq. symmetry. apply Feq. reflexivity. }
    generalize dependent (a ^ ((q4 + 1) / 2))%F. generalize dependent (a ^ q4)%F. intros t Ht x.
    remember (S 598) as n eqn:Hn. cbn [fe_sqrt_loop]. rewrite <- enc_one, fe_eqb_F. subst n.
    destruct (feqb_spec t 1) as [E|E]; [reflexivity|]. destruct Ht as [Ht|Ht]; [tauto|]. subst t.
    cbn [negb].
    assert (Ord : fe_order_loop loop_fuel ck (enc (- (1))) (enc (toF 2)) fe_zero (fe_from_u8 2) =
       Ok (enc 1)).
    { unfold loop_fuel. change 600%nat with (S 599). cbn [fe_order_loop].
      change (is_lt (fe_cmp fe_zero (enc (toF 2)))) with true. cbv iota.
      rewrite <- enc_zero, <- enc_one, fe_add_F, bind_ok.
      change (fe_from_u8 2) with (enc (toF 2)). rewrite fe_pow_F, bind_ok.
      change (Fval (toF 2)) with 2. rewrite fpow_2, fe_eqb_F.
      replace (- (1) * - (1))%F with 1%F by ring.
      rewrite feqb_refl. reflexivity. }
    rewrite Ord, bind_ok, fe_sub_F, bind_ok.
    rewrite fe_sub_F, bind_ok. rewrite E2.
    assert (Z0 : (toF 2 - 1 - 1 = 0)%F) by (apply Feq; reflexivity).
    rewrite Z0, fe_pow_F, bind_ok. change (Fval 0) with 0. rewrite fpow_0.
    rewrite fe_pow_F, bind_ok. change (Fval 1) with 1. rewrite fpow_1.
    rewrite fe_mul_F, bind_ok, fe_square_F, !bind_ok, fe_mul_F, bind_ok.
    cbn [fe_sqrt_loop]. rewrite <- enc_one, fe_eqb_F.
    replace (- (1) * (c6 * c6))%F with 1%F by (rewrite c6_sq; ring).
    rewrite feqb_refl. reflexivity. }
  rewrite Loop, bind_ok. rewrite fe_sub_FIELD_L by (apply ts_root_nz; assumption).
  rewrite bind_ok, fe_select_F. destruct sign; reflexivity.
Qed.

(** The non-negative square root of a square. *)
Definition froot (a : F) : F := fabs (ts_root a).
Lemma froot_pos a : fposb (froot a) = true.
Proof. apply fabs_pos. Qed.
Lemma froot_ok a : is_sq a -> (froot a * froot a = a)%F.
Proof. intros S. unfold froot. rewrite fabs_sq. now apply ts_root_ok. Qed.
Lemma froot_unique a x : fposb x = true -> (x * x = a)%F -> froot a = x.
Proof.
  intros P E. apply fpos_sq_inj; auto using froot_pos. rewrite froot_ok, E; auto.
  exists x. exact E.
Qed.

Definition FI : F := Eval vm_compute in fF SQRT_MINUS_ONE.
Lemma FI_enc : SQRT_MINUS_ONE = enc FI. Proof. reflexivity. Qed.
Lemma FI_sq : (FI * FI = - (1))%F.
Proof. apply Feq. vm_compute. reflexivity. Qed.
Lemma FI_nonsq : ~ is_sq FI.
Proof. rewrite <- (toF_Fval FI). apply nsqb_true. vm_compute. reflexivity. Qed.

Definition sqrt_ratio_spec (u v : F) : bool * F :=
  if feqb u 0 then (true, 0%F) else if feqb v 0 then (false, 0%F) else
  if sqb_F (u / v) then (true, froot (u / v)) else (false, froot (FI * (u / v))).

Lemma i_times_nonsq x : ~ is_sq x -> is_sq (FI * x).
Proof. intros N. apply nonsq_mul; [exact FI_nonsq|assumption]. Qed.

Lemma div_nz u v : u <> 0%F -> v <> 0%F -> (u / v)%F <> 0%F.
Proof. intros U V. apply F_mul_nz; [assumption|now apply F_inv_nz]. Qed.

Lemma FI_nz : FI <> 0%F.
Proof. intros H. apply FI_nonsq. rewrite H. apply is_sq_zero. Qed.

Theorem fe_sqrt_ratio_i_F ck u v : fe_sqrt_ratio_i ck (enc u) (enc v) =
  Ok (fst (sqrt_ratio_spec u v), enc (snd (sqrt_ratio_spec u v))).
Proof.
  unfold fe_sqrt_ratio_i, sqrt_ratio_spec. rewrite <- enc_zero, !fe_eqb_F.
  destruct (feqb_spec u 0) as [->|U]; [reflexivity|].
  destruct (feqb_spec v 0) as [->|V]; [reflexivity|].
  rewrite fe_div_F by assumption. rewrite bind_ok, fe_legendre_F, !bind_ok.
  assert (Neg : forall x, fe_conditional_negate ck (enc x) (negb (fe_is_positive (enc x))) = Ok (enc (fabs x))).
  { intros x. rewrite fe_is_positive_F, fe_conditional_negate_F. unfold fabs.
    destruct (fposb x); reflexivity. }
  destruct (sqb_F_spec (u / v)) as [S|S].
  - rewrite fe_mod_sqrt_F.
    destruct (feqb_spec (u / v) 0) as [E|E]; [elim (div_nz u v U V E)|].
    destruct (sqb_F_spec (u / v)); [|tauto].
    rewrite bind_ok. cbn [unwrap]. rewrite bind_ok, Neg, bind_ok, fabs_opp. reflexivity.
  - rewrite FI_enc, fe_mul_F, bind_ok, fe_mod_sqrt_F.
    pose proof (i_times_nonsq _ S) as S2.
    destruct (feqb_spec (FI * (u / v)) 0) as [E|E].
    { elim (F_mul_nz _ _ FI_nz (div_nz u v U V) E). }
    destruct (sqb_F_spec (FI * (u / v))); [|tauto].
    rewrite bind_ok. cbn [unwrap]. rewrite bind_ok, Neg, bind_ok, fabs_opp. reflexivity.
Qed.

Lemma fe_inv_sqrt_F ck v : fe_inv_sqrt ck (enc v) =
  Ok (fst (sqrt_ratio_spec 1 v), enc (snd (sqrt_ratio_spec 1 v))).
Proof. unfold fe_inv_sqrt. rewrite <- enc_one. apply fe_sqrt_ratio_i_F. Qed.
