(** * The field operations as equations over the abstract field

    [enc x] is the reduced limb representation of [x]; every reduced element is
    one, so each operation on reduced elements becomes an equation.         *)

From Coq Require Import ZArith Znumtheory List Bool Lia Ring Field.
From Verif Require Import Machine FieldModel Spec MachineFacts FieldLimb FieldMul FieldOps FieldBytes
  NumTheory Primes Fp.
Import ListNotations.
Open Scope Z_scope.

Definition fF (a : fe) : F := toF (fval a).

Definition enc (x : F) : fe :=
  let v := Fval x in
  FE (v mod 2 ^ 52) (v / 2 ^ 52 mod 2 ^ 52) (v / 2 ^ 104 mod 2 ^ 52) (v / 2 ^ 156 mod 2 ^ 52)
     (v / 2 ^ 208).

Lemma enc_canon x : fcanon (enc x) /\ fval (enc x) = Fval x.
Proof.
  pose proof (Frange x) as R. unfold enc. cbv zeta. generalize dependent (Fval x). intros v R.
  rewrite p_num in R. unfold fcanon. rewrite flimbs_lim, fval_num, p_num. cbn [f0 f1 f2 f3 f4].
  unfold lim.
  change (2 ^ 52) with 4503599627370496.
  replace (v / 2 ^ 104) with (v / 4503599627370496 / 4503599627370496)
    by (rewrite Z.div_div by lia; reflexivity).
  replace (v / 2 ^ 156) with (v / 4503599627370496 / 4503599627370496 / 4503599627370496)
    by (rewrite !Z.div_div by lia; reflexivity).
  replace (v / 2 ^ 208) with (v / 4503599627370496 / 4503599627370496 / 4503599627370496 / 4503599627370496)
    by (rewrite !Z.div_div by lia; reflexivity).
  pose proof (Z.div_mod v 4503599627370496 ltac:(lia)). set (x1 := v / 4503599627370496) in *.
  pose proof (Z.mod_pos_bound v 4503599627370496 ltac:(lia)).
  assert (0 <= x1) by (apply Z.div_pos; lia). clearbody x1.
  pose proof (Z.div_mod x1 4503599627370496 ltac:(lia)). set (x2 := x1 / 4503599627370496) in *.
  pose proof (Z.mod_pos_bound x1 4503599627370496 ltac:(lia)).
  assert (0 <= x2) by (apply Z.div_pos; lia). clearbody x2.
  pose proof (Z.div_mod x2 4503599627370496 ltac:(lia)). set (x3 := x2 / 4503599627370496) in *.
  pose proof (Z.mod_pos_bound x2 4503599627370496 ltac:(lia)).
  assert (0 <= x3) by (apply Z.div_pos; lia). clearbody x3.
  pose proof (Z.div_mod x3 4503599627370496 ltac:(lia)). set (x4 := x3 / 4503599627370496) in *.
  pose proof (Z.mod_pos_bound x3 4503599627370496 ltac:(lia)).
  assert (0 <= x4) by (apply Z.div_pos; lia). clearbody x4.
  generalize dependent (v mod 4503599627370496). generalize dependent (x1 mod 4503599627370496).
  generalize dependent (x2 mod 4503599627370496). generalize dependent (x3 mod 4503599627370496).
  intros. repeat split; lia.
Qed.

Lemma enc_c x : fcanon (enc x). Proof. apply enc_canon. Qed.
Lemma enc_ld x : floadable (enc x). Proof. apply fcanon_loadable, enc_c. Qed.
Lemma enc_limbs x : flimbs (enc x). Proof. apply enc_c. Qed.
Lemma fval_enc x : fval (enc x) = Fval x. Proof. apply enc_canon. Qed.
#[export] Hint Resolve enc_c enc_ld enc_limbs : fe.

Lemma fF_enc x : fF (enc x) = x.
Proof. unfold fF. rewrite fval_enc. apply toF_Fval. Qed.

Lemma enc_fF a : fcanon a -> enc (fF a) = a.
Proof.
  intros [A B]. apply fval_inj; [apply enc_limbs|assumption|].
  rewrite fval_enc. unfold fF. rewrite Fval_toF. apply Z.mod_small.
  apply fval_nonneg in A. lia.
Qed.

Lemma enc_inj x y : enc x = enc y -> x = y.
Proof. intros H. rewrite <- (fF_enc x), H. apply fF_enc. Qed.

(** A reduced element with a given residue is the encoding of that residue. *)
Lemma canon_enc r v x : fcanon r -> fval r = v mod p -> toF v = x -> r = enc x.
Proof.
  intros C E <-. rewrite <- (enc_fF r C). f_equal. unfold fF. rewrite E. apply toF_mod.
Qed.

Section Ops.
Variable ck : bool.

Lemma fe_add_F x y : fe_add ck (enc x) (enc y) = Ok (enc (x + y)%F).
Proof.
  destruct (fe_add_ok ck (enc x) (enc y)) as (r & E & C & V); auto with fe.
  rewrite E. f_equal. apply (canon_enc _ _ _ C V). rewrite toF_add, !fval_enc, !toF_Fval. reflexivity.
Qed.
Lemma fe_sub_F x y : fe_sub ck (enc x) (enc y) = Ok (enc (x - y)%F).
Proof.
  destruct (fe_sub_ok ck (enc x) (enc y)) as (r & E & C & V); auto with fe.
  rewrite E. f_equal. apply (canon_enc _ _ _ C V). rewrite toF_sub, !fval_enc, !toF_Fval. reflexivity.
Qed.
Lemma fe_neg_F x : fe_neg ck (enc x) = Ok (enc (- x)%F).
Proof.
  destruct (fe_neg_ok ck (enc x)) as (r & E & C & V); auto with fe.
  rewrite E. f_equal. apply (canon_enc _ _ _ C V). rewrite toF_opp, !fval_enc, !toF_Fval. reflexivity.
Qed.
(** Multiplication also accepts unreduced inputs below 2^256. *)
Lemma fe_mul_ld a b : floadable a -> floadable b -> fe_mul ck a b = Ok (enc (fF a * fF b)%F).
Proof.
  intros A B. destruct (fe_mul_ok ck a b A B) as (r & E & C & V).
  rewrite E. f_equal. apply (canon_enc _ _ _ C V). apply toF_mul.
Qed.
Lemma fe_mul_F x y : fe_mul ck (enc x) (enc y) = Ok (enc (x * y)%F).
Proof. rewrite fe_mul_ld by auto with fe. rewrite !fF_enc. reflexivity. Qed.
Lemma fe_square_ld a : floadable a -> fe_square ck a = Ok (enc (fF a * fF a)%F).
Proof.
  intros A. destruct (fe_square_ok ck a A) as (r & E & C & V).
  rewrite E. f_equal. apply (canon_enc _ _ _ C V). apply toF_mul.
Qed.
Lemma fe_square_F x : fe_square ck (enc x) = Ok (enc (x * x)%F).
Proof. rewrite fe_square_ld by auto with fe. rewrite !fF_enc. reflexivity. Qed.

Lemma fe_half_F x : fe_half ck (enc x) = Ok (enc (x / ftwo)%F).
Proof.
  destruct (fe_half_ok ck (enc x)) as (r & E & C & V); auto with fe.
  rewrite E. f_equal. rewrite <- (enc_fF r C). f_equal.
  apply (F_mul_cancel_l ftwo); [exact two_nz|].
  transitivity x; [|field; exact two_nz].
  rewrite <- (fF_enc x). unfold fF. change ftwo with (toF 2). rewrite <- toF_mul. apply toF_eq. exact V.
Qed.

Lemma fe_eqb_F x y : fe_eqb (enc x) (enc y) = feqb x y.
Proof. rewrite fe_eqb_ok by auto with fe. rewrite !fval_enc. reflexivity. Qed.

Lemma fe_select_F x y b : fe_select (enc x) (enc y) b = enc (if b then y else x).
Proof. destruct b; reflexivity. Qed.
Lemma fe_select_if a b (c : bool) : fe_select a b c = if c then b else a.
Proof. destruct c, a, b; reflexivity. Qed.

Lemma fe_conditional_negate_F x b :
  fe_conditional_negate ck (enc x) b = Ok (enc (if b then (- x)%F else x)).
Proof.
  unfold fe_conditional_negate. rewrite fe_neg_F, bind_ok, fe_select_F. reflexivity.
Qed.
End Ops.

(** Non-negative: the value is at most (p-1)/2. *)
Definition fposb (x : F) : bool := Fval x <=? (p - 1) / 2.

Lemma fe_is_positive_F x : fe_is_positive (enc x) = fposb x.
Proof. rewrite fe_is_positive_ok by auto with fe. rewrite fval_enc. reflexivity. Qed.

Lemma Fval_opp x : x <> 0%F -> Fval (- x) = p - Fval x.
Proof.
  intros H. unfold fopp. rewrite Fval_toF. pose proof (Frange x) as R.
  assert (Fval x <> 0). { intros E. apply H. apply Feq. exact E. }
  symmetry. apply Zmod_unique with (-1); lia.
Qed.

Lemma p_odd : p = 2 * ((p - 1) / 2) + 1. Proof. reflexivity. Qed.

Lemma fposb_opp x : x <> 0%F -> fposb (- x) = negb (fposb x).
Proof.
  intros H. unfold fposb. rewrite Fval_opp by assumption. pose proof p_odd.
  destruct (Z.leb_spec (Fval x) ((p - 1) / 2)), (Z.leb_spec (p - Fval x) ((p - 1) / 2));
    try reflexivity; lia.
Qed.
Lemma fposb_zero : fposb 0 = true. Proof. reflexivity. Qed.
Lemma fposb_one : fposb 1 = true. Proof. reflexivity. Qed.

(** The non-negative one of [x] and [-x]. *)
Definition fabs (x : F) : F := if fposb x then x else (- x)%F.
Lemma fabs_pos x : fposb (fabs x) = true.
Proof.
  unfold fabs. destruct (fposb x) eqn:E; [assumption|].
  rewrite fposb_opp, E; [reflexivity|]. intros ->. rewrite fposb_zero in E. discriminate.
Qed.
Lemma fabs_sq x : (fabs x * fabs x = x * x)%F.
Proof. unfold fabs. destruct (fposb x); ring. Qed.
Lemma fabs_id x : fposb x = true -> fabs x = x.
Proof. unfold fabs. now intros ->. Qed.
Lemma fabs_opp x : fabs (- x) = fabs x.
Proof.
  destruct (F_dec x 0) as [->|N]; [f_equal; ring|].
  unfold fabs. rewrite fposb_opp by assumption. destruct (fposb x); cbn; ring.
Qed.
Lemma fpos_sq_inj x y : fposb x = true -> fposb y = true -> (x * x = y * y)%F -> x = y.
Proof.
  intros Hx Hy H. apply F_sq_eq in H. destruct H as [|H]; [assumption|].
  destruct (F_dec y 0) as [->|N]; [rewrite H; ring|].
  rewrite H, fposb_opp, Hy in Hx by assumption. discriminate.
Qed.

(** Constants. *)
Lemma enc_zero : enc 0 = fe_zero. Proof. reflexivity. Qed.
Lemma enc_one : enc 1 = fe_one. Proof. reflexivity. Qed.
Lemma enc_m1 : enc (- (1)) = fe_minus_one. Proof. reflexivity. Qed.
Lemma enc_m1' : enc (- (1)) = EDWARDS_A. Proof. reflexivity. Qed.

Lemma canon_check a : (0 <=? f0 a) && (f0 a <? 2 ^ 52) && (0 <=? f1 a) && (f1 a <? 2 ^ 52) &&
   (0 <=? f2 a) && (f2 a <? 2 ^ 52) && (0 <=? f3 a) && (f3 a <? 2 ^ 52) &&
   (0 <=? f4 a) && (f4 a <? 2 ^ 52) && (fval a <? p) = true -> fcanon a.
Proof.
  rewrite !andb_true_iff, !Z.ltb_lt, !Z.leb_le. unfold fcanon, flimbs. intuition.
Qed.

(** ** Powers *)

Lemma fe_pow_loop_ok ck : forall n base res_ e, floadable base -> floadable res_ -> flimbs e ->
  fval e < 2 ^ Z.of_nat n -> fcanon res_ ->
  fe_pow_loop (S n) ck base res_ e = Ok (enc (fF res_ * fF base ^ fval e)%F).
Proof.
  induction n as [|n IH]; intros base res_ e B R E H C.
  - cbn [fe_pow_loop]. rewrite fe_gt_ok by auto using flimbs_zero. rewrite fval_zero.
    pose proof (fval_nonneg _ E). change (2 ^ Z.of_nat 0) with 1 in H.
    assert (Ev : fval e = 0) by lia. rewrite Ev. change (0 <? 0) with false. cbv iota.
    f_equal. rewrite <- (enc_fF res_ C) at 1. f_equal. rewrite fpow_0. ring.
  - assert (NN := fval_nonneg _ E).
    remember (S n) as n' eqn:Hn'. cbn [fe_pow_loop]. subst n'.
    rewrite fe_gt_ok by auto using flimbs_zero. rewrite fval_zero.
    destruct (Z.ltb_spec 0 (fval e)) as [Hp|Hp].
    2:{ assert (Ev : fval e = 0) by lia. rewrite Ev.
        f_equal. rewrite <- (enc_fF res_ C) at 1. f_equal. rewrite fpow_0. ring. }
    rewrite Nat2Z.inj_succ, Z.pow_succ_r in H by lia.
    rewrite fe_is_even_ok. cbv zeta.
    destruct (Z.even (fval e)) eqn:Ev.
    + destruct (fe_half_without_mod_ok e E) as [L V].
      rewrite fe_mul_ld by assumption. rewrite bind_ok.
      assert (D : fval e = 2 * (fval e / 2)).
      { apply Zeven_bool_iff, Zeven_div2 in Ev. rewrite Z.div2_div in Ev. exact Ev. }
      rewrite IH; auto with fe; [|rewrite V; lia].
      f_equal. f_equal. rewrite fF_enc, V. rewrite D at 2.
      rewrite fpow_mul, fpow_2 by lia. reflexivity.
    + assert (L1 : flimbs fe_one) by apply fcanon_one.
      destruct (fe_sub_gen ck e fe_one E L1) as (e' & -> & L' & V').
      { rewrite fval_one. rewrite p_num. lia. }
      rewrite fval_one in V'. destruct (Z.ltb_spec (fval e) 1) in V'; [lia|].
      rewrite bind_ok. rewrite fe_mul_ld by assumption. rewrite bind_ok.
      destruct (fe_half_without_mod_ok e' L') as [L V].
      rewrite fe_mul_ld by assumption. rewrite bind_ok.
      assert (D : fval e = 2 * (fval e' / 2) + 1).
      { rewrite V'. rewrite <- Z.negb_odd in Ev. apply negb_false_iff in Ev.
        apply Zodd_bool_iff, Zodd_div2 in Ev. rewrite Z.div2_div in Ev.
        replace ((fval e - 1) / 2) with (fval e / 2); [exact Ev|].
        rewrite Ev at 2. rewrite Z.add_simpl_r, Z.mul_comm, Z.div_mul by lia. reflexivity. }
      assert (0 <= fval e' / 2) by (apply Z.div_pos; lia).
      rewrite IH; auto with fe; [|rewrite V; lia].
      f_equal. f_equal. rewrite !fF_enc, V. rewrite D.
      rewrite fpow_succ, fpow_mul, fpow_2 by lia. ring.
Qed.

Lemma fe_pow_ld ck a e : floadable a -> flimbs e -> fe_pow ck a e = Ok (enc (fF a ^ fval e)%F).
Proof.
  intros A E. unfold fe_pow, loop_fuel.
  change 600%nat with (S 599). rewrite fe_pow_loop_ok; auto using fcanon_one, fcanon_loadable.
  - f_equal. f_equal. change (fF fe_one) with 1%F. ring.
  - apply fval_nonneg in E. apply Z.lt_le_trans with (2 ^ 260); [apply E|].
    apply Z.pow_le_mono_r; lia.
Qed.
Lemma fe_pow_F ck x y : fe_pow ck (enc x) (enc y) = Ok (enc (x ^ Fval y)%F).
Proof. rewrite fe_pow_ld by auto with fe. rewrite fF_enc, fval_enc. reflexivity. Qed.

(** ** Legendre symbol *)

Definition sqb_F (x : F) : bool := negb (feqb (chi x) (- (1))).

Lemma sqb_F_spec x : reflect (is_sq x) (sqb_F x).
Proof.
  unfold sqb_F. destruct (feqb_spec (chi x) (- (1))) as [E|E]; constructor.
  - now apply not_sq_chi.
  - destruct (is_sq_dec x) as [|N]; [assumption|]. apply not_sq_chi in N. tauto.
Qed.

Lemma fe_legendre_ld ck a : floadable a -> fe_legendre_symbol ck a = Ok (sqb_F (fF a)).
Proof.
  intros A. unfold fe_legendre_symbol.
  assert (E : MINUS_ONE_HALF = enc (toF ((p - 1) / 2))) by reflexivity.
  rewrite fe_pow_ld; [|assumption|rewrite E; auto with fe].
  assert (V : fval MINUS_ONE_HALF = (p - 1) / 2) by (vm_compute; reflexivity). rewrite V.
  rewrite bind_ok. rewrite <- enc_m1, fe_eqb_F. rewrite xorb_true_r. reflexivity.
Qed.
Lemma fe_legendre_F ck x : fe_legendre_symbol ck (enc x) = Ok (sqb_F x).
Proof. rewrite fe_legendre_ld by auto with fe. rewrite fF_enc. reflexivity. Qed.
