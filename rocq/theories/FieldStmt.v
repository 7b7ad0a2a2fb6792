(** * The field properties, stated on integers

    Statement forms of the results of the field files; PropField.v restates
    each of them and closes it with the lemma of the same name.             *)

From Coq Require Import ZArith Znumtheory List Bool Lia Ring Field.
From Verif Require Import Machine FieldModel ScalarModel Spec MachineFacts FieldLimb FieldMul FieldOps FieldBytes
  NumTheory Primes Fp FieldF FieldInv ScalarOps ScalarBits.
Import ListNotations.
Open Scope Z_scope.

Lemma ret_field o v x : o = Ok (enc x) -> toF v = x -> returns_field o v.
Proof.
  intros -> <-. exists (enc (toF v)). split; [reflexivity|]. split; [apply enc_c|].
  rewrite fval_enc. reflexivity.
Qed.

Lemma is_sq_Z x : is_sq (toF x) <-> square_mod_p x.
Proof.
  split.
  - intros [y E]. exists (Fval y). apply toF_eq. rewrite toF_mul, toF_Fval. exact E.
  - intros [y E]. exists (toF y). rewrite <- toF_mul. now apply toF_eq.
Qed.
Lemma fF_zero a : fF a = 0%F <-> fval a mod p = 0.
Proof. unfold fF. change 0%F with (toF 0). rewrite toF_eq. reflexivity. Qed.
Lemma canon_small a : fcanon a -> fval a mod p = fval a.
Proof. intros [A B]. apply fval_nonneg in A. apply Z.mod_small. lia. Qed.
Lemma fF_val a : fcanon a -> Fval (fF a) = fval a.
Proof. intros. unfold fF. rewrite Fval_toF. now apply canon_small. Qed.
Lemma canon_fF_zero a : fcanon a -> (fF a = 0%F <-> fval a = 0).
Proof. intros C. rewrite fF_zero, canon_small by assumption. reflexivity. Qed.
Lemma Fval_mul_eq x y z : (x * y = z)%F -> (Fval x * Fval y) mod p = Fval z.
Proof. intros <-. reflexivity. Qed.

(** ** C01 *)
Lemma C01_add_stmt : forall ck a b, fcanon a -> fcanon b ->
  returns_field (fe_add ck a b) (fval a + fval b).
Proof. exact fe_add_ok. Qed.
Lemma C01_sub_stmt : forall ck a b, fcanon a -> fcanon b ->
  returns_field (fe_sub ck a b) (fval a - fval b).
Proof. exact fe_sub_ok. Qed.
Lemma C01_neg_stmt : forall ck a, fcanon a -> returns_field (fe_neg ck a) (- fval a).
Proof. exact fe_neg_ok. Qed.
Lemma C01_ex :
  fcanon EDWARDS_D /\ fcanon fe_minus_one /\
  fe_add true EDWARDS_D fe_minus_one
  = Ok (FE 3304133203739794 2446467598308289 1534112949566882 2032729967918914 2313225441931) /\
  fe_sub true fe_zero fe_one = Ok fe_minus_one /\ fe_neg true fe_zero = Ok fe_zero.
Proof.
  split; [apply canon_check; reflexivity|]. split; [apply canon_check; reflexivity|].
  vm_compute. auto.
Qed.

(** ** C02 *)
Lemma C02_mul_stmt : forall ck a b, floadable a -> floadable b ->
  returns_field (fe_mul ck a b) (fval a * fval b).
Proof. exact fe_mul_ok. Qed.
Lemma C02_square_stmt : forall ck a, floadable a ->
  returns_field (fe_square ck a) (fval a * fval a).
Proof. exact fe_square_ok. Qed.
(** The largest loadable element is not reduced. *)
Definition max_loadable : fe :=
  FE 4503599627370495 4503599627370495 4503599627370495 4503599627370495 281474976710655.
Lemma C02_ex : floadable max_loadable /\ fval max_loadable = 2 ^ 256 - 1 /\ ~ fcanon max_loadable.
Proof.
  split; [|split].
  - vm_compute. intuition discriminate.
  - reflexivity.
  - intros [_ H]. vm_compute in H. discriminate.
Qed.

(** ** C03 *)
Lemma C03_inverse_stmt : forall ck a, floadable a -> fval a mod p <> 0 ->
  exists r, fe_inverse ck a = Ok r /\ fcanon r /\ (fval a * fval r) mod p = 1.
Proof.
  intros ck a A N. assert (N' : fF a <> 0%F) by now rewrite fF_zero.
  exists (enc (/ fF a)). rewrite fe_inverse_ld by assumption. split; [reflexivity|].
  split; [apply enc_c|]. rewrite fval_enc.
  assert (E : (fF a * / fF a = 1)%F) by (field; assumption).
  apply (f_equal Fval) in E. rewrite Fval_one in E. rewrite <- E. unfold fmul, fF.
  rewrite !Fval_toF, Zmult_mod_idemp_l. reflexivity.
Qed.
Lemma C03_inverse_zero_stmt : forall ck, fe_inverse ck fe_zero = Panic.
Proof. exact fe_inverse_zero. Qed.
(** The unreduced zero p is not recognised: the call returns 0 instead of panicking. *)
Lemma C03_inverse_p_stmt : forall ck, fe_inverse ck FIELD_L = Ok fe_zero.
Proof. destruct ck; reflexivity. Qed.
Lemma C03_ex : floadable max_loadable /\ fval max_loadable mod p <> 0 /\
  fcanon fe_minus_one /\ fval fe_minus_one mod p <> 0.
Proof.
  split; [apply C02_ex|]. split; [vm_compute; discriminate|].
  split; [apply canon_check; reflexivity|]. vm_compute. discriminate.
Qed.

(** ** C04 *)
Lemma div_val_mul x y : y <> 0%F -> (Fval (x / y) * Fval y) mod p = Fval x.
Proof. intros N. apply Fval_mul_eq. field. assumption. Qed.
Lemma C04_div_stmt : forall ck a b, fcanon a -> fcanon b -> fval b <> 0 ->
  exists q, fe_div ck a b = Ok q /\ fe_div_val ck a b = Ok q /\ fcanon q /\
    (fval q * fval b) mod p = fval a.
Proof.
  intros ck a b A B N. assert (N' : fF b <> 0%F) by now rewrite canon_fF_zero.
  exists (enc (fF a / fF b)).
  replace (fe_div ck a b) with (fe_div ck (enc (fF a)) (enc (fF b))) by now rewrite !enc_fF.
  replace (fe_div_val ck a b) with (fe_div_val ck (enc (fF a)) (enc (fF b))) by now rewrite !enc_fF.
  split; [now apply fe_div_F|]. split; [now apply fe_div_val_F|]. split; [apply enc_c|].
  rewrite fval_enc, <- (fF_val b B), <- (fF_val a A). now apply div_val_mul.
Qed.
Lemma C04_div_zero_stmt : forall ck a, fe_div ck a fe_zero = Panic /\ fe_div_val ck a fe_zero = Panic.
Proof. intros. split; reflexivity. Qed.
Lemma C04_ex : fcanon fe_one /\ fcanon EDWARDS_D /\ fval EDWARDS_D <> 0.
Proof.
  split; [exact fcanon_one|]. split; [apply canon_check; reflexivity|]. vm_compute. discriminate.
Qed.

(** ** C05 *)
Lemma C05_half_stmt : forall ck a, floadable a ->
  exists r, fe_half ck a = Ok r /\ fcanon r /\ (fval r + fval r) mod p = fval a mod p.
Proof.
  intros ck a A. destruct (fe_half_ok ck a A) as (r & E & C & V). exists r.
  repeat split; try apply C; auto. now replace (fval r + fval r) with (2 * fval r) by lia.
Qed.
Lemma C05_half_without_mod_stmt : forall a, flimbs a ->
  flimbs (fe_half_without_mod a) /\ fval (fe_half_without_mod a) = fval a / 2.
Proof. exact fe_half_without_mod_ok. Qed.
(** Documentation: "half_without_mod panics on odd elements".  It floors. *)
Lemma C05_odd_panics_refuted_stmt :
  exists a, fcanon a /\ Z.odd (fval a) = true /\ fval (fe_half_without_mod a) + fval (fe_half_without_mod a) <> fval a.
Proof.
  exists (FE 7 0 0 0 0). split; [apply canon_check; reflexivity|]. split; [reflexivity|].
  vm_compute. discriminate.
Qed.
Lemma C05_ex : floadable max_loadable /\ flimbs max_loadable /\ floadable (FE 6 0 0 0 0) /\
  fe_half_without_mod (FE 6 0 0 0 1) = FE 3 0 0 2251799813685248 0.
Proof.
  split; [apply C02_ex|]. split; [apply C02_ex|].
  split; [vm_compute; intuition discriminate|]. reflexivity.
Qed.

(** ** C06 *)
Lemma C06_pow_stmt : forall ck a e, floadable a -> flimbs e ->
  returns_field (fe_pow ck a e) (fval a ^ fval e).
Proof.
  intros ck a e A E. eapply ret_field; [now apply fe_pow_ld|].
  apply toF_pow. apply fval_nonneg in E. lia.
Qed.
Lemma C06_ex : floadable max_loadable /\ flimbs max_loadable /\
  fe_pow true (FE 3 0 0 0 0) (FE 5 0 0 0 0) = Ok (FE 243 0 0 0 0) /\
  fe_pow true (FE 3 0 0 0 0) fe_zero = Ok fe_one.
Proof.
  split; [apply C02_ex|]. split; [apply C02_ex|]. vm_compute. auto.
Qed.

(** ** C07 *)
Lemma C07_legendre_stmt : forall ck a, floadable a ->
  exists b, fe_legendre_symbol ck a = Ok b /\ (b = true <-> square_mod_p (fval a)).
Proof.
  intros ck a A. exists (sqb_F (fF a)). split; [now apply fe_legendre_ld|].
  rewrite <- is_sq_Z. change (toF (fval a)) with (fF a).
  destruct (sqb_F_spec (fF a)); split; intros; auto; discriminate.
Qed.
Lemma six_nonsq : ~ square_mod_p 6.
Proof.
  rewrite <- is_sq_Z, not_sq_chi. unfold chi. rewrite <- q4_dbl, fpow_add by exact q4_nn.
  rewrite <- c6_ok. exact c6_sq.
Qed.
Lemma C07_ex : floadable (FE 9 0 0 0 0) /\ square_mod_p 9 /\ floadable (FE 6 0 0 0 0) /\ ~ square_mod_p 6.
Proof.
  split; [vm_compute; intuition discriminate|]. split; [exists 3; reflexivity|].
  split; [vm_compute; intuition discriminate|]. exact six_nonsq.
Qed.

(** ** C08 *)
Lemma C08_mod_sqrt_stmt : forall ck a sign, fcanon a ->
  (square_mod_p (fval a) ->
     exists r, fe_mod_sqrt ck a sign = Ok (Some r) /\ fcanon r /\ (fval r * fval r) mod p = fval a) /\
  (~ square_mod_p (fval a) -> fe_mod_sqrt ck a sign = Ok None).
Proof.
  intros ck a sign A. rewrite <- is_sq_Z. change (toF (fval a)) with (fF a).
  replace (fe_mod_sqrt ck a sign) with (fe_mod_sqrt ck (enc (fF a)) sign) by now rewrite enc_fF.
  rewrite <- (fF_val a A). rewrite fe_mod_sqrt_F.
  generalize (fF a). clear a A. intros x.
  destruct (feqb_spec x 0) as [->|N].
  - split; [|intros H; elim H; apply is_sq_zero].
    intros _. exists (enc 0). split; [reflexivity|]. split; [apply enc_c|].
    rewrite fval_enc. reflexivity.
  - destruct (sqb_F_spec x) as [S|S]; (split; [|intros]); try tauto.
    intros _. eexists. split; [reflexivity|]. split; [apply enc_c|].
    rewrite fval_enc. apply Fval_mul_eq.
    destruct sign; [transitivity (ts_root x * ts_root x)%F; [ring|]|]; now apply ts_root_ok.
Qed.
Lemma C08_signs_stmt : forall ck a r0 r1, fcanon a ->
  fe_mod_sqrt ck a false = Ok (Some r0) -> fe_mod_sqrt ck a true = Ok (Some r1) ->
  (fval r0 + fval r1) mod p = 0.
Proof.
  intros ck a r0 r1 A. rewrite <- (enc_fF a A). rewrite !fe_mod_sqrt_F.
  destruct (feqb (fF a) 0).
  - intros H0 H1. injection H0 as <-. injection H1 as <-. rewrite fval_enc. reflexivity.
  - destruct (sqb_F (fF a)); [|discriminate]. intros H0 H1. injection H0 as <-. injection H1 as <-.
    rewrite !fval_enc. generalize (ts_root (fF a)). intros y.
    change (Fval (y + - y) = Fval 0). f_equal. ring.
Qed.
Lemma C08_ex : fcanon (FE 16 0 0 0 0) /\ square_mod_p (fval (FE 16 0 0 0 0)) /\
  fcanon (FE 6 0 0 0 0) /\ ~ square_mod_p (fval (FE 6 0 0 0 0)).
Proof.
  split; [apply canon_check; reflexivity|]. split; [exists 4; reflexivity|].
  split; [apply canon_check; reflexivity|]. exact six_nonsq.
Qed.

(** ** C09 *)
Lemma ts_root_one : ts_root 1 = 1%F.
Proof.
  unfold ts_root. rewrite !fpow_one by (exact q4_nn || exact q4_half_nn). rewrite feqb_refl. reflexivity.
Qed.
(** 2 = -i (1+i)^2 is not a square; so 4^((p-1)/4) = -1, and 16 has Tonelli-Shanks root -4. *)
Lemma two_nonsq : ~ is_sq ftwo.
Proof.
  intros S. apply FI_nonsq.
  assert (E : (FI * ftwo = (1 + FI) * (1 + FI))%F).
  { unfold ftwo. replace ((1 + FI) * (1 + FI))%F with (1 + (FI + FI) + FI * FI)%F by ring.
    rewrite FI_sq. ring. }
  assert (X : (/ ftwo * ((1 + FI) * (1 + FI)) = FI)%F).
  { rewrite <- E. field. exact two_nz. }
  refine (eq_ind _ is_sq _ _ X).
  apply is_sq_mul; [now apply is_sq_inv|apply is_sq_square].
Qed.
Lemma ts_root_16 : ts_root (toF 16) = (- toF 4)%F.
Proof.
  assert (C : (ftwo ^ (q4 + q4) = - (1))%F).
  { rewrite q4_dbl. apply not_sq_chi. exact two_nonsq. }
  assert (D : ((ftwo * ftwo) ^ q4 = - (1))%F).
  { rewrite fpow_mul_l by exact q4_nn. rewrite <- fpow_add by exact q4_nn. exact C. }
  assert (E4 : toF 4 = (ftwo * ftwo)%F) by (apply Feq; reflexivity).
  assert (E16 : toF 16 = (toF 4 * toF 4)%F) by (apply Feq; reflexivity).
  assert (Q : (toF 16 ^ q4 = 1)%F).
  { rewrite E16, fpow_mul_l by exact q4_nn. rewrite E4, D. ring. }
  unfold ts_root. rewrite Q, feqb_refl. rewrite E16.
  rewrite fpow_mul_l by exact q4_half_nn. rewrite <- fpow_add by exact q4_half_nn.
  rewrite q4_half, fpow_succ by exact q4_nn. rewrite E4, D. ring.
Qed.
(** Choice(1) is documented to give the positive root, Choice(0) the negative
    one.  For 1 it is the other way round, for 16 it is as documented: no fixed
    sign convention holds. *)
Lemma C09_sign_refuted_stmt :
  exists a b r s, fcanon a /\ fcanon b /\
    (forall ck, fe_mod_sqrt ck a true = Ok (Some r)) /\ (p - 1) / 2 < fval r < p /\
    (forall ck, fe_mod_sqrt ck b true = Ok (Some s)) /\ 0 < fval s <= (p - 1) / 2.
Proof.
  exists (enc 1), (enc (toF 16)), (enc (- (1))), (enc (toF 4)).
  split; [apply enc_c|]. split; [apply enc_c|]. split; [|split; [rewrite fval_enc; split; reflexivity|]].
  - intros ck. rewrite fe_mod_sqrt_F, ts_root_one.
    replace (feqb 1 0) with false by (vm_compute; reflexivity).
    destruct (sqb_F_spec 1) as [_|N]; [reflexivity|]. elim N. apply is_sq_one.
  - split; [|rewrite fval_enc; split; [reflexivity|discriminate]].
    intros ck. rewrite fe_mod_sqrt_F, ts_root_16.
    replace (feqb (toF 16) 0) with false by (vm_compute; reflexivity).
    destruct (sqb_F_spec (toF 16)) as [_|N].
    + replace (- - toF 4)%F with (toF 4) by ring. reflexivity.
    + elim N. exists (toF 4). apply Feq. reflexivity.
Qed.

(** ** C10 *)
Lemma enc_nonneg x : fposb x = true -> fnonneg (enc x).
Proof. intros H. split; [apply enc_c|]. rewrite fval_enc. now apply Z.leb_le in H. Qed.
Lemma div_mod_eq u v w : v <> 0%F -> (w * w = u / v)%F -> (Fval v * Fval w ^ 2) mod p = Fval u.
Proof.
  intros N E. change (2%Z) with (Z.of_nat 2). rewrite Z.pow_2_r, <- Zmult_mod_idemp_r.
  change (Fval (v * (w * w)) = Fval u). rewrite E. f_equal. field. assumption.
Qed.
Lemma C10_sqrt_ratio_i_stmt : forall ck u v, fcanon u -> fcanon v ->
  exists s r, fe_sqrt_ratio_i ck u v = Ok (s, r) /\ fnonneg r /\
    (fval u = 0 -> s = true /\ fval r = 0) /\
    (fval u <> 0 -> fval v = 0 -> s = false /\ fval r = 0) /\
    (fval u <> 0 -> fval v <> 0 ->
       (exists w, (fval v * w ^ 2) mod p = fval u) ->
       s = true /\ (fval v * fval r ^ 2) mod p = fval u) /\
    (fval u <> 0 -> fval v <> 0 ->
       ~ (exists w, (fval v * w ^ 2) mod p = fval u) ->
       s = false /\ (fval v * fval r ^ 2) mod p = (fval SQRT_MINUS_ONE * fval u) mod p).
Proof.
  intros ck u v U V. rewrite <- (fF_val u U), <- (fF_val v V).
  replace (fe_sqrt_ratio_i ck u v) with (fe_sqrt_ratio_i ck (enc (fF u)) (enc (fF v))) by now rewrite !enc_fF.
  generalize (fF u) (fF v). clear u v U V. intros u v.
  rewrite fe_sqrt_ratio_i_F. unfold sqrt_ratio_spec.
  assert (Z0 : forall x, x <> 0%F -> Fval x <> 0%Z).
  { intros x N E. apply N. apply Feq. exact E. }
  assert (NR : fnonneg (enc 0)) by now apply enc_nonneg.
  destruct (feqb_spec u 0) as [->|Nu].
  { exists true, (enc 0). split; [reflexivity|]. split; [assumption|].
    rewrite fval_enc, Fval_zero. intuition congruence. }
  pose proof (Z0 u Nu) as Zu.
  destruct (feqb_spec v 0) as [->|Nv].
  { exists false, (enc 0). split; [reflexivity|]. split; [assumption|].
    rewrite fval_enc, Fval_zero. intuition congruence. }
  pose proof (Z0 v Nv) as Zv.
  assert (W : (exists w, (Fval v * w ^ 2) mod p = Fval u) <-> is_sq (u / v)).
  { split.
    - intros [w E]. exists (toF w). apply (F_mul_cancel_l v); [assumption|].
      transitivity u; [|field; assumption]. apply Feq. rewrite <- E.
      rewrite <- toF_mul. unfold fmul. rewrite !Fval_toF, Zmult_mod_idemp_r. f_equal. ring.
    - intros [w E]. exists (Fval w). now apply div_mod_eq. }
  destruct (sqb_F_spec (u / v)) as [S|S].
  - exists true, (enc (froot (u / v))). split; [reflexivity|].
    split; [apply enc_nonneg, froot_pos|]. rewrite fval_enc.
    split; [tauto|]. split; [tauto|]. split; [|tauto].
    intros _ _ _. split; [reflexivity|]. apply div_mod_eq; [assumption|]. now apply froot_ok.
  - exists false, (enc (froot (FI * (u / v)))). split; [reflexivity|].
    split; [apply enc_nonneg, froot_pos|]. rewrite fval_enc.
    split; [tauto|]. split; [tauto|]. split; [tauto|].
    intros _ _ _. split; [reflexivity|].
    change ((fval SQRT_MINUS_ONE * Fval u) mod p) with (Fval (FI * u)).
    apply div_mod_eq; [assumption|]. rewrite froot_ok by now apply i_times_nonsq.
    field. assumption.
Qed.
Lemma C10_inv_sqrt_stmt : forall ck v, fcanon v ->
  exists s r, fe_inv_sqrt ck v = Ok (s, r) /\ fnonneg r /\
    (fval v = 0 -> s = false /\ fval r = 0) /\
    (fval v <> 0 -> square_mod_p (fval v) -> s = true /\ (fval v * fval r ^ 2) mod p = 1) /\
    (~ square_mod_p (fval v) -> s = false /\ (fval v * fval r ^ 2) mod p = fval SQRT_MINUS_ONE).
Proof.
  intros ck v V. unfold fe_inv_sqrt.
  destruct (C10_sqrt_ratio_i_stmt ck fe_one v fcanon_one V) as (s & r & E & N & A & B & C & D).
  exists s, r. split; [exact E|]. split; [exact N|].
  assert (O : fval fe_one <> 0) by discriminate.
  assert (W : fval v <> 0 -> ((exists w, (fval v * w ^ 2) mod p = fval fe_one) <-> square_mod_p (fval v))).
  { intros Z. rewrite <- is_sq_Z. change (toF (fval v)) with (fF v).
    assert (Nv : fF v <> 0%F) by now rewrite canon_fF_zero.
    rewrite <- (fF_val v V). change (fval fe_one) with (Fval 1).
    transitivity (is_sq (1 / fF v)).
    - split.
      + intros [w H]. exists (toF w). apply (F_mul_cancel_l (fF v)); [assumption|].
        transitivity 1%F; [|field; assumption]. apply Feq. rewrite <- H.
        rewrite <- toF_mul. unfold fmul. rewrite !Fval_toF, Zmult_mod_idemp_r. f_equal. ring.
      + intros [w H]. exists (Fval w). now apply div_mod_eq.
    - split; intros S.
      + replace (fF v) with (/ (1 / fF v))%F by (field; auto using one_neq_zero). now apply is_sq_inv.
      + replace (1 / fF v)%F with (/ fF v)%F by (field; assumption). now apply is_sq_inv. }
  split; [intros Z; now apply B|].
  split.
  - intros Z S. apply C; auto. now apply W.
  - intros S. assert (Z : fval v <> 0). { intros Z. apply S. rewrite Z. exists 0. reflexivity. }
    destruct D as [D1 D2]; [assumption|assumption|now rewrite W|].
    split; [exact D1|]. rewrite D2. reflexivity.
Qed.
Lemma C10_ex : fcanon fe_one /\ fcanon (FE 4 0 0 0 0) /\
  (exists w, (4 * w ^ 2) mod p = 1) /\ fcanon (FE 6 0 0 0 0) /\ ~ square_mod_p 6.
Proof.
  split; [exact fcanon_one|]. split; [apply canon_check; reflexivity|].
  split; [|split; [apply canon_check; reflexivity|exact six_nonsq]].
  exists ((p + 1) / 2). vm_compute. reflexivity.
Qed.

(** ** C11 *)
Lemma C11_from_bytes_stmt : forall b, is_bytes 32 b ->
  floadable (fe_from_bytes b) /\ fval (fe_from_bytes b) = le_value b.
Proof. exact fe_from_bytes_ok. Qed.
Lemma C11_to_bytes_stmt : forall a, floadable a ->
  is_bytes 32 (fe_to_bytes a) /\ le_value (fe_to_bytes a) = fval a.
Proof. intros a A. split; [apply fe_to_bytes_bytes|now apply fe_to_bytes_ok]. Qed.
Lemma C11_roundtrip_stmt :
  (forall b, is_bytes 32 b -> fe_to_bytes (fe_from_bytes b) = b) /\
  (forall a, floadable a -> fe_from_bytes (fe_to_bytes a) = a).
Proof. split; [exact fe_to_from_bytes|exact fe_from_to_bytes]. Qed.
Lemma C11_ex : is_bytes 32 (repeat 255 32) /\ le_value (repeat 255 32) = 2 ^ 256 - 1 /\
  fe_from_bytes (repeat 255 32) = max_loadable.
Proof.
  split; [|split; reflexivity]. split; [reflexivity|].
  apply Forall_forall. intros x H. apply repeat_spec in H. subst. split; [discriminate|reflexivity].
Qed.

(** ** C12 *)
Lemma C12_cmp_stmt : forall a b, flimbs a -> flimbs b -> fe_cmp a b = Z.compare (fval a) (fval b).
Proof. exact fe_cmp_ok. Qed.
Lemma C12_is_positive_stmt : forall a, flimbs a ->
  (fe_is_positive a = true <-> fval a <= (p - 1) / 2).
Proof. intros a A. rewrite fe_is_positive_ok by assumption. apply Z.leb_le. Qed.
Lemma C12_one_positive_stmt : forall ck a n, fcanon a -> fval a <> 0 -> fe_neg ck a = Ok n ->
  fe_is_positive n = negb (fe_is_positive a).
Proof.
  intros ck a n A N. assert (N' : fF a <> 0%F) by now rewrite canon_fF_zero.
  rewrite <- (enc_fF a A), fe_neg_F. intros H. injection H as <-.
  rewrite !fe_is_positive_F. now apply fposb_opp.
Qed.
Lemma C12_ex : flimbs max_loadable /\ flimbs FIELD_L /\ fe_cmp max_loadable FIELD_L = Gt /\
  fe_is_positive fe_one = true /\ fcanon fe_one /\ fval fe_one <> 0 /\ fe_neg true fe_one = Ok fe_minus_one.
Proof.
  split; [apply C02_ex|]. split; [exact flimbs_FIELD_L|]. split; [reflexivity|]. split; [reflexivity|].
  split; [exact fcanon_one|]. split; [discriminate|reflexivity].
Qed.

(** ** C13 *)
Lemma C13_eq_stmt : forall a b, floadable a -> floadable b ->
  (fe_eqb a b = true <-> fval a = fval b).
Proof. intros a b A B. rewrite fe_eqb_ok by assumption. apply Z.eqb_eq. Qed.
Lemma C13_eq_mod_stmt : forall a b, fcanon a -> fcanon b ->
  (fe_eqb a b = true <-> fval a mod p = fval b mod p).
Proof.
  intros a b A B. rewrite !canon_small by assumption. apply C13_eq_stmt; now apply fcanon_loadable.
Qed.
(** Documentation: equality modulo p for all representations. *)
Lemma C13_unreduced_refuted_stmt : exists a b, floadable a /\ floadable b /\
  fval a mod p = fval b mod p /\ fe_eqb a b = false.
Proof.
  exists fe_zero, FIELD_L. split; [vm_compute; intuition discriminate|].
  split; [vm_compute; intuition discriminate|]. split; reflexivity.
Qed.
Lemma C13_ex : floadable max_loadable /\ floadable fe_one /\ fe_eqb max_loadable fe_one = false /\
  fcanon fe_one /\ fcanon EDWARDS_D.
Proof.
  split; [apply C02_ex|]. split; [apply fcanon_loadable, fcanon_one|]. split; [reflexivity|].
  split; [exact fcanon_one|apply canon_check; reflexivity].
Qed.

(** ** C14 *)
Lemma C14_from_int_stmt :
  (forall x, 0 <= x < 2 ^ 8 -> fcanon (fe_from_u8 x) /\ fval (fe_from_u8 x) = x) /\
  (forall x, 0 <= x < 2 ^ 16 -> fcanon (fe_from_u16 x) /\ fval (fe_from_u16 x) = x) /\
  (forall x, 0 <= x < 2 ^ 32 -> fcanon (fe_from_u32 x) /\ fval (fe_from_u32 x) = x) /\
  (forall x, 0 <= x < 2 ^ 64 -> fcanon (fe_from_u64 x) /\ fval (fe_from_u64 x) = x) /\
  (forall x, 0 <= x < 2 ^ 128 -> fcanon (fe_from_u128 x) /\ fval (fe_from_u128 x) = x).
Proof.
  split; [intros; apply fe_from_u32_ok; lia|]. split; [intros; apply fe_from_u32_ok; lia|].
  split; [exact fe_from_u32_ok|]. split; [exact fe_from_u64_ok|exact fe_from_u128_ok].
Qed.
Lemma C14_two_pow_k_stmt : forall ck k, 0 <= k ->
  (k <= 252 -> exists r, fe_two_pow_k ck k = Ok r /\ fcanon r /\ fval r = 2 ^ k) /\
  (252 < k -> fe_two_pow_k ck k = Panic).
Proof.
  intros. split; intros; [apply fe_two_pow_k_ok|apply fe_two_pow_k_panic]; lia.
Qed.
Lemma C14_ex :
  fe_from_u128 (2 ^ 128 - 1) = FE 4503599627370495 4503599627370495 16777215 0 0 /\
  fe_from_u64 (2 ^ 64 - 1) = FE 4503599627370495 4095 0 0 0 /\
  fe_two_pow_k true 252 = Ok (FE 0 0 0 0 17592186044416) /\ fe_two_pow_k false 253 = Panic.
Proof. vm_compute. auto. Qed.

(** ** C15 *)
Lemma le_bytes_value_eq b : le_bytes_value b = le_value b.
Proof. induction b as [|x b IH]; cbn; [|rewrite IH]; reflexivity. Qed.
Lemma dalek_order_p : dalek_order = p. Proof. reflexivity. Qed.
Lemma dalek_le_bytes_ok n : forall x, 0 <= x < 256 ^ Z.of_nat n ->
  is_bytes n (dalek_le_bytes n x) /\ le_value (dalek_le_bytes n x) = x.
Proof.
  induction n as [|n IH]; intros x H.
  - cbn in H. split; [split; [reflexivity|constructor]|]. cbn. lia.
  - rewrite Nat2Z.inj_succ, Z.pow_succ_r in H by lia.
    destruct (IH (x / 256)) as [[I1 I2] I3].
    { split; [apply Z.div_pos; lia|]. apply Z.div_lt_upper_bound; lia. }
    cbn [dalek_le_bytes le_value]. split; [split|].
    + cbn. now rewrite I1.
    + constructor; [apply Z.mod_pos_bound; lia|assumption].
    + rewrite I3. pose proof (Z.div_mod x 256). lia.
Qed.
Lemma C15_from_dalek_stmt : forall b, is_bytes 32 b -> le_value b < p ->
  fcanon (fe_from_dalek b) /\ fval (fe_from_dalek b) = le_value b /\
  fe_into_dalek (fe_from_dalek b) = Ok b.
Proof.
  intros b B H. destruct (fe_from_bytes_ok b B) as [[E1 E2] E3]. unfold fe_from_dalek.
  split; [split; [assumption|lia]|]. split; [assumption|].
  unfold fe_into_dalek, dalek_from_canonical_bytes. rewrite le_bytes_value_eq, fe_to_from_bytes by assumption.
  rewrite dalek_order_p. apply Z.ltb_lt in H. rewrite H. reflexivity.
Qed.
Lemma C15_into_dalek_stmt : forall a, floadable a ->
  (fval a < p -> exists b, fe_into_dalek a = Ok b /\ is_bytes 32 b /\ le_value b = fval a /\
     fe_from_dalek b = a) /\
  (p <= fval a -> fe_into_dalek a = Panic).
Proof.
  intros a A. unfold fe_into_dalek, dalek_from_canonical_bytes.
  rewrite le_bytes_value_eq, fe_to_bytes_ok, dalek_order_p by assumption. split; intros H.
  - apply Z.ltb_lt in H. rewrite H. exists (fe_to_bytes a). split; [reflexivity|].
    split; [apply fe_to_bytes_bytes|]. split; [now apply fe_to_bytes_ok|now apply fe_from_to_bytes].
  - apply Z.ltb_ge in H. rewrite H. reflexivity.
Qed.
Lemma C15_ref_into_dalek_stmt : forall a, floadable a ->
  is_bytes 32 (fe_ref_into_dalek a) /\ le_value (fe_ref_into_dalek a) = fval a mod p.
Proof.
  intros a A. unfold fe_ref_into_dalek, dalek_from_bytes_mod_order.
  rewrite le_bytes_value_eq, fe_to_bytes_ok, dalek_order_p by assumption.
  apply dalek_le_bytes_ok. change (256 ^ Z.of_nat 32) with (2 ^ 256).
  assert (0 < p < 2 ^ 256) as [P1 P2] by (split; reflexivity).
  pose proof (Z.mod_pos_bound (fval a) p P1). lia.
Qed.
Lemma C15_ex : is_bytes 32 (fe_to_bytes fe_minus_one) /\ le_value (fe_to_bytes fe_minus_one) < p /\
  floadable fe_minus_one /\ fval fe_minus_one < p /\ floadable max_loadable /\ p <= fval max_loadable.
Proof.
  split; [apply fe_to_bytes_bytes|]. split; [reflexivity|].
  split; [vm_compute; intuition discriminate|]. split; [reflexivity|].
  split; [apply C02_ex|]. vm_compute. discriminate.
Qed.

(** ** C16 *)
Lemma C16_random_stmt : forall draw, is_bytes 32 draw ->
  exists r, fe_random draw = Ok r /\ fcanon r /\ fval r = le_value draw mod 2 ^ 251.
Proof.
  intros b B. pose proof (byte_range 32 b 31 B) as R.
  assert (M : Z.land (byte b 31) 7 = byte b 31 mod 2 ^ 3) by (change 7 with (Z.ones 3); apply Z.land_ones; lia).
  destruct (set_top_ok b (Z.land (byte b 31) 7) B) as (b' & E & B' & V & T).
  { rewrite M. pose proof (Z.mod_pos_bound (byte b 31) (2 ^ 3)). lia. }
  unfold fe_random. rewrite E, bind_ok. exists (fe_from_bytes b'). split; [reflexivity|].
  destruct (fe_from_bytes_ok b' B') as [[E1 E2] E3].
  assert (X : le_value b' = le_value b mod 2 ^ 251).
  { rewrite V, M, T. change (2 ^ 251) with (2 ^ 248 * 2 ^ 3).
    rewrite Z.rem_mul_r by (vm_compute; discriminate || reflexivity). reflexivity. }
  split; [|congruence]. split; [assumption|]. rewrite E3, X.
  apply Z.lt_trans with (2 ^ 251); [apply Z.mod_pos_bound|]; reflexivity.
Qed.
(** Documented as a uniform choice over the field: some elements are never returned. *)
Lemma C16_uniform_refuted_stmt : exists a, fcanon a /\
  forall draw, is_bytes 32 draw -> fe_random draw <> Ok a.
Proof.
  exists fe_minus_one. split; [apply canon_check; reflexivity|].
  intros d D E. destruct (C16_random_stmt d D) as (r & E' & C & V).
  rewrite E' in E. injection E as ->.
  pose proof (Z.mod_pos_bound (le_value d) (2 ^ 251)) as B.
  assert (2 ^ 251 <= fval fe_minus_one) by (vm_compute; discriminate). lia.
Qed.
Lemma C16_ex : is_bytes 32 (repeat 255 32) /\
  fe_random (repeat 255 32)
  = Ok (FE 4503599627370495 4503599627370495 4503599627370495 4503599627370495 8796093022207).
Proof. split; [apply C11_ex|reflexivity]. Qed.
