(** * Statements about the branches of the scalar and point functions: C97 *)

From Coq Require Import ZArith Znumtheory List Bool Lia.
From Verif Require Import Machine FieldModel ScalarModel EdwardsModel TableModel RistrettoModel Spec MachineFacts FieldLimb
  FieldMul FieldOps FieldBytes ScalarLimb ScalarOps ScalarBits ScalarNaf NumTheory Primes Fp FieldF FieldInv FieldStmt Curve CurveGroup
  EdwardsF EdwardsY PointMul RistF GroupCheck GroupStmt BranchModel BranchSpec BranchStmt LeakModel.
Import ListNotations.
Open Scope Z_scope.

(** ** The logging variants return what the functions return *)
Lemma er_sc_cmp a b : snd (sc_cmp_log a b) = Ok (sc_cmp a b).
Proof.
  unfold sc_cmp_log, sc_cmp. cbn [sc_cmp_limbs_log]. rewrite !snd_lbind, snd_ask, bind_ok.
  repeat match goal with
  | |- snd (if ?c then _ else _) = _ => destruct c; [reflexivity|]
  | |- context [snd (lbind _ _)] => rewrite snd_lbind, ?snd_ask, ?bind_ok
  end; reflexivity.
Qed.
Ltac es := repeat first
  [ rewrite snd_lbind | rewrite snd_quiet | rewrite snd_ask | rewrite snd_arm | rewrite snd_lassert
  | rewrite snd_cmp | rewrite er_sc_cmp | rewrite er_is_positive | rewrite bind_ok ].
Lemma bind_assoc {A B C} (x : res A) (f : A -> res B) (g : B -> res C) : bind (bind x f) g = bind x (fun a => bind (f a) g).
Proof. destruct x; reflexivity. Qed.
Lemma er_from_i8 ck x : snd (sc_from_i8_log ck x) = sc_from_i8 ck x.
Proof. reflexivity. Qed.
Lemma er_from_bytes b : snd (sc_from_bytes_log b) = sc_from_bytes b.
Proof. unfold sc_from_bytes_log, sc_from_bytes. cbv zeta. es. reflexivity. Qed.
Lemma er_two_pow_k ck e : snd (sc_two_pow_k_log ck e) = sc_two_pow_k ck e.
Proof. unfold sc_two_pow_k_log. es. unfold sc_two_pow_k. destruct (e <? 250); reflexivity. Qed.
Lemma er_sc_pow ck : forall n b r e, snd (sc_pow_loop_log n ck b r e) = sc_pow_loop n ck b r e.
Proof.
  induction n as [|n IH]; intros b r e; [reflexivity|]. cbn [sc_pow_loop_log sc_pow_loop]. es.
  destruct (is_gt _); [|reflexivity]. es. destruct (sc_is_even e).
  - cbv zeta. es. apply bind_ext. intros. apply IH.
  - es. apply bind_ext. intros. es. apply bind_ext. intros. es. apply bind_ext. intros. es. apply bind_ext. intros. apply IH.
Qed.
Lemma er_mods ck a w : snd (sc_mods_2_pow_k_log ck a w) = sc_mods_2_pow_k ck a w.
Proof.
  unfold sc_mods_2_pow_k_log, sc_mods_2_pow_k. es. apply bind_ext. intros _. es. apply bind_ext. intros m. es. cbv zeta.
  apply bind_ext. intros w1. es. apply bind_ext. intros t. es. destruct (t <=? as_i8 m); reflexivity.
Qed.
Lemma er_naf_loop ck : forall n k i arr, snd (sc_naf_loop_log n ck k i arr) = sc_naf_loop n ck k i arr.
Proof.
  induction n as [|n IH]; intros k i arr; [reflexivity|]. cbn [sc_naf_loop_log sc_naf_loop]. es.
  destruct (is_ge _); [|reflexivity]. es. destruct (negb (sc_is_even k)).
  - es. rewrite bind_assoc. apply bind_ext. intros m. es. rewrite bind_assoc. apply bind_ext. intros ki. es.
    rewrite bind_assoc. apply bind_ext. intros a. es. rewrite er_from_i8, bind_assoc. apply bind_ext. intros d. es.
    rewrite bind_assoc. apply bind_ext. intros k'. rewrite bind_ok. apply IH.
  - es. rewrite bind_assoc. apply bind_ext. intros a. rewrite bind_ok. apply IH.
Qed.
Lemma er_wnaf_loop ck w : forall n k i arr, snd (sc_wnaf_loop_log n ck w k i arr) = sc_wnaf_loop n ck w k i arr.
Proof.
  induction n as [|n IH]; intros k i arr; [reflexivity|]. cbn [sc_wnaf_loop_log sc_wnaf_loop]. es.
  destruct (is_ge _); [|reflexivity]. es. destruct (negb (sc_is_even k)).
  - es. rewrite er_mods, bind_assoc. apply bind_ext. intros ki. es.
    rewrite bind_assoc. apply bind_ext. intros a. es. rewrite er_from_i8, bind_assoc. apply bind_ext. intros d. es.
    rewrite bind_assoc. apply bind_ext. intros k'. rewrite bind_ok. apply IH.
  - es. rewrite bind_assoc. apply bind_ext. intros a. rewrite bind_ok. apply IH.
Qed.
Lemma er_da {T} (add : T -> T -> res T) double : forall n N s Q,
  snd (double_and_add_loop_log add double n N s Q) = double_and_add_loop add double n N s Q.
Proof.
  induction n as [|n IH]; intros N s Q; [reflexivity|]. cbn [double_and_add_loop_log double_and_add_loop]. es.
  destruct (negb (sc_eqb s sc_zero)); [|reflexivity]. es. apply bind_ext. intros Q'. es. apply bind_ext. intros N'. apply IH.
Qed.
Lemma er_ltr {T} (add : T -> T -> res T) double P bits : forall i Q,
  snd (ltr_bin_mul_loop_log add double P bits i Q) = ltr_bin_mul_loop add double P bits i Q.
Proof.
  induction i as [|i IH]; intros Q; [reflexivity|]. cbn [ltr_bin_mul_loop_log ltr_bin_mul_loop]. es. apply bind_ext. intros Q'.
  es. apply bind_ext. intros b. es. apply bind_ext. intros Q''. apply IH.
Qed.
Lemma er_bnaf_loop {T} (add sub : T -> T -> res T) double P naf : forall i Q,
  snd (binary_naf_mul_loop_log add sub double P naf i Q) = binary_naf_mul_loop add sub double P naf i Q.
Proof.
  induction i as [|i IH]; intros Q; [reflexivity|]. cbn [binary_naf_mul_loop_log binary_naf_mul_loop]. es. apply bind_ext. intros Q'.
  es. apply bind_ext. intros k. es. destruct (k =? 1); [|destruct (k =? -1)]; cbn [Z.eqb Pos.eqb]; apply bind_ext; intros Q''; apply IH.
Qed.
Lemma er_bnaf {T} ck (add sub : T -> T -> res T) double id P s :
  snd (binary_naf_mul_log ck add sub double id P s) = binary_naf_mul ck add sub double id P s.
Proof.
  unfold binary_naf_mul_log, binary_naf_mul, sc_compute_NAF_log, sc_compute_NAF. es. rewrite er_naf_loop. apply bind_ext. intros.
  apply er_bnaf_loop.
Qed.
Lemma er_window_loop ck wnaf : forall i Q, snd (window_naf_mul_loop_log ck wnaf i Q) = window_naf_mul_loop ck wnaf i Q.
Proof.
  induction i as [|i IH]; intros Q; [reflexivity|]. cbn [window_naf_mul_loop_log window_naf_mul_loop]. es. apply bind_ext. intros Q'.
  es. apply bind_ext. intros k. es. destruct (k =? 0); [|destruct (0 <? k)]; cbn [Z.eqb Pos.eqb]; apply bind_ext; intros Q''; apply IH.
Qed.
Lemma er_window ck s w : snd (window_naf_mul_log ck s w) = window_naf_mul ck s w.
Proof.
  unfold window_naf_mul_log, window_naf_mul, sc_compute_window_NAF_log, sc_compute_window_NAF. es. rewrite er_wnaf_loop. apply bind_ext. intros.
  apply er_window_loop.
Qed.
Lemma er_apt ck P : snd (apt_of_ept_log ck P) = apt_of_ept ck P.
Proof. unfold apt_of_ept_log, apt_of_ept. es. rewrite er_inverse. apply bind_ext. intros. es. apply bind_ext. intros. es. reflexivity. Qed.
Lemma er_appt ck P : snd (apt_of_ppt_log ck P) = apt_of_ppt ck P.
Proof. unfold apt_of_ppt_log, apt_of_ppt. es. rewrite er_inverse. apply bind_ext. intros. es. apply bind_ext. intros. es. reflexivity. Qed.
Lemma er_ept_eqb ck P Q : snd (ept_eqb_log ck P Q) = ept_eqb ck P Q.
Proof. unfold ept_eqb_log, ept_eqb. es. rewrite er_apt. apply bind_ext. intros. es. rewrite er_apt. reflexivity. Qed.
Lemma er_ppt_eqb ck P Q : snd (ppt_eqb_log ck P Q) = ppt_eqb ck P Q.
Proof. unfold ppt_eqb_log, ppt_eqb. es. rewrite er_appt. apply bind_ext. intros. es. rewrite er_appt. reflexivity. Qed.
Ltac ebind := repeat (es; apply bind_ext; intros ?).
Lemma er_find_xx ck y : snd (find_xx_log ck y) = find_xx ck y.
Proof. unfold find_xx_log, find_xx. ebind. apply er_div_val. Qed.
Lemma er_new_y ck y s : snd (ppt_new_from_y_coord_log ck y s) = ppt_new_from_y_coord ck y s.
Proof.
  unfold ppt_new_from_y_coord_log, ppt_new_from_y_coord. do 5 (es; apply bind_ext; intros ?). es. rewrite er_div_val. apply bind_ext. intros xx.
  es. rewrite er_mod_sqrt. apply bind_ext. intros o. es. destruct o; reflexivity.
Qed.
Lemma er_new_e ck y s : snd (ept_new_from_y_coord_log ck y s) = ept_new_from_y_coord ck y s.
Proof. unfold ept_new_from_y_coord_log, ept_new_from_y_coord. es. rewrite er_new_y. apply bind_ext. intros o. es. destruct o; reflexivity. Qed.
Lemma er_decompress ck b : snd (cey_decompress_log ck b) = cey_decompress ck b.
Proof. unfold cey_decompress_log, cey_decompress. cbv zeta. es. apply bind_ext. intros y. apply er_new_e. Qed.
Lemma er_compress ck P : snd (ept_compress_log ck P) = ept_compress ck P.
Proof.
  unfold ept_compress_log, ept_compress. es. rewrite er_apt. apply bind_ext. intros a. es. rewrite er_find_xx. apply bind_ext. intros x.
  es. rewrite er_mod_sqrt. apply bind_ext. intros o. es. apply bind_ext. intros r. es. cbv zeta. es. reflexivity.
Qed.
Lemma er_inv_sqrt ck a : snd (fe_inv_sqrt_log ck a) = fe_inv_sqrt ck a.
Proof. apply er_sqrt_ratio. Qed.
Lemma er_cr_decompress ck b : snd (cr_decompress_log ck b) = cr_decompress ck b.
Proof.
  unfold cr_decompress_log, cr_decompress. cbv zeta. es. destruct (fe_is_positive (fe_from_bytes b)); cbn [negb orb]; [|reflexivity].
  es. destruct (bytes_eqb _ b); cbn [negb]; [|reflexivity]. do 10 (es; apply bind_ext; intros ?). es. rewrite er_inv_sqrt. apply bind_ext.
  intros [ok i]. es. cbn [fst snd]. destruct ok; cbn [negb]; [|reflexivity]. do 8 (es; apply bind_ext; intros ?). es.
  match goal with |- context [fe_is_positive ?t] => destruct (fe_is_positive t) end; cbn [negb orb]; [|reflexivity]. es.
  match goal with |- context [fe_eqb ?t fe_zero] => destruct (fe_eqb t fe_zero) end; reflexivity.
Qed.
Lemma er_rp_compress ck P : snd (rp_compress_log ck P) = rp_compress ck P.
Proof.
  unfold rp_compress_log, rp_compress. do 6 (es; apply bind_ext; intros ?). es. rewrite er_inv_sqrt. apply bind_ext.
  intros [ok i]. cbn [fst snd]. do 5 (es; apply bind_ext; intros ?). es. apply bind_ext. intros [[x y] D]. cbn [fst snd].
  do 5 (es; apply bind_ext; intros ?). es. reflexivity.
Qed.
Lemma er_elligator ck r : snd (rp_elligator_log ck r) = rp_elligator ck r.
Proof.
  unfold rp_elligator_log, rp_elligator. cbv zeta. do 11 (es; apply bind_ext; intros ?). es. rewrite er_sqrt_ratio. apply bind_ext.
  intros [q s]. cbn [fst snd]. do 18 (es; apply bind_ext; intros ?). es. reflexivity.
Qed.

(** ** C97 *)
(** The logging variants return what the functions of the model return, for all inputs. *)
Lemma C97_result_stmt : forall ck a e b w P Q R S z y s,
  result_of (sc_cmp_log a e) = Ok (sc_cmp a e) /\
  result_of (sc_from_i8_log ck z) = sc_from_i8 ck z /\
  result_of (sc_from_bytes_log b) = sc_from_bytes b /\
  result_of (sc_two_pow_k_log ck z) = sc_two_pow_k ck z /\
  result_of (sc_pow_log ck a e) = sc_pow ck a e /\
  result_of (sc_mods_2_pow_k_log ck a w) = sc_mods_2_pow_k ck a w /\
  result_of (sc_compute_NAF_log ck a) = sc_compute_NAF ck a /\
  result_of (sc_compute_window_NAF_log ck a w) = sc_compute_window_NAF ck a w /\
  result_of (ept_mul_log ck P a) = ept_mul ck P a /\
  result_of (ppt_mul_log ck R a) = ppt_mul ck R a /\
  result_of (rp_mul_log ck P a) = rp_mul ck P a /\
  result_of (window_naf_mul_log ck a w) = window_naf_mul ck a w /\
  result_of (ept_eqb_log ck P Q) = ept_eqb ck P Q /\
  result_of (ppt_eqb_log ck R S) = ppt_eqb ck R S /\
  result_of (ept_compress_log ck P) = ept_compress ck P /\
  result_of (ept_new_from_y_coord_log ck y s) = ept_new_from_y_coord ck y s /\
  result_of (cey_decompress_log ck b) = cey_decompress ck b /\
  result_of (rp_compress_log ck P) = rp_compress ck P /\
  result_of (cr_decompress_log ck b) = cr_decompress ck b /\
  result_of (rp_elligator_log ck y) = rp_elligator ck y.
Proof.
  intros. unfold result_of.
  split; [apply er_sc_cmp|].
  split; [apply er_from_i8|].
  split; [apply er_from_bytes|].
  split; [apply er_two_pow_k|].
  split; [apply er_sc_pow|].
  split; [apply er_mods|].
  split; [apply er_naf_loop|].
  split; [apply er_wnaf_loop|].
  split; [apply er_da|].
  split; [apply er_da|].
  split; [apply er_da|].
  split; [apply er_window|].
  split; [apply er_ept_eqb|].
  split; [apply er_ppt_eqb|].
  split; [apply er_compress|].
  split; [apply er_new_e|].
  split; [apply er_decompress|].
  split; [apply er_rp_compress|].
  split; [apply er_cr_decompress|].
  apply er_elligator.
Qed.
(** The same for the multiplications that are generic in the point type. *)
Lemma C97_generic_stmt : forall (T : Type) ck (add sub : T -> T -> res T) (double : T -> res T) (identity P : T) (a : sc),
  result_of (double_and_add_log add double identity P a) = double_and_add add double identity P a /\
  result_of (ltr_bin_mul_log add double identity P a) = ltr_bin_mul add double identity P a /\
  result_of (binary_naf_mul_log ck add sub double identity P a) = binary_naf_mul ck add sub double identity P a.
Proof. intros. split; [apply er_da|]. split; [apply er_ltr|apply er_bnaf]. Qed.

(** *** Double and add *)
Fixpoint da_log (n : nat) (z : Z) : list branch :=
  match n with
  | O => []
  | S n => Br 20111 (Z.b2z (negb (z =? 0))) :: (if z =? 0 then [] else Br 20112 (Z.b2z (negb (Z.even z))) :: da_log n (z / 2))
  end.
Lemma da_log_inj : forall n n' z z', 0 <= z < 2 ^ Z.of_nat n -> 0 <= z' < 2 ^ Z.of_nat n' -> (n < n' \/ n = n' \/ n' < n)%nat ->
  da_log (S n) z = da_log (S n') z' -> z = z'.
Proof.
  induction n as [|n IH]; intros n' z z' H H' _ E.
  - change (2 ^ Z.of_nat 0) with 1 in H. assert (z = 0) by lia. subst z. cbn [da_log] in E.
    destruct (Z.eqb_spec z' 0) as [E0|N]; [lia|]. discriminate E.
  - remember (S n) as m. cbn [da_log] in E. destruct (Z.eqb_spec z 0) as [E0|N], (Z.eqb_spec z' 0) as [E0'|N']; try discriminate E; [lia|].
    cbn [negb Z.b2z] in E. injection E as E1 E2. subst m. rewrite pow2_S in H.
    destruct n' as [|n']; [change (2 ^ Z.of_nat 0) with 1 in H'; lia|]. rewrite pow2_S in H'.
    assert (Q : z / 2 = z' / 2).
    { apply (IH n'); [| |lia|exact E2]; split; try (apply Z.div_pos; lia); apply Z.div_lt_upper_bound; lia. }
    pose proof (Z.div_mod z 2 ltac:(lia)) as D. pose proof (Z.div_mod z' 2 ltac:(lia)) as D'.
    rewrite !Zmod_even in D, D'. destruct (Z.even z), (Z.even z'); try discriminate; lia.
Qed.
Section Mul.
Context {T : Type} (good : T -> Prop) (add : T -> T -> res T) (double : T -> res T).
Hypothesis Hadd : forall P Q, good P -> good Q -> exists R, add P Q = Ok R /\ good R.
Hypothesis Hdbl : forall P, good P -> exists R, double P = Ok R /\ good R.
Lemma da_log_ok : forall n N s Q, good N -> good Q -> sloadable s ->
  fst (double_and_add_loop_log add double n N s Q) = da_log n (sval s).
Proof.
  induction n as [|n IH]; intros N s Q GN GQ Hs; [reflexivity|]. cbn [double_and_add_loop_log da_log]. rewrite fst_ask.
  rewrite sc_eqb_ok by (assumption || apply scanon_loadable, scanon_zero). rewrite sval_zero. apply f_equal.
  destruct (Z.eqb_spec (sval s) 0) as [E|N0]; [reflexivity|]. cbn [negb]. rewrite fst_ask, sc_is_even_ok. apply f_equal.
  assert (G : exists Q', (if negb (Z.even (sval s)) then add Q N else Ok Q) = Ok Q' /\ good Q').
  { destruct (negb _); [apply Hadd; assumption|exists Q; auto]. }
  destruct G as (Q' & -> & GQ'). destruct (Hdbl N GN) as (N' & EN & GN'). rewrite fst_quiet, EN, fst_quiet.
  destruct (sc_half_without_mod_ok s (proj1 Hs)) as [HL HV]. rewrite IH, HV; [reflexivity|exact GN'|exact GQ'|].
  split; [exact HL|]. rewrite HV. destruct Hs as [Hl Hs]. pose proof (sval_nonneg s Hl).
  apply Z.le_lt_trans with (sval s); [apply Z.div_le_upper_bound; lia|exact Hs].
Qed.
(** *** Left to right *)
Fixpoint bits_log (i : nat) (z : Z) : list branch :=
  match i with O => [] | S i => Br 20131 (Z.b2z (Z.testbit z (Z.of_nat i))) :: bits_log i z end.
Lemma ltr_log_ok P z bits : good P -> (forall i, (i < 256)%nat -> nth_error bits i = Some (Z.b2z (Z.testbit z (Z.of_nat i)))) ->
  forall i Q, (i <= 256)%nat -> good Q -> fst (ltr_bin_mul_loop_log add double P bits i Q) = bits_log i z.
Proof.
  intros GP B. induction i as [|i IH]; intros Q Hi GQ; [reflexivity|]. cbn [ltr_bin_mul_loop_log bits_log].
  destruct (Hdbl Q GQ) as (Q1 & -> & G1). rewrite fst_quiet, B by lia. cbn [unwrap]. rewrite fst_quiet, fst_ask.
  assert (E : (Z.b2z (Z.testbit z (Z.of_nat i)) =? 1) = Z.testbit z (Z.of_nat i)) by (destruct (Z.testbit z (Z.of_nat i)); reflexivity).
  rewrite E. apply f_equal.
  assert (G : exists Q', (if Z.testbit z (Z.of_nat i) then add Q1 P else Ok Q1) = Ok Q' /\ good Q').
  { destruct (Z.testbit z (Z.of_nat i)); [apply Hadd; assumption|exists Q1; auto]. }
  destruct G as (Q' & -> & GQ'). rewrite fst_quiet. apply IH; [lia|exact GQ'].
Qed.
(** *** Signed digits *)
Context (sub : T -> T -> res T).
Hypothesis Hsub : forall P Q, good P -> good Q -> exists R, sub P Q = Ok R /\ good R.
Fixpoint digits_log (i : nat) (ds : list Z) : list branch :=
  match i with O => [] | S i => Br 20146 (if nth i ds 0 =? 1 then 0 else if nth i ds 0 =? -1 then 1 else 2) :: digits_log i ds end.
Lemma bnaf_log_ok P ds : good P -> (length ds <= 250)%nat -> forall i Q, (i <= 250)%nat -> good Q ->
  fst (binary_naf_mul_loop_log add sub double P (pad256 ds) i Q) = digits_log i ds.
Proof.
  intros GP Hl. induction i as [|i IH]; intros Q Hi GQ; [reflexivity|]. cbn [binary_naf_mul_loop_log digits_log].
  destruct (Hdbl Q GQ) as (Q1 & -> & G1). rewrite fst_quiet, nth_error_pad by lia. cbn [unwrap]. rewrite fst_quiet, fst_arm. apply f_equal.
  set (a := if nth i ds 0 =? 1 then 0 else if nth i ds 0 =? -1 then 1 else 2). clearbody a.
  assert (G : exists Q', (if a =? 0 then add Q1 P else if a =? 1 then sub Q1 P else Ok Q1) = Ok Q' /\ good Q').
  { destruct (a =? 0); [apply Hadd; assumption|]. destruct (a =? 1); [apply Hsub; assumption|exists Q1; auto]. }
  destruct G as (Q' & -> & GQ'). rewrite fst_quiet. apply IH; [lia|exact GQ'].
Qed.
End Mul.

(** *** Points with reduced coordinates *)
Lemma red_ext_enc X Y Z T : reduced_ext (EPF X Y Z T).
Proof. unfold reduced_ext, EPF. cbn [eX eY eZ eT]. refine (conj _ (conj _ (conj _ _))); apply enc_c. Qed.
Lemma red_proj_enc X Y Z : reduced_proj (PPF X Y Z).
Proof. unfold reduced_proj, PPF. cbn [pX pY pZ]. refine (conj _ (conj _ _)); apply enc_c. Qed.
Lemma red_add ck P Q : reduced_ext P -> reduced_ext Q -> exists R, ept_add ck P Q = Ok R /\ reduced_ext R.
Proof.
  intros (P1 & P2 & P3 & P4) (Q1 & Q2 & Q3 & Q4). rewrite (ept_canon_enc P), (ept_canon_enc Q) by assumption.
  rewrite ept_add_enc. eexists. split; [reflexivity|apply red_ext_enc].
Qed.
Lemma red_sub ck P Q : reduced_ext P -> reduced_ext Q -> exists R, ept_sub ck P Q = Ok R /\ reduced_ext R.
Proof.
  intros (P1 & P2 & P3 & P4) (Q1 & Q2 & Q3 & Q4). rewrite (ept_canon_enc P), (ept_canon_enc Q) by assumption.
  rewrite ept_sub_enc. eexists. split; [reflexivity|apply red_ext_enc].
Qed.
Lemma red_double ck P : reduced_ext P -> exists R, ept_double ck P = Ok R /\ reduced_ext R.
Proof. intros H. apply red_add; exact H. Qed.
Lemma redp_add ck P Q : reduced_proj P -> reduced_proj Q -> exists R, ppt_add ck P Q = Ok R /\ reduced_proj R.
Proof.
  intros (P1 & P2 & P3) (Q1 & Q2 & Q3). rewrite (ppt_canon_enc P), (ppt_canon_enc Q) by assumption.
  rewrite ppt_add_enc. eexists. split; [reflexivity|apply red_proj_enc].
Qed.
Lemma redp_sub ck P Q : reduced_proj P -> reduced_proj Q -> exists R, ppt_sub ck P Q = Ok R /\ reduced_proj R.
Proof.
  intros (P1 & P2 & P3) (Q1 & Q2 & Q3). rewrite (ppt_canon_enc P), (ppt_canon_enc Q) by assumption.
  rewrite ppt_sub_enc, ppt_add_enc. eexists. split; [reflexivity|apply red_proj_enc].
Qed.
Lemma redp_double ck P : reduced_proj P -> exists R, ppt_double ck P = Ok R /\ reduced_proj R.
Proof.
  intros (P1 & P2 & P3). rewrite (ppt_canon_enc P) by assumption.
  rewrite ppt_double_enc. eexists. split; [reflexivity|apply red_proj_enc].
Qed.
Lemma red_id : reduced_ext ept_identity.
Proof. unfold reduced_ext, ept_identity. cbn [eX eY eZ eT]. refine (conj _ (conj _ (conj _ _))); first [apply fcanon_zero|apply fcanon_one]. Qed.
Lemma redp_id : reduced_proj ppt_identity.
Proof. unfold reduced_proj, ppt_identity. cbn [pX pY pZ]. refine (conj _ (conj _ _)); first [apply fcanon_zero|apply fcanon_one]. Qed.
Lemma fuel_S : loop_fuel = S 599. Proof. reflexivity. Qed.
Lemma da_iff a a' : sloadable a -> sloadable a' -> (da_log loop_fuel (sval a) = da_log loop_fuel (sval a') <-> a = a').
Proof.
  intros A A'. split; [|intros ->; reflexivity]. intros H. apply sval_inj; [apply A|apply A'|].
  assert (B : forall x, sloadable x -> 0 <= sval x < 2 ^ Z.of_nat 599).
  { intros x [X X']. split; [apply sval_nonneg, X|]. apply Z.lt_le_trans with (2 ^ 256); [exact X'|].
    apply Z.pow_le_mono_r; lia. }
  rewrite fuel_S in H. apply (da_log_inj 599 599); auto.
Qed.
(** The branches of the multiplication used by the operator `*` determine the scalar: two calls
    log the same branches if and only if the scalars are the same, whatever the points (with
    reduced coordinates, on the curve or not) and the build profiles. *)
Lemma C97_mul_stmt : forall ck ck' P P' R R' a a', reduced_ext P -> reduced_ext P' -> reduced_proj R -> reduced_proj R' ->
  sloadable a -> sloadable a' ->
  (log_of (ept_mul_log ck P a) = log_of (ept_mul_log ck' P' a') <-> a = a') /\
  (log_of (ppt_mul_log ck R a) = log_of (ppt_mul_log ck' R' a') <-> a = a') /\
  (log_of (rp_mul_log ck P a) = log_of (rp_mul_log ck' P' a') <-> a = a').
Proof.
  intros ck ck' P P' R R' a a' HP HP' HR HR' A A'. unfold log_of, ept_mul_log, ppt_mul_log, rp_mul_log, double_and_add_log.
  rewrite !(da_log_ok reduced_ext (ept_add _) (ept_double _)) by (auto using red_add, red_double, red_id).
  rewrite !(da_log_ok reduced_proj (ppt_add _) (ppt_double _)) by (auto using redp_add, redp_double, redp_id).
  split; [|split]; apply da_iff; assumption.
Qed.

(** *** Left to right *)
Lemma bits_log_inj z z' : forall i, bits_log i z = bits_log i z' <-> z mod 2 ^ Z.of_nat i = z' mod 2 ^ Z.of_nat i.
Proof.
  intros i. split.
  - intros E. apply Z.bits_inj'. intros n Hn. destruct (Z.lt_ge_cases n (Z.of_nat i)) as [B|B].
    2:{ rewrite !Z.mod_pow2_bits_high by lia. reflexivity. }
    rewrite !Z.mod_pow2_bits_low by lia. revert E B. induction i as [|i IH]; intros E B; [lia|]. cbn [bits_log] in E.
    injection E as E1 E2. destruct (Z.eq_dec n (Z.of_nat i)) as [->|N]; [|apply IH; [exact E2|lia]].
    destruct (Z.testbit z (Z.of_nat i)), (Z.testbit z' (Z.of_nat i)); try discriminate; reflexivity.
  - intros E. assert (B : forall n, 0 <= n < Z.of_nat i -> Z.testbit z n = Z.testbit z' n).
    { intros n Hn. rewrite <- (Z.mod_pow2_bits_low z (Z.of_nat i)), <- (Z.mod_pow2_bits_low z' (Z.of_nat i)), E by lia. reflexivity. }
    clear E. induction i as [|i IH]; [reflexivity|]. cbn [bits_log]. rewrite B by lia. apply f_equal, IH. intros n Hn. apply B. lia.
Qed.
Section Generic.
Context {T : Type} (good : T -> Prop) (add sub : bool -> T -> T -> res T) (double : bool -> T -> res T) (identity : T).
Definition total1 (f : bool -> T -> res T) : Prop := forall ck P, good P -> exists R, f ck P = Ok R /\ good R.
Definition total2 (f : bool -> T -> T -> res T) : Prop := forall ck P Q, good P -> good Q -> exists R, f ck P Q = Ok R /\ good R.
Hypotheses (Hid : good identity) (Hadd : total2 add) (Hsub : total2 sub) (Hdbl : total1 double).
Lemma ltr_iff ck ck' P P' a a' : good P -> good P' -> sloadable a -> sloadable a' ->
  (fst (ltr_bin_mul_log (add ck) (double ck) identity P a) = fst (ltr_bin_mul_log (add ck') (double ck') identity P' a') <->
   sval a mod 2 ^ 249 = sval a' mod 2 ^ 249).
Proof.
  intros G G' A A'. unfold ltr_bin_mul_log.
  rewrite (ltr_log_ok good (add ck) (double ck)) with (z := sval a);
    [|apply Hadd|apply Hdbl|exact G|intros; apply into_bits_nth_error; assumption|lia|exact Hid].
  rewrite (ltr_log_ok good (add ck') (double ck')) with (z := sval a');
    [|apply Hadd|apply Hdbl|exact G'|intros; apply into_bits_nth_error; assumption|lia|exact Hid].
  apply (bits_log_inj (sval a) (sval a') 249).
Qed.
End Generic.
(** The branches of `ltr_bin_mul` determine the 249 low bits of the scalar and nothing else. *)
Lemma C97_ltr_stmt : forall ck ck' P P' R R' a a', reduced_ext P -> reduced_ext P' -> reduced_proj R -> reduced_proj R' ->
  sloadable a -> sloadable a' ->
  (log_of (ltr_bin_mul_log (ept_add ck) (ept_double ck) ept_identity P a) =
   log_of (ltr_bin_mul_log (ept_add ck') (ept_double ck') ept_identity P' a') <-> sval a mod 2 ^ 249 = sval a' mod 2 ^ 249) /\
  (log_of (ltr_bin_mul_log (ppt_add ck) (ppt_double ck) ppt_identity R a) =
   log_of (ltr_bin_mul_log (ppt_add ck') (ppt_double ck') ppt_identity R' a') <-> sval a mod 2 ^ 249 = sval a' mod 2 ^ 249).
Proof.
  intros ck ck' P P' R R' a a' HP HP' HR HR' A A'. split.
  - apply (ltr_iff reduced_ext ept_add ept_double ept_identity red_id red_add red_double); assumption.
  - apply (ltr_iff reduced_proj ppt_add ppt_double ppt_identity redp_id redp_add redp_double); assumption.
Qed.

(** *** Recodings *)
Lemma at_sc_cmp n a b : n <> 10057 -> n <> 10059 -> at_line n (fst (sc_cmp_log a b)) = [].
Proof.
  intros N1 N2. unfold sc_cmp_log.
  generalize [(s4 a, s4 b); (s3 a, s3 b); (s2 a, s2 b); (s1 a, s1 b); (s0 a, s0 b)] as l.
  induction l as [|[x y] l IH]; [reflexivity|]. cbn [sc_cmp_limbs_log]. rewrite fst_ask, at_cons.
  destruct (Z.eqb_spec 10057 n); [congruence|]. destruct (y <? x); [reflexivity|]. rewrite fst_ask, at_cons.
  destruct (Z.eqb_spec 10059 n); [congruence|]. destruct (x <? y); [reflexivity|]. exact IH.
Qed.
Lemma fst_sc_cmp {B} a b (f : comparison -> lres B) :
  fst (lbind (sc_cmp_log a b) f) = fst (sc_cmp_log a b) ++ fst (f (sc_cmp a b)).
Proof. apply fst_lbind, er_sc_cmp. Qed.
Lemma fst_from_i8 {B} ck x d (f : sc -> lres B) : sc_from_i8 ck x = Ok d ->
  fst (lbind (sc_from_i8_log ck x) f) = Br 10073 (if 0 <=? x then 0 else 1) :: fst (f d).
Proof. intros E. rewrite (fst_lbind _ _ d); [reflexivity|]. rewrite er_from_i8. exact E. Qed.
Lemma fst_mods {B} ck k w (f : Z -> lres B) : slimbs k -> 2 <= w <= 6 ->
  fst (lbind (sc_mods_2_pow_k_log ck k w) f) =
  Br 10434 1 :: Br 10438 (if smods (sval k) w <? 0 then 1 else 0) :: fst (f (smods (sval k) w)).
Proof.
  intros K W. assert (E : sc_mods_2_pow_k ck k w = Ok (smods (sval k) w)) by (apply sc_mods_2_pow_k_ok; [lia|exact K]).
  rewrite (fst_lbind _ _ (smods (sval k) w)) by (rewrite er_mods; exact E).
  enough (X : fst (sc_mods_2_pow_k_log ck k w) = [Br 10434 1; Br 10438 (if smods (sval k) w <? 0 then 1 else 0)]) by (rewrite X; reflexivity).
  clear E. unfold sc_mods_2_pow_k_log.
  destruct (Z.ltb_spec w 32) as [_|X]; [|lia]. rewrite fst_assert, sc_mod_2_pow_k_ok, fst_quiet by (assumption || lia).
  apply f_equal. rewrite smods_case by lia. pose proof (Z.mod_pos_bound (sval k) (2 ^ w)) as M.
  assert (WW : w = 2 \/ w = 3 \/ w = 4 \/ w = 5 \/ w = 6) by lia.
  assert (U : usub ck W8 w 1 = Ok (w - 1)) by (destruct WW as [->|[->|[->|[->| ->]]]]; destruct ck; reflexivity).
  assert (S8 : i8shl ck 1 (w - 1) = Ok (2 ^ (w - 1))) by (destruct WW as [->|[->|[->|[->| ->]]]]; destruct ck; reflexivity).
  assert (P : 2 ^ w <= 64 /\ 0 < 2 ^ w) by (destruct WW as [->|[->|[->|[->| ->]]]]; cbn; lia).
  assert (A8 : as_i8 (sval k mod 2 ^ w) = sval k mod 2 ^ w).
  { unfold as_i8. destruct P as [P1 P2]. specialize (M P2). clear - M P1. unfold W8. rewrite ?Z.mod_small by lia.
    repeat match goal with |- context [if ?c then _ else _] => destruct c eqn:? end; lia. }
  rewrite U, fst_quiet, S8, fst_quiet, fst_arm, A8. destruct P as [P1 P2]. specialize (M P2).
  destruct (Z.leb_spec (2 ^ (w - 1)) (sval k mod 2 ^ w)) as [X|X].
  - destruct (Z.ltb_spec (sval k mod 2 ^ w - 2 ^ w) 0) as [_|Y]; [|lia]. reflexivity.
  - destruct (Z.ltb_spec (sval k mod 2 ^ w) 0) as [Y|_]; [lia|]. reflexivity.
Qed.

(** *** The binary recoding *)
Definition dig (z : Z) : Z := if Z.even z then 0 else if z mod 4 =? 3 then -1 else 1.
Lemma dig_smods z : Z.even z = false -> smods z 2 = dig z.
Proof.
  intros E. unfold dig. rewrite E, smods_case by lia. change (2 ^ (2 - 1)) with 2. change (2 ^ 2) with 4.
  assert (C : z mod 4 = 1 \/ z mod 4 = 3).
  { pose proof (Zmod_even z) as M. rewrite E in M. lia. }
  destruct C as [-> | ->]; reflexivity.
Qed.
Lemma dig_half z : z = dig z + 2 * ((z - dig z) / 2).
Proof.
  unfold dig. destruct (Z.even z) eqn:E; pose proof (Zmod_even z) as M; rewrite E in M; [lia|].
  destruct (Z.eqb_spec (z mod 4) 3); lia.
Qed.
Lemma dig_range z : -1 <= dig z <= 1.
Proof. unfold dig. destruct (Z.even z); [lia|]. destruct (z mod 4 =? 3); lia. Qed.
Fixpoint naf_par (n : nat) (z : Z) : list Z :=
  match n with O => [] | S n => if z <=? 0 then [] else Z.b2z (negb (Z.even z)) :: naf_par n ((z - dig z) / 2) end.
Fixpoint naf_sgn (n : nat) (z : Z) : list Z :=
  match n with
  | O => []
  | S n => if z <=? 0 then [] else
      (if Z.even z then [] else [if 0 <=? dig z then 0 else 1]) ++ naf_sgn n ((z - dig z) / 2)
  end.
Lemma naf_bound z m : 0 < z <= 2 ^ Z.of_nat (S m) -> 0 <= (z - dig z) / 2 <= 2 ^ Z.of_nat m.
Proof.
  intros H. rewrite pow2_S in H. pose proof (dig_half z) as D. pose proof (dig_range z). lia.
Qed.
Lemma naf_inj : forall m n z z', 0 <= z <= 2 ^ Z.of_nat m -> 0 <= z' <= 2 ^ Z.of_nat m -> (m + 2 <= n)%nat ->
  naf_par n z = naf_par n z' -> naf_sgn n z = naf_sgn n z' -> z = z'.
Proof.
  induction m as [|m IH]; intros n z z' H H' N E1 E2.
  - change (2 ^ Z.of_nat 0) with 1 in H, H'. destruct n as [|n]; [lia|]. cbn [naf_par] in E1.
    destruct (Z.leb_spec z 0), (Z.leb_spec z' 0); try discriminate; lia.
  - destruct n as [|n]; [lia|]. cbn [naf_par naf_sgn] in E1, E2.
    destruct (Z.leb_spec z 0) as [Z0|Z0], (Z.leb_spec z' 0) as [Z1|Z1]; try discriminate; [lia|].
    injection E1 as E0 E1.
    assert (Q : dig z = dig z' /\ naf_sgn n ((z - dig z) / 2) = naf_sgn n ((z' - dig z') / 2)).
    { unfold dig in E2 |- *. destruct (Z.even z), (Z.even z'); try discriminate E0; [split; [reflexivity|exact E2]|].
      destruct (z mod 4 =? 3), (z' mod 4 =? 3); cbn [app Z.leb Z.compare] in E2; try discriminate E2;
        (split; [reflexivity|injection E2 as E2; exact E2]). }
    destruct Q as [Q1 Q2]. assert (Q : (z - dig z) / 2 = (z' - dig z') / 2).
    { apply (IH n); [apply naf_bound; lia|apply naf_bound; lia|lia|exact E1|exact Q2]. }
    rewrite (dig_half z), (dig_half z'), Q, Q1. reflexivity.
Qed.
Lemma naf_odd k : scanon k -> Z.even (sval k) = false ->
  exists d k', (forall ck, sc_from_i8 ck (dig (sval k)) = Ok d) /\ (forall ck, sc_sub ck k d = Ok k') /\
    scanon (sc_half_without_mod k') /\ sval (sc_half_without_mod k') = (sval k - dig (sval k)) / 2.
Proof.
  intros K E. pose proof (dig_range (sval k)) as R. destruct (sc_from_i8_ck (dig (sval k))) as (d & Ed & Cd); [lia|].
  destruct (sc_sub_ck k d K Cd) as (k' & Ek & Ck). exists d, k'. split; [exact Ed|]. split; [exact Ek|].
  destruct (sc_from_i8_ok true (dig (sval k))) as (d' & Ed' & _ & Vd); [lia|].
  rewrite Ed in Ed'. injection Ed' as <-.
  destruct (sc_sub_ok true k d K Cd) as (k2 & Ek' & _ & Vk). rewrite Ek in Ek'. injection Ek' as <-.
  rewrite Vd, Zminus_mod_idemp_r, <- (dig_smods _ E) in Vk.
  assert (O : Z.odd (sval k) = true) by (rewrite <- Z.negb_even, E; reflexivity).
  assert (NW : no_wrap 2 (sval k)) by (left; lia).
  pose proof (no_wrap_sub 2 (sval k) NW (conj (proj1 (sval_nonneg _ (proj1 K))) (proj2 K)) O) as NS.
  rewrite Z.mod_small, (dig_smods _ E) in Vk by exact NS. rewrite (dig_smods _ E) in NS.
  destruct (sc_half_without_mod_ok k' (proj1 Ck)) as [Lh Vh]. rewrite Vk in Vh. split; [|exact Vh].
  split; [exact Lh|]. rewrite Vh. apply Z.div_lt_upper_bound; lia.
Qed.
Lemma scanon_half k : scanon k -> scanon (sc_half_without_mod k) /\ sval (sc_half_without_mod k) = sval k / 2.
Proof.
  intros K. destruct (sc_half_without_mod_ok k (proj1 K)) as [A B]. split; [|exact B]. split; [exact A|].
  rewrite B. destruct K as [K1 K2]. apply sval_nonneg in K1. apply Z.div_lt_upper_bound; lia.
Qed.
Lemma fst_naf ck n k i arr : scanon k ->
  exists k', (scanon k' /\ sval k' = (sval k - dig (sval k)) / 2) /\
  forall arr', set_nth i (dig (sval k)) arr = Ok arr' ->
  fst (sc_naf_loop_log (S n) ck k i arr) =
  fst (sc_cmp_log k sc_one) ++ Br 10376 (Z.b2z (1 <=? sval k)) ::
    if sval k <=? 0 then [] else
      Br 10377 (Z.b2z (negb (Z.even (sval k)))) ::
      (if Z.even (sval k) then [] else [Br 10073 (if 0 <=? dig (sval k) then 0 else 1)]) ++
      fst (sc_naf_loop_log n ck k' (S i) arr').
Proof.
  intros K. pose proof (sval_nonneg _ (proj1 K)) as K0. cbn [sc_naf_loop_log].
  destruct (Z.even (sval k)) eqn:E.
  - exists (sc_half_without_mod k). split.
    { destruct (scanon_half k K) as [A B]. split; [exact A|]. rewrite B. unfold dig. rewrite E, Z.sub_0_r. reflexivity. }
    intros arr' S'. rewrite fst_sc_cmp, fst_ask, sc_ge_ok, sval_one by (apply K || apply scanon_one). apply f_equal, f_equal.
    destruct (Z.leb_spec 1 (sval k)) as [P|P], (Z.leb_spec (sval k) 0) as [P'|P']; try lia; [|reflexivity].
    rewrite fst_ask, sc_is_even_ok, E. apply f_equal. cbn [negb app].
    unfold dig in S'. rewrite E in S'. rewrite S', fst_quiet. reflexivity.
  - destruct (naf_odd k K E) as (d & k' & Ed & Ek & C & V). exists (sc_half_without_mod k'). split; [split; assumption|].
    intros arr' S'. rewrite fst_sc_cmp, fst_ask, sc_ge_ok, sval_one by (apply K || apply scanon_one). apply f_equal, f_equal.
    destruct (Z.leb_spec 1 (sval k)) as [P|P], (Z.leb_spec (sval k) 0) as [P'|P']; try lia; [|reflexivity].
    rewrite fst_ask, sc_is_even_ok, E. apply f_equal. cbn [negb app].
    assert (O : Z.odd (sval k) = true) by (rewrite <- Z.negb_even, E; reflexivity).
    pose proof (naf_digit ck k (proj1 K) O) as G. rewrite sc_mods_2_pow_k_ok, (dig_smods _ E) in G by (apply K || lia).
    rewrite sc_mod_2_pow_k_ok in G |- * by (apply K || lia). rewrite bind_ok in G. rewrite fst_quiet, G, fst_quiet, S', fst_quiet.
    rewrite (fst_from_i8 _ _ d) by apply Ed. apply f_equal. rewrite Ek, fst_quiet. reflexivity.
Qed.
Lemma set_nth_some i v (l : list Z) : (i < length l)%nat -> exists l', set_nth i v l = Ok l' /\ length l' = length l.
Proof.
  intros H. rewrite set_nth_ok by exact H. eexists. split; [reflexivity|].
  rewrite app_length. cbn [length]. rewrite firstn_length, skipn_length. lia.
Qed.
Lemma naf_loop_at ck : forall m n k i arr, scanon k -> sval k <= 2 ^ Z.of_nat m -> length arr = 256%nat -> (i + m < 255)%nat -> (m + 2 <= n)%nat ->
  at_line 10377 (fst (sc_naf_loop_log n ck k i arr)) = naf_par n (sval k) /\
  at_line 10073 (fst (sc_naf_loop_log n ck k i arr)) = naf_sgn n (sval k).
Proof.
  induction m as [|m IH]; intros n k i arr K B La Hi Hn; pose proof (sval_nonneg _ (proj1 K)) as K0;
    (destruct n as [|n]; [lia|]); destruct (fst_naf ck n k i arr K) as (k' & (C & V) & F);
    destruct (set_nth_some i (dig (sval k)) arr) as (arr' & S' & L'); try lia; rewrite (F arr' S'); clear F;
    rewrite !at_app, !at_sc_cmp, !at_cons by discriminate; cbn [Z.eqb Pos.eqb app naf_par naf_sgn];
    destruct (Z.leb_spec (sval k) 0) as [P|P]; try (split; reflexivity); rewrite !at_cons; cbn [Z.eqb Pos.eqb app]; rewrite !at_app.
  - change (2 ^ Z.of_nat 0) with 1 in B. assert (E1 : sval k = 1) by lia. rewrite E1 in V |- *. change (dig 1) with 1 in *.
    change ((1 - 1) / 2) with 0 in *. destruct n as [|n]; [lia|]. destruct (fst_naf ck n k' (S i) arr' C) as (k2 & _ & F).
    destruct (set_nth_some (S i) (dig (sval k')) arr') as (arr2 & S2 & L2); [lia|]. rewrite (F arr2 S2), V.
    rewrite !at_app, !at_sc_cmp, !at_cons by discriminate. split; reflexivity.
  - destruct (IH n k' (S i) arr') as [I1 I2]; [exact C| |lia|lia|lia|].
    { rewrite V. apply naf_bound. lia. }
    rewrite I1, I2, V. split; (destruct (Z.even (sval k)); reflexivity).
Qed.
Lemma naf_ck ck ck' : forall n k i arr, scanon k -> fst (sc_naf_loop_log n ck k i arr) = fst (sc_naf_loop_log n ck' k i arr).
Proof.
  induction n as [|n IH]; intros k i arr K; [reflexivity|]. cbn [sc_naf_loop_log].
  rewrite !fst_sc_cmp, !fst_ask. apply f_equal, f_equal. destruct (is_ge _); [|reflexivity].
  rewrite !fst_ask. apply f_equal. rewrite sc_is_even_ok. destruct (Z.even (sval k)) eqn:E; cbn [negb].
  - destruct (set_nth i 0 arr) as [arr'| |]; [|reflexivity|reflexivity]. rewrite !fst_quiet. apply IH, scanon_half, K.
  - destruct (naf_odd k K E) as (d & k' & Ed & Ek & C & V).
    assert (O : Z.odd (sval k) = true) by (rewrite <- Z.negb_even, E; reflexivity).
    assert (G : forall c, i8sub c 2 (as_i8 (sval k mod 2 ^ 2)) = Ok (dig (sval k))).
    { intros c. pose proof (naf_digit c k (proj1 K) O) as G. rewrite sc_mods_2_pow_k_ok, (dig_smods _ E) in G by (apply K || lia).
      rewrite sc_mod_2_pow_k_ok in G by (apply K || lia). exact G. }
    rewrite !sc_mod_2_pow_k_ok by (apply K || lia). rewrite !fst_quiet, !G, !fst_quiet.
    destruct (set_nth i (dig (sval k)) arr) as [arr'| |]; [|cbn [quiet lbind fst]; reflexivity|cbn [quiet lbind fst]; reflexivity]. rewrite !fst_quiet, !(fst_from_i8 _ _ d) by apply Ed.
    apply f_equal. rewrite !Ek, !fst_quiet. apply IH, C.
Qed.
Lemma scanon_249 a : scanon a -> 0 <= sval a <= 2 ^ Z.of_nat 250.
Proof.
  intros [A B]. split; [apply sval_nonneg, A|]. rewrite L_num in B. apply Z.lt_le_incl.
  eapply Z.lt_trans; [exact B|reflexivity].
Qed.
(** The branches of `compute_NAF` determine the scalar. *)
Lemma C97_naf_stmt : forall ck ck' a a', scanon a -> scanon a' ->
  (log_of (sc_compute_NAF_log ck a) = log_of (sc_compute_NAF_log ck' a') <-> a = a').
Proof.
  intros ck ck' a a' A A'. unfold log_of, sc_compute_NAF_log. split.
  - intros H. apply sval_inj; [apply A|apply A'|]. pose proof (scanon_249 _ A) as B. pose proof (scanon_249 _ A') as B'.
    assert (La : length (repeat 0 256) = 256%nat) by apply repeat_length.
    assert (F : (250 + 2 <= loop_fuel)%nat) by (unfold loop_fuel; lia).
    destruct (naf_loop_at ck 250 loop_fuel a 0 (repeat 0 256) A (proj2 B) La ltac:(lia) F) as [I1 I2].
    destruct (naf_loop_at ck' 250 loop_fuel a' 0 (repeat 0 256) A' (proj2 B') La ltac:(lia) F) as [J1 J2].
    rewrite H in I1, I2. rewrite I1 in J1. rewrite I2 in J2.
    apply (naf_inj 250 loop_fuel); [exact B|exact B'|exact F|exact J1|exact J2].
  - intros <-. apply naf_ck, A.
Qed.
Lemma digits_log_inj : forall i ds ds', Forall (fun d => -1 <= d <= 1) ds -> Forall (fun d => -1 <= d <= 1) ds' ->
  digits_log i ds = digits_log i ds' -> forall j, (j < i)%nat -> nth j ds 0 = nth j ds' 0.
Proof.
  induction i as [|i IH]; intros ds ds' D D' E j Hj; [lia|]. cbn [digits_log] in E. injection E as E1 E2.
  destruct (Nat.eq_dec j i) as [->|N]; [|apply IH; auto; lia].
  assert (R : forall l, Forall (fun d => -1 <= d <= 1) l -> -1 <= nth i l 0 <= 1).
  { intros l F. destruct (Nat.lt_ge_cases i (length l)) as [X|X]; [apply (proj1 (Forall_forall _ _) F), nth_In, X|].
    rewrite nth_overflow by exact X. lia. }
  pose proof (R ds D). pose proof (R ds' D').
  destruct (Z.eqb_spec (nth i ds 0) 1), (Z.eqb_spec (nth i ds' 0) 1), (Z.eqb_spec (nth i ds 0) (-1)), (Z.eqb_spec (nth i ds' 0) (-1)); lia.
Qed.
Lemma digits_value_ext : forall n ds ds', (length ds <= n)%nat -> (length ds' <= n)%nat -> (forall j, (j < n)%nat -> nth j ds 0 = nth j ds' 0) ->
  digits_value ds = digits_value ds'.
Proof.
  assert (Z0 : forall ds, (forall j, nth j ds 0 = 0) -> digits_value ds = 0).
  { induction ds as [|d ds IH]; intros H; [reflexivity|]. cbn [digits_value]. pose proof (H 0%nat) as H0. cbn [nth] in H0.
    rewrite IH; [lia|]. intros j. apply (H (S j)). }
  induction n as [|n IH]; intros ds ds' L1 L2 H.
  - destruct ds, ds'; cbn [length] in *; lia.
  - destruct ds as [|d ds].
    { symmetry. cbn [digits_value]. apply Z0. intros j. destruct (Nat.lt_ge_cases j (S n)) as [X|X]; [rewrite <- H by exact X; destruct j; reflexivity|].
      apply nth_overflow. lia. }
    destruct ds' as [|d' ds'].
    { cbn [digits_value]. apply (Z0 (d :: ds)). intros j. destruct (Nat.lt_ge_cases j (S n)) as [X|X]; [rewrite H by exact X; destruct j; reflexivity|].
      apply nth_overflow. lia. }
    cbn [digits_value length] in *. pose proof (H 0%nat ltac:(lia)) as H0. cbn [nth] in H0. rewrite (IH ds ds'); [lia|lia|lia|].
    intros j Hj. apply (H (S j)). lia.
Qed.
Lemma at_naf_20146 ck : forall n k i arr, at_line 20146 (fst (sc_naf_loop_log n ck k i arr)) = [].
Proof.
  induction n as [|n IH]; intros k i arr; [reflexivity|]. cbn [sc_naf_loop_log].
  rewrite fst_sc_cmp, fst_ask, at_app, at_sc_cmp, at_cons by discriminate. cbn [Z.eqb Pos.eqb app]. destruct (is_ge _); [|reflexivity].
  rewrite fst_ask, at_cons. cbn [Z.eqb Pos.eqb app]. destruct (negb (sc_is_even k)).
  - destruct (sc_mod_2_pow_k ck k 2) as [m| |]; [|reflexivity|reflexivity]. rewrite fst_quiet. destruct (i8sub _ _ _) as [ki| |]; [|reflexivity|reflexivity]. rewrite fst_quiet.
    destruct (set_nth _ _ _) as [arr'| |]; try reflexivity. rewrite fst_quiet.
    destruct (sc_from_i8 ck ki) as [d| |] eqn:Ed.
    + rewrite (fst_from_i8 _ _ d) by exact Ed. rewrite at_cons. cbn [Z.eqb Pos.eqb app].
      destruct (sc_sub ck k d) as [k'| |]; [|reflexivity|reflexivity]. rewrite fst_quiet. apply IH.
    + unfold sc_from_i8_log. rewrite Ed. reflexivity.
    + unfold sc_from_i8_log. rewrite Ed. reflexivity.
  - destruct (set_nth i 0 arr) as [arr'| |]; [|reflexivity|reflexivity]. rewrite fst_quiet. apply IH.
Qed.
Lemma at_digits : forall i ds, map outcome (digits_log i ds) = at_line 20146 (digits_log i ds).
Proof.
  unfold at_line. induction i as [|i IH]; intros ds; [reflexivity|]. cbn [digits_log map filter line]. rewrite Z.eqb_refl.
  cbn [map]. rewrite IH. reflexivity.
Qed.
Lemma digits_log_lines : forall i ds ds', map outcome (digits_log i ds) = map outcome (digits_log i ds') -> digits_log i ds = digits_log i ds'.
Proof.
  induction i as [|i IH]; intros ds ds' E; [reflexivity|]. cbn [digits_log map outcome] in E |- *. injection E as E1 E2.
  rewrite E1. apply f_equal, IH, E2.
Qed.
Lemma er_NAF ck a : snd (sc_compute_NAF_log ck a) = sc_compute_NAF ck a.
Proof. unfold sc_compute_NAF_log, sc_compute_NAF. apply er_naf_loop. Qed.
Lemma NAF_ck ck ck' a : scanon a -> fst (sc_compute_NAF_log ck a) = fst (sc_compute_NAF_log ck' a).
Proof. unfold sc_compute_NAF_log. apply naf_ck. Qed.
Lemma at_NAF_20146 ck a : at_line 20146 (fst (sc_compute_NAF_log ck a)) = [].
Proof. unfold sc_compute_NAF_log. apply at_naf_20146. Qed.
Lemma digits_log_ext : forall i ds ds', (forall j, (j < i)%nat -> nth j ds 0 = nth j ds' 0) -> digits_log i ds = digits_log i ds'.
Proof.
  induction i as [|i IH]; intros ds ds' X; [reflexivity|]. cbn [digits_log]. rewrite X by lia.
  apply f_equal, IH. intros j Hj. apply X. lia.
Qed.
Section BinaryNaf.
Context {T : Type} (good : T -> Prop) (add sub : bool -> T -> T -> res T) (double : bool -> T -> res T) (identity : T).
Hypotheses (Hid : good identity) (Hadd : total2 good add) (Hsub : total2 good sub) (Hdbl : total1 good double).
Lemma bnaf_log ck P a ds : good P -> (forall ck, sc_compute_NAF ck a = Ok (pad256 ds)) -> (length ds <= 250)%nat ->
  fst (binary_naf_mul_log ck (add ck) (sub ck) (double ck) identity P a) = fst (sc_compute_NAF_log ck a) ++ digits_log 250 ds.
Proof.
  intros G E Hl. unfold binary_naf_mul_log. rewrite (fst_lbind _ _ (pad256 ds)) by (rewrite er_NAF; apply E). apply f_equal.
  apply (bnaf_log_ok good (add ck) (double ck) (Hadd ck) (Hdbl ck) (sub ck) (Hsub ck)); [exact G|exact Hl|apply le_n|exact Hid].
Qed.
Lemma bnaf_iff ck ck' P P' a a' : good P -> good P' -> scanon a -> scanon a' ->
  (fst (binary_naf_mul_log ck (add ck) (sub ck) (double ck) identity P a) =
   fst (binary_naf_mul_log ck' (add ck') (sub ck') (double ck') identity P' a') <-> a = a').
Proof.
  intros G G' A A'.
  destruct (compute_NAF_ck a A) as (ds & E & Hl & V & D & _). split.
  - intros H. destruct (compute_NAF_ck a' A') as (ds' & E' & Hl' & V' & D' & _).
    rewrite (bnaf_log ck P a ds G E Hl), (bnaf_log ck' P' a' ds' G' E' Hl') in H.
    assert (R : forall l, Forall (fun d => zero_or_odd d /\ - 2 ^ (2 - 1) < d < 2 ^ (2 - 1)) l -> Forall (fun d => -1 <= d <= 1) l).
    { intros l F. eapply Forall_impl; [|exact F]. cbn beta. intros d [_ B]. change (2 ^ (2 - 1)) with 2 in B. lia. }
    apply (f_equal (at_line 20146)) in H. rewrite !at_app, !at_NAF_20146, !app_nil_l, <- !at_digits in H. apply digits_log_lines in H.
    apply sval_inj; [apply A|apply A'|]. rewrite <- V, <- V'. apply (digits_value_ext 250); [exact Hl|exact Hl'|].
    exact (digits_log_inj 250 ds ds' (R _ D) (R _ D') H).
  - intros <-. rewrite (bnaf_log ck P a ds G E Hl), (bnaf_log ck' P' a ds G' E Hl). rewrite (NAF_ck ck' ck a A). reflexivity.
Qed.
End BinaryNaf.
(** The branches of `binary_naf_mul` determine the scalar and do not depend on the point. *)
Lemma C97_binary_naf_stmt : forall ck ck' P P' R R' a a', reduced_ext P -> reduced_ext P' -> reduced_proj R -> reduced_proj R' ->
  scanon a -> scanon a' ->
  (log_of (binary_naf_mul_log ck (ept_add ck) (ept_sub ck) (ept_double ck) ept_identity P a) =
   log_of (binary_naf_mul_log ck' (ept_add ck') (ept_sub ck') (ept_double ck') ept_identity P' a') <-> a = a') /\
  (log_of (binary_naf_mul_log ck (ppt_add ck) (ppt_sub ck) (ppt_double ck) ppt_identity R a) =
   log_of (binary_naf_mul_log ck' (ppt_add ck') (ppt_sub ck') (ppt_double ck') ppt_identity R' a') <-> a = a').
Proof.
  intros ck ck' P P' R R' a a' HP HP' HR HR' A A'. split.
  - apply (bnaf_iff reduced_ext ept_add ept_sub ept_double ept_identity red_id red_add red_sub red_double); assumption.
  - apply (bnaf_iff reduced_proj ppt_add ppt_sub ppt_double ppt_identity redp_id redp_add redp_sub redp_double); assumption.
Qed.

(** *** Powers *)
Lemma half_even_ck k : scanon k -> Z.even (sval k) = true -> exists r, (forall ck, sc_half ck k = Ok r) /\ scanon r /\ sval r = sval k / 2.
Proof.
  intros K E. assert (X : forall ck, exists r, sc_half ck k = Ok r /\ scanon r /\ sval r = sval k / 2).
  { intros ck. destruct (sc_half_ok ck k (proj1 K)) as (r & Er & C & V). exists r. split; [exact Er|]. split; [exact C|].
    pose proof (even_half _ E) as D. pose proof (sval_nonneg _ (proj1 K)) as N. pose proof (sval_nonneg _ (proj1 C)) as N'.
    destruct K as [_ K]. destruct C as [_ C]. rewrite (Z.mod_small (sval k)) in V by lia.
    set (h := sval k / 2) in *. clearbody h. rewrite D in V, K. clear - V C N' K N D.
    assert (Q : (2 * sval r) / L = 0 \/ (2 * sval r) / L = 1).
    { assert (0 <= 2 * sval r / L < 2) by (split; [apply Z.div_pos; lia|apply Z.div_lt_upper_bound; lia]). lia. }
    pose proof (Z.div_mod (2 * sval r) L ltac:(lia)) as M. rewrite V in M.
    assert (O : L = 2 * (L / 2) + 1) by (vm_compute; reflexivity). destruct Q as [Q|Q]; rewrite Q in M; lia. }
  destruct (X true) as (r & E1 & C1 & V1). destruct (X false) as (r' & E2 & C2 & V2).
  assert (r = r') by (apply sval_inj; [apply C1|apply C2|lia]). subst r'.
  exists r. split; [|split; assumption]. intros []; assumption.
Qed.
Lemma sc_odd_ck k : scanon k -> 0 < sval k -> Z.even (sval k) = false ->
  exists k1 r, (forall ck, sc_sub ck k sc_one = Ok k1) /\ (forall ck, sc_half ck k1 = Ok r) /\ scanon r /\ sval r = sval k / 2.
Proof.
  intros K P E. destruct (sc_sub_ck k sc_one K scanon_one) as (k1 & E1 & C1).
  destruct (sc_sub_ok true k sc_one K scanon_one) as (k2 & E2 & _ & V). rewrite E1 in E2. injection E2 as <-.
  rewrite sval_one, Z.mod_small in V by (destruct K; lia).
  destruct (half_even_ck k1 C1) as (r & Er & C & Vr).
  { rewrite V, Z.even_sub, E. reflexivity. }
  exists k1, r. split; [exact E1|]. split; [exact Er|]. split; [exact C|]. rewrite Vr, V.
  pose proof (Z.div_mod (sval k) 2 ltac:(lia)) as D. rewrite Zmod_even, E in D. symmetry. apply Z.div_unique with 0; lia.
Qed.
Lemma sc_mul_some ck a b : scanon a -> scanon b -> exists r, sc_mul ck a b = Ok r /\ scanon r.
Proof. intros A B. destruct (sc_mul_ok ck a b (proj1 A) B) as (r & E & C & _). exists r. auto. Qed.
Lemma sc_square_some ck a : scanon a -> exists r, sc_square ck a = Ok r /\ scanon r.
Proof. intros A. destruct (sc_square_ok ck a A) as (r & E & C & _). exists r. auto. Qed.
Lemma sc_pow_dep ck ck' : forall n b r b' r' e, scanon b -> scanon r -> scanon b' -> scanon r' -> scanon e ->
  fst (sc_pow_loop_log n ck b r e) = fst (sc_pow_loop_log n ck' b' r' e) /\
  at_line 10309 (fst (sc_pow_loop_log n ck b r e)) = parities n (sval e).
Proof.
  induction n as [|n IH]; intros b r b' r' e B R B' R' E; [split; reflexivity|]. cbn [sc_pow_loop_log parities].
  rewrite !fst_sc_cmp, !fst_ask, at_app, at_sc_cmp, at_cons by discriminate. cbn [Z.eqb Pos.eqb]. rewrite !app_nil_l.
  assert (G : is_gt (sc_cmp e sc_zero) = (0 <? sval e)) by (rewrite sc_gt_ok, sval_zero; [reflexivity|apply E|apply scanon_zero]).
  rewrite G. destruct (Z.ltb_spec 0 (sval e)) as [P|P]; [|split; reflexivity].
  rewrite !fst_ask, sc_is_even_ok, at_cons. cbn [Z.eqb Pos.eqb].
  destruct (sc_square_some ck b B) as (s & Es & Cs). destruct (sc_square_some ck' b' B') as (s' & Es' & Cs').
  destruct (Z.even (sval e)) eqn:Ev.
  - cbv zeta. rewrite Es, Es', !fst_quiet. destruct (scanon_half e E) as [C V].
    destruct (IH s r s' r' (sc_half_without_mod e) Cs R Cs' R' C) as [I1 I2]. rewrite I2, V, <- I1. split; reflexivity.
  - destruct (sc_odd_ck e E P Ev) as (k1 & h & E1 & Eh & C & V). rewrite !E1, !fst_quiet.
    destruct (sc_mul_some ck r b R B) as (m & Em & Cm). destruct (sc_mul_some ck' r' b' R' B') as (m' & Em' & Cm').
    rewrite Em, Em', !fst_quiet, !Eh, !fst_quiet, Es, Es', !fst_quiet.
    destruct (IH s m s' m' h Cs Cm Cs' Cm' C) as [I1 I2]. rewrite I2, V, <- I1. split; reflexivity.
Qed.
(** The branches of `pow` determine the exponent and do not depend on the base. *)
Lemma C97_pow_stmt : forall ck ck' a a' e e', scanon a -> scanon a' -> scanon e -> scanon e' ->
  (log_of (sc_pow_log ck a e) = log_of (sc_pow_log ck' a' e') <-> e = e').
Proof.
  intros ck ck' a a' e e' A A' E E'. unfold log_of, sc_pow_log. pose proof scanon_one as O. split.
  - intros H. apply (f_equal (at_line 10309)) in H.
    rewrite (proj2 (sc_pow_dep ck ck' _ _ _ _ _ _ A O A' O E)), (proj2 (sc_pow_dep ck' ck _ _ _ _ _ _ A' O A O E')) in H.
    apply sval_inj; [apply E|apply E'|].
    assert (B : forall x, scanon x -> 0 <= sval x < 2 ^ Z.of_nat loop_fuel).
    { intros x [X _]. pose proof (sval_nonneg _ X) as N. split; [apply N|]. apply Z.lt_le_trans with (2 ^ 260); [apply N|].
      apply Z.pow_le_mono_r; [lia|]. unfold loop_fuel. lia. }
    apply (parities_inj loop_fuel loop_fuel); auto.
  - intros <-. exact (proj1 (sc_pow_dep ck ck' _ _ _ _ _ _ A O A' O E)).
Qed.

(** *** Windows *)
Definition digit_arm (d : Z) : Z := if d =? 0 then 0 else if 0 <? d then 1 else 2.
Fixpoint window_log (i : nat) (ds : list Z) : list branch :=
  match i with O => [] | S i => Br 20164 (digit_arm (nth i ds 0)) :: window_log i ds end.
Lemma table_reduced i : (0 < i < 126)%nat -> exists P, nth_error BASEPOINT_ODD_MULTIPLES_TABLE i = Some P /\ reduced_ext P.
Proof.
  intros H. destruct (table_some i ltac:(lia)) as (P & E). exists P. split; [exact E|]. destruct i as [|i]; [lia|].
  destruct (table_entry i P E) as (z & _ & ->). apply red_ext_enc.
Qed.
Lemma window_log_ok ck ds : (length ds <= 250)%nat -> Forall (fun d => -126 < d < 126) ds -> forall i Q, (i <= 250)%nat -> reduced_ext Q ->
  fst (window_naf_mul_loop_log ck (pad256 ds) i Q) = window_log i ds.
Proof.
  intros Hl HD. induction i as [|i IH]; intros Q Hi GQ; [reflexivity|]. cbn [window_naf_mul_loop_log window_log].
  destruct (red_double ck Q GQ) as (Q1 & E1 & G1). unfold rp_double. rewrite E1, fst_quiet, nth_error_pad by lia.
  cbn [unwrap]. rewrite fst_quiet, fst_arm. change (if nth i ds 0 =? 0 then 0 else if 0 <? nth i ds 0 then 1 else 2) with (digit_arm (nth i ds 0)).
  apply f_equal.
  assert (Hd : -126 < nth i ds 0 < 126).
  { destruct (Nat.lt_ge_cases i (length ds)) as [X|X].
    - rewrite Forall_forall in HD. apply HD. apply nth_In. exact X.
    - rewrite nth_overflow by exact X. lia. }
  set (d := nth i ds 0) in *. clearbody d. unfold digit_arm.
  assert (H : exists Q2, (if (if d =? 0 then 0 else if 0 <? d then 1 else 2) =? 0 then Ok Q1
                else if (if d =? 0 then 0 else if 0 <? d then 1 else 2) =? 1 then
                  t <- unwrap (nth_error BASEPOINT_ODD_MULTIPLES_TABLE (Z.to_nat d)) ;;
                  rp_add ck Q1 t
                else
                  b <- i8abs ck d ;;
                  _ <- rassert (0 <=? b) ;;
                  t <- unwrap (nth_error BASEPOINT_ODD_MULTIPLES_TABLE (Z.to_nat b)) ;;
                  rp_sub ck Q1 t) = Ok Q2 /\ reduced_ext Q2).
  { destruct (Z.eqb_spec d 0) as [Ed|Nd]; [exists Q1; split; [reflexivity|exact G1]|].
    destruct (Z.ltb_spec 0 d) as [Pd|Pd]; cbn [Z.eqb Pos.eqb].
    - destruct (table_reduced (Z.to_nat d)) as (t & -> & Gt); [lia|]. cbn [unwrap]. rewrite bind_ok. apply red_add; assumption.
    - assert (Ea : i8abs ck d = Ok (- d)).
      { unfold i8abs. destruct (Z.eqb_spec d (-128)) as [X|X]; [lia|]. rewrite Z.abs_neq by lia. reflexivity. }
      rewrite Ea, bind_ok. destruct (Z.leb_spec 0 (- d)) as [X|X]; [|lia]. cbn [rassert]. rewrite bind_ok.
      destruct (table_reduced (Z.to_nat (- d))) as (t & -> & (T1 & T2 & T3 & T4)); [lia|]. cbn [unwrap]. rewrite bind_ok.
      unfold rp_sub, rp_neg, rp_add. rewrite (ept_canon_enc t) by assumption. rewrite ept_neg_enc, bind_ok. apply red_add; [exact G1|apply red_ext_enc]. }
  destruct H as (Q2 & -> & G2). rewrite fst_quiet. apply IH; [lia|exact G2].
Qed.
Lemma er_wNAF ck a w : snd (sc_compute_window_NAF_log ck a w) = sc_compute_window_NAF ck a w.
Proof. unfold sc_compute_window_NAF_log, sc_compute_window_NAF. apply er_wnaf_loop. Qed.
Lemma window_mul_log ck a w ds : sc_compute_window_NAF ck a w = Ok (pad256 ds) -> (length ds <= 250)%nat ->
  Forall (fun d => -126 < d < 126) ds ->
  log_of (window_naf_mul_log ck a w) = fst (sc_compute_window_NAF_log ck a w) ++ window_log 250 ds.
Proof.
  intros E Hl HD. unfold log_of, window_naf_mul_log. rewrite (fst_lbind _ _ (pad256 ds)) by (rewrite er_wNAF; exact E). apply f_equal.
  apply window_log_ok; [exact Hl|exact HD|apply le_n|exact red_id].
Qed.
Lemma at_mods n ck k w : n <> 10434 -> n <> 10438 -> at_line n (fst (sc_mods_2_pow_k_log ck k w)) = [].
Proof.
  intros N1 N2. unfold sc_mods_2_pow_k_log. destruct (w <? 32).
  - rewrite fst_assert, at_cons. destruct (Z.eqb_spec 10434 n); [congruence|]. rewrite app_nil_l.
    destruct (sc_mod_2_pow_k ck k w) as [m| |]; [|reflexivity|reflexivity]. rewrite fst_quiet.
    destruct (usub ck W8 w 1) as [w1| |]; [|reflexivity|reflexivity]. rewrite fst_quiet.
    destruct (i8shl ck 1 w1) as [t| |]; [|reflexivity|reflexivity]. rewrite fst_quiet, fst_arm, at_cons.
    destruct (Z.eqb_spec 10438 n); [congruence|]. rewrite app_nil_l. destruct (_ =? 1); reflexivity.
  - cbn [lassert rassert lbind fst]. unfold at_line. cbn [filter line]. destruct (Z.eqb_spec 10434 n); [congruence|]. reflexivity.
Qed.
Lemma at_bind_nil {A B} n (m : lres A) (f : A -> lres B) : at_line n (fst m) = [] -> (forall a, at_line n (fst (f a)) = []) ->
  at_line n (fst (lbind m f)) = [].
Proof. intros H1 H2. rewrite at_lbind by exact H2. exact H1. Qed.
Lemma at_wnaf_20164 ck w : forall n k i arr, at_line 20164 (fst (sc_wnaf_loop_log n ck w k i arr)) = [].
Proof.
  induction n as [|n IH]; intros k i arr; [reflexivity|]. cbn [sc_wnaf_loop_log].
  apply at_bind_nil; [apply at_sc_cmp; discriminate|]. intros c. apply at_bind_nil; [reflexivity|]. intros go.
  destruct go; [|reflexivity]. apply at_bind_nil; [reflexivity|]. intros odd. destruct odd.
  - apply at_bind_nil; [apply at_mods; discriminate|]. intros ki. apply at_bind_nil; [reflexivity|]. intros a.
    apply at_bind_nil; [unfold sc_from_i8_log; apply at_bind_nil; reflexivity|]. intros d. apply at_bind_nil; [reflexivity|]. intros k'. apply IH.
  - apply at_bind_nil; [reflexivity|]. intros a. apply IH.
Qed.
Lemma at_wNAF_20164 ck a w : at_line 20164 (fst (sc_compute_window_NAF_log ck a w)) = [].
Proof. unfold sc_compute_window_NAF_log. apply at_wnaf_20164. Qed.
Lemma at_window : forall i ds, at_line 20164 (window_log i ds) = map outcome (window_log i ds).
Proof.
  unfold at_line. induction i as [|i IH]; intros ds; [reflexivity|]. cbn [window_log map filter line]. rewrite Z.eqb_refl.
  cbn [map]. rewrite IH. reflexivity.
Qed.
Lemma window_log_inj : forall i ds ds', map outcome (window_log i ds) = map outcome (window_log i ds') ->
  forall j, (j < i)%nat -> digit_arm (nth j ds 0) = digit_arm (nth j ds' 0).
Proof.
  induction i as [|i IH]; intros ds ds' E j Hj; [lia|]. cbn [window_log map outcome] in E. injection E as E1 E2.
  destruct (Nat.eq_dec j i) as [->|N]; [exact E1|]. apply IH; [exact E2|lia].
Qed.
Lemma digit_arm_sgn d d' : digit_arm d = digit_arm d' -> Z.sgn d = Z.sgn d'.
Proof. unfold digit_arm. destruct (Z.eqb_spec d 0), (Z.eqb_spec d' 0), (Z.ltb_spec 0 d), (Z.ltb_spec 0 d'); lia. Qed.
Lemma nth_pad j ds : (length ds <= 250)%nat -> nth j (pad256 ds) 0 = nth j ds 0.
Proof.
  intros H. unfold pad256. destruct (Nat.lt_ge_cases j (length ds)) as [X|X]; [apply app_nth1, X|].
  rewrite app_nth2 by exact X. rewrite (nth_overflow ds) by exact X. apply nth_repeat.
Qed.
Lemma digits_small w ds : 2 <= w <= 6 -> Forall (fun d => zero_or_odd d /\ - 2 ^ (w - 1) < d < 2 ^ (w - 1)) ds -> Forall (fun d => -126 < d < 126) ds.
Proof.
  intros W F. assert (P : 2 ^ (w - 1) <= 2 ^ 5) by (apply Z.pow_le_mono_r; lia). change (2 ^ 5) with 32 in P.
  eapply Forall_impl; [|exact F]. cbn beta. intros d [_ B]. lia.
Qed.
(** Equal branches of `window_naf_mul` for the same width: the recodings have their nonzero
    digits at the same positions and with the same signs. *)
Lemma C97_window_stmt : forall ck ck' w a a' ds ds', 2 <= w <= 5 -> scanon a -> scanon a' ->
  sc_compute_window_NAF ck a w = Ok ds -> sc_compute_window_NAF ck' a' w = Ok ds' ->
  log_of (window_naf_mul_log ck a w) = log_of (window_naf_mul_log ck' a' w) ->
  forall i, (i < 250)%nat -> Z.sgn (nth i ds 0) = Z.sgn (nth i ds' 0).
Proof.
  intros ck ck' w a a' ds ds' W A A' E E' H.
  assert (NW : forall x, no_wrap w x) by (left; exact W).
  destruct (sc_compute_window_NAF_ok ck w a A (NW _)) as (es & Ee & Hl & _ & D & _).
  destruct (sc_compute_window_NAF_ok ck' w a' A' (NW _)) as (es' & Ee' & Hl' & _ & D' & _).
  rewrite Ee in E. injection E as <-. rewrite Ee' in E'. injection E' as <-.
  rewrite (window_mul_log ck a w es Ee Hl (digits_small w es ltac:(lia) D)),
    (window_mul_log ck' a' w es' Ee' Hl' (digits_small w es' ltac:(lia) D')) in H.
  apply (f_equal (at_line 20164)) in H.
  rewrite !at_app, !at_wNAF_20164, !app_nil_l, !at_window in H.
  intros i Hi. rewrite !nth_pad by assumption. apply digit_arm_sgn. exact (window_log_inj 250 es es' H i Hi).
Qed.
(** The scalars need not be the same: 3 and 5 have the same branches for width 4. *)
Lemma C97_window_refuted_stmt : exists a a' w, 2 <= w <= 5 /\ scanon a /\ scanon a' /\ a <> a' /\
  forall ck, log_of (window_naf_mul_log ck a w) = log_of (window_naf_mul_log ck a' w).
Proof.
  exists (SC 3 0 0 0 0), (SC 5 0 0 0 0), 4. split; [lia|].
  split; [vm_compute; intuition discriminate|]. split; [vm_compute; intuition discriminate|]. split; [discriminate|].
  intros ck.
  rewrite (window_mul_log ck (SC 3 0 0 0 0) 4 [3]); [|destruct ck; vm_compute; reflexivity|cbn; lia|repeat constructor; lia].
  rewrite (window_mul_log ck (SC 5 0 0 0 0) 4 [5]); [|destruct ck; vm_compute; reflexivity|cbn; lia|repeat constructor; lia].
  apply f_equal2; [destruct ck; vm_compute; reflexivity|].
  assert (X : forall i, window_log i [3] = window_log i [5]); [|apply X].
  induction i as [|i IH]; [reflexivity|]. cbn [window_log]. rewrite IH. destruct i as [|[|i]]; reflexivity.
Qed.
Lemma red_B : reduced_ext BASEPOINT.
Proof. exact (proj1 (proj2 (proj2 C58_ex))). Qed.
Lemma C97_ex : scanon (SC 2 0 0 0 0) /\ scanon (SC 3 0 0 0 0) /\ reduced_ext BASEPOINT /\ reduced_proj ppt_identity /\
  (forall ck, log_of (ept_mul_log ck BASEPOINT (SC 2 0 0 0 0)) =
     [Br 20111 1; Br 20112 0; Br 20111 1; Br 20112 1; Br 20111 0]) /\
  (forall ck, log_of (ept_mul_log ck BASEPOINT (SC 2 0 0 0 0)) <> log_of (ept_mul_log ck BASEPOINT (SC 3 0 0 0 0))) /\
  (forall ck, log_of (sc_pow_log ck (SC 2 0 0 0 0) (SC 2 0 0 0 0)) <> log_of (sc_pow_log ck (SC 2 0 0 0 0) (SC 3 0 0 0 0))) /\
  (forall ck, log_of (sc_compute_NAF_log ck (SC 2 0 0 0 0)) <> log_of (sc_compute_NAF_log ck (SC 3 0 0 0 0))) /\
  (forall ck, log_of (ltr_bin_mul_log (ept_add ck) (ept_double ck) ept_identity BASEPOINT (SC 2 0 0 0 0)) <>
     log_of (ltr_bin_mul_log (ept_add ck) (ept_double ck) ept_identity BASEPOINT (SC 3 0 0 0 0))).
Proof.
  assert (A : scanon (SC 2 0 0 0 0)) by (vm_compute; intuition discriminate).
  assert (B : scanon (SC 3 0 0 0 0)) by (vm_compute; intuition discriminate).
  split; [exact A|]. split; [exact B|]. split; [exact red_B|]. split; [exact redp_id|].
  pose proof (scanon_loadable _ A) as LA. pose proof (scanon_loadable _ B) as LB.
  split.
  { intros ck. unfold log_of, ept_mul_log, double_and_add_log. change loop_fuel with (S (S (S (loop_fuel - 3)))).
    rewrite (da_log_ok reduced_ext (ept_add _) (ept_double _)) by (auto using red_add, red_double, red_id, red_B). reflexivity. }
  split; [|split; [|split]]; intros ck H.
  - apply (proj1 (proj1 (C97_mul_stmt ck ck _ _ _ _ _ _ red_B red_B redp_id redp_id LA LB))) in H. discriminate.
  - apply (C97_pow_stmt ck ck _ _ _ _ A A A B) in H. discriminate.
  - apply (C97_naf_stmt ck ck _ _ A B) in H. discriminate.
  - apply (proj1 (proj1 (C97_ltr_stmt ck ck _ _ _ _ _ _ red_B red_B redp_id redp_id LA LB))) in H. vm_compute in H. discriminate.
Qed.
