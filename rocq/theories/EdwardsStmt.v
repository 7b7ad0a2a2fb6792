(** * The Edwards point properties

    Statement forms; PropEdwards.v restates each of them and closes it with the
    lemma of the same name.                                                  *)

From Coq Require Import ZArith List Bool Lia Ring Field.
From Verif Require Import Machine FieldModel ScalarModel EdwardsModel Spec MachineFacts FieldLimb FieldOps FieldBytes
  NumTheory Primes Fp FieldF FieldInv FieldStmt ScalarOps ScalarBits ScalarNaf Curve CurveGroup EdwardsF PointMul EdwardsY.
Import ListNotations.
Open Scope F_scope.

(** ** Bridges *)

Lemma valid_rext P : valid_ext P <-> exists A, rext P A.
Proof.
  split.
  - intros [A H]. apply ext_rep_rext in H. destruct H as (Q & _ & H). exists Q. exact H.
  - intros [A H]. exists (pxy A). apply rext_rep. exact H.
Qed.
Lemma valid_rprj P : valid_proj P <-> exists A, rprj P A.
Proof.
  split.
  - intros [A H]. apply proj_rep_rprj in H. destruct H as (Q & _ & H). exists Q. exact H.
  - intros [A H]. exists (pxy A). apply rprj_rep. exact H.
Qed.
Lemma ret_ext (f : bool -> res ept) A B : (exists R, (forall ck, f ck = Ok R) /\ rext R A) -> pxy A = B ->
  forall ck, returns_ext (f ck) B.
Proof.
  intros (R & E & H) <- ck. exists R. split; [apply E|]. apply rext_rep. exact H.
Qed.
Lemma ret_proj (f : bool -> res ppt) A B : (exists R, (forall ck, f ck = Ok R) /\ rprj R A) -> pxy A = B ->
  forall ck, returns_proj (f ck) B.
Proof.
  intros (R & E & H) <- ck. exists R. split; [apply E|]. apply rprj_rep. exact H.
Qed.
Lemma rext_eqb P Q A B : rext P A -> rext Q B -> forall ck, ept_eqb ck P Q = Ok (pt_eqb A B).
Proof. intros (z1 & N1 & ->) (z2 & N2 & ->) ck. apply ext_eqb; assumption. Qed.
Lemma rprj_eqb P Q A B : rprj P A -> rprj Q B -> forall ck, ppt_eqb ck P Q = Ok (pt_eqb A B).
Proof. intros (z1 & N1 & ->) (z2 & N2 & ->) ck. apply prj_eqb; assumption. Qed.
Lemma pt_eqb_refl A : pt_eqb A A = true.
Proof. destruct (pt_eqb_spec A A); [reflexivity|tauto]. Qed.
Lemma same_rext ck o o' R R' A A' : o = Ok R -> o' = Ok R' -> rext R A -> rext R' A' -> A = A' ->
  same_ext ck o o'.
Proof.
  intros -> -> H H' <-. exists R, R'. split; [reflexivity|]. split; [reflexivity|].
  split; [apply valid_rext; exists A; exact H|]. split; [apply valid_rext; exists A; exact H'|].
  rewrite (rext_eqb R R' A A H H'), pt_eqb_refl. reflexivity.
Qed.
Lemma same_rprj ck o o' R R' A A' : o = Ok R -> o' = Ok R' -> rprj R A -> rprj R' A' -> A = A' ->
  same_proj ck o o'.
Proof.
  intros -> -> H H' <-. exists R, R'. split; [reflexivity|]. split; [reflexivity|].
  split; [apply valid_rprj; exists A; exact H|]. split; [apply valid_rprj; exists A; exact H'|].
  rewrite (rprj_eqb R R' A A H H'), pt_eqb_refl. reflexivity.
Qed.

(** Concrete points. *)
Definition base_yZ : Z := 4342203346399357328383911937825796544514269815627944563601170562971272550594.
Lemma base_y_eq : toF 3 / toF 5 = toF base_yZ.
Proof.
  assert (N : toF 5 <> 0). { intros H. apply (f_equal Fval) in H. vm_compute in H. discriminate. }
  apply (F_mul_cancel_l (toF 5)); [exact N|]. transitivity (toF 3); [field; exact N|].
  apply Feq. vm_compute. reflexivity.
Qed.
Lemma base_on : on_curve base.
Proof.
  unfold base. rewrite base_y_eq. unfold on_curve. rewrite cd_FD. apply Feq. vm_compute. reflexivity.
Qed.
Lemma base_rep : ext_rep BASEPOINT base.
Proof.
  split; [exact base_on|]. unfold base. rewrite base_y_eq. cbn [fst snd].
  do 4 (split; [apply canon_check; vm_compute; reflexivity|]).
  split; [intros H; apply (f_equal Fval) in H; vm_compute in H; discriminate|].
  repeat split; apply Feq; vm_compute; reflexivity.
Qed.
Lemma base_neq : base <> origin.
Proof.
  intros H. apply (f_equal fst) in H. apply (f_equal Fval) in H. vm_compute in H. discriminate.
Qed.
(** The point of order two, in a scaled representation. *)
Definition order2 : xy := (0, - (1)).
Definition order2_ext : ept := EP fe_zero (enc (- toF 7)) (enc (toF 7)) fe_zero.
Lemma order2_on : on_curve order2.
Proof. unfold order2, on_curve. ring. Qed.
Lemma order2_rep : ext_rep order2_ext order2.
Proof.
  split; [exact order2_on|]. unfold order2. cbn [fst snd].
  do 4 (split; [apply canon_check; vm_compute; reflexivity|]).
  split; [intros H; apply (f_equal Fval) in H; vm_compute in H; discriminate|].
  repeat split; apply Feq; vm_compute; reflexivity.
Qed.

(** ** C29 *)
Lemma C29_add_stmt : forall ck P Q A B, ext_rep P A -> ext_rep Q B ->
  returns_ext (ept_add ck P Q) (sum A B).
Proof.
  intros ck P Q A B HP HQ. apply ext_rep_rext in HP, HQ. destruct HP as (A' & -> & HP), HQ as (B' & -> & HQ).
  apply (ret_ext (fun ck => ept_add ck P Q) _ _ (rext_add _ _ _ _ HP HQ)). reflexivity.
Qed.
Lemma C29_double_stmt : forall ck P A, ext_rep P A -> returns_ext (ept_double ck P) (sum A A).
Proof. intros ck P A H. exact (C29_add_stmt ck P P A A H H). Qed.
(** The denominators of the affine addition formulas never vanish on the curve. *)
Lemma C29_complete_stmt : forall x1 y1 x2 y2, on_curve (x1, y1) -> on_curve (x2, y2) ->
  1 + cd * x1 * x2 * y1 * y2 <> 0 /\ 1 - cd * x1 * x2 * y1 * y2 <> 0 /\
  on_curve (sum (x1, y1) (x2, y2)).
Proof.
  intros x1 y1 x2 y2 H1 H2. split; [now apply complete_plus|]. split; [now apply complete_minus|].
  now apply sum_on_curve.
Qed.
Lemma C29_ex : ext_rep BASEPOINT base /\ base <> origin /\ ext_rep order2_ext order2.
Proof. split; [exact base_rep|]. split; [exact base_neq|exact order2_rep]. Qed.

(** ** C30 *)
Lemma C30_comm_stmt : forall ck P Q, valid_ext P -> valid_ext Q ->
  same_ext ck (ept_add ck P Q) (ept_add ck Q P).
Proof.
  intros ck P Q HP HQ. apply valid_rext in HP, HQ. destruct HP as [A HP], HQ as [B HQ].
  destruct (rext_add P Q A B HP HQ) as (R & E & HR). destruct (rext_add Q P B A HQ HP) as (R' & E' & HR').
  apply (same_rext ck _ _ R R' _ _ (E ck) (E' ck) HR HR'). apply padd_comm.
Qed.
Lemma C30_assoc_stmt : forall ck P Q S, valid_ext P -> valid_ext Q -> valid_ext S ->
  same_ext ck (PQ <- ept_add ck P Q ;; ept_add ck PQ S) (QS <- ept_add ck Q S ;; ept_add ck P QS).
Proof.
  intros ck P Q S HP HQ HS. apply valid_rext in HP, HQ, HS. destruct HP as [A HP], HQ as [B HQ], HS as [C HS].
  destruct (rext_add P Q A B HP HQ) as (PQ & E1 & H1). destruct (rext_add PQ S _ C H1 HS) as (R & E2 & H2).
  destruct (rext_add Q S B C HQ HS) as (QS & E3 & H3). destruct (rext_add P QS A _ HP H3) as (R' & E4 & H4).
  apply (same_rext ck _ _ R R' (padd (padd A B) C) (padd A (padd B C))); [| |exact H2|exact H4|apply padd_assoc].
  - rewrite E1, bind_ok. apply E2.
  - rewrite E3, bind_ok. apply E4.
Qed.
Lemma C30_identity_stmt : forall ck P, valid_ext P ->
  same_ext ck (ept_add ck P ept_identity) (Ok P) /\ same_ext ck (ept_add ck ept_identity P) (Ok P).
Proof.
  intros ck P HP. apply valid_rext in HP. destruct HP as [A HP]. split.
  - destruct (rext_add P ept_identity A pO HP rext_id) as (R & E & HR).
    apply (same_rext ck _ _ R P _ _ (E ck) eq_refl HR HP). apply padd_O_r.
  - destruct (rext_add ept_identity P pO A rext_id HP) as (R & E & HR).
    apply (same_rext ck _ _ R P _ _ (E ck) eq_refl HR HP). apply padd_O_l.
Qed.
Lemma C30_inverse_stmt : forall ck P, valid_ext P ->
  same_ext ck (N <- ept_neg ck P ;; ept_add ck P N) (Ok ept_identity).
Proof.
  intros ck P HP. apply valid_rext in HP. destruct HP as [A HP].
  destruct (rext_neg P A HP) as (N & E & HN). destruct (rext_add P N A _ HP HN) as (R & E' & HR).
  apply (same_rext ck _ _ R ept_identity (padd A (popp A)) pO); [|reflexivity|exact HR|exact rext_id|apply padd_opp_r].
  rewrite E, bind_ok. apply E'.
Qed.
Lemma C30_sub_stmt : forall ck P Q, valid_ext P -> valid_ext Q ->
  same_ext ck (ept_sub ck P Q) (N <- ept_neg ck Q ;; ept_add ck P N).
Proof.
  intros ck P Q HP HQ. apply valid_rext in HP, HQ. destruct HP as [A HP], HQ as [B HQ].
  destruct (rext_sub P Q A B HP HQ) as (R & E & HR).
  destruct (rext_neg Q B HQ) as (N & E' & HN). destruct (rext_add P N A _ HP HN) as (R' & E'' & HR').
  apply (same_rext ck _ _ R R' (padd A (popp B)) (padd A (popp B))); [apply E| |exact HR|exact HR'|reflexivity].
  rewrite E', bind_ok. apply E''.
Qed.
Lemma C30_ex : valid_ext BASEPOINT /\ valid_ext order2_ext /\ ept_eqb true BASEPOINT order2_ext = Ok false.
Proof.
  split; [exists base; exact base_rep|]. split; [exists order2; exact order2_rep|].
  pose proof base_rep as H1. pose proof order2_rep as H2. apply ext_rep_rext in H1, H2.
  destruct H1 as (A & EA & H1), H2 as (B & EB & H2).
  rewrite (rext_eqb _ _ A B H1 H2). apply f_equal. destruct (pt_eqb_spec A B) as [E|E]; [|reflexivity].
  exfalso. apply (f_equal pxy) in E. rewrite <- EA, <- EB in E. apply (f_equal fst) in E.
  apply (f_equal Fval) in E. vm_compute in E. discriminate.
Qed.

(** ** C31 *)
Lemma C31_neg_stmt : forall ck P A, ext_rep P A -> returns_ext (ept_neg ck P) (opposite A).
Proof.
  intros ck P A HP. apply ext_rep_rext in HP. destruct HP as (A' & -> & HP).
  apply (ret_ext (fun ck => ept_neg ck P) _ _ (rext_neg _ _ HP)). reflexivity.
Qed.
Lemma C31_sub_stmt : forall ck P Q A B, ext_rep P A -> ext_rep Q B ->
  returns_ext (ept_sub ck P Q) (sum A (opposite B)).
Proof.
  intros ck P Q A B HP HQ. apply ext_rep_rext in HP, HQ. destruct HP as (A' & -> & HP), HQ as (B' & -> & HQ).
  apply (ret_ext (fun ck => ept_sub ck P Q) _ _ (rext_sub _ _ _ _ HP HQ)). reflexivity.
Qed.
Lemma C31_neg_affine_stmt : forall ck P A, aff_rep P A ->
  exists R, apt_neg ck P = Ok R /\ aff_rep R (opposite A).
Proof.
  intros ck P A H. apply aff_rep_iff in H. destruct H as (Q & -> & ->). exists (aff (popp Q)).
  split. { unfold aff. rewrite apt_neg_enc. unfold popp. rewrite pxy_of. destruct (pxy Q) as [x y]. reflexivity. }
  apply aff_rep_iff. exists (popp Q). split; reflexivity.
Qed.
Lemma C31_ex : ext_rep BASEPOINT base /\ opposite base <> base.
Proof.
  split; [exact base_rep|]. intros H. apply (f_equal fst) in H. apply (f_equal Fval) in H.
  vm_compute in H. discriminate.
Qed.

(** ** C32 *)
Lemma C32_add_stmt : forall ck P Q A B, proj_rep P A -> proj_rep Q B ->
  returns_proj (ppt_add ck P Q) (sum A B).
Proof.
  intros ck P Q A B HP HQ. apply proj_rep_rprj in HP, HQ. destruct HP as (A' & -> & HP), HQ as (B' & -> & HQ).
  apply (ret_proj (fun ck => ppt_add ck P Q) _ _ (rprj_add _ _ _ _ HP HQ)). reflexivity.
Qed.
Lemma C32_sub_stmt : forall ck P Q A B, proj_rep P A -> proj_rep Q B ->
  returns_proj (ppt_sub ck P Q) (sum A (opposite B)).
Proof.
  intros ck P Q A B HP HQ. apply proj_rep_rprj in HP, HQ. destruct HP as (A' & -> & HP), HQ as (B' & -> & HQ).
  apply (ret_proj (fun ck => ppt_sub ck P Q) _ _ (rprj_sub _ _ _ _ HP HQ)). reflexivity.
Qed.
Lemma C32_neg_stmt : forall ck P A, proj_rep P A -> returns_proj (ppt_neg ck P) (opposite A).
Proof.
  intros ck P A HP. apply proj_rep_rprj in HP. destruct HP as (A' & -> & HP).
  apply (ret_proj (fun ck => ppt_neg ck P) _ _ (rprj_neg _ _ HP)). reflexivity.
Qed.
Lemma C32_double_stmt : forall ck P A, proj_rep P A -> returns_proj (ppt_double ck P) (sum A A).
Proof.
  intros ck P A HP. apply proj_rep_rprj in HP. destruct HP as (A' & -> & HP).
  apply (ret_proj (fun ck => ppt_double ck P) _ _ (rprj_dbl _ _ HP)). reflexivity.
Qed.
Lemma C32_identity_stmt : proj_rep ppt_identity origin /\ ext_rep ept_identity origin.
Proof. split; [exact (rprj_rep _ _ rprj_id)|exact (rext_rep _ _ rext_id)]. Qed.
Lemma C32_ex : proj_rep (ppt_of_ept BASEPOINT) base /\ proj_rep (ppt_of_ept order2_ext) order2.
Proof.
  split; [pose proof base_rep as H|pose proof order2_rep as H];
    apply ext_rep_iff in H; destruct H as (Q & z & -> & N & ->); apply proj_rep_iff; exists Q, z;
    (split; [reflexivity|]); (split; [exact N|]); apply ext_to_prj.
Qed.

(** ** C33 *)
Lemma C33_ext_to_proj_stmt : forall P A, ext_rep P A -> proj_rep (ppt_of_ept P) A.
Proof.
  intros P A H. apply ext_rep_iff in H. destruct H as (Q & z & -> & N & ->). apply proj_rep_iff.
  exists Q, z. split; [reflexivity|]. split; [exact N|]. apply ext_to_prj.
Qed.
Lemma C33_aff_to_proj_stmt : forall P A, aff_rep P A -> proj_rep (ppt_of_apt P) A.
Proof.
  intros P A H. apply aff_rep_iff in H. destruct H as (Q & -> & ->). apply proj_rep_iff.
  exists Q, 1. split; [reflexivity|]. split; [exact one_neq_zero|]. apply aff_to_prj.
Qed.
Lemma C33_aff_to_ext_stmt : forall ck P A, aff_rep P A -> returns_ext (ept_of_apt ck P) A.
Proof.
  intros ck P A H. apply aff_rep_iff in H. destruct H as (Q & -> & ->). exists (ext Q 1).
  split; [apply aff_to_ext|]. apply ext_rep_iff. exists Q, 1. split; [reflexivity|].
  split; [exact one_neq_zero|reflexivity].
Qed.
Lemma C33_proj_to_ext_stmt : forall ck P A, proj_rep P A -> returns_ext (ept_of_ppt ck P) A.
Proof.
  intros ck P A H. apply proj_rep_iff in H. destruct H as (Q & z & -> & N & ->). exists (ext Q (z * z)).
  split; [apply prj_to_ext|]. apply ext_rep_iff. exists Q, (z * z). split; [reflexivity|].
  split; [apply F_mul_nz; exact N|reflexivity].
Qed.
Lemma C33_ext_to_aff_stmt : forall ck P A, ext_rep P A -> exists R, apt_of_ept ck P = Ok R /\ aff_rep R A.
Proof.
  intros ck P A H. apply ext_rep_iff in H. destruct H as (Q & z & -> & N & ->). exists (aff Q).
  split; [now apply ext_affine|]. apply aff_rep_iff. exists Q. split; reflexivity.
Qed.
Lemma C33_proj_to_aff_stmt : forall ck P A, proj_rep P A -> exists R, apt_of_ppt ck P = Ok R /\ aff_rep R A.
Proof.
  intros ck P A H. apply proj_rep_iff in H. destruct H as (Q & z & -> & N & ->). exists (aff Q).
  split; [now apply prj_affine|]. apply aff_rep_iff. exists Q. split; reflexivity.
Qed.
(** Conversion to affine coordinates divides by Z, and panics exactly when Z = 0. *)
Lemma C33_ext_to_aff_panics_stmt : forall ck P, reduced_ext P ->
  (apt_of_ept ck P = Panic <-> fval (eZ P) = 0%Z) /\
  (fval (eZ P) <> 0%Z -> exists R, apt_of_ept ck P = Ok R /\ fcanon (aX R) /\ fcanon (aY R) /\
     residue (aX R) = residue (eX P) / residue (eZ P) /\ residue (aY R) = residue (eY P) / residue (eZ P)).
Proof.
  intros ck P (C1 & C2 & C3 & C4). pose proof (canon_fF_zero (eZ P) C3) as Z0.
  assert (X : fval (eZ P) <> 0%Z -> exists R, apt_of_ept ck P = Ok R /\ fcanon (aX R) /\ fcanon (aY R) /\
     residue (aX R) = residue (eX P) / residue (eZ P) /\ residue (aY R) = residue (eY P) / residue (eZ P)).
  { intros N. assert (NZ : fF (eZ P) <> 0) by (intros H; apply N, Z0, H).
    rewrite (f_equal (apt_of_ept ck) (ept_canon_enc P C1 C2 C3 C4)), apt_of_ept_enc by exact NZ. eexists.
    split; [reflexivity|]. unfold APF. cbn [aX aY]. rewrite !residue_enc.
    split; [apply enc_c|]. split; [apply enc_c|]. fold (fF (eX P)) (fF (eY P)) (fF (eZ P)).
    split; field; exact NZ. }
  split; [|exact X]. split.
  - intros H. destruct (Z.eq_dec (fval (eZ P)) 0) as [E|E]; [exact E|]. destruct (X E) as (R & HR & _).
    rewrite HR in H. discriminate.
  - intros H. apply Z0 in H. rewrite (f_equal (apt_of_ept ck) (ept_canon_enc P C1 C2 C3 C4)), H. apply apt_of_ept_zero.
Qed.
Lemma C33_proj_to_aff_panics_stmt : forall ck P, reduced_proj P ->
  (apt_of_ppt ck P = Panic <-> fval (pZ P) = 0%Z) /\
  (fval (pZ P) <> 0%Z -> exists R, apt_of_ppt ck P = Ok R /\ fcanon (aX R) /\ fcanon (aY R) /\
     residue (aX R) = residue (pX P) / residue (pZ P) /\ residue (aY R) = residue (pY P) / residue (pZ P)).
Proof.
  intros ck P (C1 & C2 & C3). pose proof (canon_fF_zero (pZ P) C3) as Z0.
  assert (X : fval (pZ P) <> 0%Z -> exists R, apt_of_ppt ck P = Ok R /\ fcanon (aX R) /\ fcanon (aY R) /\
     residue (aX R) = residue (pX P) / residue (pZ P) /\ residue (aY R) = residue (pY P) / residue (pZ P)).
  { intros N. assert (NZ : fF (pZ P) <> 0) by (intros H; apply N, Z0, H).
    rewrite (f_equal (apt_of_ppt ck) (ppt_canon_enc P C1 C2 C3)), apt_of_ppt_enc by exact NZ. eexists.
    split; [reflexivity|]. unfold APF. cbn [aX aY]. rewrite !residue_enc.
    split; [apply enc_c|]. split; [apply enc_c|]. fold (fF (pX P)) (fF (pY P)) (fF (pZ P)).
    split; field; exact NZ. }
  split; [|exact X]. split.
  - intros H. destruct (Z.eq_dec (fval (pZ P)) 0) as [E|E]; [exact E|]. destruct (X E) as (R & HR & _).
    rewrite HR in H. discriminate.
  - intros H. apply Z0 in H. rewrite (f_equal (apt_of_ppt ck) (ppt_canon_enc P C1 C2 C3)), H. apply apt_of_ppt_zero.
Qed.
Lemma C33_ex : aff_rep (AP (eX BASEPOINT) (eY BASEPOINT)) base /\ reduced_ext order2_ext /\
  fval (eZ order2_ext) = 7%Z.
Proof.
  split; [|split].
  - pose proof base_rep as (H0 & H1 & H2 & _ & _ & _ & H3 & H4 & _). split; [exact H0|].
    cbn [aX aY]. split; [exact H1|]. split; [exact H2|].
    assert (E : residue (eZ BASEPOINT) = 1) by reflexivity. rewrite E in H3, H4.
    split; [rewrite H3|rewrite H4]; ring.
  - pose proof order2_rep as (_ & H1 & H2 & H3 & H4 & _). repeat (split; [assumption|]). exact H4.
  - vm_compute. reflexivity.
Qed.

(** ** C34 *)
Lemma C34_ext_eq_stmt : forall ck P Q, reduced_ext P -> reduced_ext Q ->
  fval (eZ P) <> 0%Z -> fval (eZ Q) <> 0%Z ->
  exists b, ept_eqb ck P Q = Ok b /\
    (b = true <-> residue (eX P) / residue (eZ P) = residue (eX Q) / residue (eZ Q) /\
                  residue (eY P) / residue (eZ P) = residue (eY Q) / residue (eZ Q)).
Proof.
  intros ck P Q HP HQ NP NQ.
  destruct (proj2 (C33_ext_to_aff_panics_stmt ck P HP) NP) as (A & EA & CA1 & CA2 & XA & YA).
  destruct (proj2 (C33_ext_to_aff_panics_stmt ck Q HQ) NQ) as (B & EB & CB1 & CB2 & XB & YB).
  exists (apt_eqb A B). unfold ept_eqb. rewrite EA, EB, !bind_ok. split; [reflexivity|].
  rewrite (apt_canon_enc A CA1 CA2), (apt_canon_enc B CB1 CB2), apt_eqb_enc.
  unfold fF. rewrite XA, YA, XB, YB. rewrite andb_true_iff, !feqb_eq. reflexivity.
Qed.
Lemma C34_proj_eq_stmt : forall ck P Q, reduced_proj P -> reduced_proj Q ->
  fval (pZ P) <> 0%Z -> fval (pZ Q) <> 0%Z ->
  exists b, ppt_eqb ck P Q = Ok b /\
    (b = true <-> residue (pX P) / residue (pZ P) = residue (pX Q) / residue (pZ Q) /\
                  residue (pY P) / residue (pZ P) = residue (pY Q) / residue (pZ Q)).
Proof.
  intros ck P Q HP HQ NP NQ.
  destruct (proj2 (C33_proj_to_aff_panics_stmt ck P HP) NP) as (A & EA & CA1 & CA2 & XA & YA).
  destruct (proj2 (C33_proj_to_aff_panics_stmt ck Q HQ) NQ) as (B & EB & CB1 & CB2 & XB & YB).
  exists (apt_eqb A B). unfold ppt_eqb. rewrite EA, EB, !bind_ok. split; [reflexivity|].
  rewrite (apt_canon_enc A CA1 CA2), (apt_canon_enc B CB1 CB2), apt_eqb_enc.
  unfold fF. rewrite XA, YA, XB, YB. rewrite andb_true_iff, !feqb_eq. reflexivity.
Qed.
Lemma C34_aff_eq_stmt : forall P Q, fcanon (aX P) -> fcanon (aY P) -> fcanon (aX Q) -> fcanon (aY Q) ->
  (apt_eqb P Q = true <-> P = Q).
Proof.
  intros P Q C1 C2 C3 C4. rewrite (apt_canon_enc P C1 C2), (apt_canon_enc Q C3 C4), apt_eqb_enc, feqb_xy.
  split.
  - intros E. apply APF_eq; [exact (f_equal fst E)|exact (f_equal snd E)].
  - unfold APF. intros E. apply f_equal2; apply enc_inj; [exact (f_equal aX E)|exact (f_equal aY E)].
Qed.
(** On valid points: equality of the curve points represented. *)
Lemma C34_valid_eq_stmt : forall ck P Q A B, ext_rep P A -> ext_rep Q B ->
  exists b, ept_eqb ck P Q = Ok b /\ (b = true <-> A = B).
Proof.
  intros ck P Q A B HP HQ. apply ext_rep_rext in HP, HQ. destruct HP as (A' & -> & HP), HQ as (B' & -> & HQ).
  exists (pt_eqb A' B'). split; [now apply rext_eqb|].
  destruct (pt_eqb_spec A' B') as [E|E]; split; intros H; try reflexivity.
  - rewrite E. reflexivity.
  - discriminate.
  - elim E. apply pt_eq. exact H.
Qed.
(** Two representations of the same point, neither with Z = 1 in common. *)
Lemma C34_ex : reduced_ext order2_ext /\ fval (eZ order2_ext) = 7%Z /\
  ept_eqb true order2_ext (EP fe_zero fe_minus_one fe_one fe_zero) = Ok true.
Proof.
  split; [apply C33_ex|]. split; [vm_compute; reflexivity|].
  destruct (C34_valid_eq_stmt true order2_ext (EP fe_zero fe_minus_one fe_one fe_zero) order2 order2)
    as (b & E & H).
  - exact order2_rep.
  - split; [exact order2_on|]. unfold order2. cbn [fst snd].
    do 4 (split; [apply canon_check; vm_compute; reflexivity|]).
    split; [intros H; apply (f_equal Fval) in H; vm_compute in H; discriminate|].
    repeat split; apply Feq; vm_compute; reflexivity.
  - rewrite E. apply f_equal. apply H. reflexivity.
Qed.

(** ** C35 *)
Lemma C35_aff_stmt : forall ck P, fcanon (aX P) -> fcanon (aY P) ->
  exists b, apt_is_valid ck P = Ok b /\ (b = true <-> on_curve (residue (aX P), residue (aY P))).
Proof.
  intros ck P C1 C2. rewrite (f_equal (apt_is_valid ck) (apt_canon_enc P C1 C2)), apt_is_valid_enc.
  eexists. split; [reflexivity|]. rewrite feqb_eq. unfold on_curve. fold (fF (aX P)) (fF (aY P)).
  assert (E : - (1) * (fF (aX P) * fF (aX P)) = - (fF (aX P) * fF (aX P))) by ring. rewrite E. reflexivity.
Qed.
Lemma valid_scale X Y Z : Z <> 0 ->
  ((- (1) * (X * X) + Y * Y) * (Z * Z) = Z * Z * (Z * Z) + cd * (X * X) * (Y * Y) <->
   on_curve (X / Z, Y / Z)).
Proof.
  intros N. unfold on_curve. set (x := X / Z). set (y := Y / Z).
  assert (EX : X = x * Z) by (unfold x; field; exact N). assert (EY : Y = y * Z) by (unfold y; field; exact N).
  clearbody x y. subst X Y.
  assert (N4 : Z * Z * (Z * Z) <> 0) by (repeat apply F_mul_nz; exact N).
  split; intros H.
  - apply (F_mul_cancel_l (Z * Z * (Z * Z))); [exact N4|].
    transitivity ((- (1) * (x * Z * (x * Z)) + y * Z * (y * Z)) * (Z * Z)); [ring|]. rewrite H. ring.
  - transitivity ((- (x * x) + y * y) * (Z * Z * (Z * Z))); [ring|]. rewrite H. ring.
Qed.
Lemma C35_proj_stmt : forall ck P, reduced_proj P -> fval (pZ P) <> 0%Z ->
  exists b, ppt_is_valid ck P = Ok b /\
    (b = true <-> on_curve (residue (pX P) / residue (pZ P), residue (pY P) / residue (pZ P))).
Proof.
  intros ck P (C1 & C2 & C3) N.
  rewrite (f_equal (ppt_is_valid ck) (ppt_canon_enc P C1 C2 C3)), ppt_is_valid_enc.
  eexists. split; [reflexivity|]. rewrite feqb_eq. fold (fF (pX P)) (fF (pY P)) (fF (pZ P)).
  apply valid_scale. intros H. apply N. apply canon_fF_zero; assumption.
Qed.
Lemma C35_ext_partial_stmt : forall ck P, reduced_ext P -> fval (eZ P) <> 0%Z ->
  exists b, ept_is_valid ck P = Ok b /\
    (b = true <-> on_curve (residue (eX P) / residue (eZ P), residue (eY P) / residue (eZ P))).
Proof.
  intros ck P (C1 & C2 & C3 & C4) N. unfold ept_is_valid.
  exact (C35_proj_stmt ck (ppt_of_ept P) (conj C1 (conj C2 C3)) N).
Qed.
(** Together with the relation XY = ZT the check decides validity. *)
Lemma C35_ext_with_T_stmt : forall ck P, reduced_ext P -> fval (eZ P) <> 0%Z ->
  residue (eX P) * residue (eY P) = residue (eZ P) * residue (eT P) ->
  exists b, ept_is_valid ck P = Ok b /\ (b = true <-> valid_ext P).
Proof.
  intros ck P R N HT. destruct (C35_ext_partial_stmt ck P R N) as (b & E & H). exists b. split; [exact E|].
  destruct R as (C1 & C2 & C3 & C4). rewrite H.
  assert (NZ : fF (eZ P) <> 0) by (intros X; apply N, canon_fF_zero; assumption).
  fold (fF (eX P)) (fF (eY P)) (fF (eZ P)) (fF (eT P)) in *.
  set (X := fF (eX P)) in *. set (Y := fF (eY P)) in *. set (Z := fF (eZ P)) in *. set (T := fF (eT P)) in *.
  split.
  - intros HC. exists (X / Z, Y / Z). unfold ext_rep. cbn [fst snd].
    change (residue (eX P)) with X. change (residue (eY P)) with Y. change (residue (eZ P)) with Z.
    change (residue (eT P)) with T.
    split; [exact HC|]. do 4 (split; [assumption|]). split; [exact NZ|].
    split; [field; exact NZ|]. split; [field; exact NZ|].
    transitivity (Z * T / Z); [field; exact NZ|]. rewrite <- HT. field. exact NZ.
  - intros [A (HC & _ & _ & _ & _ & _ & HX & HY & _)]. change (residue (eX P)) with X in HX. change (residue (eY P)) with Y in HY.
    change (residue (eZ P)) with Z in HX, HY.
    rewrite (surjective_pairing A) in HC.
    assert (E1 : X / Z = fst A) by (rewrite HX; field; exact NZ).
    assert (E2 : Y / Z = snd A) by (rewrite HY; field; exact NZ).
    rewrite E1, E2. exact HC.
Qed.
(** Accepted with Z = 0, where the point has no affine coordinates. *)
Lemma C35_zero_z_refuted_stmt : exists P, reduced_ext P /\ fval (eZ P) = 0%Z /\
  forall ck, ept_is_valid ck P = Ok true /\ apt_of_ept ck P = Panic.
Proof.
  exists (EP fe_one fe_zero fe_zero fe_zero).
  split; [repeat split; apply canon_check; vm_compute; reflexivity|]. split; [reflexivity|].
  intros []; split; vm_compute; reflexivity.
Qed.
(** The T coordinate is not checked: accepted, but adding it to itself goes wrong. *)
Lemma C35_t_refuted_stmt : exists P, reduced_ext P /\ fval (eZ P) <> 0%Z /\ ~ valid_ext P /\
  (forall ck, ept_is_valid ck P = Ok true) /\
  (forall ck, exists R, ept_double ck P = Ok R /\ ept_is_valid ck R = Ok false).
Proof.
  exists (EP (eX BASEPOINT) (eY BASEPOINT) (eZ BASEPOINT) fe_one).
  split; [repeat split; apply canon_check; vm_compute; reflexivity|].
  split; [vm_compute; discriminate|]. split; [|split].
  - intros [A (_ & _ & _ & _ & _ & _ & HX & HY & HT)]. cbn [eX eY eZ eT] in *.
    assert (Z1 : residue (eZ BASEPOINT) = 1) by reflexivity. rewrite Z1 in HX, HY, HT.
    assert (E : residue fe_one = residue (eX BASEPOINT) * residue (eY BASEPOINT)).
    { rewrite HT, HX, HY. ring. }
    apply (f_equal Fval) in E. vm_compute in E. discriminate.
  - intros []; vm_compute; reflexivity.
  - intros []; eexists; (split; [vm_compute; reflexivity|vm_compute; reflexivity]).
Qed.
Lemma C35_ex : reduced_ext order2_ext /\ fval (eZ order2_ext) <> 0%Z /\
  residue (eX order2_ext) * residue (eY order2_ext) = residue (eZ order2_ext) * residue (eT order2_ext).
Proof.
  split; [apply C33_ex|]. split; [vm_compute; discriminate|]. apply Feq. vm_compute. reflexivity.
Qed.

(** ** C36 *)
Lemma C36_ext_mul_stmt : forall ck P A n, ext_rep P A -> sloadable n ->
  returns_ext (ept_mul ck P n) (multiple (sval n) A).
Proof.
  intros ck P A n HP Hn. apply ext_rep_rext in HP. destruct HP as (A' & -> & HP).
  apply (ret_ext (fun ck => ept_mul ck P n) _ _ (ept_mul_rext n P A' Hn HP)).
  symmetry. apply multiple_smul. apply sval_nonneg, Hn.
Qed.
Lemma C36_proj_mul_stmt : forall ck P A n, proj_rep P A -> sloadable n ->
  returns_proj (ppt_mul ck P n) (multiple (sval n) A).
Proof.
  intros ck P A n HP Hn. apply proj_rep_rprj in HP. destruct HP as (A' & -> & HP).
  apply (ret_proj (fun ck => ppt_mul ck P n) _ _ (ppt_mul_rprj n P A' Hn HP)).
  symmetry. apply multiple_smul. apply sval_nonneg, Hn.
Qed.
Lemma C36_double_and_add_stmt : forall ck P A n, ext_rep P A -> sloadable n ->
  returns_ext (double_and_add (ept_add ck) (ept_double ck) ept_identity P n) (multiple (sval n) A).
Proof. exact C36_ext_mul_stmt. Qed.
(** The largest admissible scalar is far above the group order. *)
Definition max_scalar : sc :=
  SC 4503599627370495 4503599627370495 4503599627370495 4503599627370495 281474976710655.
Lemma C36_ex : ext_rep BASEPOINT base /\ sloadable max_scalar /\ sval max_scalar = (2 ^ 256 - 1)%Z.
Proof.
  split; [exact base_rep|]. split; [vm_compute; intuition discriminate|reflexivity].
Qed.

(** ** C37 *)
(** What the code computes for every scalar: bits 249 and up are ignored. *)
Lemma C37_ltr_low_bits_stmt : forall ck P A n, ext_rep P A -> sloadable n ->
  returns_ext (ltr_bin_mul (ept_add ck) (ept_double ck) ept_identity P n) (multiple (sval n mod 2 ^ 249) A) /\
  forall P', proj_rep P' A ->
  returns_proj (ltr_bin_mul (ppt_add ck) (ppt_double ck) ppt_identity P' n) (multiple (sval n mod 2 ^ 249) A).
Proof.
  intros ck P A n HP Hn. apply ext_rep_rext in HP. destruct HP as (A' & -> & HP).
  assert (X : (0 <= sval n mod 2 ^ 249)%Z) by (apply Z.mod_pos_bound; reflexivity).
  split.
  - apply (ret_ext (fun ck => ltr_bin_mul (ept_add ck) (ept_double ck) ept_identity P n) _ _
      (ltr_bin_mul_ok ept rext ept_add ept_sub ept_double ept_identity rext_id rext_add rext_sub rext_dbl n P A' Hn HP)).
    symmetry. apply multiple_smul. exact X.
  - intros P' HP'. apply proj_rep_rprj in HP'. destruct HP' as (A'' & E & HP'). apply pt_eq in E. subst A''.
    apply (ret_proj (fun ck => ltr_bin_mul (ppt_add ck) (ppt_double ck) ppt_identity P' n) _ _
      (ltr_bin_mul_ok ppt rprj ppt_add ppt_sub ppt_double ppt_identity rprj_id rprj_add rprj_sub rprj_dbl n P' A' Hn HP')).
    symmetry. apply multiple_smul. exact X.
Qed.
(** Full statement: for every reduced scalar.  Missing: scalars from 2^249 to L - 1. *)
Lemma C37_ltr_partial_stmt : forall ck P A n, ext_rep P A -> scanon n -> (sval n < 2 ^ 249)%Z ->
  returns_ext (ltr_bin_mul (ept_add ck) (ept_double ck) ept_identity P n) (multiple (sval n) A).
Proof.
  intros ck P A n HP Hn H.
  destruct (C37_ltr_low_bits_stmt ck P A n HP (scanon_loadable n Hn)) as [X _].
  rewrite Z.mod_small in X by (split; [apply sval_nonneg, Hn|exact H]). exact X.
Qed.
Lemma C37_ex : ext_rep BASEPOINT base /\ scanon (SC 4503599627370495 4503599627370495 4503599627370495 4503599627370495 2199023255551) /\
  sval (SC 4503599627370495 4503599627370495 4503599627370495 4503599627370495 2199023255551) = (2 ^ 249 - 1)%Z.
Proof.
  split; [exact base_rep|]. split; [vm_compute; intuition discriminate|reflexivity].
Qed.

(** ** C38 *)
Lemma C38_naf_mul_stmt : forall ck P A n, ext_rep P A -> scanon n ->
  returns_ext (binary_naf_mul ck (ept_add ck) (ept_sub ck) (ept_double ck) ept_identity P n)
    (multiple (sval n) A).
Proof.
  intros ck P A n HP Hn. apply ext_rep_rext in HP. destruct HP as (A' & -> & HP).
  apply (ret_ext (fun ck => binary_naf_mul ck (ept_add ck) (ept_sub ck) (ept_double ck) ept_identity P n) _ _
    (binary_naf_mul_ok ept rext ept_add ept_sub ept_double ept_identity rext_id rext_add rext_sub rext_dbl n P A' Hn HP)).
  symmetry. apply multiple_smul. apply sval_nonneg, Hn.
Qed.
Lemma C38_naf_mul_proj_stmt : forall ck P A n, proj_rep P A -> scanon n ->
  returns_proj (binary_naf_mul ck (ppt_add ck) (ppt_sub ck) (ppt_double ck) ppt_identity P n)
    (multiple (sval n) A).
Proof.
  intros ck P A n HP Hn. apply proj_rep_rprj in HP. destruct HP as (A' & -> & HP).
  apply (ret_proj (fun ck => binary_naf_mul ck (ppt_add ck) (ppt_sub ck) (ppt_double ck) ppt_identity P n) _ _
    (binary_naf_mul_ok ppt rprj ppt_add ppt_sub ppt_double ppt_identity rprj_id rprj_add rprj_sub rprj_dbl n P A' Hn HP)).
  symmetry. apply multiple_smul. apply sval_nonneg, Hn.
Qed.
Lemma C38_ex : ext_rep BASEPOINT base /\ scanon sc_minus_one /\ sval sc_minus_one = (L - 1)%Z.
Proof.
  split; [exact base_rep|]. split; [vm_compute; intuition discriminate|reflexivity].
Qed.

(** ** C39 *)
Lemma C39_mul_add_points_stmt : forall ck P Q n, valid_ext P -> valid_ext Q -> sloadable n ->
  same_ext ck (R <- ept_add ck P Q ;; ept_mul ck R n)
              (nP <- ept_mul ck P n ;; nQ <- ept_mul ck Q n ;; ept_add ck nP nQ).
Proof.
  intros ck P Q n HP HQ Hn. apply valid_rext in HP, HQ. destruct HP as [A HP], HQ as [B HQ].
  destruct (rext_add P Q A B HP HQ) as (R & E1 & H1). destruct (ept_mul_rext n R _ Hn H1) as (R1 & E2 & H2).
  destruct (ept_mul_rext n P A Hn HP) as (nP & E3 & H3). destruct (ept_mul_rext n Q B Hn HQ) as (nQ & E4 & H4).
  destruct (rext_add nP nQ _ _ H3 H4) as (R2 & E5 & H5).
  apply (same_rext ck _ _ R1 R2 _ _) with (3 := H2) (4 := H5).
  - rewrite E1, bind_ok. apply E2.
  - rewrite E3, bind_ok, E4, bind_ok. apply E5.
  - apply smul_padd.
Qed.
Lemma C39_mul_neg_stmt : forall ck P n, valid_ext P -> sloadable n ->
  same_ext ck (N <- ept_neg ck P ;; ept_mul ck N n) (nP <- ept_mul ck P n ;; ept_neg ck nP).
Proof.
  intros ck P n HP Hn. apply valid_rext in HP. destruct HP as [A HP].
  destruct (rext_neg P A HP) as (N & E1 & H1). destruct (ept_mul_rext n N _ Hn H1) as (R1 & E2 & H2).
  destruct (ept_mul_rext n P A Hn HP) as (nP & E3 & H3). destruct (rext_neg nP _ H3) as (R2 & E4 & H4).
  apply (same_rext ck _ _ R1 R2 _ _) with (3 := H2) (4 := H4).
  - rewrite E1, bind_ok. apply E2.
  - rewrite E3, bind_ok. apply E4.
  - apply smul_popp.
Qed.
(** For every valid point, as long as the integers do not exceed the scalar range. *)
Lemma C39_mul_integers_stmt : forall ck P a b c, valid_ext P -> sloadable a -> sloadable b -> sloadable c ->
  (sval c = sval a + sval b)%Z ->
  same_ext ck (ept_mul ck P c) (aP <- ept_mul ck P a ;; bP <- ept_mul ck P b ;; ept_add ck aP bP).
Proof.
  intros ck P a b c HP Ha Hb Hc E. apply valid_rext in HP. destruct HP as [A HP].
  destruct (ept_mul_rext c P A Hc HP) as (R & E1 & H1).
  destruct (ept_mul_rext a P A Ha HP) as (aP & E2 & H2). destruct (ept_mul_rext b P A Hb HP) as (bP & E3 & H3).
  destruct (rext_add aP bP _ _ H2 H3) as (R2 & E4 & H4).
  apply (same_rext ck _ _ R R2 _ _) with (3 := H1) (4 := H4).
  - apply E1.
  - rewrite E2, bind_ok, E3, bind_ok. apply E4.
  - rewrite E. apply smul_add.
Qed.
Lemma C39_ex : valid_ext BASEPOINT /\ valid_ext order2_ext /\ sloadable max_scalar.
Proof. split; [apply C30_ex|]. split; [apply C30_ex|apply C36_ex]. Qed.

(** ** C40 *)
Lemma C40_cofactor_stmt : forall ck P A, ext_rep P A ->
  returns_ext (mul_by_cofactor (ept_mul ck) P) (multiple 8 A).
Proof.
  intros ck P A HP. exact (C36_ext_mul_stmt ck P A (sc_from_u8 8) HP ltac:(vm_compute; intuition discriminate)).
Qed.
Lemma C40_cofactor_proj_stmt : forall ck P A, proj_rep P A ->
  returns_proj (mul_by_cofactor (ppt_mul ck) P) (multiple 8 A).
Proof.
  intros ck P A HP. exact (C36_proj_mul_stmt ck P A (sc_from_u8 8) HP ltac:(vm_compute; intuition discriminate)).
Qed.
Lemma C40_pow2_stmt : forall ck P A k, ext_rep P A -> (0 <= k < 250)%Z ->
  returns_ext (mul_by_pow_2 ck (ept_mul ck) P k) (multiple (2 ^ k) A).
Proof.
  intros ck P A k HP Hk. unfold mul_by_pow_2. destruct (sc_two_pow_k_ok ck k Hk) as (r & E & C & V).
  rewrite E, bind_ok, <- V. apply C36_ext_mul_stmt; [exact HP|apply scanon_loadable; exact C].
Qed.
Lemma C40_pow2_proj_stmt : forall ck P A k, proj_rep P A -> (0 <= k < 250)%Z ->
  returns_proj (mul_by_pow_2 ck (ppt_mul ck) P k) (multiple (2 ^ k) A).
Proof.
  intros ck P A k HP Hk. unfold mul_by_pow_2. destruct (sc_two_pow_k_ok ck k Hk) as (r & E & C & V).
  rewrite E, bind_ok, <- V. apply C36_proj_mul_stmt; [exact HP|apply scanon_loadable; exact C].
Qed.
Lemma C40_pow2_panics_stmt : forall ck P Q k, (250 <= k)%Z ->
  mul_by_pow_2 ck (ept_mul ck) P k = Panic /\ mul_by_pow_2 ck (ppt_mul ck) Q k = Panic.
Proof.
  intros ck P Q k Hk. unfold mul_by_pow_2. rewrite sc_two_pow_k_panic by exact Hk. split; reflexivity.
Qed.
Lemma C40_ex : ext_rep BASEPOINT base /\ (0 <= 249 < 250)%Z /\ multiple 8 order2 = origin.
Proof.
  split; [exact base_rep|]. split; [lia|].
  change order2 with (pxy (pt_of order2 order2_on)).
  rewrite multiple_smul by lia. change 8%Z with (4 * 2)%Z. rewrite smul_mul, smul_2.
  assert (E : padd (pt_of order2 order2_on) (pt_of order2 order2_on) = pO).
  { apply pt_eq. unfold padd, pO. rewrite !pxy_of. unfold sum, order2, origin.
    assert (D1 : 1 + cd * 0 * 0 * - (1) * - (1) = 1) by ring.
    assert (D2 : 1 - cd * 0 * 0 * - (1) * - (1) = 1) by ring.
    rewrite D1, D2, !fdiv_1. apply f_equal2; ring. }
  rewrite E, smul_O. reflexivity.
Qed.

(** ** C41 *)
(** A point is returned exactly when the curve has one with that y coordinate. *)
Lemma C41_ext_stmt : forall ck y s, fcanon y -> exists o, ept_new_from_y_coord ck y s = Ok o /\
  match o with
  | Some P => exists x, ext_rep P (x, residue y)
  | None => forall x, ~ on_curve (x, residue y)
  end.
Proof.
  intros ck y s C. rewrite (f_equal (fun y => ept_new_from_y_coord ck y s) (eq_sym (enc_fF y C))), ept_new_from_y.
  eexists. split; [reflexivity|]. destruct (lift (fF y) s) as [A|] eqn:E; cbn [option_map].
  - apply lift_some in E. exists (lx (fF y) s). fold (fF y). rewrite <- E. apply rext_rep. exists 1.
    split; [exact one_neq_zero|reflexivity].
  - intros x. exact (lift_none _ _ x E).
Qed.
Lemma C41_proj_stmt : forall ck y s, fcanon y -> exists o, ppt_new_from_y_coord ck y s = Ok o /\
  match o with
  | Some P => exists x, proj_rep P (x, residue y)
  | None => forall x, ~ on_curve (x, residue y)
  end.
Proof.
  intros ck y s C. rewrite (f_equal (fun y => ppt_new_from_y_coord ck y s) (eq_sym (enc_fF y C))), ppt_new_from_y.
  eexists. split; [reflexivity|]. destruct (lift (fF y) s) as [A|] eqn:E; cbn [option_map].
  - apply lift_some in E. exists (lx (fF y) s). fold (fF y). rewrite <- E. apply rprj_rep. exists 1.
    split; [exact one_neq_zero|reflexivity].
  - intros x. exact (lift_none _ _ x E).
Qed.
(** The two signs give opposite points. *)
Lemma C41_signs_stmt : forall ck y P Q A, fcanon y ->
  ept_new_from_y_coord ck y false = Ok (Some P) -> ept_new_from_y_coord ck y true = Ok (Some Q) ->
  ext_rep P A -> ext_rep Q (opposite A).
Proof.
  intros ck y P Q A C.
  rewrite !(f_equal (fun y => ept_new_from_y_coord ck y _) (eq_sym (enc_fF y C))), !ept_new_from_y.
  destruct (lift (fF y) false) as [A1|] eqn:E1; cbn [option_map]; [|discriminate].
  destruct (lift (fF y) true) as [A2|] eqn:E2; cbn [option_map]; [|discriminate].
  intros H1 H2 HP.
  apply (f_equal (fun r => match r with Ok o => o | _ => None end)) in H1, H2.
  apply Some_inj in H1, H2. subst P Q. apply ext_rep_rext in HP. destruct HP as (A' & -> & HP).
  assert (X : A1 = A').
  { apply (rext_det (ext A1 1)); [|exact HP]. exists 1. split; [exact one_neq_zero|reflexivity]. }
  subst A'. rewrite (lift_neg _ _ _ E1 E2). apply (rext_rep (ext (popp A1) 1) (popp A1)).
  exists 1. split; [exact one_neq_zero|reflexivity].
Qed.
(** The divisor d*y^2 + 1 of the code is never zero. *)
Lemma C41_divisor_stmt : forall y, cd * (y * y) + 1 <> 0.
Proof.
  intros y H. apply (ydz y). transitivity (cd * (y * y) + 1); [ring|exact H].
Qed.
Lemma C41_ex : fcanon (eY BASEPOINT) /\ on_curve (toF base_x, residue (eY BASEPOINT)) /\
  fcanon (FE 6 0 0 0 0) /\ forall x, ~ on_curve (x, residue (FE 6 0 0 0 0)).
Proof.
  split; [apply base_rep|]. split.
  { assert (E : residue (eY BASEPOINT) = toF 3 / toF 5).
    { rewrite base_y_eq. apply Feq. vm_compute. reflexivity. }
    rewrite E. exact base_on. }
  split; [apply canon_check; vm_compute; reflexivity|].
  intros x H. apply curve_xx in H. pose proof (xx_mul (residue (FE 6 0 0 0 0))) as M. rewrite <- H in M.
  set (y := residue (FE 6 0 0 0 0)) in *.
  assert (S : is_sq ((y * y - 1) * (cd * (y * y) - - (1)))).
  { exists (x * (cd * (y * y) - - (1))). rewrite <- M. ring. }
  set (w := toF 1621479671867606610836397327311271065321300423697744706802819710240665339921).
  assert (E : (y * y - 1) * (cd * (y * y) - - (1)) = cd * (w * w)).
  { rewrite cd_FD. apply Feq. vm_compute. reflexivity. }
  revert S. rewrite E. apply nonsq_mul_sq; [exact cd_nonsq|exists w; reflexivity|].
  intros Z. apply (f_equal Fval) in Z. vm_compute in Z. discriminate.
Qed.

(** ** C42 *)
Lemma C42_compress_stmt : forall ck P A, ext_rep P A ->
  exists b, ept_compress ck P = Ok b /\ is_bytes 32 b /\
    (le_value b mod 2 ^ 255 = Fval (snd A))%Z.
Proof.
  intros ck P A H. apply ext_rep_iff in H. destruct H as (Q & z & -> & N & ->).
  destruct (compress_ext Q z N) as (b & E & B & V). exists b. split; [apply E|]. split; [exact B|].
  rewrite V. pose proof (Frange (snd (pxy Q))). pose proof p_253.
  destruct (psign Q).
  - assert (X : forall v, ((v + 2 ^ 255) mod 2 ^ 255 = v mod 2 ^ 255)%Z).
    { intros v. rewrite <- (Z.mul_1_l (2 ^ 255)) at 1. apply Z.mod_add. discriminate. }
    rewrite X. apply Z.mod_small. lia.
  - rewrite Z.add_0_r. apply Z.mod_small. lia.
Qed.
(** The round trip gives back the point exactly when its y coordinate is below 2^252. *)
Lemma C42_round_trip_partial_stmt : forall ck P A b, ext_rep P A -> ept_compress ck P = Ok b ->
  ((Fval (snd A) < 2 ^ 252)%Z <->
   exists Q, cey_decompress ck b = Ok (Some Q) /\ ext_rep Q A).
Proof.
  intros ck P A b H E. apply ext_rep_iff in H. destruct H as (A' & z & -> & N & ->).
  destruct (compress_ext A' z N) as (b' & E' & B & V). rewrite E' in E.
  apply (f_equal (fun r => match r with Ok o => o | _ => [] end)) in E. subst b'.
  split.
  - intros S. exists (ext A' 1). split; [exact (decompress_compress A' z b N (E' true) S ck)|].
    apply rext_rep. exists 1. split; [exact one_neq_zero|reflexivity].
  - intros (Q & D & R). apply ext_rep_rext in R. destruct R as (A'' & X & R). apply pt_eq in X. subst A''.
    exact (decompress_y b Q A' ck B D R).
Qed.
(** The point (0,-1) does not survive the round trip. *)
Lemma C42_round_trip_refuted_stmt : exists P, valid_ext P /\ forall ck b, ept_compress ck P = Ok b ->
  ~ exists Q, cey_decompress ck b = Ok (Some Q) /\ ept_eqb ck Q P = Ok true.
Proof.
  exists order2_ext. split; [exists order2; exact order2_rep|].
  intros ck b E (Q & D & EQ).
  assert (HQ : exists A, rext Q A).
  { destruct (C42_compress_stmt ck _ _ order2_rep) as (b' & E' & B & _). rewrite E' in E.
    apply (f_equal (fun r => match r with Ok o => o | _ => [] end)) in E. subst b'.
    rewrite (decompress_lift b B) in D. apply (f_equal (fun r => match r with Ok o => o | _ => None end)) in D.
    destruct (lift _ _) as [A|]; cbn [option_map] in D; [|symmetry in D; elim (Some_None _ D)].
    apply Some_inj in D. exists A. exists 1. split; [exact one_neq_zero|symmetry; exact D]. }
  destruct HQ as (A & HQ). pose proof order2_rep as HP. apply ext_rep_rext in HP. destruct HP as (O2 & EO & HP).
  rewrite (rext_eqb Q order2_ext A O2 HQ HP) in EQ.
  destruct (pt_eqb_spec A O2) as [X|X]; [|discriminate]. subst A.
  assert (S : (Fval (snd order2) < 2 ^ 252)%Z).
  { apply (C42_round_trip_partial_stmt ck order2_ext order2 b order2_rep E). exists Q. split; [exact D|].
    rewrite EO. apply rext_rep. exact HQ. }
  vm_compute in S. discriminate.
Qed.
Lemma C42_ex : ext_rep BASEPOINT base /\ (Fval (snd base) < 2 ^ 252)%Z /\
  ext_rep order2_ext order2 /\ ~ (Fval (snd order2) < 2 ^ 252)%Z.
Proof.
  split; [exact base_rep|]. split; [unfold base; rewrite base_y_eq; reflexivity|].
  split; [exact order2_rep|]. vm_compute. discriminate.
Qed.

(** ** C43 *)
Lemma C43_decompress_stmt : forall ck b, is_bytes 32 b -> exists o, cey_decompress ck b = Ok o /\
  match o with
  | Some P => exists x, ext_rep P (x, toF (le_value b mod 2 ^ 252))
  | None => forall x, ~ on_curve (x, toF (le_value b mod 2 ^ 252))
  end.
Proof.
  intros ck b B. rewrite (decompress_lift b B ck). eexists. split; [reflexivity|].
  set (y := toF _). set (s := (_ <=? _)%Z).
  destruct (lift y s) as [A|] eqn:E; cbn [option_map].
  - apply lift_some in E. exists (lx y s). rewrite <- E. apply rext_rep. exists 1.
    split; [exact one_neq_zero|reflexivity].
  - intros x. exact (lift_none _ _ x E).
Qed.
(** Flipping the top bit selects the opposite point. *)
Lemma C43_sign_stmt : forall ck b b' P P' A, is_bytes 32 b -> is_bytes 32 b' ->
  (le_value b' = le_value b + 2 ^ 255)%Z ->
  cey_decompress ck b = Ok (Some P) -> cey_decompress ck b' = Ok (Some P') ->
  ext_rep P A -> ext_rep P' (opposite A).
Proof.
  intros ck b b' P P' A B B' V D D' H.
  pose proof (le_value_bound 32 b B) as R. pose proof (le_value_bound 32 b' B') as R'.
  change (256 ^ Z.of_nat 32)%Z with (2 ^ 256)%Z in R, R'.
  rewrite (decompress_lift b B) in D. rewrite (decompress_lift b' B') in D'.
  assert (V1 : (le_value b' mod 2 ^ 252 = le_value b mod 2 ^ 252)%Z).
  { rewrite V. change (2 ^ 255)%Z with (8 * 2 ^ 252)%Z. apply Z.mod_add. discriminate. }
  assert (S : (2 ^ 255 <=? le_value b)%Z = false) by (apply Z.leb_gt; lia).
  assert (S' : (2 ^ 255 <=? le_value b')%Z = true) by (apply Z.leb_le; lia).
  rewrite S in D. rewrite V1, S' in D'. set (y := toF _) in *.
  apply (f_equal (fun r => match r with Ok o => o | _ => None end)) in D, D'.
  destruct (lift y false) as [A1|] eqn:E1; cbn [option_map] in D; [|symmetry in D; elim (Some_None _ D)].
  destruct (lift y true) as [A2|] eqn:E2; cbn [option_map] in D'; [|symmetry in D'; elim (Some_None _ D')].
  apply Some_inj in D, D'. subst P P'. apply ext_rep_rext in H. destruct H as (A' & -> & H).
  assert (X : A1 = A').
  { apply (rext_det (ext A1 1)); [|exact H]. exists 1. split; [exact one_neq_zero|reflexivity]. }
  subst A'. rewrite (lift_neg _ _ _ E1 E2). apply (rext_rep (ext (popp A1) 1) (popp A1)).
  exists 1. split; [exact one_neq_zero|reflexivity].
Qed.
(** Encodings are not unique: different strings decode to the same point. *)
Lemma C43_unique_refuted_stmt : exists b b', is_bytes 32 b /\ is_bytes 32 b' /\ b <> b' /\
  forall ck, exists P, cey_decompress ck b = Ok (Some P) /\ cey_decompress ck b' = Ok (Some P).
Proof.
  exists (1 :: repeat 0 31)%Z, (1 :: repeat 0 30 ++ [16])%Z.
  assert (B : is_bytes 32 (1 :: repeat 0 31)%Z).
  { split; [reflexivity|]. repeat (constructor; [lia|]). constructor. }
  assert (B' : is_bytes 32 (1 :: repeat 0 30 ++ [16])%Z).
  { split; [reflexivity|]. repeat (constructor; [lia|]). constructor. }
  split; [exact B|]. split; [exact B'|]. split; [discriminate|]. intros ck.
  rewrite (decompress_lift _ B), (decompress_lift _ B').
  assert (V : (le_value (1 :: repeat 0 31) mod 2 ^ 252 = 1)%Z) by reflexivity.
  assert (V' : (le_value (1 :: repeat 0 30 ++ [16]) mod 2 ^ 252 = 1)%Z) by reflexivity.
  rewrite V, V'. assert (S : (2 ^ 255 <=? le_value (1 :: repeat 0 31))%Z = false) by reflexivity.
  assert (S' : (2 ^ 255 <=? le_value (1 :: repeat 0 30 ++ [16]))%Z = false) by reflexivity.
  rewrite S, S'. destruct (lift (toF 1) false) as [A|] eqn:E; cbn [option_map].
  - exists (ext A 1). split; reflexivity.
  - exfalso. apply (lift_none _ _ 0 E). exact origin_on_curve.
Qed.
Lemma C43_ex : is_bytes 32 BASEPOINT_COMPRESSED /\ (le_value BASEPOINT_COMPRESSED mod 2 ^ 252 = Fval (snd base))%Z.
Proof.
  split; [split; [reflexivity|repeat (constructor; [lia|]); constructor]|].
  unfold base. rewrite base_y_eq. vm_compute. reflexivity.
Qed.

Lemma ext_rep_on P A : ext_rep P A -> on_curve A.
Proof. intros H. apply ext_rep_iff in H. destruct H as (Q & z & -> & _). apply pt_on. Qed.

(** ** C44 *)
Lemma C44_neg_stmt : forall ck b P A, is_bytes 32 b -> cey_decompress ck b = Ok (Some P) -> ext_rep P A ->
  exists b' P', cey_neg ck b = Ok b' /\ is_bytes 32 b' /\ (le_value b' mod 2 ^ 255 = le_value b mod 2 ^ 252)%Z /\
    cey_decompress ck b' = Ok (Some P') /\ ext_rep P' (opposite A).
Proof.
  intros ck b P A B D H. apply ext_rep_rext in H. destruct H as (A' & -> & H).
  assert (Hy : Fval (snd (pxy A')) = (le_value b mod 2 ^ 252)%Z).
  { destruct (C43_decompress_stmt ck b B) as (o & Eo & Ho). rewrite D in Eo.
    apply (f_equal (fun r => match r with Ok o => o | _ => None end)) in Eo. subst o.
    destruct Ho as (x & Ho). apply ext_rep_rext in Ho. destruct Ho as (A2 & EA & Ho).
    rewrite (rext_det P A' A2 H Ho), <- EA. cbn [snd]. rewrite Fval_toF.
    pose proof (Z.mod_pos_bound (le_value b) (2 ^ 252) ltac:(lia)). pose proof p_253.
    apply Z.mod_small. lia. }
  destruct (rext_neg P A' H) as (N & EN & HN).
  assert (HN' := rext_rep _ _ HN).
  destruct (C42_compress_stmt ck N _ HN') as (b' & Eb & B' & V).
  assert (S : (Fval (snd (pxy (popp A'))) < 2 ^ 252)%Z).
  { unfold popp. rewrite pxy_of. destruct (pxy A') as [x y]. cbn [opposite snd] in *. rewrite Hy.
    apply Z.mod_pos_bound. reflexivity. }
  destruct (proj1 (C42_round_trip_partial_stmt ck N _ b' HN' Eb) S) as (P' & D' & R').
  exists b', P'. split.
  { unfold cey_neg. rewrite D, bind_ok. cbn [unwrap]. rewrite bind_ok, EN, bind_ok. exact Eb. }
  split; [exact B'|]. split; [|split; [exact D'|exact R']].
  rewrite V, <- Hy. unfold popp. rewrite pxy_of. destruct (pxy A') as [x y]. reflexivity.
Qed.
Lemma C44_panics_stmt : forall ck b, is_bytes 32 b ->
  (cey_neg ck b = Panic <-> forall x, ~ on_curve (x, toF (le_value b mod 2 ^ 252))).
Proof.
  intros ck b B. destruct (C43_decompress_stmt ck b B) as (o & E & H). split.
  - intros HN. destruct o as [P|]; [|exact H]. exfalso. destruct H as (x & H).
    destruct (C44_neg_stmt ck b P _ B E H) as (b' & _ & E' & _). rewrite HN in E'. discriminate.
  - intros HN. destruct o as [P|].
    + destruct H as (x & H). elim (HN x). exact (ext_rep_on _ _ H).
    + unfold cey_neg. rewrite E. reflexivity.
Qed.
Lemma C44_ex : is_bytes 32 (6 :: repeat 0 31)%Z /\
  (forall x, ~ on_curve (x, toF (le_value (6 :: repeat 0 31)%Z mod 2 ^ 252))) /\
  is_bytes 32 BASEPOINT_COMPRESSED /\ exists P, cey_decompress true BASEPOINT_COMPRESSED = Ok (Some P).
Proof.
  split; [split; [reflexivity|repeat (constructor; [lia|]); constructor]|].
  split.
  { assert (E : (le_value (6 :: repeat 0 31)%Z mod 2 ^ 252 = fval (FE 6 0 0 0 0))%Z) by reflexivity.
    rewrite E. apply C41_ex. }
  split; [apply C43_ex|].
  destruct (C43_decompress_stmt true BASEPOINT_COMPRESSED (proj1 C43_ex)) as (o & E & H).
  destruct o as [P|]; [exists P; exact E|]. exfalso. rewrite (proj2 C43_ex), toF_Fval in H.
  exact (H (fst base) base_on).
Qed.

(** ** C45 *)
(** The call returns a valid point unless no draw gives a y coordinate on the
    curve, in which case it consumes the whole stream. *)
Lemma C45_ext_stmt : forall ck draws, Forall (is_bytes 32) draws ->
  (exists P, ept_new_random_point ck draws = Ok P /\ valid_ext P) \/
  (ept_new_random_point ck draws = NoFuel /\
   Forall (fun d => forall x, ~ on_curve (x, toF (le_value d mod 2 ^ 251))) draws).
Proof.
  intros ck draws H. rewrite ept_random by exact H. destruct (first_lift draws) as [A|] eqn:E.
  - left. exists (ext A 1). split; [reflexivity|]. apply valid_rext. exists A. exists 1.
    split; [exact one_neq_zero|reflexivity].
  - right. split; [reflexivity|]. apply first_lift_none. exact E.
Qed.
Lemma C45_proj_stmt : forall ck draws, Forall (is_bytes 32) draws ->
  (exists P, ppt_new_random_point ck draws = Ok P /\ valid_proj P) \/
  (ppt_new_random_point ck draws = NoFuel /\
   Forall (fun d => forall x, ~ on_curve (x, toF (le_value d mod 2 ^ 251))) draws).
Proof.
  intros ck draws H. rewrite ppt_random by exact H. destruct (first_lift draws) as [A|] eqn:E.
  - left. exists (prj A 1). split; [reflexivity|]. apply valid_rprj. exists A. exists 1.
    split; [exact one_neq_zero|reflexivity].
  - right. split; [reflexivity|]. apply first_lift_none. exact E.
Qed.
(** The first draw fails, the second succeeds. *)
Lemma C45_ex : Forall (is_bytes 32) [6 :: repeat 0 31; 1 :: repeat 0 31]%Z /\
  (forall x, ~ on_curve (x, toF (le_value (6 :: repeat 0 31)%Z mod 2 ^ 251))) /\
  exists P, ept_new_random_point true [6 :: repeat 0 31; 1 :: repeat 0 31]%Z = Ok P.
Proof.
  assert (F : Forall (is_bytes 32) [6 :: repeat 0 31; 1 :: repeat 0 31]%Z).
  { repeat (constructor; [split; [reflexivity|repeat (constructor; [lia|]); constructor]|]). constructor. }
  split; [exact F|]. split.
  { assert (E : (le_value (6 :: repeat 0 31)%Z mod 2 ^ 251 = fval (FE 6 0 0 0 0))%Z) by reflexivity.
    rewrite E. apply C41_ex. }
  destruct (C45_ext_stmt true _ F) as [(P & E & _)|[_ H]]; [exists P; exact E|].
  exfalso. apply Forall_inv_tail, Forall_inv in H. apply (H 0). exact origin_on_curve.
Qed.

(** ** C46 *)
Lemma coset1_enc : nth_error FOUR_COSET_GROUP 0 = Some (EPF 1 0 1 0).
Proof. reflexivity. Qed.
Lemma mFI_on : on_curve (- FI, 0).
Proof. unfold on_curve. transitivity (- (FI * FI)); [ring|]. rewrite FI_sq. ring. Qed.
Definition ptI : pt := pt_of (- FI, 0) mFI_on.
Lemma coset2_enc : nth_error FOUR_COSET_GROUP 1 = Some (EPF (- FI) 0 1 0).
Proof. vm_compute. reflexivity. Qed.
Lemma coset3_enc : nth_error FOUR_COSET_GROUP 2 = Some (EPF 0 (- (1)) 1 0).
Proof. vm_compute. reflexivity. Qed.
Definition pt2 : pt := pt_of order2 order2_on.
Lemma rext_I : rext (EPF (- FI) 0 1 0) ptI.
Proof.
  exists 1. split; [exact one_neq_zero|]. unfold ext, ptI. rewrite pxy_of. cbn [fst snd]. apply EPF_eq; ring.
Qed.
Lemma rext_2 : rext (EPF 0 (- (1)) 1 0) pt2.
Proof.
  exists 1. split; [exact one_neq_zero|]. unfold ext, pt2. rewrite pxy_of. unfold order2. cbn [fst snd].
  apply EPF_eq; ring.
Qed.
(** Swapping the coordinates of a curve point leaves the curve. *)
Lemma swap_off x y : on_curve (x, y) -> ~ on_curve (y, x).
Proof.
  unfold on_curve. intros H1 H2.
  assert (E : x * x = y * y).
  { apply F_sub_eq. apply F_double_zero.
    transitivity ((- (y * y) + x * x) - (- (x * x) + y * y)); [ring|]. rewrite H1, H2. ring. }
  assert (D : 1 + cd * (x * x) * (x * x) = 0).
  { rewrite <- E in H1. rewrite <- H1. ring. }
  assert (N : x <> 0). { intros ->. apply one_neq_zero. rewrite <- D. ring. }
  apply cd_nonsq. destruct is_sq_m1 as [i Hi]. exists (i * / (x * x)).
  transitivity ((i * i) * (/ (x * x) * / (x * x))); [ring|]. rewrite Hi.
  transitivity ((1 + cd * (x * x) * (x * x)) * (/ (x * x) * / (x * x)) - (/ (x * x) * / (x * x)));
    [rewrite D; ring|]. field. exact N.
Qed.
Lemma coset_first A z ck : z <> 0 -> exists R, ept_add ck (ext A z) (EPF 1 0 1 0) = Ok R /\ ~ valid_ext R.
Proof.
  intros N. pose proof (pt_on A) as C. unfold ext. set (x := fst (pxy A)) in *. set (y := snd (pxy A)) in *.
  rewrite ept_add_enc. cbv zeta. eexists. split; [reflexivity|].
  intros [B H]. apply ext_rep_iff in H. destruct H as (Q & w & -> & Nw & E). unfold ext in E.
  apply EPF_inj in E. destruct E as (E1 & E2 & E3 & _).
  rewrite (surjective_pairing (pxy A)) in C. fold x y in C. apply (swap_off x y C).
  assert (X : fst (pxy Q) = y).
  { apply (F_mul_cancel_l w); [exact Nw|]. transitivity (fst (pxy Q) * w); [ring|]. rewrite <- E1, <- E3. ring. }
  assert (Y : snd (pxy Q) = x).
  { apply (F_mul_cancel_l w); [exact Nw|]. transitivity (snd (pxy Q) * w); [ring|]. rewrite <- E2, <- E3. ring. }
  rewrite <- X, <- Y, <- surjective_pairing. apply pt_on.
Qed.

(** Three of the four entries are right: P, P + (j,0) and P + (0,-1) for a square
    root j of -1.  Missing: the entry P + (-j,0); in its place (second entry) the
    code returns a tuple that is not a curve point, for every P. *)
Lemma C46_coset4_partial_stmt : exists j, j * j = - (1) /\
  forall ck P A, ext_rep P A -> exists S U V, ept_coset4 ck P = Ok [P; S; U; V] /\
    ~ valid_ext S /\ ext_rep U (sum A (j, 0)) /\ ext_rep V (sum A (0, - (1))).
Proof.
  exists (- FI). split; [transitivity (FI * FI); [ring|exact FI_sq]|].
  intros ck P A H. apply ext_rep_rext in H. destruct H as (A' & -> & H).
  pose proof H as (z & N & ->).
  destruct (coset_first A' z ck N) as (S & ES & HS).
  destruct (rext_add _ _ _ _ H rext_I) as (U & EU & HU).
  destruct (rext_add _ _ _ _ H rext_2) as (V & EV & HV).
  exists S, U, V. split; [|split; [exact HS|split; [exact (rext_rep _ _ HU)|exact (rext_rep _ _ HV)]]].
  unfold ept_coset4. rewrite coset1_enc, coset2_enc, coset3_enc. cbn [unwrap]. rewrite !bind_ok.
  rewrite ES, !bind_ok, EU, !bind_ok, EV. reflexivity.
Qed.
Lemma C46_coset4_refuted_stmt : exists P, valid_ext P /\ forall ck, exists l, ept_coset4 ck P = Ok l /\
  ~ Forall valid_ext l.
Proof.
  destruct C46_coset4_partial_stmt as (j & _ & H). exists BASEPOINT.
  split; [exists base; exact base_rep|]. intros ck. destruct (H ck BASEPOINT base base_rep) as (S & U & V & E & N & _).
  eexists. split; [exact E|]. intros F. apply Forall_inv_tail, Forall_inv in F. exact (N F).
Qed.
Lemma C46_ex : ext_rep BASEPOINT base /\ ext_rep order2_ext order2.
Proof. split; [exact base_rep|exact order2_rep]. Qed.
