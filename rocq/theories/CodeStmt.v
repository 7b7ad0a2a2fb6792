(** * Square roots and encodings against their specification

    Statement forms; PropCode.v restates each of them.                      *)

From Coq Require Import ZArith Znumtheory List Bool Lia Ring Field.
From Verif Require Import Machine FieldModel ScalarModel EdwardsModel TableModel RistrettoModel Spec MachineFacts
  FieldLimb FieldOps FieldBytes NumTheory Primes Fp FieldF FieldInv FieldStmt ScalarOps Curve CurveGroup EdwardsF
  PointMul EdwardsY EdwardsStmt RistSpec CodeSpec Rist RistF RistE RistrettoStmt.
Import ListNotations.
Open Scope F_scope.

Lemma q4_p : ((p - 1) / 4 = q4)%Z. Proof. vm_compute. reflexivity. Qed.
Lemma FI_nonneg : nonneg FI. Proof. unfold nonneg. vm_compute. discriminate. Qed.
Lemma q4_ev : ((q4 + 1) / 2 = 2 * ((q4 + 1) / 4))%Z. Proof. vm_compute. reflexivity. Qed.
Lemma q4_43 : (q4 = 4 * (q4 / 4) + 3)%Z. Proof. vm_compute. reflexivity. Qed.
Lemma fpow_m1 : (- (1)) ^ 2 = 1. Proof. rewrite fpow_2. ring. Qed.
Lemma c6_q4 : c6 ^ q4 = FI.
Proof.
  assert (E4 : c6 ^ 4 = 1).
  { change 4%Z with (2 * 2)%Z. rewrite fpow_mul, !fpow_2, c6_sq by discriminate. ring. }
  transitivity (c6 ^ (4 * (q4 / 4) + 3)); [rewrite <- q4_43; reflexivity|].
  rewrite fpow_add, fpow_mul, E4, fpow_one by (vm_compute; discriminate).
  change 3%Z with (2 + 1)%Z. rewrite fpow_succ, fpow_2, c6_sq by discriminate.
  apply Feq. vm_compute. reflexivity.
Qed.
Lemma opp_q4 x : (- x) ^ q4 = - (x ^ q4).
Proof.
  assert (E : - x = - (1) * x) by ring. rewrite E, fpow_mul_l by exact q4_nn.
  assert (E1 : (- (1)) ^ q4 = - (1)).
  { transitivity ((- (1)) ^ (2 * (q4 / 2) + 1)); [apply f_equal; vm_compute; reflexivity|].
    rewrite fpow_succ, fpow_mul, fpow_m1, fpow_one by (vm_compute; discriminate). ring. }
  rewrite E1. ring.
Qed.
Lemma principal_iff x : principal x <-> x = 0 \/ x ^ q4 = 1 \/ x ^ q4 = FI.
Proof.
  unfold principal. rewrite q4_p. split; (intros [H|[H|H]]; [left; exact H|right; left; exact H|right; right]).
  - destruct H as (j & J & N & ->). rewrite <- FI_sq in J. apply F_sq_eq in J. destruct J as [J|J]; [exact J|].
    exfalso. subst j. revert N. unfold nonneg. vm_compute. intros N. apply N. reflexivity.
  - exists FI. split; [exact FI_sq|]. split; [exact FI_nonneg|exact H].
Qed.
Lemma ts_root_principal a : is_sq a -> principal (ts_root a).
Proof.
  intros S. apply principal_iff. destruct (F_dec a 0) as [->|N]; [left; apply ts_root_zero|right].
  assert (SQ : a ^ q4 * a ^ q4 = 1 * 1).
  { rewrite <- fpow_add by exact q4_nn. rewrite q4_dbl. apply is_sq_chi in S; [|exact N].
    unfold chi in S. rewrite S. ring. }
  assert (XQ : forall t, t = a ^ q4 -> t * t = 1 -> (a ^ ((q4 + 1) / 2)) ^ q4 = 1).
  { intros t Ht Tt. rewrite <- fpow_mul by (exact q4_half_nn || exact q4_nn).
    rewrite Z.mul_comm, fpow_mul by (exact q4_half_nn || exact q4_nn). rewrite <- Ht, q4_ev.
    rewrite fpow_mul by (vm_compute; discriminate). rewrite fpow_2, Tt. apply fpow_one. vm_compute. discriminate. }
  assert (X1 : (a ^ ((q4 + 1) / 2)) ^ q4 = 1).
  { apply (XQ _ eq_refl). rewrite SQ. ring. }
  with_strategy transparent [ts_root] unfold ts_root. cbv zeta.
  destruct (feqb_spec (a ^ q4) 1) as [E|E]; [left; exact X1|right].
  rewrite fpow_mul_l by exact q4_nn. rewrite X1, c6_q4. ring.
Qed.
Lemma principal_opp x : principal x -> principal (- x) -> x = 0.
Proof.
  rewrite !principal_iff, opp_q4. intros H H'.
  destruct (F_dec x 0) as [E|N]; [exact E|exfalso].
  destruct H as [H|H]; [exact (N H)|]. destruct H' as [H'|H'].
  { apply N. transitivity (- - x); [ring|]. rewrite H'. ring. }
  destruct H as [H|H]; rewrite H in H'; destruct H' as [H'|H']; apply (f_equal Fval) in H'; vm_compute in H'; discriminate H'.
Qed.
Lemma ts_root_sq x : ts_root (x * x) = x <-> principal x.
Proof.
  assert (S : is_sq (x * x)) by (exists x; reflexivity).
  pose proof (ts_root_principal _ S) as R. pose proof (ts_root_ok _ S) as E. apply F_sq_eq in E.
  split; [intros H; rewrite H in R; exact R|]. intros P. destruct E as [E|E]; [exact E|].
  rewrite E in R. rewrite (principal_opp x P R) in *. rewrite E. ring.
Qed.
Lemma principal_or x : principal x \/ principal (- x).
Proof.
  assert (S : is_sq (x * x)) by (exists x; reflexivity).
  pose proof (ts_root_principal _ S) as R. pose proof (ts_root_ok _ S) as E. apply F_sq_eq in E.
  destruct E as [E|E]; rewrite E in R; [left|right]; exact R.
Qed.
Lemma psign_principal A : psign A = false <-> principal (fst (pxy A)).
Proof.
  unfold psign. pose proof (pt_on A) as C. rewrite (surjective_pairing (pxy A)) in C. apply curve_xx in C.
  rewrite <- C, <- ts_root_sq.
  destruct (feqb_spec (ts_root (fst (pxy A) * fst (pxy A))) (fst (pxy A))) as [E|E]; cbn [negb]; split; intros H;
    [exact E|reflexivity|discriminate H|elim E; exact H].
Qed.

Lemma sq_eq_root a x : x * x = a -> principal x -> ts_root a = x.
Proof. intros <- H. apply ts_root_sq. exact H. Qed.
Lemma opp_opp x : - - x = x. Proof. ring. Qed.

(** ** C75 *)
(** Of x and -x exactly one is preferred, unless x = 0. *)
Lemma C75_principal_stmt : forall x, (principal x \/ principal (- x)) /\ (principal x -> principal (- x) -> x = 0).
Proof. intros x. split; [apply principal_or|apply principal_opp]. Qed.
(** [mod_sqrt] returns the preferred root for choice 0 and its negative for choice 1. *)
Lemma C75_mod_sqrt_stmt : forall ck a sign, fcanon a ->
  (forall x, x * x = residue a -> principal x ->
     exists r, fe_mod_sqrt ck a sign = Ok (Some r) /\ fcanon r /\ residue r = if sign then - x else x) /\
  ((forall x, x * x <> residue a) -> fe_mod_sqrt ck a sign = Ok None).
Proof.
  intros ck a sign A. fold (fF a). rewrite (f_equal (fun e => fe_mod_sqrt ck e sign) (eq_sym (enc_fF a A))).
  rewrite fe_mod_sqrt_F'. generalize (fF a). clear A a. intros a. split.
  - intros x Hx P. rewrite (sq_eq_root a x Hx P).
    destruct (sqb_F_spec a) as [S|S]; [|elim S; exists x; exact Hx].
    eexists. split; [reflexivity|]. split; [apply enc_c|]. rewrite residue_enc. destruct sign; reflexivity.
  - intros N. destruct (sqb_F_spec a) as [S|S]; [|reflexivity]. destruct S as [x Hx]. elim (N x Hx).
Qed.
Lemma C75_ex : fcanon (FE 16 0 0 0 0) /\ principal (- toF 4) /\ ~ principal (toF 4) /\
  - toF 4 * - toF 4 = residue (FE 16 0 0 0 0) /\ fcanon (FE 6 0 0 0 0) /\ forall x, x * x <> residue (FE 6 0 0 0 0).
Proof.
  assert (P4 : principal (- toF 4)).
  { apply ts_root_sq. rewrite <- ts_root_16 at 3. apply f_equal. apply Feq. vm_compute. reflexivity. }
  split; [apply canon_check; vm_compute; reflexivity|]. split; [exact P4|].
  split. { intros H. apply (principal_opp _ H) in P4. apply (f_equal Fval) in P4. vm_compute in P4. discriminate P4. }
  split; [apply Feq; vm_compute; reflexivity|].
  split; [apply canon_check; vm_compute; reflexivity|].
  intros x Hx. assert (N : ~ is_sq (toF 6)) by (apply nsqb_true; vm_compute; reflexivity).
  apply N. exists x. rewrite Hx. apply Feq. vm_compute. reflexivity.
Qed.

(** ** C76 *)
Lemma lift_has_y y s A : lift y s = Some A <-> has_y y s (pxy A).
Proof.
  split.
  - intros H. pose proof (lift_some y s A H) as E. destruct (lift_cases y s) as [(S & _)|[_ H']].
    2: { rewrite H in H'. elim (Some_None _ H'). }
    split; [apply pt_on|]. rewrite E. cbn [fst snd]. split; [reflexivity|].
    pose proof (ts_root_principal _ S) as R. unfold lx. destruct s; [rewrite opp_opp|]; exact R.
  - intros (C & Y & P). rewrite (surjective_pairing (pxy A)), Y in C. apply curve_xx in C.
    destruct (lift_cases y s) as [(_ & A' & E & H')|[S _]].
    2: { elim S. exists (fst (pxy A)). exact C. }
    rewrite H'. apply f_equal. apply pt_eq. rewrite E. rewrite (surjective_pairing (pxy A)), Y. apply f_equal2; [|reflexivity].
    unfold lx. destruct s.
    + rewrite (sq_eq_root (xx y) (- fst (pxy A))); [apply opp_opp| |exact P]. rewrite <- C. ring.
    + apply sq_eq_root; [exact C|exact P].
Qed.
Lemma has_y_pt y s A : has_y y s A -> exists A', A = pxy A' /\ lift y s = Some A'.
Proof.
  intros H. exists (pt_of A (proj1 H)). split; [symmetry; apply pxy_of|]. apply lift_has_y. rewrite pxy_of. exact H.
Qed.
Lemma lift_no y s : (forall A, ~ has_y y s A) -> lift y s = None.
Proof.
  intros N. destruct (lift y s) as [A|] eqn:E; [|reflexivity]. elim (N (pxy A)). apply lift_has_y. exact E.
Qed.
(** The specified point is unique. *)
Lemma C76_unique_stmt : forall y s A B, has_y y s A -> has_y y s B -> A = B.
Proof.
  intros y s A B HA HB. destruct (has_y_pt _ _ _ HA) as (A' & -> & EA). destruct (has_y_pt _ _ _ HB) as (B' & -> & EB).
  rewrite EA in EB. apply Some_inj in EB. rewrite EB. reflexivity.
Qed.
Lemma C76_from_y_stmt : forall ck y s, fcanon y ->
  (forall A, has_y (residue y) s A ->
     (exists P, ept_new_from_y_coord ck y s = Ok (Some P) /\ ext_rep P A) /\
     (exists P, ppt_new_from_y_coord ck y s = Ok (Some P) /\ proj_rep P A)) /\
  ((forall A, ~ has_y (residue y) s A) ->
     ept_new_from_y_coord ck y s = Ok None /\ ppt_new_from_y_coord ck y s = Ok None).
Proof.
  intros ck y s C. fold (fF y). rewrite (f_equal (fun e => ept_new_from_y_coord ck e s) (eq_sym (enc_fF y C))).
  rewrite (f_equal (fun e => ppt_new_from_y_coord ck e s) (eq_sym (enc_fF y C))).
  rewrite ept_new_from_y, ppt_new_from_y. generalize (fF y). clear C y. intros y. split.
  - intros A H. destruct (has_y_pt _ _ _ H) as (A' & -> & E). rewrite E. cbn [option_map]. split.
    + eexists. split; [reflexivity|]. apply rext_rep, rext_ext. exact one_neq_zero.
    + eexists. split; [reflexivity|]. apply rprj_rep. exists 1. split; [exact one_neq_zero|reflexivity].
  - intros N. rewrite (lift_no _ _ N). split; reflexivity.
Qed.
Lemma C76_decompress_stmt : forall ck b, is_bytes 32 b ->
  (forall A, edwards_decoded b A -> exists P, cey_decompress ck b = Ok (Some P) /\ ext_rep P A) /\
  ((forall A, ~ edwards_decoded b A) -> cey_decompress ck b = Ok None).
Proof.
  intros ck b B. rewrite (decompress_lift b B ck). split.
  - intros A H. destruct (has_y_pt _ _ _ H) as (A' & -> & E). rewrite E. cbn [option_map].
    eexists. split; [reflexivity|]. apply rext_rep, rext_ext. exact one_neq_zero.
  - intros N. rewrite (lift_no _ _ N). reflexivity.
Qed.
Lemma code_pt A : exists b, edwards_code (pxy A) b /\ forall ck z, z <> 0 -> ept_compress ck (ext A z) = Ok b.
Proof.
  destruct (compress_ext A 1 one_neq_zero) as (b & E & B & V). exists b. split.
  - split; [exact B|]. pose proof (psign_principal A) as H. destruct (psign A).
    + right. split; [intros P; apply H in P; discriminate P|exact V].
    + left. split; [apply H; reflexivity|]. rewrite V. apply Z.add_0_r.
  - intros ck z N. destruct (compress_ext A z N) as (b' & E' & B' & V'). rewrite E'. apply f_equal.
    destruct B as [B1 B2], B' as [B1' B2']. apply le_value_inj; [lia|exact B2'|exact B2|]. rewrite V, V'. reflexivity.
Qed.
Lemma C76_compress_stmt : forall ck P A, ext_rep P A -> exists b, ept_compress ck P = Ok b /\ edwards_code A b.
Proof.
  intros ck P A H. apply ext_rep_rext in H. destruct H as (A' & -> & z & N & ->).
  destruct (code_pt A') as (b & C & E). exists b. split; [apply E; exact N|exact C].
Qed.
(** Different points have different encodings, and a point has one encoding. *)
Lemma C76_code_stmt : forall A B b c, on_curve A -> on_curve B -> edwards_code A b -> edwards_code B c ->
  (b = c <-> A = B).
Proof.
  intros A B b c CA CB (B1 & HA) (B2 & HB). pose proof (Frange (snd A)). pose proof (Frange (snd B)). pose proof p_253.
  assert (D : forall x y, Fval x = Fval y -> x = y) by (intros; apply Feq; assumption).
  split.
  - intros <-. assert (Y : snd A = snd B /\ (principal (fst A) <-> principal (fst B))).
    { destruct HA as [[PA VA]|[PA VA]], HB as [[PB VB]|[PB VB]]; rewrite VA in VB; try (exfalso; lia);
        (split; [apply D; lia|tauto]). }
    destruct Y as [Y PP]. rewrite (surjective_pairing A), Y in CA. rewrite (surjective_pairing B) in CB.
    apply curve_xx in CA. apply curve_xx in CB. rewrite <- CB in CA. apply F_sq_eq in CA.
    rewrite (surjective_pairing A), (surjective_pairing B), Y. apply f_equal2; [|reflexivity].
    destruct CA as [CA|CA]; [exact CA|]. rewrite CA in PP.
    assert (Z0 : fst B = 0).
    { destruct (principal_or (fst B)) as [Q|Q]; apply principal_opp; tauto. }
    rewrite CA, Z0. ring.
  - intros <-. destruct B1 as [L1 F1], B2 as [L2 F2]. apply le_value_inj; [lia|exact F1|exact F2|].
    destruct HA as [[PA VA]|[PA VA]], HB as [[PB VB]|[PB VB]]; try tauto; lia.
Qed.
(** Compressed points compare equal exactly when the points are equal. *)
Lemma C76_injective_stmt : forall ck P Q b c, valid_ext P -> valid_ext Q ->
  ept_compress ck P = Ok b -> ept_compress ck Q = Ok c -> (cey_eqb b c = true <-> ept_eqb ck P Q = Ok true).
Proof.
  intros ck P Q b c [A HP] [B HQ] Eb Ec.
  destruct (C76_compress_stmt ck P A HP) as (b' & Eb' & Cb). rewrite Eb in Eb'. apply Ok_inj in Eb'. subst b'.
  destruct (C76_compress_stmt ck Q B HQ) as (c' & Ec' & Cc). rewrite Ec in Ec'. apply Ok_inj in Ec'. subst c'.
  assert (KA : on_curve A) by apply HP. assert (KB : on_curve B) by apply HQ.
  pose proof (C76_code_stmt A B b c KA KB Cb Cc) as I.
  destruct (C34_valid_eq_stmt ck P Q A B HP HQ) as (r & Er & Hr). rewrite Er. unfold cey_eqb. rewrite bytes_eqb_spec, I, <- Hr.
  split; [intros ->; reflexivity|intros H; apply Ok_inj in H; exact H].
Qed.
Lemma C76_neg_stmt : forall ck b A, is_bytes 32 b -> edwards_decoded b A ->
  exists c, cey_neg ck b = Ok c /\ edwards_code (opposite A) c.
Proof.
  intros ck b A B H. destruct (proj1 (C76_decompress_stmt ck b B) A H) as (P & E & R).
  apply ext_rep_rext in R. destruct R as (A' & -> & R). destruct (rext_neg P A' R) as (N & EN & HN).
  destruct (C76_compress_stmt ck N _ (rext_rep _ _ HN)) as (c & Ec & Cc). exists c. split.
  - unfold cey_neg. rewrite E, bind_ok. cbn [unwrap]. rewrite bind_ok, EN, bind_ok. exact Ec.
  - unfold popp in Cc. rewrite pxy_of in Cc. exact Cc.
Qed.
Lemma C76_ex : ext_rep BASEPOINT base /\ is_bytes 32 BASEPOINT_COMPRESSED /\
  edwards_decoded BASEPOINT_COMPRESSED base /\ edwards_code base BASEPOINT_COMPRESSED /\
  has_y (toF 3 / toF 5) false base.
Proof.
  assert (P : principal (fst base)).
  { apply principal_iff. right. right. unfold base. cbn [fst].
    rewrite <- toF_pow by exact q4_nn. rewrite <- toF_mod, <- pwp_ok by exact q4_nn.
    apply Feq. vm_compute. reflexivity. }
  assert (H : has_y (toF 3 / toF 5) false base) by (split; [exact base_on|split; [reflexivity|exact P]]).
  split; [exact base_rep|]. split; [apply C43_ex|]. destruct C43_ex as [B V].
  assert (V1 : (le_value BASEPOINT_COMPRESSED < 2 ^ 252)%Z) by (vm_compute; reflexivity).
  assert (V0 : (0 <= le_value BASEPOINT_COMPRESSED)%Z) by (vm_compute; discriminate).
  split; [|split; [|exact H]].
  - unfold edwards_decoded. rewrite V, toF_Fval.
    assert (E : (2 ^ 255 <=? le_value BASEPOINT_COMPRESSED)%Z = false) by (vm_compute; reflexivity).
    rewrite E. exact H.
  - split; [exact B|]. left. split; [exact P|]. rewrite <- V. symmetry. apply Z.mod_small. split; [exact V0|exact V1].
Qed.

(** ** C77 *)
Lemma coset4_iff A B : coset4 (pxy A) (pxy B) <-> coset A B.
Proof.
  rewrite coset_iff. split.
  - intros (T & C & K & E). exists (pt_of T C). split.
    + apply t4_smul4. apply pt_eq. rewrite <- multiple_smul by discriminate. rewrite pxy_of. exact K.
    + apply pt_eq. exact E.
  - intros (T & K & ->). exists (pxy T). split; [apply pt_on|]. split; [|reflexivity].
    rewrite multiple_smul by discriminate. apply t4_smul4 in K. rewrite K. reflexivity.
Qed.
Lemma nonneg_fposb x : nonneg x <-> fposb x = true.
Proof. unfold nonneg, fposb. symmetry. apply Z.leb_le. Qed.
Lemma canonical_iff A : canonical (pxy A) <-> canonp A.
Proof.
  unfold canonical, canonp. rewrite <- !nonneg_fposb. split.
  - intros (_ & H). exact H.
  - intros H. split; [apply pt_on|exact H].
Qed.
Lemma canonical_pt A : canonical A -> exists A', A = pxy A' /\ canonp A'.
Proof.
  intros H. exists (pt_of A (proj1 H)). split; [symmetry; apply pxy_of|]. apply canonical_iff. rewrite pxy_of. exact H.
Qed.
Lemma code_esc A s : canonp A -> nonneg s -> 1 + s * s <> 0 -> yc A = (1 - s * s) / (1 + s * s) -> esc A s.
Proof.
  intros C N K Y. split; [apply nonneg_fposb; exact N|]. rewrite Y. field. exact K.
Qed.
Lemma esc_even A s : canonp A -> esc A s -> even A.
Proof.
  intros C (_ & E). pose proof (ev_curve A) as V. unfold even.
  destruct (F_dec (xc A) 0) as [X|X].
  - destruct (x0_y A X) as [Y|Y].
    + unfold ev. rewrite Y. assert (K : 1 + cd * (1 * 1) = 1 + cd) by ring. rewrite K. exact d1_sq.
    + elim (y1_nz A C). rewrite Y. ring.
  - assert (S : is_sq (xc A * xc A * ev A)).
    { rewrite V. assert (K : yc A * yc A - 1 = - (1) * ((s * (1 + yc A)) * (s * (1 + yc A)))).
      { transitivity (- (1) * ((1 - yc A) * (1 + yc A))); [ring|]. rewrite <- E. ring. }
      rewrite K. apply is_sq_mul; [exact m1_sq|]. apply is_sq_square. }
    apply is_sq_mul_cancel in S; [exact S|apply F_mul_nz; exact X|apply is_sq_square].
Qed.
Lemma code_esc_iff A b : canonp A -> is_bytes 32 b -> (canonical_code (pxy A) b <-> exists s, esc A s /\ le_value b = Fval s).
Proof.
  intros C B. split.
  - intros (_ & s & N & K & Y & V). exists s. split; [apply (code_esc A s C N K Y)|exact V].
  - intros (s & E & V). split; [exact B|]. exists s. destruct (esc_y A s E) as [K Y].
    split; [apply nonneg_fposb; apply E|]. split; [exact K|]. split; [exact Y|exact V].
Qed.
(** Every Ristretto element has exactly one distinguished representative. *)
Lemma C77_representative_stmt : forall A, on_curve A -> exists B, canonical B /\ coset4 A B /\
  forall C, canonical C -> coset4 A C -> C = B.
Proof.
  intros A H. rewrite <- (pxy_of A H). set (A' := pt_of A H). exists (pxy (pick A')).
  split; [apply canonical_iff, pick_canonp|]. split; [apply coset4_iff, pick_coset|].
  intros C HC K. destruct (canonical_pt C HC) as (C' & -> & C2). apply coset4_iff in K. apply f_equal.
  apply canonp_unique; [|exact C2|apply pick_canonp].
  apply coset_trans with A'; [apply coset_sym; exact K|apply pick_coset].
Qed.
(** Distinguished representatives with an encoding are the even ones; encodings are
    unique and different for different elements. *)
Lemma C77_code_stmt : forall A, canonical A ->
  ((exists b, canonical_code A b) <-> even_point A) /\
  (forall B b c, canonical B -> canonical_code A b -> canonical_code B c -> (b = c <-> A = B)).
Proof.
  intros A HA. destruct (canonical_pt A HA) as (A' & -> & CA). split; [split|].
  - intros (b & H). destruct (proj1 (code_esc_iff A' b CA (proj1 H)) H) as (s & E & _).
    apply even_even. exact (esc_even A' s CA E).
  - intros H. apply even_even in H. destruct (esc_exists A' H CA) as (s & E). destruct (enc_bytes s) as [B V].
    exists (fe_to_bytes (enc s)). apply (code_esc_iff A' _ CA B). exists s. split; [exact E|exact V].
  - intros B b c HB Hb Hc. destruct (canonical_pt B HB) as (B' & -> & CB).
    destruct (proj1 (code_esc_iff A' b CA (proj1 Hb)) Hb) as (s & E & V).
    destruct (proj1 (code_esc_iff B' c CB (proj1 Hc)) Hc) as (s' & E' & V'). split.
    + intros <-. rewrite V in V'. apply Feq in V'. subst s'. apply f_equal. exact (esc_inj A' B' s CA CB E E').
    + intros K. apply pt_eq in K. subst B'. rewrite <- (esc_unique A' s s' CA E E') in V'.
      destruct Hb as ((L1 & F1) & _), Hc as ((L2 & F2) & _).
      apply le_value_inj; [rewrite L1, L2; reflexivity|exact F1|exact F2|rewrite V, V'; reflexivity].
Qed.
Lemma C77_compress_stmt : forall ck P A B, ext_rep P A -> even_point A -> canonical B -> coset4 A B ->
  exists b, rp_compress ck P = Ok b /\ canonical_code B b.
Proof.
  intros ck P A B HP Ev HB K. apply ext_rep_rext in HP. destruct HP as (A' & -> & z & N & ->).
  apply even_even in Ev. destruct (canonical_pt B HB) as (B' & -> & CB). apply coset4_iff in K.
  destruct (rp_compress_ok A' z N Ev) as (s & E & H).
  assert (EQ : B' = pick A').
  { apply canonp_unique; [|exact CB|apply pick_canonp].
    apply coset_trans with A'; [apply coset_sym; exact K|apply pick_coset]. }
  subst B'. exists (fe_to_bytes (enc s)). split; [apply H|]. destruct (enc_bytes s) as [Bs V].
  apply (code_esc_iff _ _ CB Bs). exists s. split; [exact E|exact V].
Qed.
Lemma C77_decompress_stmt : forall ck b, is_bytes 32 b ->
  (forall A, canonical A -> canonical_code A b ->
     exists P, cr_decompress ck b = Ok (Some P) /\ ext_rep P A /\ fval (eZ P) = 1%Z) /\
  ((forall A, canonical A -> ~ canonical_code A b) -> cr_decompress ck b = Ok None).
Proof.
  intros ck b B. split.
  - intros A HA Hc. destruct (canonical_pt A HA) as (A' & -> & CA).
    destruct (proj1 (code_esc_iff A' b CA B) Hc) as (s & E & V).
    exists (ext A' 1). split; [exact (cr_decompress_some A' s b B CA (esc_even A' s CA E) E V ck)|].
    split; [apply rext_rep, rext_ext; exact one_neq_zero|]. unfold ext, EPF. cbn [eZ]. apply fval_enc.
  - intros N. destruct (cr_decompress_spec b B) as (o & E & H). rewrite E. destruct o as [P|]; [|reflexivity].
    destruct H as (A & s & _ & CA & Ev & Es & V). elim (N (pxy A)).
    + apply canonical_iff. exact CA.
    + apply (code_esc_iff A b CA B). exists s. split; [exact Es|exact V].
Qed.
Lemma C77_ex : even_point base /\ is_bytes 32 RISTRETTO_BASEPOINT_COMPRESSED /\
  exists B, canonical B /\ coset4 base B /\ canonical_code B RISTRETTO_BASEPOINT_COMPRESSED.
Proof.
  split; [exact base_even|]. split; [exact rbc_bytes|]. exists (pxy ptR).
  split; [apply canonical_iff, ptR_canonp|]. destruct pt_base_rep as (A & EA & _). split.
  - rewrite <- EA. apply coset4_iff. exact (ptR_coset A EA).
  - apply (code_esc_iff _ _ ptR_canonp rbc_bytes). exists (toF 2). split; [exact ptR_esc|reflexivity].
Qed.
