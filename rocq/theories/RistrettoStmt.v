(** * The Ristretto properties

    Statement forms; PropRistretto.v restates each of them and closes it with the
    lemma of the same name.                                                  *)

From Coq Require Import ZArith List Bool Lia Ring Field.
From Verif Require Import Machine FieldModel ScalarModel EdwardsModel RistrettoModel Spec MachineFacts FieldLimb FieldOps
  FieldBytes NumTheory Primes Fp FieldF FieldInv ScalarOps Curve CurveGroup EdwardsF PointMul EdwardsY EdwardsStmt
  RistSpec Rist RistF RistE.
Import ListNotations.
Open Scope F_scope.

(** ** Bridges *)
Lemma rp_eqb_enc ck P Q A B : rext P A -> rext Q B ->
  rp_eqb ck P Q = Ok (feqb (xc A * yc B) (yc A * xc B) || feqb (xc A * xc B) (yc A * yc B)).
Proof.
  intros (z & N & ->) (w & M & ->). unfold rp_eqb, ext, EPF. cbn [eX eY].
  fold (xc A) (yc A) (xc B) (yc B). frun. rewrite !fe_eqb_F.
  assert (Nzw : z * w <> 0) by (apply F_mul_nz; assumption).
  assert (G : forall a b, feqb (a * z * (b * w)) (a * z * (b * w)) = true) by (intros; apply feqb_refl).
  assert (S : forall a b c d, feqb (a * z * (b * w)) (c * z * (d * w)) = feqb (a * b) (c * d)).
  { intros a b c d. destruct (feqb_spec (a * b) (c * d)) as [E|E].
    - apply feqb_eq. transitivity (a * b * (z * w)); [ring|]. rewrite E. ring.
    - destruct (feqb_spec (a * z * (b * w)) (c * z * (d * w))) as [K|K]; [|reflexivity].
      elim E. apply (F_mul_cancel_l (z * w)); [exact Nzw|].
      transitivity (a * z * (b * w)); [ring|]. rewrite K. ring. }
  rewrite !S. reflexivity.
Qed.
Lemma rp_eqb_spec ck P Q A B : rext P A -> rext Q B ->
  exists r, rp_eqb ck P Q = Ok r /\ (r = true <-> coset A B).
Proof.
  intros HP HQ. rewrite (rp_eqb_enc ck P Q A B HP HQ). eexists. split; [reflexivity|].
  rewrite coset_test, orb_true_iff, !feqb_eq. reflexivity.
Qed.
Lemma rp_eqb_true ck P Q A B : rext P A -> rext Q B -> (rp_eqb ck P Q = Ok true <-> coset A B).
Proof.
  intros HP HQ. destruct (rp_eqb_spec ck P Q A B HP HQ) as (r & -> & H). rewrite <- H.
  split; [intros K|intros ->; reflexivity]. destruct r; [reflexivity|discriminate].
Qed.
Lemma same_coset ck o o' R R' A A' : o = Ok R -> o' = Ok R' -> rext R A -> rext R' A' -> coset A A' ->
  same_rist ck o o'.
Proof.
  intros -> -> H H' C. exists R, R'. split; [reflexivity|]. split; [reflexivity|].
  split; [apply valid_rext; exists A; exact H|]. split; [apply valid_rext; exists A'; exact H'|].
  apply (rp_eqb_true ck R R' A A' H H'). exact C.
Qed.
Lemma even_even A : even_point (pxy A) <-> even A.
Proof. unfold even_point, even, ev, is_sq, yc. reflexivity. Qed.
Lemma even_ext_iff P : even_ext P <-> exists A, rext P A /\ even A.
Proof.
  split.
  - intros (A & H & E). apply ext_rep_rext in H. destruct H as (Q & -> & H). exists Q.
    split; [exact H|apply even_even; exact E].
  - intros (A & H & E). exists (pxy A). split; [apply rext_rep; exact H|apply even_even; exact E].
Qed.
Lemma pt_base_rep : exists A, pxy A = base /\ rext BASEPOINT A.
Proof.
  pose proof base_rep as H. apply ext_rep_rext in H. destruct H as (A & E & H). exists A. split; [symmetry; exact E|exact H].
Qed.
Lemma base_even : even_point base.
Proof.
  exists (toF 1682535532348432736588988275181349341119849259486286637077182405238248215905).
  unfold base. rewrite base_y_eq. cbn [snd]. rewrite cd_FD. apply Feq. vm_compute. reflexivity.
Qed.

Lemma rp_mul_rext n P A : sloadable n -> rext P A ->
  exists R, (forall ck, rp_mul ck P n = Ok R) /\ rext R (smul (sval n) A).
Proof. exact (ept_mul_rext n P A). Qed.
Lemma rp_sub_rext P Q A B : rext P A -> rext Q B ->
  exists R, (forall ck, rp_sub ck P Q = Ok R) /\ rext R (padd A (popp B)).
Proof.
  intros HP HQ. destruct (rext_neg Q B HQ) as (N & EN & HN). destruct (rext_add P N A (popp B) HP HN) as (R & ER & HR).
  exists R. split; [|exact HR]. intros ck. unfold rp_sub, rp_neg, rp_add. rewrite EN, bind_ok. apply ER.
Qed.
Lemma rext_ext A z : z <> 0 -> rext (ext A z) A.
Proof. intros N. exists z. split; [exact N|reflexivity]. Qed.

Lemma Ok_inj {X} (a b : X) : Ok a = Ok b -> a = b.
Proof. intros H. exact (f_equal (fun r => match r with Ok o => o | _ => a end) H). Qed.

Lemma obtainable_even ck P : obtainable ck P -> exists A, rext P A /\ even A.
Proof.
  induction 1 as [| |b P B D|r P Fr D|b P B D|b P B D|P R H IH E|P Q R H IH H' IH' E|P Q R H IH H' IH' E|P R H IH E|P n R H IH S E].
  - exists pO. split; [exact rext_id|exact even_pO].
  - destruct pt_base_rep as (A & EA & H). exists A. split; [exact H|]. apply (proj1 (even_even A)). rewrite EA. exact base_even.
  - destruct (cr_decompress_spec b B) as (o & Eo & Ho). rewrite Eo in D. apply Ok_inj in D. subst o.
    destruct Ho as (A & s & -> & _ & E & _). exists A. split; [apply rext_ext, one_neq_zero|exact E].
  - destruct (rp_elligator_ok r Fr) as (z & N & K). rewrite K in D. apply Ok_inj in D. subst P.
    eexists. split; [apply rext_ext; exact N|apply el_even].
  - destruct (rp_from_uniform_bytes_ok b B) as (z & N & K). rewrite K in D. apply Ok_inj in D. subst P.
    eexists. split; [apply rext_ext; exact N|apply even_padd; apply el_even].
  - unfold rp_new_random_point in D.
    destruct (rp_from_uniform_bytes_ok b B) as (z & N & K). rewrite K in D. apply Ok_inj in D. subst P.
    eexists. split; [apply rext_ext; exact N|apply even_padd; apply el_even].
  - destruct IH as (A & HA & EA). destruct (rext_neg P A HA) as (R' & K & HR). unfold rp_neg in E. rewrite K in E.
    apply Ok_inj in E. subst R'. eexists. split; [exact HR|apply even_popp; exact EA].
  - destruct IH as (A & HA & EA), IH' as (B & HB & EB). destruct (rext_add P Q A B HA HB) as (R' & K & HR).
    unfold rp_add in E. rewrite K in E. apply Ok_inj in E. subst R'. eexists. split; [exact HR|apply even_padd; assumption].
  - destruct IH as (A & HA & EA), IH' as (B & HB & EB). destruct (rp_sub_rext P Q A B HA HB) as (R' & K & HR).
    rewrite K in E. apply Ok_inj in E. subst R'. eexists. split; [exact HR|].
    apply even_padd; [exact EA|apply even_popp; exact EB].
  - destruct IH as (A & HA & EA). destruct (rext_dbl P A HA) as (R' & K & HR). unfold rp_double in E. rewrite K in E.
    apply Ok_inj in E. subst R'. eexists. split; [exact HR|]. apply even_double.
  - destruct IH as (A & HA & EA). destruct (rp_mul_rext n P A S HA) as (R' & K & HR). rewrite K in E.
    apply Ok_inj in E. subst R'. eexists. split; [exact HR|]. apply even_smul. exact EA.
Qed.

Lemma enc_bytes s : is_bytes 32 (fe_to_bytes (enc s)) /\ le_value (fe_to_bytes (enc s)) = Fval s.
Proof.
  split; [apply fe_to_bytes_bytes|]. rewrite fe_to_bytes_ok by apply enc_ld. apply fval_enc.
Qed.

(** ** C47 *)
Lemma t4_list T : t4 T <-> In (pxy T) (torsion4 FI).
Proof. exact (t4_cases T). Qed.
Lemma FI_on : on_curve (FI, 0).
Proof. unfold on_curve. transitivity (- (FI * FI)); [ring|]. rewrite FI_sq. ring. Qed.
Lemma torsion_on T : In T (torsion4 FI) -> on_curve T.
Proof. intros [<- |[<- |[<- |[<- |[]]]]]; [exact origin_on_curve|exact order2_on|exact FI_on|exact mFI_on]. Qed.
Lemma C47_eq_stmt : exists j, j * j = - (1) /\ forall ck P Q A B, ext_rep P A -> ext_rep Q B ->
  exists r, rp_eqb ck P Q = Ok r /\ (r = true <-> exists T, In T (torsion4 j) /\ B = sum A T).
Proof.
  exists FI. split; [exact FI_sq|]. intros ck P Q A B HP HQ.
  apply ext_rep_rext in HP, HQ. destruct HP as (A' & -> & HP), HQ as (B' & -> & HQ).
  destruct (rp_eqb_spec ck P Q A' B' HP HQ) as (r & E & H). exists r. split; [exact E|].
  rewrite H, coset_iff. split.
  - intros (T & HT & ->). exists (pxy T). split; [apply t4_list; exact HT|reflexivity].
  - intros (T & HT & E2). exists (pt_of T (torsion_on T HT)). split; [apply t4_list; exact HT|].
    apply pt_eq. exact E2.
Qed.
(** The four points are the curve points killed by 4. *)
Lemma C47_torsion_stmt : forall j, j * j = - (1) -> forall T,
  In T (torsion4 j) <-> on_curve T /\ multiple 4 T = origin.
Proof.
  intros j Hj T.
  assert (L : In T (torsion4 j) <-> In T (torsion4 FI)).
  { rewrite <- FI_sq in Hj. apply F_sq_eq in Hj. unfold torsion4. destruct Hj as [-> | ->]; [reflexivity|].
    assert (K : - - FI = FI) by ring. rewrite K. cbn [In]. tauto. }
  rewrite L. split.
  - intros H. pose proof (torsion_on T H) as C. split; [exact C|].
    change T with (pxy (pt_of T C)). rewrite multiple_smul by discriminate.
    assert (K : smul 4 (pt_of T C) = pO) by (apply t4_smul4, t4_list; exact H). rewrite K. reflexivity.
  - intros [C H]. change (In (pxy (pt_of T C)) (torsion4 FI)). change (multiple 4 (pxy (pt_of T C)) = origin) in H.
    apply t4_list, t4_smul4. apply pt_eq.
    rewrite <- multiple_smul by discriminate. exact H.
Qed.
(** The relation is an equivalence. *)
Lemma C47_equivalence_stmt : forall ck P Q R, valid_ext P -> valid_ext Q -> valid_ext R ->
  rp_eqb ck P P = Ok true /\
  (rp_eqb ck P Q = Ok true -> rp_eqb ck Q P = Ok true) /\
  (rp_eqb ck P Q = Ok true -> rp_eqb ck Q R = Ok true -> rp_eqb ck P R = Ok true).
Proof.
  intros ck P Q R HP HQ HR. apply valid_rext in HP, HQ, HR. destruct HP as (A & HP), HQ as (B & HQ), HR as (C & HR).
  rewrite !(rp_eqb_true ck _ _ _ _ HP HP), !(rp_eqb_true ck _ _ _ _ HP HQ), !(rp_eqb_true ck _ _ _ _ HQ HP),
    !(rp_eqb_true ck _ _ _ _ HQ HR), !(rp_eqb_true ck _ _ _ _ HP HR).
  split; [apply coset_refl|]. split; [apply coset_sym|apply coset_trans].
Qed.
(** Points that are equal as Edwards points are equal as Ristretto points. *)
Lemma C47_edwards_stmt : forall ck P Q, valid_ext P -> valid_ext Q -> ept_eqb ck P Q = Ok true ->
  rp_eqb ck P Q = Ok true.
Proof.
  intros ck P Q HP HQ. apply valid_rext in HP, HQ. destruct HP as (A & HP), HQ as (B & HQ).
  rewrite (rext_eqb P Q A B HP HQ), (rp_eqb_true ck _ _ _ _ HP HQ).
  destruct (pt_eqb_spec A B) as [->|N]; [intros _; apply coset_refl|discriminate].
Qed.
(** Equal as Ristretto points, different as Edwards points. *)
Lemma C47_ex : ext_rep ept_identity origin /\ ext_rep order2_ext order2 /\
  rp_eqb true ept_identity order2_ext = Ok true /\ ept_eqb true ept_identity order2_ext = Ok false /\
  ext_rep BASEPOINT base /\ rp_eqb true ept_identity BASEPOINT = Ok false.
Proof.
  assert (H1 : ext_rep ept_identity origin) by exact (rext_rep _ _ rext_id).
  split; [exact H1|]. split; [exact order2_rep|]. split; [vm_compute; reflexivity|].
  assert (H2 : rext order2_ext pt2).
  { pose proof order2_rep as H. apply ext_rep_rext in H. destruct H as (A & E & H).
    assert (K : pt2 = A) by (apply pt_eq; exact E). rewrite K. exact H. }
  split.
  { rewrite (rext_eqb _ _ _ _ rext_id H2). destruct (pt_eqb_spec pO pt2) as [E|E]; [|reflexivity].
    exfalso. apply minus_one_neq_one. symmetry. exact (f_equal yc E). }
  split; [exact base_rep|]. vm_compute. reflexivity.
Qed.

(** ** C48 *)
Lemma C48_congruence_stmt : forall ck P P' Q Q', valid_ext P -> valid_ext P' -> valid_ext Q -> valid_ext Q' ->
  rp_eqb ck P P' = Ok true -> rp_eqb ck Q Q' = Ok true ->
  same_rist ck (rp_add ck P Q) (rp_add ck P' Q') /\
  same_rist ck (rp_sub ck P Q) (rp_sub ck P' Q') /\
  same_rist ck (rp_neg ck P) (rp_neg ck P') /\
  same_rist ck (rp_double ck P) (rp_double ck P') /\
  forall n, sloadable n -> same_rist ck (rp_mul ck P n) (rp_mul ck P' n).
Proof.
  intros ck P P' Q Q' HP HP' HQ HQ'. apply valid_rext in HP, HP', HQ, HQ'.
  destruct HP as (A & HP), HP' as (A' & HP'), HQ as (B & HQ), HQ' as (B' & HQ').
  rewrite (rp_eqb_true ck _ _ _ _ HP HP'), (rp_eqb_true ck _ _ _ _ HQ HQ'). intros CA CB.
  split.
  { destruct (rext_add _ _ _ _ HP HQ) as (R & E & H), (rext_add _ _ _ _ HP' HQ') as (R' & E' & H').
    apply (same_coset _ _ _ _ _ _ _ (E ck) (E' ck) H H'). apply coset_padd; assumption. }
  split.
  { destruct (rp_sub_rext _ _ _ _ HP HQ) as (R & E & H), (rp_sub_rext _ _ _ _ HP' HQ') as (R' & E' & H').
    apply (same_coset _ _ _ _ _ _ _ (E ck) (E' ck) H H'). apply coset_padd; [exact CA|apply coset_popp; exact CB]. }
  split.
  { destruct (rext_neg _ _ HP) as (R & E & H), (rext_neg _ _ HP') as (R' & E' & H').
    apply (same_coset _ _ _ _ _ _ _ (E ck) (E' ck) H H'). apply coset_popp; exact CA. }
  split.
  { destruct (rext_dbl _ _ HP) as (R & E & H), (rext_dbl _ _ HP') as (R' & E' & H').
    apply (same_coset _ _ _ _ _ _ _ (E ck) (E' ck) H H'). apply coset_padd; exact CA. }
  intros n Hn. destruct (rp_mul_rext n _ _ Hn HP) as (R & E & H), (rp_mul_rext n _ _ Hn HP') as (R' & E' & H').
  apply (same_coset _ _ _ _ _ _ _ (E ck) (E' ck) H H'). apply coset_smul; exact CA.
Qed.
Lemma C48_ex : valid_ext ept_identity /\ valid_ext order2_ext /\ rp_eqb true ept_identity order2_ext = Ok true /\
  ept_identity <> order2_ext.
Proof.
  split; [exists origin; exact (rext_rep _ _ rext_id)|]. split; [exists order2; exact order2_rep|].
  split; [exact (proj1 (proj2 (proj2 C47_ex)))|]. intros H. apply (f_equal eZ) in H. vm_compute in H. discriminate.
Qed.

(** ** C49 *)
Lemma C49_decode_stmt : forall ck b, is_bytes 32 b -> exists o, cr_decompress ck b = Ok o /\
  match o with
  | Some P => even_ext P /\ rp_compress ck P = Ok b /\ (le_value b <= (p - 1) / 2)%Z
  | None => forall P, even_ext P -> rp_compress ck P <> Ok b
  end.
Proof.
  intros ck b B. destruct (cr_decompress_spec b B) as (o & E & H). exists o. split; [apply E|].
  destruct o as [P|].
  - destruct H as (A & s & -> & C & Ev & S & V). split.
    { apply even_ext_iff. exists A. split; [apply rext_ext, one_neq_zero|exact Ev]. }
    destruct (rp_compress_ok A 1 one_neq_zero Ev) as (s' & S' & K). rewrite K, (pick_id A C) in *.
    assert (ES : s' = s) by exact (esc_unique A s' s C S' S). subst s'. split.
    + apply f_equal. destruct (enc_bytes s) as [[L1 F1] V1]. destruct B as [L2 F2].
      apply le_value_inj; [rewrite L1, L2; reflexivity|exact F1|exact F2|]. rewrite V1, V. reflexivity.
    + rewrite V. apply Z.leb_le. exact (proj1 S).
  - intros P HP K. apply even_ext_iff in HP. destruct HP as (A & (z & N & ->) & Ev).
    destruct (rp_compress_ok A z N Ev) as (s & S & K'). rewrite K' in K. apply Ok_inj in K. subst b.
    apply (H (pick A) s (pick_canonp A)).
    + exact (coset_even _ _ (pick_coset A) Ev).
    + exact S.
    + apply enc_bytes.
Qed.
(** Values above (p-1)/2, in particular unreduced ones, are rejected. *)
Lemma C49_canonical_stmt : forall ck b, is_bytes 32 b -> ((p - 1) / 2 < le_value b)%Z ->
  cr_decompress ck b = Ok None.
Proof.
  intros ck b B L. destruct (C49_decode_stmt ck b B) as (o & E & H). rewrite E.
  destruct o as [P|]; [|reflexivity]. exfalso. destruct H as (_ & _ & H).
  revert L H. generalize ((p - 1) / 2)%Z. intros. lia.
Qed.
(** Two strings never decode to equal points. *)
Lemma C49_unique_stmt : forall ck b c P Q, is_bytes 32 b -> is_bytes 32 c ->
  cr_decompress ck b = Ok (Some P) -> cr_decompress ck c = Ok (Some Q) -> rp_eqb ck P Q = Ok true -> b = c.
Proof.
  intros ck b c P Q B C Db Dc H.
  destruct (cr_decompress_spec b B) as (o & E & Ho). rewrite E in Db. apply Ok_inj in Db. subst o.
  destruct (cr_decompress_spec c C) as (o & E' & Ho'). rewrite E' in Dc. apply Ok_inj in Dc. subst o.
  destruct Ho as (A1 & s1 & -> & C1 & _ & S1 & V1), Ho' as (A2 & s2 & -> & C2 & _ & S2 & V2).
  apply (rp_eqb_true ck _ _ A1 A2) in H; [|apply rext_ext, one_neq_zero|apply rext_ext, one_neq_zero].
  pose proof (canonp_unique _ _ H C1 C2) as K. subst A2.
  pose proof (esc_unique _ _ _ C1 S1 S2) as K. subst s2.
  destruct B as [L1 F1], C as [L2 F2]. apply le_value_inj; [rewrite L1, L2; reflexivity|exact F1|exact F2|].
  rewrite V1, V2. reflexivity.
Qed.
Definition rbase : xy := (- toF base_x, toF (p - base_yZ)).
Lemma rbase_on : on_curve rbase.
Proof. unfold on_curve, rbase. rewrite cd_FD. apply Feq. vm_compute. reflexivity. Qed.
Definition ptR : pt := pt_of rbase rbase_on.
Lemma ptR_coset A : pxy A = base -> coset A ptR.
Proof.
  intros E. rewrite coset_coords. right; left. unfold xc, yc. rewrite E. unfold ptR. rewrite pxy_of.
  unfold base, rbase. rewrite base_y_eq. cbn [fst snd]. split; [reflexivity|]. apply Feq. vm_compute. reflexivity.
Qed.
Lemma ptR_canonp : canonp ptR.
Proof.
  split; [vm_compute; reflexivity|]. split; [vm_compute; reflexivity|].
  split; intros H; apply (f_equal Fval) in H; vm_compute in H; discriminate.
Qed.
Lemma ptR_esc : esc ptR (toF 2).
Proof. split; [reflexivity|]. apply Feq. vm_compute. reflexivity. Qed.
Lemma rbc_bytes : is_bytes 32 RISTRETTO_BASEPOINT_COMPRESSED.
Proof. split; [reflexivity|repeat (constructor; [lia|]); constructor]. Qed.
(** The published encodings of the basepoint and of the identity. *)
Lemma C49_ex : is_bytes 32 RISTRETTO_BASEPOINT_COMPRESSED /\
  (exists P, cr_decompress true RISTRETTO_BASEPOINT_COMPRESSED = Ok (Some P) /\
     rp_eqb true P RISTRETTO_BASEPOINT = Ok true) /\
  is_bytes 32 (repeat 255 32)%Z /\ ((p - 1) / 2 < le_value (repeat 255 32))%Z.
Proof.
  split; [exact rbc_bytes|]. destruct pt_base_rep as (A & EA & H). split.
  { exists (ext ptR 1). split.
    - apply (cr_decompress_some ptR (toF 2)); [exact rbc_bytes|exact ptR_canonp| |exact ptR_esc|reflexivity].
      apply (coset_even A); [apply ptR_coset; exact EA|]. apply (proj1 (even_even A)). rewrite EA. exact base_even.
    - apply (rp_eqb_true true _ _ ptR A); [apply rext_ext, one_neq_zero|exact H|].
      apply coset_sym, ptR_coset. exact EA. }
  split; [split; [reflexivity|repeat (constructor; [lia|]); constructor]|reflexivity].
Qed.

(** ** C50 *)
Lemma C50_round_trip_stmt : forall ck P, obtainable ck P ->
  exists b Q, rp_compress ck P = Ok b /\ is_bytes 32 b /\ cr_decompress ck b = Ok (Some Q) /\
    rp_eqb ck Q P = Ok true.
Proof.
  intros ck P H. apply obtainable_even in H. destruct H as (A & (z & N & ->) & E).
  destruct (rp_compress_ok A z N E) as (s & S & K). destruct (enc_bytes s) as [B V].
  exists (fe_to_bytes (enc s)), (ext (pick A) 1). split; [apply K|]. split; [exact B|]. split.
  - apply (cr_decompress_some (pick A) s); [exact B|apply pick_canonp| |exact S|exact V].
    exact (coset_even _ _ (pick_coset A) E).
  - apply (rp_eqb_true ck _ _ (pick A) A); [apply rext_ext, one_neq_zero|apply rext_ext; exact N|].
    apply coset_sym, pick_coset.
Qed.
(** The same for every even point, however it was made. *)
Lemma C50_even_stmt : forall ck P, even_ext P ->
  exists b Q, rp_compress ck P = Ok b /\ is_bytes 32 b /\ cr_decompress ck b = Ok (Some Q) /\
    rp_eqb ck Q P = Ok true.
Proof.
  intros ck P H. apply even_ext_iff in H. destruct H as (A & (z & N & ->) & E).
  destruct (rp_compress_ok A z N E) as (s & S & K). destruct (enc_bytes s) as [B V].
  exists (fe_to_bytes (enc s)), (ext (pick A) 1). split; [apply K|]. split; [exact B|]. split.
  - apply (cr_decompress_some (pick A) s); [exact B|apply pick_canonp| |exact S|exact V].
    exact (coset_even _ _ (pick_coset A) E).
  - apply (rp_eqb_true ck _ _ (pick A) A); [apply rext_ext, one_neq_zero|apply rext_ext; exact N|].
    apply coset_sym, pick_coset.
Qed.
(** Obtainable points are even, and every operation on them returns. *)
Lemma C50_closed_stmt : forall ck P Q n, obtainable ck P -> obtainable ck Q -> sloadable n ->
  even_ext P /\
  (exists R, rp_add ck P Q = Ok R /\ obtainable ck R) /\
  (exists R, rp_sub ck P Q = Ok R /\ obtainable ck R) /\
  (exists R, rp_neg ck P = Ok R /\ obtainable ck R) /\
  (exists R, rp_double ck P = Ok R /\ obtainable ck R) /\
  (exists R, rp_mul ck P n = Ok R /\ obtainable ck R).
Proof.
  intros ck P Q n OP OQ Hn.
  destruct (obtainable_even ck P OP) as (A & HP & EA). destruct (obtainable_even ck Q OQ) as (B & HQ & EB).
  split; [apply even_ext_iff; exists A; split; assumption|].
  split; [destruct (rext_add _ _ _ _ HP HQ) as (R & E & _); exists R; split; [apply E|exact (ob_add ck P Q R OP OQ (E ck))]|].
  split; [destruct (rp_sub_rext _ _ _ _ HP HQ) as (R & E & _); exists R; split; [apply E|exact (ob_sub ck P Q R OP OQ (E ck))]|].
  split; [destruct (rext_neg _ _ HP) as (R & E & _); exists R; split; [apply E|exact (ob_neg ck P R OP (E ck))]|].
  split; [destruct (rext_dbl _ _ HP) as (R & E & _); exists R; split; [apply E|exact (ob_double ck P R OP (E ck))]|].
  destruct (rp_mul_rext n _ _ Hn HP) as (R & E & _). exists R. split; [apply E|exact (ob_mul ck P n R OP Hn (E ck))].
Qed.
Lemma C50_ex : obtainable true RISTRETTO_BASEPOINT /\
  exists R, rp_double true RISTRETTO_BASEPOINT = Ok R /\ obtainable true R.
Proof.
  split; [apply ob_basepoint|]. destruct pt_base_rep as (A & _ & H). destruct (rext_dbl _ _ H) as (R & E & _).
  exists R. split; [apply E|]. exact (ob_double _ _ _ (ob_basepoint true) (E true)).
Qed.

(** ** C51 *)
Lemma C51_encodings_stmt : forall ck P Q b c, obtainable ck P -> obtainable ck Q ->
  rp_compress ck P = Ok b -> rp_compress ck Q = Ok c -> (b = c <-> rp_eqb ck P Q = Ok true).
Proof.
  intros ck P Q b c OP OQ.
  destruct (obtainable_even ck P OP) as (A & HP & EA). destruct (obtainable_even ck Q OQ) as (B & HQ & EB).
  rewrite (rp_eqb_true ck P Q A B HP HQ). destruct HP as (z & N & ->), HQ as (w & M & ->).
  destruct (rp_compress_ok A z N EA) as (s & S & K). destruct (rp_compress_ok B w M EB) as (t & T & K').
  rewrite K, K'. intros E E'. apply Ok_inj in E, E'. subst b c. rewrite pick_eq. split.
  - intros E. apply (esc_inj _ _ s); [apply pick_canonp|apply pick_canonp|exact S|].
    assert (V : s = t).
    { apply Feq. rewrite <- (proj2 (enc_bytes s)), <- (proj2 (enc_bytes t)), E. reflexivity. }
    rewrite V. exact T.
  - intros E. rewrite <- E in T. rewrite (esc_unique _ _ _ (pick_canonp A) S T). reflexivity.
Qed.
Lemma C51_ex : obtainable true RISTRETTO_BASEPOINT /\
  rp_compress true RISTRETTO_BASEPOINT = Ok RISTRETTO_BASEPOINT_COMPRESSED /\
  obtainable true rp_identity /\ rp_compress true rp_identity = Ok cr_identity.
Proof.
  split; [apply ob_basepoint|]. destruct pt_base_rep as (A & EA & (z & N & H)).
  assert (Ev : even A) by (apply (proj1 (even_even A)); rewrite EA; exact base_even).
  split.
  { unfold RISTRETTO_BASEPOINT. rewrite H. destruct (rp_compress_ok A z N Ev) as (s & S & K). rewrite K.
    assert (P : pick A = ptR).
    { rewrite <- (pick_id ptR ptR_canonp). apply pick_eq. apply ptR_coset. exact EA. }
    rewrite P in S. rewrite (esc_unique _ _ _ ptR_canonp S ptR_esc). reflexivity. }
  split; [apply ob_identity|].
  destruct rext_id as (w & M & E). unfold rp_identity. rewrite E.
  destruct (rp_compress_ok pO w M even_pO) as (s & S & K). rewrite K. rewrite (pick_id pO canonp_pO) in S.
  assert (S0 : esc pO 0) by (split; [reflexivity|]; destruct pO_c as [_ ->]; ring).
  rewrite (esc_unique _ _ _ canonp_pO S S0). reflexivity.
Qed.

(** ** C52 *)
Lemma el_image r0 : elligator_image r0 (pxy (el_pt r0)).
Proof.
  exists FI, FB. split; [exact FI_sq|]. split; [apply Z.leb_le; vm_compute; reflexivity|].
  split; [transitivity (- cd - 1); [exact FB_sq|ring]|]. split; [apply Z.leb_le; vm_compute; reflexivity|].
  cbv zeta. change (FI * (r0 * r0)) with (el_r r0).
  change ((el_r r0 + 1) * (1 - cd * cd)) with (el_N (el_r r0)).
  change ((- (1) - cd * el_r r0) * (el_r r0 + cd)) with (el_D (el_r r0)).
  change (snd (pxy (el_pt r0))) with (el_y r0). change (fst (pxy (el_pt r0))) with (el_x r0).
  destruct (F_dec (el_D (el_r r0)) 0) as [Z|N].
  - left. split; [exact Z|]. destruct (el_D0 r0 Z) as [S _].
    change (pxy (el_pt r0)) with (el_x r0, el_y r0). unfold el_x, el_y, origin. rewrite S.
    assert (E1 : (0 + 0) * el_D (el_r r0) = 0) by ring. rewrite E1, fdiv_0.
    assert (E2 : 1 - 0 * 0 = 1) by ring. assert (E3 : 1 + 0 * 0 = 1) by ring. rewrite E2, E3, fdiv_1. reflexivity.
  - right. split; [exact N|]. exists (el_s r0), (el_c r0). split.
    + destruct (el_cases r0 N) as [(S & C & P & E)|(S & C & P & E)]; [left|right].
      * split; [exact S|]. split; [exact C|]. split; [apply Z.leb_le; exact P|exact E].
      * split; [exact S|]. split; [exact C|]. split; [apply Z.leb_le; exact P|exact E].
    + change (el_c r0 * (el_r r0 - 1) * ((cd - 1) * (cd - 1)) - el_D (el_r r0)) with (el_T r0).
      pose proof (F_mul_nz _ _ (el_T_nz r0) FB_nz) as N1. pose proof (el_u2_nz r0) as N2. unfold el_x, el_y.
      set (s := el_s r0) in *. set (W := el_T r0 * FB) in *. set (u2 := 1 + s * s) in *. set (D := el_D (el_r r0)).
      clearbody W D u2. split; field; assumption.
Qed.
Lemma C52_elligator_stmt : forall ck r, floadable r ->
  exists P A, rp_elligator ck r = Ok P /\ ext_rep P A /\ even_point A /\ elligator_image (residue r) A.
Proof.
  intros ck r Fr. destruct (rp_elligator_ok r Fr) as (z & N & E).
  exists (ext (el_pt (fF r)) z), (pxy (el_pt (fF r))). split; [apply E|].
  split; [apply rext_rep, rext_ext; exact N|]. split; [apply even_even, el_even|exact (el_image (fF r))].
Qed.
(** The specification determines the point. *)
Lemma C52_image_unique_stmt : forall r0 A B, elligator_image r0 A -> elligator_image r0 B -> A = B.
Proof.
  intros r0 [x1 y1] [x2 y2] (j & b & Hj & Pj & Hb & Pb & H1) (j' & b' & Hj' & Pj' & Hb' & Pb' & H2).
  assert (Ej : j' = j).
  { apply fpos_sq_inj; [apply Z.leb_le; exact Pj'|apply Z.leb_le; exact Pj|]. rewrite Hj, Hj'. reflexivity. }
  assert (Eb : b' = b).
  { apply fpos_sq_inj; [apply Z.leb_le; exact Pb'|apply Z.leb_le; exact Pb|]. rewrite Hb, Hb'. reflexivity. }
  subst j' b'.
  assert (EJ : j = FI).
  { apply fpos_sq_inj; [apply Z.leb_le; exact Pj|reflexivity|]. rewrite Hj. symmetry. exact FI_sq. }
  assert (EB : b = FB).
  { apply fpos_sq_inj; [apply Z.leb_le; exact Pb|reflexivity|]. rewrite Hb. rewrite FB_sq. ring. }
  subst j b. clear Hj Pj Hb Pb Hj' Pj' Hb' Pb'.
  cbv zeta in H1, H2. change (FI * (r0 * r0)) with (el_r r0) in *.
  change ((el_r r0 + 1) * (1 - cd * cd)) with (el_N (el_r r0)) in *.
  change ((- (1) - cd * el_r r0) * (el_r r0 + cd)) with (el_D (el_r r0)) in *. cbn [fst snd] in H1, H2.
  destruct H1 as [[Z1 E1]|[N H1]].
  { destruct H2 as [[_ E2]|[N _]]; [rewrite E1, E2; reflexivity|elim (N Z1)]. }
  destruct H2 as [[Z2 _]|[_ H2]]; [elim (N Z2)|].
  destruct H1 as (s & c & K1 & Y1 & X1), H2 as (s' & c' & K2 & Y2 & X2).
  assert (G : forall s c, (is_sq (el_N (el_r r0) / el_D (el_r r0)) /\ c = - (1) /\ nonneg s /\
       s * s * el_D (el_r r0) = el_N (el_r r0)) \/
      (~ is_sq (el_N (el_r r0) / el_D (el_r r0)) /\ c = el_r r0 /\ nonneg (- s) /\
       s * s * el_D (el_r r0) = el_r r0 * el_N (el_r r0)) -> s = el_s r0 /\ c = el_c r0).
  { intros t e K. destruct (el_cases r0 N) as [(S & C & P & E)|(S & C & P & E)];
      destruct K as [(S' & C' & P' & E')|(S' & C' & P' & E')]; try (elim S; exact S'); try (elim S'; exact S).
    - split; [|rewrite C, C'; reflexivity]. apply fpos_sq_inj; [apply Z.leb_le; exact P'|exact P|].
      apply (F_mul_cancel_l (el_D (el_r r0))); [exact N|].
      transitivity (t * t * el_D (el_r r0)); [ring|]. rewrite E', <- E. ring.
    - split; [|rewrite C, C'; reflexivity].
      assert (Q : - t = - el_s r0).
      { apply fpos_sq_inj; [apply Z.leb_le; exact P'|exact P|].
        apply (F_mul_cancel_l (el_D (el_r r0))); [exact N|].
        transitivity (t * t * el_D (el_r r0)); [ring|]. rewrite E', <- E. ring. }
      transitivity (- - t); [ring|]. rewrite Q. ring. }
  destruct (G s c K1) as [-> ->]. destruct (G s' c' K2) as [-> ->].
  change (el_c r0 * (el_r r0 - 1) * ((cd - 1) * (cd - 1)) - el_D (el_r r0)) with (el_T r0) in *.
  apply f_equal2.
  - apply (F_mul_cancel_l (el_T r0 * FB)); [apply F_mul_nz; [apply el_T_nz|exact FB_nz]|].
    transitivity (x1 * (el_T r0 * FB)); [ring|]. rewrite X1, <- X2. ring.
  - apply (F_mul_cancel_l (1 + el_s r0 * el_s r0)); [apply el_u2_nz|].
    transitivity (y1 * (1 + el_s r0 * el_s r0)); [ring|]. rewrite Y1, <- Y2. ring.
Qed.
(** r and -r give the same point. *)
Lemma C52_opposite_stmt : forall ck r r' P P', floadable r -> floadable r' -> residue r' = - residue r ->
  rp_elligator ck r = Ok P -> rp_elligator ck r' = Ok P' -> ept_eqb ck P P' = Ok true.
Proof.
  intros ck r r' P P' Fr Fr' E E1 E2.
  destruct (rp_elligator_ok r Fr) as (z & N & K). destruct (rp_elligator_ok r' Fr') as (z' & N' & K').
  rewrite K in E1. rewrite K' in E2. apply Ok_inj in E1, E2. subst P P'.
  change (fF r' = - fF r) in E. rewrite E, el_opp.
  rewrite (rext_eqb _ _ _ _ (rext_ext _ z N) (rext_ext _ z' N')), pt_eqb_refl. reflexivity.
Qed.
Lemma C52_ex : floadable (fe_from_bytes (repeat 255 32)%Z) /\ floadable (FE 5 0 0 0 0) /\
  floadable (enc (- toF 5)) /\ residue (enc (- toF 5)) = - residue (FE 5 0 0 0 0).
Proof.
  split.
  { apply fe_from_bytes_ok. split; [reflexivity|repeat (constructor; [lia|]); constructor]. }
  split; [apply fcanon_loadable, canon_check; vm_compute; reflexivity|]. split; [apply enc_ld|].
  apply Feq. vm_compute. reflexivity.
Qed.

(** ** C53 *)
Lemma C53_uniform_stmt : forall ck b, is_bytes 64 b -> exists P A B,
  rp_from_uniform_bytes ck b = Ok P /\ ext_rep P (sum A B) /\ even_ext P /\
  elligator_image (toF (le_value (firstn 32 b))) A /\ elligator_image (toF (le_value (skipn 32 b))) B.
Proof.
  intros ck b B. destruct (rp_from_uniform_bytes_ok b B) as (z & N & E).
  set (A1 := toF (le_value (firstn 32 b))) in *. set (A2 := toF (le_value (skipn 32 b))) in *.
  exists (ext (padd (el_pt A1) (el_pt A2)) z), (pxy (el_pt A1)), (pxy (el_pt A2)). split; [apply E|].
  split; [exact (rext_rep _ _ (rext_ext _ z N))|].
  split; [|split; apply el_image]. apply even_ext_iff. eexists. split; [apply rext_ext; exact N|].
  apply even_padd; apply el_even.
Qed.
Lemma C53_random_stmt : forall ck b, is_bytes 64 b ->
  rp_new_random_point ck b = rp_from_uniform_bytes ck b /\ exists P, rp_new_random_point ck b = Ok P /\ even_ext P.
Proof.
  intros ck b B. split; [reflexivity|]. destruct (C53_uniform_stmt ck b B) as (P & _ & _ & E & _ & Ev & _).
  exists P. split; [exact E|exact Ev].
Qed.
Lemma C53_ex : is_bytes 64 (repeat 255 64)%Z.
Proof. split; [reflexivity|repeat (constructor; [lia|]); constructor]. Qed.

(** ** C54 *)
Lemma C54_group_stmt : forall ck P Q R, valid_ext P -> valid_ext Q -> valid_ext R ->
  same_rist ck (S <- rp_add ck P Q ;; rp_add ck S R) (S <- rp_add ck Q R ;; rp_add ck P S) /\
  same_rist ck (rp_add ck P Q) (rp_add ck Q P) /\
  same_rist ck (rp_add ck P rp_identity) (Ok P) /\
  same_rist ck (N <- rp_neg ck P ;; rp_add ck P N) (Ok rp_identity) /\
  same_rist ck (rp_sub ck P Q) (N <- rp_neg ck Q ;; rp_add ck P N) /\
  same_rist ck (rp_double ck P) (rp_add ck P P).
Proof.
  intros ck P Q R HP HQ HR. apply valid_rext in HP, HQ, HR. destruct HP as (A & HP), HQ as (B & HQ), HR as (C & HR).
  destruct (rext_add _ _ _ _ HP HQ) as (PQ & E1 & H1). destruct (rext_add _ _ _ _ HQ HP) as (QP & E2 & H2).
  destruct (rext_add _ _ _ _ HQ HR) as (QR & E3 & H3). destruct (rext_add _ _ _ _ H1 HR) as (L & E4 & H4).
  destruct (rext_add _ _ _ _ HP H3) as (M & E5 & H5). destruct (rext_add _ _ _ _ HP rext_id) as (PO & E6 & H6).
  destruct (rext_neg _ _ HP) as (NP & E7 & H7). destruct (rext_add _ _ _ _ HP H7) as (Z & E8 & H8).
  destruct (rext_dbl _ _ HP) as (D & E9 & H9). destruct (rp_sub_rext _ _ _ _ HP HQ) as (S & E10 & H10).
  destruct (rext_neg _ _ HQ) as (NQ & E11 & H11). destruct (rext_add _ _ _ _ HP H11) as (S' & E12 & H12).
  destruct (rext_add _ _ _ _ HP HP) as (D' & E13 & H13).
  unfold rp_add, rp_neg, rp_double.
  split.
  { apply (same_coset ck _ _ L M (padd (padd A B) C) (padd A (padd B C))).
    - rewrite E1, bind_ok. apply E4.
    - rewrite E3, bind_ok. apply E5.
    - exact H4.
    - exact H5.
    - rewrite padd_assoc. apply coset_refl. }
  split; [apply (same_coset ck _ _ _ _ _ _ (E1 ck) (E2 ck) H1 H2); rewrite padd_comm; apply coset_refl|].
  split; [apply (same_coset ck _ _ _ _ _ _ (E6 ck) eq_refl H6 HP); rewrite padd_O_r; apply coset_refl|].
  split.
  { apply (same_coset ck _ _ Z rp_identity (padd A (popp A)) pO).
    - rewrite E7, bind_ok. apply E8.
    - reflexivity.
    - exact H8.
    - exact rext_id.
    - rewrite padd_opp_r. apply coset_refl. }
  split.
  { apply (same_coset ck _ _ S S' (padd A (popp B)) (padd A (popp B))).
    - apply E10.
    - rewrite E11, bind_ok. apply E12.
    - exact H10.
    - exact H12.
    - apply coset_refl. }
  apply (same_coset ck _ _ _ _ _ _ (E9 ck) (E13 ck) H9 H13). apply coset_refl.
Qed.
(** Scalar multiplication of Ristretto points. *)
Lemma C54_mul_stmt : forall ck P A n, ext_rep P A -> sloadable n ->
  returns_ext (rp_mul ck P n) (multiple (sval n) A).
Proof.
  intros ck P A n HP Hn. apply ext_rep_rext in HP. destruct HP as (A' & -> & HP).
  apply (ret_ext (fun ck => rp_mul ck P n) _ _ (rp_mul_rext n P A' Hn HP)).
  symmetry. apply multiple_smul. apply sval_nonneg. apply Hn.
Qed.
Lemma C54_ex : valid_ext BASEPOINT /\ valid_ext order2_ext /\ sloadable max_scalar.
Proof. exact C39_ex. Qed.
