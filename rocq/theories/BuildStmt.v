(** * Debug and release builds on points with reduced coordinates, on the curve or not *)

From Coq Require Import ZArith Znumtheory List Bool Lia.
From Verif Require Import Machine FieldModel ScalarModel EdwardsModel TableModel RistrettoModel Spec MachineFacts FieldLimb
  FieldMul FieldOps FieldBytes ScalarLimb ScalarOps ScalarBits ScalarNaf NumTheory Primes Fp FieldF FieldInv FieldStmt Curve CurveGroup
  EdwardsF EdwardsY PointMul RistF GroupCheck GroupStmt MiscStmt ScalarStmt NafStmt RistE LeakStmt.
Import ListNotations.
Open Scope Z_scope.

(** The outcome (value or panic) is the same in both builds, and a returned value satisfies [Q]. *)
Definition steady {A : Type} (Q : A -> Prop) (f : bool -> res A) : Prop :=
  f true = f false /\ forall ck r, f ck = Ok r -> Q r.
(** Both coordinates of an affine point are reduced. *)
Definition reduced_aff (P : apt) : Prop := fcanon (aX P) /\ fcanon (aY P).
(** Of an optional value: if there is one, it satisfies [Q]. *)
Definition some_of {A : Type} (Q : A -> Prop) (o : option A) : Prop :=
  match o with Some x => Q x | None => True end.
(** For results about which nothing more is said. *)
Definition anything {A : Type} (x : A) : Prop := True.

Lemma steady_bind {A B : Type} (Q : A -> Prop) (R : B -> Prop) (f : bool -> res A) (g : bool -> A -> res B) :
  steady Q f -> (forall x, Q x -> steady R (fun ck => g ck x)) -> steady R (fun ck => bind (f ck) (g ck)).
Proof.
  intros [E H] G. split.
  - cbv beta. rewrite E. specialize (H false). destruct (f false) as [x| |]; [|reflexivity|reflexivity].
    exact (proj1 (G x (H x eq_refl))).
  - intros ck r. cbv beta. specialize (H ck). destruct (f ck) as [x| |]; try discriminate.
    intros W. exact (proj2 (G x (H x eq_refl)) ck r W).
Qed.
Lemma steady_const {A : Type} (Q : A -> Prop) (o : res A) : (forall r, o = Ok r -> Q r) -> steady Q (fun _ => o).
Proof. intros H. split; [reflexivity|]. intros _ r. apply H. Qed.
Lemma steady_ok {A : Type} (Q : A -> Prop) (x : A) : Q x -> steady Q (fun _ => Ok x).
Proof. intros H. apply steady_const. intros r E. injection E as <-. exact H. Qed.
Lemma steady_all {A : Type} (Q : A -> Prop) (f : bool -> res A) (x : A) : (forall ck, f ck = Ok x) -> Q x -> steady Q f.
Proof. intros E H. split; [rewrite !E; reflexivity|]. intros ck r. rewrite E. intros W. injection W as <-. exact H. Qed.
Lemma steady_panic {A : Type} (Q : A -> Prop) (f : bool -> res A) : (forall ck, f ck = Panic) -> steady Q f.
Proof. intros E. split; [rewrite !E; reflexivity|]. intros ck r. rewrite E. discriminate. Qed.
Lemma steady_weaken {A : Type} (Q R : A -> Prop) f : (forall x, Q x -> R x) -> steady Q f -> steady R f.
Proof. intros H [E G]. split; [exact E|]. intros ck r W. exact (H r (G ck r W)). Qed.
Lemma steady_if {A : Type} (Q : A -> Prop) (b : bool) f g : steady Q f -> steady Q g ->
  steady Q (fun ck => if b then f ck else g ck).
Proof. intros F G. destruct b; assumption. Qed.

(** ** Field functions *)
Ltac to_enc := repeat match goal with H : fcanon ?a |- _ => rewrite <- (enc_fF a H); generalize (fF a); clear a H; intros ? end.
Lemma st_add a b : fcanon a -> fcanon b -> steady fcanon (fun ck => fe_add ck a b).
Proof. intros A B. to_enc. eapply steady_all; [intros ck; apply fe_add_F|apply enc_c]. Qed.
Lemma st_sub a b : fcanon a -> fcanon b -> steady fcanon (fun ck => fe_sub ck a b).
Proof. intros A B. to_enc. eapply steady_all; [intros ck; apply fe_sub_F|apply enc_c]. Qed.
Lemma st_mul a b : fcanon a -> fcanon b -> steady fcanon (fun ck => fe_mul ck a b).
Proof. intros A B. to_enc. eapply steady_all; [intros ck; apply fe_mul_F|apply enc_c]. Qed.
Lemma st_square a : fcanon a -> steady fcanon (fun ck => fe_square ck a).
Proof. intros A. to_enc. eapply steady_all; [intros ck; apply fe_square_F|apply enc_c]. Qed.
Lemma st_neg a : fcanon a -> steady fcanon (fun ck => fe_neg ck a).
Proof. intros A. to_enc. eapply steady_all; [intros ck; apply fe_neg_F|apply enc_c]. Qed.
Lemma st_inverse a : fcanon a -> steady fcanon (fun ck => fe_inverse ck a).
Proof.
  intros A. rewrite <- (enc_fF a A). generalize (fF a). clear a A. intros x.
  destruct (F_dec x 0) as [->|N]; [apply steady_panic; intros ck; apply fe_inverse_zero|].
  eapply steady_all; [intros ck; exact (fe_inverse_F ck x N)|apply enc_c].
Qed.
Lemma st_div_val a b : fcanon a -> fcanon b -> steady fcanon (fun ck => fe_div_val ck a b).
Proof.
  intros A B. rewrite <- (enc_fF a A), <- (enc_fF b B). generalize (fF a) (fF b). clear a b A B. intros x y.
  destruct (F_dec y 0) as [->|N]; [apply steady_panic; intros ck; apply fe_div_val_zero|].
  eapply steady_all; [intros ck; exact (fe_div_val_F ck x y N)|apply enc_c].
Qed.
Lemma st_mod_sqrt a s : fcanon a -> steady (some_of fcanon) (fun ck => fe_mod_sqrt ck a s).
Proof.
  intros A. rewrite <- (enc_fF a A). generalize (fF a). clear a A. intros x.
  eapply steady_all; [intros ck; apply fe_mod_sqrt_F'|].
  destruct (sqb_F x); [|exact I]. cbn [some_of]. apply enc_c.
Qed.
Lemma st_ratio a b : fcanon a -> fcanon b -> steady (fun q => fcanon (snd q)) (fun ck => fe_sqrt_ratio_i ck a b).
Proof. intros A B. to_enc. eapply steady_all; [intros ck; apply fe_sqrt_ratio_i_F|cbn [snd]; apply enc_c]. Qed.
Lemma st_inv_sqrt a : fcanon a -> steady (fun q => fcanon (snd q)) (fun ck => fe_inv_sqrt ck a).
Proof. intros A. to_enc. eapply steady_all; [intros ck; apply fe_inv_sqrt_F|cbn [snd]; apply enc_c]. Qed.
Lemma st_cneg a s : fcanon a -> steady fcanon (fun ck => fe_conditional_negate ck a s).
Proof. intros A. to_enc. eapply steady_all; [intros ck; apply fe_conditional_negate_F|apply enc_c]. Qed.
Lemma EDWARDS_D_canon : fcanon EDWARDS_D. Proof. apply canon_check; reflexivity. Qed.
Lemma EDWARDS_A_canon : fcanon EDWARDS_A. Proof. apply canon_check; reflexivity. Qed.
Lemma two_canon : fcanon (fe_from_u8 2). Proof. apply canon_check; reflexivity. Qed.
Lemma minus_one_canon : fcanon fe_minus_one. Proof. apply canon_check; reflexivity. Qed.
Lemma sqrtm1_canon : fcanon SQRT_MINUS_ONE. Proof. apply canon_check; reflexivity. Qed.
Lemma isamd_canon : fcanon INV_SQRT_A_MINUS_D. Proof. apply canon_check; reflexivity. Qed.
Lemma sadm_canon : fcanon SQRT_AD_MINUS_ONE. Proof. apply canon_check; reflexivity. Qed.

Ltac canon := cbn [eX eY eZ eT pX pY pZ aX aY snd fst fe_select];
  first [assumption | exact EDWARDS_D_canon | exact EDWARDS_A_canon | exact two_canon | exact minus_one_canon
    | exact sqrtm1_canon | exact isamd_canon | exact sadm_canon | exact fcanon_one | exact fcanon_zero].
Ltac st1 := first
  [ apply st_mul; canon | apply st_square; canon | apply st_add; canon | apply st_sub; canon | apply st_neg; canon
  | apply st_inverse; canon | apply st_div_val; canon | apply st_cneg; canon | apply st_inv_sqrt; canon
  | apply st_ratio; canon | apply st_mod_sqrt; canon ].
Ltac st := repeat (eapply steady_bind; [st1|intros ? ?]).
Ltac open_pt := repeat match goal with
  | P : ept |- _ => let x := fresh "x" in let y := fresh "y" in let z := fresh "z" in let t := fresh "t" in destruct P as [x y z t]
  | P : ppt |- _ => let x := fresh "x" in let y := fresh "y" in let z := fresh "z" in destruct P as [x y z]
  | P : apt |- _ => let x := fresh "x" in let y := fresh "y" in destruct P as [x y]
  end; unfold reduced_ext, reduced_proj, reduced_aff in *; cbn [eX eY eZ eT pX pY pZ aX aY] in *;
  repeat match goal with H : _ /\ _ |- _ => destruct H end.
Ltac fin := apply steady_ok; unfold reduced_ext, reduced_proj, reduced_aff, anything; cbn [eX eY eZ eT pX pY pZ aX aY];
  repeat match goal with |- _ /\ _ => split end; first [exact I | canon].

(** ** Point functions *)
Lemma bt_apt_of_ept P : reduced_ext P -> steady reduced_aff (fun ck => apt_of_ept ck P).
Proof. intros H. open_pt. unfold apt_of_ept. st. fin. Qed.
Lemma bt_apt_of_ppt P : reduced_proj P -> steady reduced_aff (fun ck => apt_of_ppt ck P).
Proof. intros H. open_pt. unfold apt_of_ppt. st. fin. Qed.
Lemma bt_ept_of_ppt P : reduced_proj P -> steady reduced_ext (fun ck => ept_of_ppt ck P).
Proof. intros H. open_pt. unfold ept_of_ppt. st. fin. Qed.
Lemma bt_ept_of_apt P : reduced_aff P -> steady reduced_ext (fun ck => ept_of_apt ck P).
Proof. intros H. open_pt. unfold ept_of_apt. st. fin. Qed.
Lemma bt_apt_valid P : reduced_aff P -> steady anything (fun ck => apt_is_valid ck P).
Proof. intros H. open_pt. unfold apt_is_valid. st. fin. Qed.
Lemma bt_apt_neg P : reduced_aff P -> steady reduced_aff (fun ck => apt_neg ck P).
Proof. intros H. open_pt. unfold apt_neg. st. fin. Qed.
Lemma bt_ppt_eqb P Q : reduced_proj P -> reduced_proj Q -> steady anything (fun ck => ppt_eqb ck P Q).
Proof.
  intros HP HQ. unfold ppt_eqb. eapply steady_bind; [exact (bt_apt_of_ppt P HP)|intros a _].
  eapply steady_bind; [exact (bt_apt_of_ppt Q HQ)|intros b _]. fin.
Qed.
Lemma bt_ppt_valid P : reduced_proj P -> steady anything (fun ck => ppt_is_valid ck P).
Proof. intros H. open_pt. unfold ppt_is_valid. st. fin. Qed.
Lemma bt_ppt_neg P : reduced_proj P -> steady reduced_proj (fun ck => ppt_neg ck P).
Proof. intros H. open_pt. unfold ppt_neg. st. fin. Qed.
Lemma bt_ppt_add P Q : reduced_proj P -> reduced_proj Q -> steady reduced_proj (fun ck => ppt_add ck P Q).
Proof. intros H H'. open_pt. unfold ppt_add. st. fin. Qed.
Lemma bt_ppt_sub P Q : reduced_proj P -> reduced_proj Q -> steady reduced_proj (fun ck => ppt_sub ck P Q).
Proof.
  intros HP HQ. unfold ppt_sub. eapply steady_bind; [exact (bt_ppt_neg Q HQ)|intros R HR]. exact (bt_ppt_add P R HP HR).
Qed.
Lemma bt_ppt_double P : reduced_proj P -> steady reduced_proj (fun ck => ppt_double ck P).
Proof. intros H. open_pt. unfold ppt_double. st. fin. Qed.
Lemma bt_ppt_from_y y s : fcanon y -> steady (some_of reduced_proj) (fun ck => ppt_new_from_y_coord ck y s).
Proof.
  intros H. unfold ppt_new_from_y_coord. st. match goal with |- context [match ?o with _ => _ end] => destruct o end; [|fin].
  apply steady_ok. cbn [some_of] in *. unfold reduced_proj. cbn [pX pY pZ].
  refine (conj _ (conj _ _)); canon.
Qed.
Lemma bt_ept_eqb P Q : reduced_ext P -> reduced_ext Q -> steady anything (fun ck => ept_eqb ck P Q).
Proof.
  intros HP HQ. unfold ept_eqb. eapply steady_bind; [exact (bt_apt_of_ept P HP)|intros a _].
  eapply steady_bind; [exact (bt_apt_of_ept Q HQ)|intros b _]. fin.
Qed.
Lemma bt_ept_valid P : reduced_ext P -> steady anything (fun ck => ept_is_valid ck P).
Proof. intros H. unfold ept_is_valid. apply bt_ppt_valid. open_pt. cbn [ppt_of_ept pX pY pZ eX eY eZ]. auto. Qed.
Lemma bt_ept_neg P : reduced_ext P -> steady reduced_ext (fun ck => ept_neg ck P).
Proof. intros H. open_pt. unfold ept_neg. st. fin. Qed.
Lemma bt_ept_add P Q : reduced_ext P -> reduced_ext Q -> steady reduced_ext (fun ck => ept_add ck P Q).
Proof. intros H H'. open_pt. unfold ept_add. st. fin. Qed.
Lemma bt_ept_sub P Q : reduced_ext P -> reduced_ext Q -> steady reduced_ext (fun ck => ept_sub ck P Q).
Proof.
  intros H H'. unfold ept_sub. eapply steady_bind; [exact (bt_ept_neg Q H')|intros R HR]. clear Q H'.
  open_pt. st. fin.
Qed.
Lemma bt_ept_double P : reduced_ext P -> steady reduced_ext (fun ck => ept_double ck P).
Proof. intros H. exact (bt_ept_add P P H H). Qed.
Lemma bt_rp_eqb P Q : reduced_ext P -> reduced_ext Q -> steady anything (fun ck => rp_eqb ck P Q).
Proof. intros H H'. open_pt. unfold rp_eqb. st. fin. Qed.
Lemma bt_rp_sub P Q : reduced_ext P -> reduced_ext Q -> steady reduced_ext (fun ck => rp_sub ck P Q).
Proof.
  intros HP HQ. unfold rp_sub, rp_neg, rp_add. eapply steady_bind; [exact (bt_ept_neg Q HQ)|intros R HR].
  exact (bt_ept_add P R HP HR).
Qed.
Lemma coset_reduced : Forall reduced_ext FOUR_COSET_GROUP.
Proof.
  unfold FOUR_COSET_GROUP. repeat (apply Forall_cons; [unfold reduced_ext; cbn [eX eY eZ eT];
    refine (conj _ (conj _ (conj _ _))); apply canon_check; reflexivity|]). apply Forall_nil.
Qed.
Lemma bt_coset4 P : reduced_ext P -> steady (Forall reduced_ext) (fun ck => ept_coset4 ck P).
Proof.
  intros H. unfold ept_coset4.
  assert (U : forall i, steady reduced_ext (fun _ => unwrap (nth_error FOUR_COSET_GROUP i))).
  { intros i. apply steady_const. intros r E. destruct (nth_error FOUR_COSET_GROUP i) as [x|] eqn:N; [|discriminate E].
    injection E as <-. apply nth_error_In in N. pose proof coset_reduced as C. rewrite Forall_forall in C. exact (C x N). }
  eapply steady_bind; [apply U|intros c0 H0]. eapply steady_bind; [apply bt_ept_add; assumption|intros r0 G0].
  eapply steady_bind; [apply U|intros c1 H1]. eapply steady_bind; [apply bt_ept_add; assumption|intros r1 G1].
  eapply steady_bind; [apply U|intros c2 H2]. eapply steady_bind; [apply bt_ept_add; assumption|intros r2 G2].
  apply steady_ok. repeat apply Forall_cons; try assumption. apply Forall_nil.
Qed.
Lemma bt_ept_from_y y s : fcanon y -> steady (some_of reduced_ext) (fun ck => ept_new_from_y_coord ck y s).
Proof.
  intros H. unfold ept_new_from_y_coord. eapply steady_bind; [exact (bt_ppt_from_y y s H)|intros [P|] HP].
  - eapply steady_bind; [exact (bt_ept_of_ppt P HP)|intros E HE]. apply steady_ok. exact HE.
  - apply steady_ok. exact I.
Qed.
Lemma bt_find_xx y : fcanon y -> steady fcanon (fun ck => find_xx ck y).
Proof. intros H. unfold find_xx. st. st1. Qed.
Lemma bt_ept_compress P : reduced_ext P -> steady anything (fun ck => ept_compress ck P).
Proof.
  intros H. unfold ept_compress. eapply steady_bind; [exact (bt_apt_of_ept P H)|intros A [HX HY]].
  eapply steady_bind; [exact (bt_find_xx (aY A) HY)|intros xx Hx].
  eapply steady_bind; [exact (st_mod_sqrt xx false Hx)|intros o Ho].
  apply steady_const. intros; exact I.
Qed.
Lemma cey_canon b : is_bytes 32 b -> forall y, set_nth 31 (Z.land (byte b 31) 15) b = Ok y -> fcanon (fe_from_bytes y).
Proof.
  intros B y E. assert (Rb := byte_range 32 b 31 B).
  destruct (set_top_ok b (Z.land (byte b 31) 15) B) as (b' & E' & B' & V & _).
  { rewrite land15. pose proof (Z.mod_pos_bound (byte b 31) 16 eq_refl). clear - H. lia. }
  rewrite E' in E. injection E as <-. destruct (fe_from_bytes_ok b' B') as [C1 C2].
  split; [apply C1|]. rewrite C2, V, land15. pose proof p_253 as P. pose proof (Z.mod_pos_bound (byte b 31) 16 eq_refl) as M.
  pose proof (Z.mod_pos_bound (le_value b) (2 ^ 248) eq_refl) as N. clear - P M N. lia.
Qed.
Lemma bt_decompress b : is_bytes 32 b -> steady (some_of reduced_ext) (fun ck => cey_decompress ck b).
Proof.
  intros B. unfold cey_decompress. cbv zeta.
  apply (steady_bind (fun y => fcanon (fe_from_bytes y)) (some_of reduced_ext) (fun _ => set_nth 31 (Z.land (byte b 31) 15) b)
    (fun ck y => ept_new_from_y_coord ck (fe_from_bytes y) (shr (byte b 31) 7 =? 1))).
  - apply steady_const. exact (cey_canon b B).
  - intros y Hy. exact (bt_ept_from_y (fe_from_bytes y) _ Hy).
Qed.
Lemma bt_cey_neg b : is_bytes 32 b -> steady anything (fun ck => cey_neg ck b).
Proof.
  intros B. unfold cey_neg. eapply steady_bind; [exact (bt_decompress b B)|intros o Ho].
  eapply (steady_bind reduced_ext).
  - apply steady_const. intros r E. destruct o as [P|]; [|discriminate E]. injection E as <-. exact Ho.
  - intros P HP. eapply steady_bind; [exact (bt_ept_neg P HP)|intros N HN]. exact (bt_ept_compress N HN).
Qed.
Lemma bt_random draws : Forall (is_bytes 32) draws -> steady reduced_proj (fun ck => ppt_new_random_point ck draws).
Proof.
  induction 1 as [|d ds D Ds IH]; cbn [ppt_new_random_point].
  - apply steady_const. discriminate.
  - eapply (steady_bind fcanon).
    + apply steady_const. rewrite (fe_random_enc d D). intros r E. injection E as <-. apply enc_c.
    + intros y Hy. eapply steady_bind; [exact (bt_ppt_from_y y false Hy)|intros [P|] HP].
      * apply steady_ok. exact HP.
      * exact IH.
Qed.
Lemma bt_ept_random draws : Forall (is_bytes 32) draws -> steady reduced_ext (fun ck => ept_new_random_point ck draws).
Proof.
  intros D. unfold ept_new_random_point. eapply steady_bind; [exact (bt_random draws D)|intros P HP]. exact (bt_ept_of_ppt P HP).
Qed.

(** ** Multiplication, for any two operations that are steady *)
Section Mul.
Context {T : Type} (Q : T -> Prop) (add sub : bool -> T -> T -> res T) (dbl : bool -> T -> res T) (id : T).
Hypothesis Hid : Q id.
Hypothesis Hadd : forall a b, Q a -> Q b -> steady Q (fun ck => add ck a b).
Hypothesis Hsub : forall a b, Q a -> Q b -> steady Q (fun ck => sub ck a b).
Hypothesis Hdbl : forall a, Q a -> steady Q (fun ck => dbl ck a).
Lemma bt_da_loop n : forall N k R, Q N -> Q R ->
  steady Q (fun ck => double_and_add_loop (add ck) (dbl ck) n N k R).
Proof.
  induction n as [|n IH]; intros N k R HN HR; cbn [double_and_add_loop]; [apply steady_const; discriminate|].
  destruct (negb (sc_eqb k sc_zero)); [|apply steady_ok; exact HR].
  eapply (steady_bind Q).
  - destruct (negb (sc_is_even k)); [exact (Hadd R N HR HN)|apply steady_ok; exact HR].
  - intros R' HR'. eapply steady_bind; [exact (Hdbl N HN)|intros N' HN']. exact (IH N' _ R' HN' HR').
Qed.
Lemma bt_da P k : Q P -> steady Q (fun ck => double_and_add (add ck) (dbl ck) id P k).
Proof. intros H. unfold double_and_add. apply bt_da_loop; assumption. Qed.
Lemma bt_ltr_loop P bits n : Q P -> forall R, Q R -> steady Q (fun ck => ltr_bin_mul_loop (add ck) (dbl ck) P bits n R).
Proof.
  intros HP. induction n as [|n IH]; intros R HR; cbn [ltr_bin_mul_loop]; [apply steady_ok; exact HR|].
  eapply steady_bind; [exact (Hdbl R HR)|intros R1 H1].
  eapply (steady_bind anything); [apply steady_const; intros; exact I|intros b _].
  eapply (steady_bind Q); [|intros R2 H2; exact (IH R2 H2)].
  destruct (b =? 1); [exact (Hadd R1 P H1 HP)|apply steady_ok; exact H1].
Qed.
Lemma bt_ltr P k : Q P -> steady Q (fun ck => ltr_bin_mul (add ck) (dbl ck) id P k).
Proof. intros H. unfold ltr_bin_mul. apply bt_ltr_loop; assumption. Qed.
Lemma bt_naf_loop P naf n : Q P -> forall R, Q R -> steady Q (fun ck => binary_naf_mul_loop (add ck) (sub ck) (dbl ck) P naf n R).
Proof.
  intros HP. induction n as [|n IH]; intros R HR; cbn [binary_naf_mul_loop]; [apply steady_ok; exact HR|].
  eapply steady_bind; [exact (Hdbl R HR)|intros R1 H1].
  eapply (steady_bind anything); [apply steady_const; intros; exact I|intros b _].
  eapply (steady_bind Q); [|intros R2 H2; exact (IH R2 H2)].
  destruct (b =? 1); [exact (Hadd R1 P H1 HP)|]. destruct (b =? -1); [exact (Hsub R1 P H1 HP)|apply steady_ok; exact H1].
Qed.
Lemma bt_naf P k : Q P -> scanon k -> steady Q (fun ck => binary_naf_mul ck (add ck) (sub ck) (dbl ck) id P k).
Proof.
  intros H K. unfold binary_naf_mul. destruct (compute_NAF_ck k K) as (ds & E & _).
  eapply (steady_bind anything); [exact (steady_all _ _ _ E I)|intros naf _]. apply bt_naf_loop; assumption.
Qed.
End Mul.
Lemma bt_two_pow k : 0 <= k -> steady anything (fun ck => sc_two_pow_k ck k).
Proof.
  intros K. split; [|intros; exact I]. exact (proj1 (C63_scalar_int_stmt k) K).
Qed.
Lemma id_reduced : reduced_ext ept_identity.
Proof. unfold reduced_ext, ept_identity. cbn [eX eY eZ eT]. refine (conj _ (conj _ (conj _ _))); canon. Qed.
Lemma idp_reduced : reduced_proj ppt_identity.
Proof. unfold reduced_proj, ppt_identity. cbn [pX pY pZ]. refine (conj _ (conj _ _)); canon. Qed.
Lemma bt_ept_mul P k : reduced_ext P -> steady reduced_ext (fun ck => ept_mul ck P k).
Proof. intros H. unfold ept_mul. exact (bt_da reduced_ext ept_add ept_double ept_identity id_reduced bt_ept_add bt_ept_double P k H). Qed.
Lemma bt_ppt_mul P k : reduced_proj P -> steady reduced_proj (fun ck => ppt_mul ck P k).
Proof. intros H. unfold ppt_mul. exact (bt_da reduced_proj ppt_add ppt_double ppt_identity idp_reduced bt_ppt_add bt_ppt_double P k H). Qed.
Lemma bt_rp_valid P : reduced_ext P -> steady anything (fun ck => rp_is_valid ck P).
Proof.
  intros H. unfold rp_is_valid. eapply steady_bind; [exact (bt_ept_mul P SC_L H)|intros R HR].
  eapply steady_bind; [exact (bt_ept_eqb R ept_identity HR id_reduced)|intros b _].
  eapply steady_bind; [exact (bt_ept_valid P H)|intros c _]. fin.
Qed.
Ltac pair_in := cbv beta in *; match goal with H : fcanon (snd ?q) |- _ => is_var q; destruct q as [? ?]; cbn [snd] in H end.
Definition canon3 (q : fe * fe * fe) : Prop := let '(a, b, c) := q in fcanon a /\ fcanon b /\ fcanon c.
Lemma bt_rp_compress P : reduced_ext P -> steady anything (fun ck => rp_compress ck P).
Proof.
  intros H. open_pt. unfold rp_compress. cbn [eX eY eZ eT]. st. pair_in. st.
  eapply (steady_bind canon3).
  - match goal with |- context [if ?b then _ else _] => destruct b end.
    + st. apply steady_ok. cbn [canon3]. auto.
    + apply steady_ok. cbn [canon3]. auto.
  - intros [[a1 b1] c1] (Ha & Hb & Hc). st. fin.
Qed.
Lemma bt_elligator r : floadable r -> steady reduced_ext (fun ck => rp_elligator ck r).
Proof.
  intros R. destruct (rp_elligator_ok r R) as (z & _ & E). eapply steady_all; [exact E|].
  unfold ext, reduced_ext, EPF. cbn [eX eY eZ eT]. refine (conj _ (conj _ (conj _ _))); apply enc_c.
Qed.
Lemma bt_uniform b : is_bytes 64 b -> steady reduced_ext (fun ck => rp_from_uniform_bytes ck b).
Proof.
  intros B. destruct (rp_from_uniform_bytes_ok b B) as (z & _ & E). eapply steady_all; [exact E|].
  unfold ext, reduced_ext, EPF. cbn [eX eY eZ eT]. refine (conj _ (conj _ (conj _ _))); apply enc_c.
Qed.
Lemma bt_cr_decompress b : is_bytes 32 b -> steady (some_of reduced_ext) (fun ck => cr_decompress ck b).
Proof.
  intros B. destruct (cr_decompress_spec b B) as (o & E & H). eapply steady_all; [exact E|].
  destruct o as [P|]; [|exact I]. destruct H as (A & s & -> & _). cbn [some_of].
  unfold ext, reduced_ext, EPF. cbn [eX eY eZ eT]. refine (conj _ (conj _ (conj _ _))); apply enc_c.
Qed.
Lemma table_all i P : nth_error BASEPOINT_ODD_MULTIPLES_TABLE i = Some P -> reduced_ext P.
Proof.
  intros E. destruct i as [|i].
  - rewrite table_zero in E. injection E as <-. exact id_reduced.
  - assert (N : (S i < 126)%nat).
    { rewrite <- table_length. apply nth_error_Some. rewrite E. discriminate. }
    destruct (table_reduced (S i)) as (R & E' & HR); [split; [apply Nat.lt_0_succ|exact N]|].
    rewrite E' in E. injection E as <-. exact HR.
Qed.
Lemma st_table i : steady reduced_ext (fun _ : bool => unwrap (nth_error BASEPOINT_ODD_MULTIPLES_TABLE i)).
Proof.
  apply steady_const. intros r. destruct (nth_error BASEPOINT_ODD_MULTIPLES_TABLE i) as [P|] eqn:E; [|discriminate].
  intros H. injection H as <-. exact (table_all i P E).
Qed.
Lemma bt_window_loop naf n : Forall (fun d => -127 <= d <= 127) naf -> forall R, reduced_ext R ->
  steady reduced_ext (fun ck => window_naf_mul_loop ck naf n R).
Proof.
  intros N. induction n as [|n IH]; intros R HR; cbn [window_naf_mul_loop]; [apply steady_ok; exact HR|].
  eapply steady_bind; [exact (bt_ept_double R HR)|intros R1 H1].
  eapply (steady_bind (fun d => -127 <= d <= 127)).
  { apply steady_const. intros r E. destruct (nth_error naf n) as [x|] eqn:W; [|discriminate E]. injection E as <-.
    apply nth_error_In in W. rewrite Forall_forall in N. exact (N x W). }
  intros k K. eapply (steady_bind reduced_ext); [|intros R2 H2; exact (IH R2 H2)].
  destruct (k =? 0); [apply steady_ok; exact H1|]. destruct (0 <? k).
  - eapply steady_bind; [apply st_table|intros t Ht]. exact (bt_ept_add R1 t H1 Ht).
  - eapply (steady_bind anything).
    { unfold i8abs. rewrite (proj2 (Z.eqb_neq k (-128))) by (clear - K; lia). apply steady_ok. exact I. }
    intros a _. eapply (steady_bind anything); [apply steady_const; intros; exact I|intros _ _].
    eapply steady_bind; [apply st_table|intros t Ht]. exact (bt_rp_sub R1 t H1 Ht).
Qed.
Lemma wnaf_steady k w : scanon k -> 2 <= w <= 6 ->
  steady (Forall (fun d => -127 <= d <= 127)) (fun ck => sc_compute_window_NAF ck k w).
Proof.
  intros K W. assert (Z6 : {w = 6 /\ sval k = L - 2} + {w <> 6 \/ sval k <> L - 2}).
  { destruct (Z.eq_dec w 6); [destruct (Z.eq_dec (sval k) (L - 2))|]; auto. }
  destruct Z6 as [[-> E]|N].
  - assert (k = SC 1129677152307297 1363544697812651 714439 0 2199023255552) as ->.
    { apply sval_inj; [apply K| |rewrite E; reflexivity]. rewrite slimbs_lim; cbn; unfold lim; lia. }
    apply (steady_all _ _ (pad256 [-31; 0; 7])); [intros []; vm_compute; reflexivity|].
    apply Forall_forall. intros x Hx. assert (F : forallb (fun d => (-127 <=? d) && (d <=? 127)) (pad256 [-31; 0; 7]) = true)
      by (vm_compute; reflexivity). rewrite forallb_forall in F. specialize (F x Hx).
    apply andb_prop in F. destruct F as [F1 F2]. apply Z.leb_le in F1, F2. split; assumption.
  - assert (NW : no_wrap w (sval k)) by (unfold no_wrap; clear - N W; lia).
    destruct (compute_window_NAF_ck w k K NW) as (ds & E & Hl & R). apply (steady_all _ _ (pad256 ds)); [exact E|].
    destruct (recoding_spec w (sval k) ds) as (_ & _ & F & _); [exact Hl|exact R|].
    eapply Forall_impl; [|exact F]. intros d [->|[_ B]]; [clear; lia|].
    assert (2 ^ (w - 1) <= 2 ^ 5) by (apply Z.pow_le_mono_r; clear - W; lia). clear - B H. lia.
Qed.

(** ** C101 *)
(** Affine, projective and extended points whose coordinates are reduced; nothing is asked about the curve. *)
Lemma C101_affine_stmt : forall P, reduced_aff P ->
  steady anything (fun ck => apt_is_valid ck P) /\ steady reduced_aff (fun ck => apt_neg ck P) /\
  steady reduced_ext (fun ck => ept_of_apt ck P).
Proof. intros P H. exact (conj (bt_apt_valid P H) (conj (bt_apt_neg P H) (bt_ept_of_apt P H))). Qed.
Lemma C101_projective_stmt : forall P Q n k, reduced_proj P -> reduced_proj Q -> scanon n -> 0 <= k ->
  steady reduced_proj (fun ck => ppt_add ck P Q) /\ steady reduced_proj (fun ck => ppt_sub ck P Q) /\
  steady reduced_proj (fun ck => ppt_neg ck P) /\ steady reduced_proj (fun ck => ppt_double ck P) /\
  steady anything (fun ck => ppt_eqb ck P Q) /\ steady anything (fun ck => ppt_is_valid ck P) /\
  steady reduced_aff (fun ck => apt_of_ppt ck P) /\ steady reduced_ext (fun ck => ept_of_ppt ck P) /\
  steady reduced_proj (fun ck => ppt_mul ck P n) /\
  steady reduced_proj (fun ck => ltr_bin_mul (ppt_add ck) (ppt_double ck) ppt_identity P n) /\
  steady reduced_proj (fun ck => binary_naf_mul ck (ppt_add ck) (ppt_sub ck) (ppt_double ck) ppt_identity P n) /\
  steady reduced_proj (fun ck => mul_by_cofactor (ppt_mul ck) P) /\
  steady reduced_proj (fun ck => mul_by_pow_2 ck (ppt_mul ck) P k).
Proof.
  intros P Q n k HP HQ Hn Hk.
  split; [exact (bt_ppt_add P Q HP HQ)|]. split; [exact (bt_ppt_sub P Q HP HQ)|]. split; [exact (bt_ppt_neg P HP)|].
  split; [exact (bt_ppt_double P HP)|]. split; [exact (bt_ppt_eqb P Q HP HQ)|]. split; [exact (bt_ppt_valid P HP)|].
  split; [exact (bt_apt_of_ppt P HP)|]. split; [exact (bt_ept_of_ppt P HP)|]. split; [exact (bt_ppt_mul P n HP)|].
  split; [exact (bt_ltr reduced_proj ppt_add ppt_double ppt_identity idp_reduced bt_ppt_add bt_ppt_double P n HP)|].
  split; [exact (bt_naf reduced_proj ppt_add ppt_sub ppt_double ppt_identity idp_reduced bt_ppt_add bt_ppt_sub bt_ppt_double P n HP Hn)|].
  split; [exact (bt_ppt_mul P _ HP)|].
  unfold mul_by_pow_2. eapply steady_bind; [exact (bt_two_pow k Hk)|intros s _]. exact (bt_ppt_mul P s HP).
Qed.
Lemma C101_edwards_stmt : forall P Q n k, reduced_ext P -> reduced_ext Q -> scanon n -> 0 <= k ->
  steady reduced_ext (fun ck => ept_add ck P Q) /\ steady reduced_ext (fun ck => ept_sub ck P Q) /\
  steady reduced_ext (fun ck => ept_neg ck P) /\ steady reduced_ext (fun ck => ept_double ck P) /\
  steady anything (fun ck => ept_eqb ck P Q) /\ steady anything (fun ck => ept_is_valid ck P) /\
  steady reduced_aff (fun ck => apt_of_ept ck P) /\ steady anything (fun ck => ept_compress ck P) /\
  steady (Forall reduced_ext) (fun ck => ept_coset4 ck P) /\
  steady reduced_ext (fun ck => ept_mul ck P n) /\
  steady reduced_ext (fun ck => ltr_bin_mul (ept_add ck) (ept_double ck) ept_identity P n) /\
  steady reduced_ext (fun ck => binary_naf_mul ck (ept_add ck) (ept_sub ck) (ept_double ck) ept_identity P n) /\
  steady reduced_ext (fun ck => mul_by_cofactor (ept_mul ck) P) /\
  steady reduced_ext (fun ck => mul_by_pow_2 ck (ept_mul ck) P k).
Proof.
  intros P Q n k HP HQ Hn Hk.
  split; [exact (bt_ept_add P Q HP HQ)|]. split; [exact (bt_ept_sub P Q HP HQ)|]. split; [exact (bt_ept_neg P HP)|].
  split; [exact (bt_ept_double P HP)|]. split; [exact (bt_ept_eqb P Q HP HQ)|]. split; [exact (bt_ept_valid P HP)|].
  split; [exact (bt_apt_of_ept P HP)|]. split; [exact (bt_ept_compress P HP)|]. split; [exact (bt_coset4 P HP)|].
  split; [exact (bt_ept_mul P n HP)|].
  split; [exact (bt_ltr reduced_ext ept_add ept_double ept_identity id_reduced bt_ept_add bt_ept_double P n HP)|].
  split; [exact (bt_naf reduced_ext ept_add ept_sub ept_double ept_identity id_reduced bt_ept_add bt_ept_sub bt_ept_double P n HP Hn)|].
  split; [exact (bt_ept_mul P _ HP)|].
  unfold mul_by_pow_2. eapply steady_bind; [exact (bt_two_pow k Hk)|intros s _]. exact (bt_ept_mul P s HP).
Qed.
Lemma C101_ristretto_stmt : forall P Q n, reduced_ext P -> reduced_ext Q -> scanon n ->
  steady reduced_ext (fun ck => rp_add ck P Q) /\ steady reduced_ext (fun ck => rp_sub ck P Q) /\
  steady reduced_ext (fun ck => rp_neg ck P) /\ steady reduced_ext (fun ck => rp_double ck P) /\
  steady anything (fun ck => rp_eqb ck P Q) /\ steady anything (fun ck => rp_is_valid ck P) /\
  steady anything (fun ck => rp_compress ck P) /\ steady (Forall reduced_ext) (fun ck => rp_coset4 ck P) /\
  steady reduced_ext (fun ck => rp_mul ck P n) /\
  steady reduced_ext (fun ck => ltr_bin_mul (rp_add ck) (rp_double ck) rp_identity P n) /\
  steady reduced_ext (fun ck => binary_naf_mul ck (rp_add ck) (rp_sub ck) (rp_double ck) rp_identity P n) /\
  steady reduced_ext (fun ck => mul_by_cofactor (rp_mul ck) P).
Proof.
  intros P Q n HP HQ Hn.
  split; [exact (bt_ept_add P Q HP HQ)|]. split; [exact (bt_rp_sub P Q HP HQ)|]. split; [exact (bt_ept_neg P HP)|].
  split; [exact (bt_ept_double P HP)|]. split; [exact (bt_rp_eqb P Q HP HQ)|]. split; [exact (bt_rp_valid P HP)|].
  split; [exact (bt_rp_compress P HP)|]. split; [exact (bt_coset4 P HP)|]. split; [exact (bt_ept_mul P n HP)|].
  split; [exact (bt_ltr reduced_ext rp_add rp_double rp_identity id_reduced bt_ept_add bt_ept_double P n HP)|].
  split; [exact (bt_naf reduced_ext rp_add rp_sub rp_double rp_identity id_reduced bt_ept_add bt_rp_sub bt_ept_double P n HP Hn)|].
  exact (bt_ept_mul P (sc_from_u8 8) HP).
Qed.
(** Everything that makes a point out of bytes, a coordinate or random draws. *)
Lemma C101_decoding_stmt : forall b u y s r draws, is_bytes 32 b -> is_bytes 64 u -> fcanon y -> floadable r ->
  Forall (is_bytes 32) draws ->
  steady (some_of reduced_ext) (fun ck => cey_decompress ck b) /\ steady anything (fun ck => cey_neg ck b) /\
  steady (some_of reduced_ext) (fun ck => cr_decompress ck b) /\
  steady (some_of reduced_ext) (fun ck => ept_new_from_y_coord ck y s) /\
  steady (some_of reduced_proj) (fun ck => ppt_new_from_y_coord ck y s) /\
  steady reduced_ext (fun ck => rp_elligator ck r) /\ steady reduced_ext (fun ck => rp_from_uniform_bytes ck u) /\
  steady reduced_ext (fun ck => rp_new_random_point ck u) /\
  steady reduced_ext (fun ck => ept_new_random_point ck draws) /\
  steady reduced_proj (fun ck => ppt_new_random_point ck draws).
Proof.
  intros b u y s r draws B U Y R D.
  split; [exact (bt_decompress b B)|]. split; [exact (bt_cey_neg b B)|]. split; [exact (bt_cr_decompress b B)|].
  split; [exact (bt_ept_from_y y s Y)|]. split; [exact (bt_ppt_from_y y s Y)|]. split; [exact (bt_elligator r R)|].
  split; [exact (bt_uniform u U)|]. split; [exact (bt_uniform u U)|]. split; [exact (bt_ept_random draws D)|].
  exact (bt_random draws D).
Qed.
(** Windowed multiplication of the basepoint, widths 2 to 6, every reduced scalar. *)
Lemma C101_window_stmt : forall n w, scanon n -> 2 <= w <= 6 ->
  steady anything (fun ck => sc_compute_window_NAF ck n w) /\
  steady reduced_ext (fun ck => window_naf_mul ck n w).
Proof.
  intros n w N W. split; [eapply steady_weaken; [|exact (wnaf_steady n w N W)]; intros; exact I|].
  unfold window_naf_mul. eapply steady_bind; [exact (wnaf_steady n w N W)|intros ds D].
  exact (bt_window_loop ds 250 D rp_identity id_reduced).
Qed.
(** The coordinates have to be reduced: with limbs of 64 bits one build panics and the other does not. *)
Lemma C101_unreduced_refuted_stmt : exists P R, ept_add true P P = Panic /\ ept_add false P P = Ok R.
Proof.
  exists (EP (FE 18446744073709551615 0 0 0 18446744073709551615) fe_one fe_one fe_zero). eexists.
  split; vm_compute; reflexivity.
Qed.
(** The point (2, 2, 1, 0) is on neither curve; its sum with itself has Z = 1. *)
Lemma C101_ex : let P := EP (FE 2 0 0 0 0) (FE 2 0 0 0 0) fe_one fe_zero in
  reduced_ext P /\ reduced_proj (ppt_of_ept P) /\ reduced_aff (AP (FE 2 0 0 0 0) (FE 2 0 0 0 0)) /\
  ept_is_valid true P = Ok false /\ ept_add true P P = Ok (EP (FE 8 0 0 0 0) (FE 8 0 0 0 0) fe_one (FE 64 0 0 0 0)) /\
  apt_of_ept true (EP (FE 2 0 0 0 0) (FE 2 0 0 0 0) fe_zero fe_zero) = Panic /\ scanon sc_minus_one.
Proof.
  cbv zeta. split; [unfold reduced_ext; cbn [eX eY eZ eT]; refine (conj _ (conj _ (conj _ _))); apply canon_check; reflexivity|].
  split; [unfold reduced_proj; cbn [ppt_of_ept pX pY pZ eX eY eZ]; refine (conj _ (conj _ _)); apply canon_check; reflexivity|].
  split; [unfold reduced_aff; cbn [aX aY]; refine (conj _ _); apply canon_check; reflexivity|].
  split; [vm_compute; reflexivity|]. split; [vm_compute; reflexivity|]. split; [vm_compute; reflexivity|]. apply C17_ex.
Qed.
