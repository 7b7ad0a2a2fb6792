(** * Statements about the tests of the crate: C93 *)

From Coq Require Import ZArith Znumtheory List Bool Lia Ring Field.
From Verif Require Import Machine FieldModel ScalarModel EdwardsModel TableModel RistrettoModel DocTestModel TestModel Spec MachineFacts
  FieldLimb FieldOps FieldBytes NumTheory Primes Fp FieldF FieldInv FieldStmt ScalarOps ScalarBits ScalarStmt Curve CurveGroup EdwardsF
  PointMul EdwardsY EdwardsStmt RistSpec CodeSpec Rist RistF RistE RistrettoStmt CodeStmt GroupCheck GroupOrder GroupStmt LawsStmt ProtoStmt DocTestStmt.
Import ListNotations.
Open Scope F_scope.

(** The second entry of [rp_coset4]: the coordinates exchanged. *)
Definition swapped (A : pt) (z : F) : ept := EPF (yc A * (z * z)) (xc A * (z * z)) (z * z) (xc A * yc A * (z * z)).
Lemma add_swapped A z ck : ept_add ck (ext A z) (EPF 1 0 1 0) = Ok (swapped A z).
Proof.
  unfold ext, swapped. fold (xc A) (yc A). rewrite ept_add_enc. cbv zeta. apply f_equal. apply EPF_eq; ring.
Qed.
Lemma coset4_rext ck A z : z <> 0 -> exists U V, rp_coset4 ck (ext A z) = Ok [ext A z; swapped A z; U; V] /\
  rext U (padd A ptI) /\ rext V (padd A pt2).
Proof.
  intros N. pose proof (rext_ext A z N) as H.
  destruct (rext_add _ _ _ _ H rext_I) as (U & EU & HU).
  destruct (rext_add _ _ _ _ H rext_2) as (V & EV & HV).
  exists U, V. split; [|split; [exact HU|exact HV]].
  unfold rp_coset4, ept_coset4. rewrite coset1_enc, coset2_enc, coset3_enc. cbn [unwrap]. rewrite !bind_ok.
  rewrite add_swapped, !bind_ok, EU, !bind_ok, EV. reflexivity.
Qed.
Lemma ptI_t4 : t4 ptI. Proof. right. unfold yc, ptI. rewrite pxy_of. reflexivity. Qed.
Lemma pt2_t4 : t4 pt2. Proof. left. unfold xc, pt2. rewrite pxy_of. reflexivity. Qed.
Lemma coset_add_t4 A T : t4 T -> coset A (padd A T).
Proof. intros H. unfold coset. rewrite (padd_comm A T), padd_assoc, padd_opp_r, padd_O_r. exact H. Qed.
Lemma swapped_eqb ck A z w : z <> 0 -> w <> 0 -> rp_eqb ck (swapped A w) (ext A z) = Ok true /\ rp_eqb ck (ext A z) (swapped A w) = Ok true.
Proof.
  intros Nz Nw. unfold rp_eqb, ext, swapped, EPF. cbn [eX eY]. fold (xc A) (yc A). split; frun; rewrite !fe_eqb_F; apply f_equal;
    apply orb_true_iff; right; apply feqb_eq; ring.
Qed.
Lemma swapped_compress ck A z : z <> 0 -> (forall r, r * r <> xx (xc A)) -> ept_compress ck (swapped A z) = Panic.
Proof.
  intros N S. unfold ept_compress, swapped. assert (N2 : z * z <> 0) by (apply F_mul_nz; exact N).
  rewrite apt_of_ept_enc by exact N2. rewrite bind_ok. unfold APF. cbn [aX aY].
  assert (E : xc A * (z * z) * / (z * z) = xc A) by (field; exact N). rewrite E.
  rewrite find_xx_enc, bind_ok, fe_mod_sqrt_F', bind_ok.
  destruct (sqb_F_spec (xx (xc A))) as [[r Hr]|H]; [elim (S r Hr)|reflexivity].
Qed.
(** An even point never has abscissa 1. *)
Lemma even_x1 A : even A -> xc A <> 1.
Proof.
  intros [r Hr] H. pose proof (on_c A) as C. unfold ev in Hr. rewrite H in C.
  set (w := yc A * yc A) in *. clearbody w. clear H A. destruct cd_num as [N E].
  assert (K : r * r * toF 252593 = 1).
  { rewrite Hr. assert (T : toF 252593 = toF 126297 + toF 126296) by (apply Feq; reflexivity). rewrite T.
    assert (T1 : toF 126297 - toF 126296 = 1) by (apply Feq; reflexivity).
    assert (W : w * (1 - cd) = 1 + 1). { transitivity (- (1 * 1) + w + 1 - cd * (1 * 1) * w); [ring|]. rewrite C. ring. }
    transitivity (toF 126297 * (1 - cd) * (1 + cd * w)).
    { transitivity ((1 + cd * w) * (toF 126297 - - toF 126296)); [ring|]. rewrite <- E. ring. }
    transitivity (toF 126297 * (1 - cd) + cd * toF 126297 * (w * (1 - cd))); [ring|]. rewrite W.
    transitivity (toF 126297 + cd * toF 126297); [ring|]. rewrite E. transitivity (toF 126297 - toF 126296); [ring|exact T1]. }
  assert (Nr : r <> 0). { intros ->. apply one_neq_zero. rewrite <- K. ring. }
  apply (nsqb_true 252593); [vm_compute; reflexivity|]. exists (/ r).
  apply (F_mul_cancel_l (r * r)); [apply F_mul_nz; exact Nr|]. rewrite K. field. exact Nr.
Qed.

Lemma cey_identity_value b : is_bytes 32 b -> (b = cey_identity <-> le_value b = 1%Z).
Proof.
  intros [Lb Fb]. split; [intros ->; reflexivity|]. intros V.
  apply le_value_inj; [exact Lb|exact Fb|repeat (constructor; [lia|]); constructor|]. rewrite V. reflexivity.
Qed.
Lemma swapped_compress_or ck A z : z <> 0 -> ~ is_sq (xx (xc A)) /\ ept_compress ck (swapped A z) = Panic \/
  exists b, ept_compress ck (swapped A z) = Ok b /\ (b = cey_identity -> xc A = 1).
Proof.
  intros N. unfold ept_compress, swapped. assert (N2 : z * z <> 0) by (apply F_mul_nz; exact N).
  rewrite apt_of_ept_enc by exact N2. rewrite bind_ok. unfold APF. cbn [aX aY].
  assert (E : xc A * (z * z) * / (z * z) = xc A) by (field; exact N). rewrite E. clear E.
  rewrite find_xx_enc, bind_ok, fe_mod_sqrt_F', bind_ok.
  destruct (sqb_F_spec (xx (xc A))) as [_|Ns]; [|left; split; [exact Ns|reflexivity]]. right. cbn [unwrap]. rewrite bind_ok, fe_eqb_F. cbv zeta.
  set (sg := negb _). clearbody sg. set (y := xc A). clearbody y.
  assert (By := fe_to_bytes_bytes (enc y)). assert (Vy := fe_to_bytes_ok (enc y) (enc_ld y)).
  rewrite fval_enc in Vy. pose proof (Frange y) as Ry. pose proof p_253 as Pb.
  set (c := fe_to_bytes (enc y)) in *.
  set (m := Z.lor (byte c 31) (shl W8 (if sg then 1 else 0) 7)).
  destruct (set_top_ok c 0 By) as (_ & _ & _ & _ & Tb); [lia|].
  rewrite Vy in Tb.
  assert (Rb : (0 <= byte c 31 < 32)%Z).
  { rewrite Tb. split; [apply Z.div_pos; lia|]. apply Z.div_lt_upper_bound; [lia|].
    change (2 ^ 248 * 32)%Z with (2 ^ 253)%Z. lia. }
  assert (Em : (m = byte c 31 + (if sg then 128 else 0))%Z).
  { unfold m. destruct sg.
    - change (shl W8 1 7) with (1 * 2 ^ 7)%Z. rewrite lor_add_low by lia. lia.
    - change (shl W8 0 7) with 0%Z. rewrite Z.lor_0_r. lia. }
  destruct (set_top_ok c m By) as (b & Eb & Bb & Vb & _); [destruct sg; lia|].
  rewrite Eb, bind_ok. exists b. split; [unfold cey_from_slice, copy_from_slice; rewrite (proj1 Bb); reflexivity|].
  intros H. apply (proj1 (cey_identity_value b Bb)) in H.
  assert (V : (le_value b = Fval y + (if sg then 2 ^ 255 else 0))%Z).
  { rewrite Vb, Em, Vy, Tb. destruct sg; pose proof (Z.div_mod (Fval y) (2 ^ 248)); lia. }
  apply Feq. change (Fval 1) with 1%Z. rewrite V in H. clear - H Ry. destruct sg; lia.
Qed.
Lemma rext_compress_id ck P A : rext P A -> exists b, ept_compress ck P = Ok b /\ (cey_eqb b cey_identity = true <-> A = pO).
Proof.
  intros (z & N & ->). destruct (compress_ext A z N) as (b & E & B & V). exists b. split; [apply E|].
  unfold cey_eqb. rewrite bytes_eqb_spec, (cey_identity_value b B), V. fold (yc A). split.
  - intros H. assert (Y : yc A = 1 /\ psign A = false).
    { pose proof (Frange (yc A)) as R. destruct (psign A).
      - exfalso. clear - R H. lia.
      - split; [|reflexivity]. apply Feq. change (Fval 1) with 1%Z. clear - H. lia. }
    destruct Y as [Y _]. apply pt_c; destruct pO_c as [X0 Y0]; [rewrite X0; clear X0 Y0|rewrite Y0; exact Y].
    pose proof (on_c A) as C. rewrite Y in C.
    apply F_sq_zero. apply (F_mul_cancel_l (1 + cd)); [exact d1_nz|].
    transitivity (- (- (xc A * xc A) + 1 * 1 - (1 + cd * (xc A * xc A) * (1 * 1)))); [ring|]. rewrite C. ring.
  - intros ->. rewrite psign_O. destruct pO_c as [_ ->]. reflexivity.
Qed.

(** ** C93 *)
(** `extended_double_and_add`: the test passes at every point. *)
Lemma C93_eight_stmt : forall ck P, valid_ext P -> test_double_and_add ck P = Ok tt.
Proof.
  intros ck P H. apply valid_rext in H. destruct H as (A & H).
  destruct (rext_dbl _ _ H) as (D1 & E1 & H1). destruct (rext_dbl _ _ H1) as (D2 & E2 & H2). destruct (rext_dbl _ _ H2) as (D3 & E3 & H3).
  assert (C8 : scanon (sc_from_u8 8)) by (vm_compute; intuition discriminate). assert (V8 : sval (sc_from_u8 8) = 8%Z) by reflexivity.
  destruct (ept_mul_rext (sc_from_u8 8) P A (scanon_loadable _ C8) H) as (R & ER & HR). rewrite V8 in HR.
  unfold test_double_and_add. rewrite E1, bind_ok, E2, bind_ok, E3, bind_ok, ER, bind_ok, (rext_eqb _ _ _ _ H3 HR), bind_ok.
  assert (K : padd (padd (padd A A) (padd A A)) (padd (padd A A) (padd A A)) = smul 8 A).
  { change 8%Z with (2 * (2 * 2))%Z. rewrite !smul_mul, !smul_2. reflexivity. }
  rewrite K, pt_eqb_refl. reflexivity.
Qed.
(** `naf_bin_mul`: the two multiplications agree on every point and every reduced scalar. *)
Lemma C93_naf_stmt : forall ck P n, valid_ext P -> scanon n -> test_naf ck P n = Ok tt.
Proof.
  intros ck P n H Hn. apply valid_rext in H. destruct H as (A & H).
  destruct (ept_mul_rext n P A (scanon_loadable _ Hn) H) as (R & ER & HR).
  destruct (binary_naf_mul_ok ept rext ept_add ept_sub ept_double ept_identity rext_id rext_add rext_sub rext_dbl n P A Hn H) as (S & ES & HS).
  unfold test_naf. change (double_and_add (ept_add ck) (ept_double ck) ept_identity P n) with (ept_mul ck P n).
  rewrite ER, bind_ok, ES, bind_ok, (rext_eqb _ _ _ _ HR HS), bind_ok, pt_eqb_refl. reflexivity.
Qed.
(** `left_to_right_bin_mul`: the test passes exactly when the multiple by the scalar without
    its bit 249 is the multiple by the scalar. *)
Lemma C93_ltr_stmt : forall ck P A n, ext_rep P A -> scanon n ->
  (multiple (sval n mod 2 ^ 249) A = multiple (sval n) A -> test_ltr ck P n = Ok tt) /\
  (multiple (sval n mod 2 ^ 249) A <> multiple (sval n) A -> test_ltr ck P n = Panic).
Proof.
  intros ck P A0 n H Hn. apply ext_rep_rext in H. destruct H as (A & -> & H).
  destruct (ept_mul_rext n P A (scanon_loadable _ Hn) H) as (R & ER & HR).
  destruct (ltr_bin_mul_ok ept rext ept_add ept_sub ept_double ept_identity rext_id rext_add rext_sub rext_dbl n P A (scanon_loadable _ Hn) H) as (S & ES & HS).
  assert (N0 : (0 <= sval n)%Z) by (apply (sval_nonneg n (proj1 Hn))).
  assert (N1 : (0 <= sval n mod 2 ^ 249)%Z) by (apply Z.mod_pos_bound; reflexivity).
  rewrite !multiple_smul by (exact N0 || exact N1).
  unfold test_ltr. rewrite ER, bind_ok, ES, bind_ok, (rext_eqb _ _ _ _ HR HS), bind_ok.
  destruct (pt_eqb_spec (smul (sval n) A) (smul (sval n mod 2 ^ 249) A)) as [E|E].
  - split; [reflexivity|]. intros K. elim K. rewrite <- E. reflexivity.
  - split; [|reflexivity]. intros K. elim E. symmetry. apply pt_eq. exact K.
Qed.
(** With `Scalar::two_pow_k(k)` as scalar it passes at every point for k up to 248. *)
Lemma C93_ltr_pow_stmt : forall ck P k n, valid_ext P -> (0 <= k < 249)%Z -> sc_two_pow_k ck k = Ok n ->
  test_ltr ck P n = Ok tt.
Proof.
  intros ck P k n [A H] K E. destruct (sc_two_pow_k_ok ck k ltac:(lia)) as (r & E' & C & V). rewrite E in E'. apply Ok_inj in E'. subst r.
  apply (proj1 (C93_ltr_stmt ck P A n H C)). rewrite V, Z.mod_small; [reflexivity|].
  split; [apply Z.pow_nonneg; lia|]. apply Z.pow_lt_mono_r; lia.
Qed.
(** At k = 249, the largest power the scalars hold, it fails at the base point. *)
Lemma C93_ltr_pow_refuted_stmt : exists P k n, valid_ext P /\ (0 <= k < 250)%Z /\
  forall ck, sc_two_pow_k ck k = Ok n /\ test_ltr ck P n = Panic.
Proof.
  destruct (sc_two_pow_k_ok true 249 ltac:(lia)) as (r & E & C & V).
  destruct (sc_two_pow_k_ok false 249 ltac:(lia)) as (r' & E' & C' & V').
  assert (K : r' = r) by (apply sval_inj; [exact (proj1 C')|exact (proj1 C)|rewrite V, V'; reflexivity]). subst r'.
  exists BASEPOINT, 249%Z, r. split; [exists base; exact base_rep|]. split; [lia|].
  intros ck. split; [destruct ck; [exact E|exact E']|].
  apply (proj2 (C93_ltr_stmt ck BASEPOINT base r base_rep C)). rewrite V. change (2 ^ 249 mod 2 ^ 249)%Z with 0%Z.
  intros H. symmetry in H. apply multiple_B_inj in H; [|apply Z.pow_nonneg; lia|lia].
  apply Z.divide_pos_le in H; [|reflexivity]. revert H. change (~ (L <= 2 ^ 249 - 0)%Z). apply Z.lt_nge. reflexivity.
Qed.
(** `unique_basepoint_test`: the test passes exactly when the ordinate belongs to a point
    whose order divides the scalar modulus. *)
Lemma C93_basepoint_stmt : forall ck y s, fcanon y ->
  ((exists A, has_y (residue y) s A /\ multiple L A = origin) -> test_unique_basepoint ck y s = Ok tt) /\
  (~ (exists A, has_y (residue y) s A /\ multiple L A = origin) -> test_unique_basepoint ck y s = Panic).
Proof.
  intros ck y s C. tof y C. rewrite residue_enc. unfold test_unique_basepoint. rewrite ept_new_from_y, bind_ok.
  destruct (lift y s) as [A|] eqn:E; cbn [option_map unwrap_option bind].
  2: { split; [|reflexivity]. intros (A & H & _). apply has_y_pt in H. destruct H as (A' & _ & H). rewrite E in H. discriminate H. }
  pose proof (rext_ext A 1 one_neq_zero) as HA. rewrite (rext_valid ck _ A HA), bind_ok. cbn [assert_that].
  destruct (ept_mul_rext SC_L _ A SC_L_loadable HA) as (R & ER & HR). rewrite SC_L_val in HR.
  rewrite ER, bind_ok, (rext_eqb _ _ _ _ HR rext_id), bind_ok.
  assert (M : multiple L (pxy A) = pxy (smul L A)) by (apply multiple_smul; discriminate).
  destruct (pt_eqb_spec (smul L A) pO) as [K|K].
  - split; [reflexivity|]. intros N. elim N. exists (pxy A). split; [apply lift_has_y; exact E|]. rewrite M, K. reflexivity.
  - split; [|reflexivity]. intros (B & HB & HL). elim K. apply has_y_pt in HB. destruct HB as (B' & -> & HB).
    rewrite E in HB. injection HB as ->. apply pt_eq. rewrite <- M. exact HL.
Qed.
(** `four_coset_eq_basepoint`: the test passes at every point.  What it runs through: the
    point, the point with its coordinates exchanged, and the sums with (j,0) and (0,-1). *)
Lemma C93_coset_stmt : forall ck P, valid_ext P -> test_four_coset_eq ck P = Ok tt.
Proof.
  intros ck P H. apply valid_rext in H. destruct H as (A & H). pose proof H as (z & N & ->).
  destruct (coset4_rext ck A z N) as (U & V & E & HU & HV). unfold test_four_coset_eq. rewrite E, bind_ok.
  cbn [for_each]. rewrite (proj2 (rp_eqb_true ck _ _ A A H H)), (proj1 (swapped_eqb ck A z z N N)),
    (proj2 (rp_eqb_true ck U _ _ A HU H)), (proj2 (rp_eqb_true ck V _ _ A HV H)).
  - reflexivity.
  - apply coset_sym, coset_add_t4, pt2_t4.
  - apply coset_sym, coset_add_t4, ptI_t4.
  - apply coset_refl.
Qed.
Lemma C93_coset_entries_stmt : exists j, j * j = - (1) /\
  forall ck P A, ext_rep P A -> exists S U V, rp_coset4 ck P = Ok [P; S; U; V] /\
    residue (eZ S) <> 0 /\ residue (eX S) / residue (eZ S) = snd A /\ residue (eY S) / residue (eZ S) = fst A /\
    ext_rep U (sum A (j, 0)) /\ ext_rep V (sum A (0, - (1))).
Proof.
  exists (- FI). split; [transitivity (FI * FI); [ring|exact FI_sq]|].
  intros ck P A0 H. apply ext_rep_rext in H. destruct H as (A & -> & (z & N & ->)).
  destruct (coset4_rext ck A z N) as (U & V & E & HU & HV). exists (swapped A z), U, V.
  assert (N2 : z * z <> 0) by (apply F_mul_nz; exact N).
  split; [exact E|]. unfold swapped, EPF. cbn [eX eY eZ]. rewrite !residue_enc. split; [exact N2|].
  split; [unfold yc; field; exact N|]. split; [unfold xc; field; exact N|].
  split; [exact (rext_rep _ _ HU)|exact (rext_rep _ _ HV)].
Qed.
(** So the assertion does not see that the second entry is no point of the curve. *)
Lemma C93_coset_refuted_stmt : exists P, valid_ext P /\ forall ck, test_four_coset_eq ck P = Ok tt /\
  exists l Q, rp_coset4 ck P = Ok l /\ In Q l /\ rp_eqb ck Q P = Ok true /\ ~ valid_ext Q.
Proof.
  exists RISTRETTO_BASEPOINT. assert (V : valid_ext RISTRETTO_BASEPOINT) by (exists base; exact base_rep).
  split; [exact V|]. intros ck. split; [exact (C93_coset_stmt ck _ V)|].
  destruct (proj1 (valid_rext _) V) as (A & (z & N & E)). rewrite E.
  destruct (coset4_rext ck A z N) as (U & W & EL & _ & _).
  destruct C46_coset4_partial_stmt as (j & _ & H).
  destruct (H ck (ext A z) (pxy A) (rext_rep _ _ (rext_ext A z N))) as (S & U' & W' & ES & NS & _).
  unfold rp_coset4 in EL. rewrite EL in ES. apply Ok_inj in ES. injection ES as ES _ _.
  exists [ext A z; swapped A z; U; W], (swapped A z). split; [exact EL|]. split; [right; left; reflexivity|].
  split; [apply swapped_eqb; exact N|]. rewrite ES. exact NS.
Qed.
Definition w_x : F := toF 6.
Definition w_y : F := toF 115428762180720304236929556893601195903038836614255523934072055134729888275.
Lemma w_on : on_curve (w_x, w_y).
Proof. apply on_curveb_spec. vm_compute. reflexivity. Qed.
(** Compressing that entry can panic, for an element of the group the library works with. *)
Lemma C93_coset_panic_refuted_stmt : exists P, even_ext P /\ forall ck, exists l Q,
  rp_coset4 ck P = Ok l /\ In Q l /\ ept_compress ck Q = Panic.
Proof.
  set (A := pt_of (w_x, w_y) w_on).
  assert (Ex : xc A = w_x) by (unfold xc, A; rewrite pxy_of; reflexivity).
  assert (Ey : yc A = w_y) by (unfold yc, A; rewrite pxy_of; reflexivity).
  exists (ext A 1). split.
  { apply even_ext_iff. exists A. split; [apply rext_ext, one_neq_zero|].
    exists (toF 5042781214233601742748858370901917073492984038265216487909650243903896280648).
    unfold ev. rewrite Ey, cd_FD. apply Feq. vm_compute. reflexivity. }
  intros ck. destruct (coset4_rext ck A 1 one_neq_zero) as (U & V & E & _ & _).
  exists [ext A 1; swapped A 1; U; V], (swapped A 1). split; [exact E|]. split; [right; left; reflexivity|].
  apply swapped_compress; [exact one_neq_zero|]. intros r Hr. rewrite Ex in Hr.
  apply (nsqb_true (Fval (xx w_x))); [vm_compute; reflexivity|]. exists r. rewrite toF_Fval. exact Hr.
Qed.
(** `decompress_id`: the test passes on the string of zeros and on no other string. *)
Lemma C93_identity_stmt : forall ck b, is_bytes 32 b ->
  (b = repeat 0%Z 32 -> test_decompress_id ck b = Ok tt) /\
  (b <> repeat 0%Z 32 -> test_decompress_id ck b = Panic).
Proof.
  intros ck b B. split.
  - intros ->. destruct (C70_ristretto_encoding_stmt ck) as (_ & P & E & Q).
    destruct (cr_decompress_spec _ B) as (o & Eo & Ho). change cr_identity with (repeat 0%Z 32) in E.
    pose proof (Eo ck) as Eo'. rewrite E in Eo'. apply Ok_inj in Eo'. subst o. destruct Ho as (A & s & -> & C & _).
    assert (HA := rext_ext A 1 one_neq_zero). apply (rp_eqb_true ck _ _ A pO HA rext_id) in Q.
    assert (A = pO) by (apply canonp_unique; [exact Q|exact C|exact canonp_pO]). subst A.
    unfold test_decompress_id. rewrite E, bind_ok. cbn [unwrap_option]. rewrite bind_ok.
    destruct (coset4_rext ck pO 1 one_neq_zero) as (U & V & EL & HU & HV). rewrite EL, bind_ok.
    destruct (rext_compress_id ck _ _ HA) as (c0 & E0 & K0). destruct (rext_compress_id ck _ _ HU) as (c2 & E2 & _).
    destruct (rext_compress_id ck _ _ HV) as (c3 & E3 & _).
    assert (S : exists c1, ept_compress ck (swapped pO 1) = Ok c1).
    { destruct (swapped_compress_or ck pO 1 one_neq_zero) as [[Ns _]|(c1 & E1 & _)]; [|exists c1; exact E1]. elim Ns.
      rewrite <- (toF_Fval (xx (xc pO))). apply sqb_true. vm_compute. reflexivity. }
    destruct S as (c1 & E1). cbn [identity_in_coset].
    rewrite E0, bind_ok, (proj2 K0 eq_refl), E1, bind_ok, E2, bind_ok, E3, bind_ok.
    destruct (cey_eqb c1 cey_identity), (cey_eqb c2 cey_identity), (cey_eqb c3 cey_identity); reflexivity.
  - intros NB. destruct (cr_decompress_spec _ B) as (o & Eo & Ho). unfold test_decompress_id. rewrite Eo, bind_ok.
    destruct o as [P|]; [|reflexivity]. cbn [unwrap_option]. rewrite bind_ok. destruct Ho as (A & s & -> & C & Ev & S & V).
    assert (NA : A <> pO).
    { intros ->. apply NB. destruct (C70_ristretto_encoding_stmt ck) as (EI & _).
      destruct (C49_decode_stmt ck b B) as (o & E' & H'). rewrite Eo in E'. apply Ok_inj in E'. subst o. destruct H' as (_ & H' & _).
      apply Ok_inj. rewrite <- H'. change (repeat 0%Z 32) with cr_identity. rewrite <- EI.
      pose proof (rext_ext pO 1 one_neq_zero) as H1. destruct rext_id as (z & N & Ez). change rp_identity with ept_identity. rewrite Ez.
      destruct (rp_compress_ok pO 1 one_neq_zero Ev) as (s1 & S1 & ->). destruct (rp_compress_ok pO z N Ev) as (s2 & S2 & ->).
      rewrite (esc_unique _ _ _ (pick_canonp pO) S1 S2). reflexivity. }
    destruct (coset4_rext ck A 1 one_neq_zero) as (U & W & EL & HU & HW). rewrite EL, bind_ok.
    destruct (rext_compress_id ck _ _ (rext_ext A 1 one_neq_zero)) as (c0 & E0 & K0). destruct (rext_compress_id ck _ _ HU) as (c2 & E2 & K2).
    destruct (rext_compress_id ck _ _ HW) as (c3 & E3 & K3).
    assert (F0 : cey_eqb c0 cey_identity = false). { apply not_true_is_false. intros H. apply NA. apply K0. exact H. }
    assert (F : forall T, t4 T -> padd A T = pO -> False).
    { intros T HT H. apply NA. apply canonp_unique; [|exact C|exact canonp_pO]. rewrite <- H. apply coset_add_t4. exact HT. }
    assert (F2 : cey_eqb c2 cey_identity = false). { apply not_true_is_false. intros H. apply (F ptI ptI_t4). apply K2. exact H. }
    assert (F3 : cey_eqb c3 cey_identity = false). { apply not_true_is_false. intros H. apply (F pt2 pt2_t4). apply K3. exact H. }
    cbn [identity_in_coset]. rewrite E0, bind_ok, F0.
    destruct (swapped_compress_or ck A 1 one_neq_zero) as [[_ E1]|(c1 & E1 & K1)]; rewrite E1; [reflexivity|]. rewrite bind_ok.
    assert (F1 : cey_eqb c1 cey_identity = false).
    { apply not_true_is_false. intros H. apply (even_x1 A Ev). apply K1. apply bytes_eqb_spec. exact H. }
    rewrite F1, E2, bind_ok, F2, E3, bind_ok, F3. reflexivity.
Qed.
Lemma two_pow_2 ck : exists s, sc_two_pow_k ck 2 = Ok s /\ sloadable s /\ sval s = 4%Z.
Proof.
  destruct (sc_two_pow_k_ok ck 2 ltac:(lia)) as (s & E & C & V). exists s. split; [exact E|]. split; [exact (scanon_loadable _ C)|exact V].
Qed.
Lemma torsion_diff A : smul 4 (padd A (popp (pick A))) = pO.
Proof. apply t4_smul4. apply (coset_sym A (pick A)). apply pick_coset. Qed.
Lemma round_rext ck A z : z <> 0 -> even A -> exists b, rp_compress ck (ext A z) = Ok b /\ cr_decompress ck b = Ok (Some (ext (pick A) 1)).
Proof.
  intros N Ev. destruct (rp_compress_ok A z N Ev) as (s & S & K). destruct (enc_bytes s) as [B V].
  exists (fe_to_bytes (enc s)). split; [apply K|].
  apply (cr_decompress_some (pick A) s); [exact B|apply pick_canonp| |exact S|exact V]. exact (coset_even _ _ (pick_coset A) Ev).
Qed.
(** `four_torsion_diff`: four times the difference between a point and what its encoding
    decodes to is the identity, for every even point. *)
Lemma C93_torsion_stmt : forall ck P, even_ext P -> test_four_torsion_diff ck P = Ok tt.
Proof.
  intros ck P H. apply even_ext_iff in H. destruct H as (A & (z & N & ->) & Ev).
  destruct (round_rext ck A z N Ev) as (b & E & D). unfold test_four_torsion_diff. rewrite E, bind_ok, D, bind_ok. cbn [unwrap_option].
  rewrite bind_ok. destruct (rext_sub _ _ _ _ (rext_ext A z N) (rext_ext (pick A) 1 one_neq_zero)) as (R & ER & HR). rewrite ER, bind_ok.
  destruct (two_pow_2 ck) as (s & Es & Ls & Vs). unfold mul_by_pow_2. rewrite Es, bind_ok.
  destruct (ept_mul_rext s R _ Ls HR) as (M & EM & HM). rewrite EM, bind_ok. rewrite Vs, torsion_diff in HM.
  destruct (rext_compress_id ck M pO HM) as (c & Ec & Kc). rewrite Ec, bind_ok, (proj2 Kc eq_refl). reflexivity.
Qed.
(** `four_torsion_diff_random`: whatever the generator delivers. *)
Lemma C93_torsion_random_stmt : forall ck draw, is_bytes 32 draw -> test_four_torsion_diff_random ck draw = Ok tt.
Proof.
  intros ck draw B. destruct (sc_random_ok draw B) as (n & En & Cn & Vn).
  destruct (rp_mul_rext n _ _ (scanon_loadable _ Cn) rext_B) as (P & EP & HP).
  unfold test_four_torsion_diff_random. rewrite En, bind_ok. change RISTRETTO_BASEPOINT with BASEPOINT. rewrite EP, bind_ok.
  set (A := smul (sval n) pB) in *. assert (Ev : even A) by (apply even_smul, even_B).
  pose proof HP as (z & N & ->). destruct (coset4_rext ck A z N) as (U & V & E & HU & HV). rewrite E, bind_ok. cbn [for_each].
  rewrite (proj2 (rp_eqb_true ck _ _ A A HP HP) (coset_refl A)), (proj2 (swapped_eqb ck A z z N N)),
    (proj2 (rp_eqb_true ck _ U A _ HP HU) (coset_add_t4 _ _ ptI_t4)), (proj2 (rp_eqb_true ck _ V A _ HP HV) (coset_add_t4 _ _ pt2_t4)).
  cbn [assert_that bind].
  destruct (round_rext ck A z N Ev) as (b & Eb & D). rewrite Eb, bind_ok, D, bind_ok. cbn [unwrap_option]. rewrite bind_ok.
  destruct (rext_neg _ _ (rext_ext (pick A) 1 one_neq_zero)) as (M & EM & HM). unfold rp_neg. rewrite EM, bind_ok.
  destruct (rext_add _ _ _ _ HP HM) as (R & ER & HR). unfold rp_add. rewrite ER, bind_ok.
  destruct (two_pow_2 ck) as (s & Es & Ls & Vs). unfold mul_by_pow_2. rewrite Es, bind_ok.
  destruct (rp_mul_rext s R _ Ls HR) as (T & ET & HT). rewrite ET, bind_ok. rewrite Vs, torsion_diff in HT.
  change rp_identity with ept_identity. rewrite (proj2 (rp_eqb_true ck _ _ _ _ HT rext_id) (coset_refl pO)). reflexivity.
Qed.
(** `random_point_validity`: whatever the generator delivers, any number of rounds. *)
Lemma C93_random_points_stmt : forall ck draws, Forall (is_bytes 64) draws -> test_random_points ck draws = Ok tt.
Proof.
  intros ck draws H. unfold test_random_points. induction H as [|d l B _ IH]; [reflexivity|]. cbn [for_each].
  destruct (C53_random_stmt ck d B) as (_ & P & E & Ev). rewrite E, bind_ok.
  apply even_ext_iff in Ev. destruct Ev as (A & HP & Ev). rewrite (rext_valid ck P A HP), bind_ok. cbn [assert_that].
  destruct HP as (z & N & ->). destruct (round_rext ck A z N Ev) as (b & Eb & D). rewrite Eb, bind_ok, D, !bind_ok. exact IH.
Qed.
Lemma rp_is_valid_rext ck P A : rext P A -> rp_is_valid ck P = Ok (pt_eqb (smul L A) pO).
Proof.
  intros H. destruct (ept_mul_rext SC_L P A SC_L_loadable H) as (R & ER & HR). rewrite SC_L_val in HR.
  unfold rp_is_valid. rewrite ER, bind_ok, (rext_eqb R ept_identity _ _ HR rext_id), bind_ok, (rext_valid ck P A H), bind_ok.
  rewrite andb_true_r. reflexivity.
Qed.
Lemma smul_L_pB a : smul L (smul a pB) = pO.
Proof. rewrite <- smul_mul. apply order_B. exists a. ring. Qed.
Lemma validity_loop_ok ck n : forall P a, rext P (smul a pB) -> validity_loop ck n P BASEPOINT = Ok tt.
Proof.
  induction n as [|n IH]; intros P a H; [reflexivity|]. cbn [validity_loop].
  rewrite (rp_is_valid_rext ck P _ H), bind_ok, smul_L_pB, pt_eqb_refl. cbn [assert_that].
  destruct (rext_add _ _ _ _ H rext_B) as (R & ER & HR). unfold rp_add. rewrite ER, bind_ok. apply (IH R (a + 1)%Z).
  assert (K : smul (a + 1) pB = padd (smul a pB) pB). { rewrite smul_add. f_equal. apply smul_1. } rewrite K. exact HR.
Qed.
(** `validity_check`: any number of rounds; the test passes exactly when the ordinate
    belongs to a point whose order does not divide the scalar modulus. *)
Lemma C93_validity_stmt : forall ck n y s, fcanon y ->
  ((exists A, has_y (residue y) s A /\ multiple L A <> origin) -> test_validity ck n y s = Ok tt) /\
  (~ (exists A, has_y (residue y) s A /\ multiple L A <> origin) -> test_validity ck n y s = Panic).
Proof.
  intros ck n y s C. tof y C. rewrite residue_enc. unfold test_validity. change RISTRETTO_BASEPOINT with BASEPOINT.
  rewrite (rp_is_valid_rext ck _ _ rext_B), bind_ok.
  assert (LB : smul L pB = pO) by (apply order_B; exists 1%Z; ring). rewrite LB, pt_eqb_refl. cbn [assert_that].
  rewrite (validity_loop_ok ck n rp_identity 0%Z rext_id), bind_ok, ept_new_from_y, bind_ok.
  destruct (lift y s) as [A|] eqn:E; cbn [option_map unwrap_option bind].
  2: { split; [|reflexivity]. intros (A & H & _). apply has_y_pt in H. destruct H as (A' & _ & H). rewrite E in H. discriminate H. }
  pose proof (rext_ext A 1 one_neq_zero) as HA. rewrite (rext_valid ck _ A HA), bind_ok. cbn [assert_that].
  rewrite (rp_is_valid_rext ck _ A HA), bind_ok.
  assert (M : multiple L (pxy A) = pxy (smul L A)) by (apply multiple_smul; discriminate).
  destruct (pt_eqb_spec (smul L A) pO) as [K|K].
  - split; [|reflexivity]. intros (B & HB & HL). elim HL. apply has_y_pt in HB. destruct HB as (B' & -> & HB).
    rewrite E in HB. injection HB as <-. rewrite M, K. reflexivity.
  - split; [reflexivity|]. intros N. elim N. exists (pxy A). split; [apply lift_has_y; exact E|]. rewrite M. intros H. apply K, pt_eq. exact H.
Qed.

Lemma C93_ex : valid_ext BASEPOINT /\ even_ext BASEPOINT /\ scanon sc_minus_one /\
  (exists y, fcanon y /\ has_y (residue y) false base /\ multiple L base = origin) /\
  fcanon fe_minus_one /\ has_y (residue fe_minus_one) false order2 /\ multiple L order2 <> origin /\
  is_bytes 32 (repeat 0%Z 32) /\ is_bytes 32 RISTRETTO_BASEPOINT_COMPRESSED.
Proof.
  split; [exists base; exact base_rep|]. split; [apply even_ext_iff; exists pB; split; [exact rext_B|exact even_B]|].
  split; [vm_compute; intuition discriminate|]. split.
  { exists (enc (toF 3 / toF 5)). split; [apply enc_canon|]. rewrite residue_enc. split; [apply C76_ex|].
    rewrite multiple_B by discriminate. assert (H : smul L pB = pO) by (apply order_B; exists 1%Z; ring). rewrite H. reflexivity. }
  destruct C92_ex as (_ & _ & _ & _ & _ & _ & _ & _ & C & Y & _). split; [exact C|]. split; [exact Y|].
  split; [|split; [split; [reflexivity|repeat (constructor; [lia|]); constructor]|exact rbc_bytes]].
  destruct (proj1 (valid_rext _) (ex_intro _ _ order2_rep)) as (T & HT).
  pose proof (rep_unique _ _ _ order2_rep (rext_rep _ _ HT)) as ET. rewrite ET, multiple_smul by discriminate. intros H. apply (pt_eq _ pO) in H.
  assert (X : xc T = 0) by (unfold xc; rewrite <- ET; reflexivity).
  assert (D : smul 2 T = pO). { rewrite smul_2. apply double_zero. exact X. }
  assert (O : L = (2 * ((L - 1) / 2) + 1)%Z) by (vm_compute; reflexivity).
  rewrite O, smul_add, Z.mul_comm, smul_mul, D, smul_O, smul_1, padd_O_l in H.
  rewrite H in ET. apply (f_equal snd) in ET. apply (f_equal Fval) in ET. vm_compute in ET. discriminate ET.
Qed.
