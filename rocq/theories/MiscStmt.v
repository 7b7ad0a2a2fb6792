(** * Montgomery points, constants, slices, unimplemented functions, build modes

    Statement forms; PropMisc.v restates each of them and closes it with the
    lemma of the same name.                                                  *)

From Coq Require Import ZArith Znumtheory List Bool Lia Ring Field.
From Verif Require Import Machine FieldModel ScalarModel EdwardsModel TableModel RistrettoModel Spec MachineFacts FieldLimb
  FieldOps FieldBytes NumTheory Primes Fp FieldF FieldInv FieldStmt ScalarOps ScalarBits ScalarNaf ScalarStmt Curve CurveGroup
  EdwardsF PointMul EdwardsY EdwardsStmt RistSpec Rist RistF RistE RistrettoStmt GroupCheck GroupOrder GroupStmt.
Import ListNotations.
Open Scope Z_scope.

(** ** C59 *)
Lemma C59_eq_stmt : forall a b, is_bytes 32 a -> is_bytes 32 b -> (mp_eqb a b = true <-> a = b).
Proof.
  intros a b A B. unfold mp_eqb, fe_eqb. rewrite !fe_to_from_bytes by assumption. apply bytes_eqb_spec.
Qed.
(** The default point is the one whose encoding has the value 0. *)
Lemma C59_default_stmt : is_bytes 32 mp_default /\ forall b, is_bytes 32 b -> (mp_eqb mp_default b = true <-> le_value b = 0).
Proof.
  assert (D : is_bytes 32 mp_default) by (vm_compute; repeat constructor; discriminate). split; [exact D|].
  intros b B. rewrite (C59_eq_stmt _ _ D B). split; [intros <-; reflexivity|].
  intros E. apply le_value_inj; [rewrite (proj1 D), (proj1 B); reflexivity|exact (proj2 D)|exact (proj2 B)|]. rewrite E. reflexivity.
Qed.
(** Documented as equality modulo p. *)
Lemma C59_mod_p_refuted_stmt : exists a b, is_bytes 32 a /\ is_bytes 32 b /\
  le_value a mod p = le_value b mod p /\ mp_eqb a b = false.
Proof.
  exists (repeat 0 32), (fe_to_bytes FIELD_L).
  split; [vm_compute; repeat constructor; discriminate|]. split; [apply fe_to_bytes_bytes|].
  split; vm_compute; reflexivity.
Qed.
Lemma C59_ex : is_bytes 32 (9 :: repeat 0 31) /\ is_bytes 32 mp_default /\
  mp_eqb (9 :: repeat 0 31) mp_default = false /\ mp_eqb mp_default (repeat 0 32) = true.
Proof. split; [|split; [|split; reflexivity]]; vm_compute; repeat constructor; discriminate. Qed.

(** ** C60 *)
Lemma C60_field_stmt :
  Forall fcanon [EDWARDS_A; EDWARDS_D; POS_RANGE; RR_FIELD; INV_RR; INVERSE_MOD_TWO; MINUS_ONE_HALF;
    SQRT_MINUS_ONE; INV_SQRT_A; MINUS_SQRT_A; INV_SQRT_A_MINUS_D; SQRT_AD_MINUS_ONE] /\
  flimbs FIELD_L /\ fval FIELD_L = p /\
  fval EDWARDS_A = p - 1 /\ (fval EDWARDS_D * 126297) mod p = (- 126296) mod p /\
  fval POS_RANGE = (p - 1) / 2 /\
  fval RR_FIELD = (2 ^ 260 * 2 ^ 260) mod p /\ fval INV_RR = (2 ^ 253 * 2 ^ 253) mod p /\
  (p * LFACTOR_FIELD) mod 2 ^ 52 = (- 1) mod 2 ^ 52 /\
  (2 * fval INVERSE_MOD_TWO) mod p = 1 /\ (2 * fval MINUS_ONE_HALF) mod p = (- 1) mod p /\
  (fval SQRT_MINUS_ONE ^ 2) mod p = fval EDWARDS_A /\
  (fval INV_SQRT_A * fval SQRT_MINUS_ONE) mod p = 1 /\
  fval MINUS_SQRT_A = (- fval SQRT_MINUS_ONE) mod p /\
  (fval INV_SQRT_A_MINUS_D ^ 2 * (fval EDWARDS_A - fval EDWARDS_D)) mod p = 1 /\
  (fval SQRT_AD_MINUS_ONE ^ 2) mod p = (fval EDWARDS_A * fval EDWARDS_D - 1) mod p.
Proof.
  split; [repeat constructor; vm_compute; (reflexivity || discriminate)|].
  split; [vm_compute; intuition discriminate|].
  do 13 (split; [vm_compute; reflexivity|]). vm_compute; reflexivity.
Qed.
Lemma C60_scalar_stmt :
  slimbs SC_L /\ sval SC_L = L /\ scanon SC_RR /\ sval SC_RR = (2 ^ 260 * 2 ^ 260) mod L /\
  (L * LFACTOR) mod 2 ^ 52 = (- 1) mod 2 ^ 52 /\
  scanon SCALAR_INVERSE_MOD_TWO /\ (2 * sval SCALAR_INVERSE_MOD_TWO) mod L = 1.
Proof.
  split; [vm_compute; intuition discriminate|]. split; [reflexivity|].
  split; [vm_compute; intuition discriminate|]. split; [vm_compute; reflexivity|]. split; [vm_compute; reflexivity|].
  split; [vm_compute; intuition discriminate|vm_compute; reflexivity].
Qed.
(** d is not a square, so the addition law has no exceptional points. *)
Lemma C60_d_nonsquare_stmt : ~ square_mod_p (fval EDWARDS_D).
Proof.
  intros (y & H). apply cd_nonsq. exists (toF y). rewrite cd_FD.
  transitivity (toF (fval EDWARDS_D)); [|apply Feq; vm_compute; reflexivity].
  rewrite <- toF_mul, <- toF_mod, H, toF_mod. reflexivity.
Qed.

(** The root the code finds for the square of a number which is six times a
    fourth power: 6^((p-1)/4) is a square root of -1. *)
Lemma ts_root_of_sq x w : (x <> 0 -> w <> 0 -> toF 6 * x = w * w * (w * w) -> ts_root (x * x) = x)%F.
Proof.
  intros Nx Nw E.
  assert (W : ((w * w * (w * w)) ^ q4 = 1)%F).
  { assert (E4 : (w * w * (w * w) = w ^ 4)%F).
    { change 4 with (2 + 2). rewrite fpow_add, fpow_2 by lia. reflexivity. }
    rewrite E4, <- fpow_mul by (exact q4_nn || lia). change (4 * q4) with (p - 1). apply fpow_fermat. exact Nw. }
  rewrite <- E, fpow_mul_l, <- c6_ok in W by exact q4_nn.
  assert (X : (x ^ q4 = - c6)%F).
  { transitivity (- (c6 * c6) * x ^ q4)%F; [rewrite c6_sq; ring|].
    transitivity (- c6 * (c6 * x ^ q4))%F; [ring|]. rewrite W. ring. }
  assert (T : ((x * x) ^ q4 = - (1))%F).
  { rewrite fpow_mul_l, X by exact q4_nn. transitivity (c6 * c6)%F; [ring|exact c6_sq]. }
  assert (R : ((x * x) ^ ((q4 + 1) / 2) = - c6 * x)%F).
  { rewrite fpow_mul_l, <- fpow_add by exact q4_half_nn. rewrite q4_half, fpow_succ, X by exact q4_nn. reflexivity. }
  with_strategy transparent [ts_root] unfold ts_root. rewrite T, R.
  destruct (feqb_spec (- (1)) 1) as [H|H]; [apply (f_equal Fval) in H; vm_compute in H; discriminate H|].
  transitivity (- (c6 * c6) * x)%F; [ring|]. rewrite c6_sq. ring.
Qed.
Definition base_w : F := toF 0xa1f0915b9b78f929a09559425955cbbba9f8388697e33f60e658bbf7c27212c.
Lemma base_root : ts_root (xx (snd base)) = fst base.
Proof.
  assert (E : (fst base * fst base = xx (snd base))%F) by (apply curve_xx; rewrite <- surjective_pairing; exact base_on).
  rewrite <- E. apply (ts_root_of_sq _ base_w).
  - intros H. apply (f_equal Fval) in H. vm_compute in H. discriminate H.
  - intros H. apply (f_equal Fval) in H. vm_compute in H. discriminate H.
  - apply Feq. vm_compute. reflexivity.
Qed.
Lemma psign_pB : psign pB = false.
Proof.
  unfold psign. rewrite pxy_pB, base_root.
  destruct (feqb_spec (fst base) (fst base)) as [_|H]; [reflexivity|elim H; reflexivity].
Qed.
Lemma BC_bytes : is_bytes 32 BASEPOINT_COMPRESSED.
Proof. split; [reflexivity|]. repeat constructor; discriminate. Qed.
Lemma BC_val : le_value BASEPOINT_COMPRESSED = base_yZ. Proof. vm_compute. reflexivity. Qed.
Lemma BASEPOINT_ext : BASEPOINT = ext pB 1%F.
Proof. vm_compute. reflexivity. Qed.

(** The basepoint has y = 3/5, and its three published forms agree. *)
Lemma C60_basepoint_stmt : forall ck,
  (exists x, ext_rep BASEPOINT (x, toF 3 / toF 5)%F) /\ RISTRETTO_BASEPOINT = BASEPOINT /\
  ept_compress ck BASEPOINT = Ok BASEPOINT_COMPRESSED /\
  cey_decompress ck BASEPOINT_COMPRESSED = Ok (Some BASEPOINT) /\
  rp_compress ck RISTRETTO_BASEPOINT = Ok RISTRETTO_BASEPOINT_COMPRESSED.
Proof.
  intros ck. split; [eexists; exact base_rep|]. split; [reflexivity|].
  assert (Y : snd (pxy pB) = toF base_yZ) by (rewrite pxy_pB; exact base_y_eq).
  destruct (compress_ext pB 1%F one_neq_zero) as (b & E & B & V).
  rewrite psign_pB, Y in V. change (Fval (toF base_yZ) + 0) with base_yZ in V. rewrite <- BC_val in V.
  apply (le_value_inj b BASEPOINT_COMPRESSED (proj1 B) (proj2 B) (proj2 BC_bytes)) in V. subst b. rewrite <- BASEPOINT_ext in E.
  split; [apply E|]. split; [|].
  - rewrite BASEPOINT_ext at 1. apply (decompress_compress pB 1%F _ one_neq_zero).
    + rewrite <- BASEPOINT_ext. apply E.
    + rewrite Y. vm_compute. reflexivity.
  - destruct (rp_compress_ok pB 1%F one_neq_zero) as (s & S & K).
    { apply (proj1 (even_even pB)). rewrite pxy_pB. exact base_even. }
    unfold RISTRETTO_BASEPOINT. rewrite BASEPOINT_ext, K.
    assert (P : pick pB = ptR).
    { rewrite <- (pick_id ptR ptR_canonp). apply pick_eq. apply ptR_coset. exact pxy_pB. }
    rewrite P in S. rewrite (esc_unique _ _ _ ptR_canonp S ptR_esc). reflexivity.
Qed.
(** The comment says that the positive sign was chosen; the x coordinate is not
    positive in the sense of `is_positive`. *)
Lemma C60_sign_stmt : (p - 1) / 2 < fval (eX BASEPOINT) < p /\ fe_is_positive (eX BASEPOINT) = false.
Proof. split; [split|]; vm_compute; reflexivity. Qed.
(** Entry i of the table is (2i-1)B for i = 1..125, entry 0 the identity. *)
Lemma C60_table_stmt : length BASEPOINT_ODD_MULTIPLES_TABLE = 126%nat /\
  nth_error BASEPOINT_ODD_MULTIPLES_TABLE 0 = Some ept_identity /\
  forall i, (1 <= i < 126)%nat -> exists P, nth_error BASEPOINT_ODD_MULTIPLES_TABLE i = Some P /\
    ext_rep P (multiple (2 * Z.of_nat i - 1) base).
Proof.
  split; [exact table_length|]. split; [exact table_zero|]. intros i Hi.
  destruct (nth_error BASEPOINT_ODD_MULTIPLES_TABLE i) as [P|] eqn:E.
  - exists P. split; [reflexivity|]. destruct i as [|i]; [lia|]. rewrite multiple_B by lia.
    apply rext_rep. apply table_entry. exact E.
  - apply nth_error_None in E. rewrite table_length in E. lia.
Qed.
Lemma C60_ex : multiple 1 base = base /\ base <> origin /\ ~ square_mod_p (fval EDWARDS_D).
Proof.
  split; [|split; [exact base_neq|exact C60_d_nonsquare_stmt]].
  rewrite multiple_B by lia. rewrite smul_1. exact pxy_pB.
Qed.

(** ** C61 *)
Lemma C61_slices_stmt : forall b,
  (length b = 32%nat -> cey_from_slice b = Ok b /\ cr_copy_from_slice b = Ok b) /\
  (length b <> 32%nat -> cey_from_slice b = Panic /\ cr_copy_from_slice b = Panic).
Proof.
  intros b. unfold cey_from_slice, cr_copy_from_slice, copy_from_slice.
  destruct (Nat.eqb_spec (length b) 32); split; intros; try tauto; split; reflexivity.
Qed.
Lemma C61_eq_stmt : forall a b, (cey_eqb a b = true <-> a = b) /\ (cr_eqb a b = true <-> a = b).
Proof. intros a b. unfold cey_eqb, cr_eqb. split; apply bytes_eqb_spec. Qed.
Lemma C61_ex : length BASEPOINT_COMPRESSED = 32%nat /\ length (@nil Z) <> 32%nat /\
  cey_eqb BASEPOINT_COMPRESSED RISTRETTO_BASEPOINT_COMPRESSED = false.
Proof. split; [reflexivity|]. split; [discriminate|reflexivity]. Qed.

(** ** C62 *)
Lemma C62_panics_stmt : forall b P c s,
  sc_from_bytes_wide b = Panic /\ ept_to_montgomery P = Panic /\ mp_to_edwards c s = Panic.
Proof. intros. repeat split. Qed.
Lemma C62_ex : is_bytes 64 (repeat 0 64) /\ valid_ext BASEPOINT /\ is_bytes 32 mp_default.
Proof.
  split; [vm_compute; repeat constructor; discriminate|]. split; [exists base; exact base_rep|].
  vm_compute; repeat constructor; discriminate.
Qed.

(** ** C63 *)
(** The call behaves the same with and without overflow checks. *)
Definition agrees {A : Type} (f : bool -> A) : Prop := f true = f false.

Lemma agrees_all {A : Type} (f : bool -> A) v : (forall ck, f ck = v) -> agrees f.
Proof. intros H. unfold agrees. rewrite !H. reflexivity. Qed.
Lemma agrees_field f v : (forall ck, returns_field (f ck) v) -> agrees f.
Proof.
  intros H. destruct (H true) as (a & E & C & V), (H false) as (b & E' & C' & V').
  unfold agrees. rewrite E, E'. apply f_equal. apply fval_inj; [apply C|apply C'|]. rewrite V, V'. reflexivity.
Qed.
Lemma agrees_scalar f v : (forall ck, returns_scalar (f ck) v) -> agrees f.
Proof.
  intros H. destruct (H true) as (a & E & C & V), (H false) as (b & E' & C' & V').
  unfold agrees. rewrite E, E'. apply f_equal. apply sval_inj; [apply C|apply C'|]. rewrite V, V'. reflexivity.
Qed.
Lemma agrees_R {A : Type} (f : bool -> res A) (P : A -> Prop) :
  (exists R, (forall ck, f ck = Ok R) /\ P R) -> agrees f.
Proof. intros (R & E & _). exact (agrees_all f _ E). Qed.

Lemma C63_field_stmt : forall a b s, fcanon a -> fcanon b ->
  agrees (fun ck => fe_add ck a b) /\ agrees (fun ck => fe_sub ck a b) /\ agrees (fun ck => fe_neg ck a) /\
  agrees (fun ck => fe_mul ck a b) /\ agrees (fun ck => fe_square ck a) /\ agrees (fun ck => fe_half ck a) /\
  agrees (fun ck => fe_pow ck a b) /\ agrees (fun ck => fe_inverse ck a) /\
  agrees (fun ck => fe_div ck a b) /\ agrees (fun ck => fe_div_val ck a b) /\
  agrees (fun ck => fe_legendre_symbol ck a) /\ agrees (fun ck => fe_mod_sqrt ck a s) /\
  agrees (fun ck => fe_sqrt_ratio_i ck a b) /\ agrees (fun ck => fe_inv_sqrt ck a) /\
  agrees (fun ck => fe_conditional_negate ck a s).
Proof.
  intros a b s Ca Cb. rewrite <- (enc_fF a Ca), <- (enc_fF b Cb). generalize (fF a) (fF b). clear. intros x y.
  split; [exact (agrees_all _ _ (fun ck => fe_add_F ck x y))|].
  split; [exact (agrees_all _ _ (fun ck => fe_sub_F ck x y))|].
  split; [exact (agrees_all _ _ (fun ck => fe_neg_F ck x))|].
  split; [exact (agrees_all _ _ (fun ck => fe_mul_F ck x y))|].
  split; [exact (agrees_all _ _ (fun ck => fe_square_F ck x))|].
  split; [exact (agrees_all _ _ (fun ck => fe_half_F ck x))|].
  split; [exact (agrees_all _ _ (fun ck => fe_pow_F ck x y))|].
  split.
  { destruct (F_dec x 0) as [->|N]; [exact (agrees_all _ _ fe_inverse_zero)|].
    exact (agrees_all _ _ (fun ck => fe_inverse_F ck x N)). }
  split.
  { destruct (F_dec y 0) as [->|N]; [exact (agrees_all _ _ (fun ck => fe_div_zero ck x))|].
    exact (agrees_all _ _ (fun ck => fe_div_F ck x y N)). }
  split.
  { destruct (F_dec y 0) as [->|N]; [exact (agrees_all _ _ (fun ck => fe_div_val_zero ck x))|].
    exact (agrees_all _ _ (fun ck => fe_div_val_F ck x y N)). }
  split; [exact (agrees_all _ _ (fun ck => fe_legendre_F ck x))|].
  split; [exact (agrees_all _ _ (fun ck => fe_mod_sqrt_F ck x s))|].
  split; [exact (agrees_all _ _ (fun ck => fe_sqrt_ratio_i_F ck x y))|].
  split; [exact (agrees_all _ _ (fun ck => fe_inv_sqrt_F ck x))|].
  unfold agrees, fe_conditional_negate. rewrite !fe_neg_F. reflexivity.
Qed.
Lemma C63_field_int_stmt : forall k, 0 <= k -> agrees (fun ck => fe_two_pow_k ck k).
Proof.
  intros k Hk. destruct (C14_two_pow_k_stmt true k Hk) as [H1 H2], (C14_two_pow_k_stmt false k Hk) as [G1 G2].
  destruct (Z_le_gt_dec k 252) as [K|K].
  - destruct (H1 K) as (a & E & C & V), (G1 K) as (b & E' & C' & V').
    unfold agrees. rewrite E, E'. apply f_equal. apply fval_inj; [apply C|apply C'|]. rewrite V, V'. reflexivity.
  - unfold agrees. rewrite H2, G2 by lia. reflexivity.
Qed.
Lemma C63_scalar_stmt : forall a b w, scanon a -> scanon b -> 2 <= w <= 6 -> (w = 6 -> sval a <> L - 2) ->
  agrees (fun ck => sc_add ck a b) /\ agrees (fun ck => sc_sub ck a b) /\ agrees (fun ck => sc_neg ck a) /\
  agrees (fun ck => sc_mul ck a b) /\ agrees (fun ck => sc_square ck a) /\ agrees (fun ck => sc_half ck a) /\
  agrees (fun ck => sc_pow ck a b) /\ agrees (fun ck => sc_compute_NAF ck a) /\
  agrees (fun ck => sc_compute_window_NAF ck a w) /\
  agrees (fun ck => sc_mod_2_pow_k ck a w) /\ agrees (fun ck => sc_mods_2_pow_k ck a w).
Proof.
  intros a b w Ca Cb Hw Nw.
  split; [exact (agrees_scalar _ _ (fun ck => C17_add_stmt ck a b Ca Cb))|].
  split; [exact (agrees_scalar _ _ (fun ck => C17_sub_stmt ck a b Ca Cb))|].
  split; [exact (agrees_scalar _ _ (fun ck => C17_neg_stmt ck a Ca))|].
  split; [exact (agrees_scalar _ _ (fun ck => C18_mul_stmt ck a b (proj1 Ca) Cb))|].
  split; [exact (agrees_scalar _ _ (fun ck => C18_square_stmt ck a Ca))|].
  split.
  { assert (I : scanon SCALAR_INVERSE_MOD_TWO) by (vm_compute; intuition discriminate).
    exact (agrees_scalar _ _ (fun ck => C18_mul_stmt ck a _ (proj1 Ca) I)). }
  split; [exact (agrees_scalar _ _ (fun ck => C20_pow_stmt ck a b Ca Cb))|].
  split; [destruct (compute_NAF_ck a Ca) as (ds & E & _); exact (agrees_all _ _ E)|].
  split.
  { destruct (compute_window_NAF_ck w a Ca) as (ds & E & _); [unfold no_wrap; lia|]. exact (agrees_all _ _ E). }
  split.
  - exact (agrees_all _ _ (fun ck => sc_mod_2_pow_k_ok ck a w ltac:(lia) (proj1 Ca))).
  - exact (agrees_all _ _ (fun ck => sc_mods_2_pow_k_ok ck a w ltac:(lia) (proj1 Ca))).
Qed.
Lemma C63_scalar_int_stmt : forall k, (0 <= k -> agrees (fun ck => sc_two_pow_k ck k)) /\
  (-127 <= k <= 127 -> agrees (fun ck => sc_from_i8 ck k)).
Proof.
  intros k. split; intros Hk.
  - destruct (Z_lt_ge_dec k 250) as [K|K].
    + destruct (sc_two_pow_k_ok true k (conj Hk K)) as (a & E & C & V), (sc_two_pow_k_ok false k (conj Hk K)) as (b & E' & C' & V').
      unfold agrees. rewrite E, E'. apply f_equal. apply sval_inj; [apply C|apply C'|]. rewrite V, V'. reflexivity.
    + unfold agrees. rewrite !sc_two_pow_k_panic by lia. reflexivity.
  - exact (agrees_scalar _ _ (fun ck => C26_from_i8_stmt ck k Hk)).
Qed.
Lemma C63_edwards_stmt : forall P Q n, valid_ext P -> valid_ext Q -> sloadable n ->
  agrees (fun ck => ept_add ck P Q) /\ agrees (fun ck => ept_sub ck P Q) /\ agrees (fun ck => ept_neg ck P) /\
  agrees (fun ck => ept_double ck P) /\ agrees (fun ck => ept_mul ck P n) /\
  agrees (fun ck => ept_eqb ck P Q) /\ agrees (fun ck => ept_is_valid ck P) /\
  agrees (fun ck => apt_of_ept ck P) /\ agrees (fun ck => ept_compress ck P) /\
  agrees (fun ck => ltr_bin_mul (ept_add ck) (ept_double ck) ept_identity P n) /\
  (scanon n -> agrees (fun ck => binary_naf_mul ck (ept_add ck) (ept_sub ck) (ept_double ck) ept_identity P n)).
Proof.
  intros P Q n HP HQ Hn. apply valid_rext in HP, HQ. destruct HP as (A & HP), HQ as (B & HQ).
  split; [exact (agrees_R _ _ (rext_add P Q A B HP HQ))|].
  split; [exact (agrees_R _ _ (rext_sub P Q A B HP HQ))|].
  split; [exact (agrees_R _ _ (rext_neg P A HP))|].
  split; [exact (agrees_R _ _ (rext_dbl P A HP))|].
  split; [exact (agrees_R _ _ (ept_mul_rext n P A Hn HP))|].
  split; [exact (agrees_all _ _ (rext_eqb P Q A B HP HQ))|].
  split; [|split; [|split; [|split]]].
  - destruct HP as (z & N & ->). unfold agrees, ext. rewrite !ept_is_valid_enc, !ppt_is_valid_enc. reflexivity.
  - destruct HP as (z & N & ->). exact (agrees_all _ _ (fun ck => ext_affine ck A z N)).
  - destruct HP as (z & N & ->). exact (agrees_R _ _ (compress_ext A z N)).
  - exact (agrees_R _ _ (ltr_bin_mul_ok ept rext ept_add ept_sub ept_double ept_identity rext_id rext_add rext_sub rext_dbl n P A Hn HP)).
  - intros Cn. exact (agrees_R _ _ (binary_naf_mul_ok ept rext ept_add ept_sub ept_double ept_identity rext_id rext_add rext_sub rext_dbl n P A Cn HP)).
Qed.
Lemma C63_projective_stmt : forall P Q n, valid_proj P -> valid_proj Q -> sloadable n ->
  agrees (fun ck => ppt_add ck P Q) /\ agrees (fun ck => ppt_sub ck P Q) /\ agrees (fun ck => ppt_neg ck P) /\
  agrees (fun ck => ppt_double ck P) /\ agrees (fun ck => ppt_mul ck P n) /\
  agrees (fun ck => ppt_eqb ck P Q) /\ agrees (fun ck => ppt_is_valid ck P) /\
  agrees (fun ck => apt_of_ppt ck P) /\ agrees (fun ck => ept_of_ppt ck P).
Proof.
  intros P Q n HP HQ Hn. apply valid_rprj in HP, HQ. destruct HP as (A & HP), HQ as (B & HQ).
  split; [exact (agrees_R _ _ (rprj_add P Q A B HP HQ))|].
  split; [exact (agrees_R _ _ (rprj_sub P Q A B HP HQ))|].
  split; [exact (agrees_R _ _ (rprj_neg P A HP))|].
  split; [exact (agrees_R _ _ (rprj_dbl P A HP))|].
  split; [exact (agrees_R _ _ (ppt_mul_rprj n P A Hn HP))|].
  split; [exact (agrees_all _ _ (rprj_eqb P Q A B HP HQ))|].
  destruct HP as (z & N & ->). split; [|split].
  - unfold agrees, prj. rewrite !ppt_is_valid_enc. reflexivity.
  - exact (agrees_all _ _ (fun ck => prj_affine ck A z N)).
  - exact (agrees_all _ _ (fun ck => prj_to_ext ck A z)).
Qed.
Lemma C63_encodings_stmt : forall y s b draws, fcanon y -> is_bytes 32 b -> Forall (is_bytes 32) draws ->
  agrees (fun ck => ept_new_from_y_coord ck y s) /\ agrees (fun ck => ppt_new_from_y_coord ck y s) /\
  agrees (fun ck => cey_decompress ck b) /\ agrees (fun ck => cr_decompress ck b) /\
  agrees (fun ck => ept_new_random_point ck draws) /\ agrees (fun ck => ppt_new_random_point ck draws).
Proof.
  intros y s b draws Cy B D. rewrite <- (enc_fF y Cy).
  split; [exact (agrees_all _ _ (fun ck => ept_new_from_y ck (fF y) s))|].
  split; [exact (agrees_all _ _ (fun ck => ppt_new_from_y ck (fF y) s))|].
  split; [exact (agrees_all _ _ (decompress_lift b B))|].
  split; [exact (agrees_R _ _ (cr_decompress_spec b B))|].
  split; [exact (agrees_all _ _ (fun ck => ept_random ck draws D))|].
  exact (agrees_all _ _ (fun ck => ppt_random ck draws D)).
Qed.
Lemma C63_ristretto_stmt : forall P Q n, even_ext P -> even_ext Q -> sloadable n ->
  agrees (fun ck => rp_add ck P Q) /\ agrees (fun ck => rp_sub ck P Q) /\ agrees (fun ck => rp_neg ck P) /\
  agrees (fun ck => rp_double ck P) /\ agrees (fun ck => rp_mul ck P n) /\
  agrees (fun ck => rp_eqb ck P Q) /\ agrees (fun ck => rp_is_valid ck P) /\ agrees (fun ck => rp_compress ck P).
Proof.
  intros P Q n HP HQ Hn. apply even_ext_iff in HP, HQ. destruct HP as (A & HP & EA), HQ as (B & HQ & EB).
  split; [exact (agrees_R _ _ (rext_add P Q A B HP HQ))|].
  split; [exact (agrees_R _ _ (rp_sub_rext P Q A B HP HQ))|].
  split; [exact (agrees_R _ _ (rext_neg P A HP))|].
  split; [exact (agrees_R _ _ (rext_dbl P A HP))|].
  split; [exact (agrees_R _ _ (rp_mul_rext n P A Hn HP))|].
  split; [exact (agrees_all _ _ (fun ck => rp_eqb_enc ck P Q A B HP HQ))|].
  split.
  - destruct (ept_mul_rext SC_L P A SC_L_loadable HP) as (R & ER & HR).
    unfold agrees, rp_is_valid. rewrite !ER, !bind_ok, !(rext_eqb R ept_identity _ _ HR rext_id), !bind_ok.
    destruct HP as (z & N & ->). unfold ext. rewrite !ept_is_valid_enc, !ppt_is_valid_enc. reflexivity.
  - destruct HP as (z & N & ->). destruct (rp_compress_ok A z N EA) as (s & _ & E). exact (agrees_all _ _ E).
Qed.
Lemma C63_hash_stmt : forall r b, floadable r -> is_bytes 64 b ->
  agrees (fun ck => rp_elligator ck r) /\ agrees (fun ck => rp_from_uniform_bytes ck b).
Proof.
  intros r b Fr B. destruct (rp_elligator_ok r Fr) as (z & _ & E), (rp_from_uniform_bytes_ok b B) as (z' & _ & E').
  split; [exact (agrees_all _ _ E)|exact (agrees_all _ _ E')].
Qed.
(** Outside the reduced inputs the two builds differ. *)
Lemma C63_ex : fcanon fe_minus_one /\ scanon sc_minus_one /\ even_ext RISTRETTO_BASEPOINT /\
  sc_from_i8 true (-128) = Panic /\ sc_from_i8 false (-128) = Ok (SC 128 0 0 0 0).
Proof.
  split; [apply canon_check; reflexivity|]. split; [apply C17_ex|].
  split; [apply even_ext_iff; exists pB; split; [exact rext_B|apply (proj1 (even_even pB)); rewrite pxy_pB; exact base_even]|].
  split; vm_compute; reflexivity.
Qed.
