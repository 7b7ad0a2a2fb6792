(** * Statements about the branches of comparison, encoding and decoding of points: C98 *)

From Coq Require Import ZArith Znumtheory List Bool Lia Ring Field.
From Verif Require Import Machine FieldModel ScalarModel EdwardsModel TableModel RistrettoModel Spec MachineFacts FieldLimb
  FieldMul FieldOps FieldBytes NumTheory Primes Fp FieldF FieldInv FieldStmt ScalarOps ScalarBits PointMul Curve CurveGroup
  EdwardsF EdwardsY Rist RistF RistE GroupCheck BranchModel BranchSpec BranchStmt LeakModel LeakStmt.
Import ListNotations.
Open Scope Z_scope.

(** ** The log of an inversion can be told apart from what follows it *)
Definition ones (n k : nat) : list Z := repeat 1 k ++ (if (k <? n)%nat then [0] else []).
Lemma ones_S n k : ones (S n) (S k) = 1 :: ones n k.
Proof. unfold ones. reflexivity. Qed.
Lemma phase1_rounds ck : forall n u v r s k, flimbs u -> flimbs v -> 0 <= k -> k + Z.of_nat n < 2 ^ 64 ->
  at_line 881 (fst (fe_phase1_loop_log n ck u v (enc r) (enc s) k)) = ones n (length (arms n (fval u) (fval v))).
Proof.
  induction n as [|n IH]; intros u v r s k U V K K64; [reflexivity|]. cbn [fe_phase1_loop_log arms].
  rewrite fst_cmp, at_app, at_cmp, fst_ask, at_cons by lia. cbn [Z.eqb Pos.eqb app].
  rewrite fe_gt_ok, fval_zero by auto using flimbs_zero. destruct (Z.ltb_spec 0 (fval v)) as [P|_]; [|reflexivity].
  change (Z.b2z true) with 1.
  rewrite fst_cmp, at_app, at_cmp, fst_cmp, at_app, at_cmp, fst_arm, at_cons by lia. cbn [Z.eqb Pos.eqb app].
  rewrite !fe_is_even_ok, fe_gt_ok, fe_ge_ok by assumption.
  change (2 ^ 64) with 18446744073709551616 in *.
  assert (E2 : fe_two = enc (toF 2)) by reflexivity.
  assert (KK : uadd ck W64 k 1 = Ok (k + 1)) by (apply uadd_ok; unfold W64; lia).
  destruct (Z.even (fval u)) eqn:Eu.
  { cbn [Z.eqb]. cbv zeta. cbn [length]. rewrite ones_S. apply f_equal. rewrite E2, fe_mul_F, fst_quiet, KK, fst_quiet.
    destruct (fe_half_without_mod_ok u U) as [Lh Vh]. rewrite IH, Vh by (assumption || lia). reflexivity. }
  destruct (Z.even (fval v)) eqn:Ev.
  { cbn [Z.eqb Pos.eqb]. cbv zeta. cbn [length]. rewrite ones_S. apply f_equal. rewrite E2, fe_mul_F, fst_quiet, KK, fst_quiet.
    destruct (fe_half_without_mod_ok v V) as [Lh Vh]. rewrite IH, Vh by (assumption || lia). reflexivity. }
  destruct (Z.ltb_spec (fval v) (fval u)) as [C|C].
  { cbn [Z.eqb Pos.eqb]. cbv zeta. cbn [length]. rewrite ones_S. apply f_equal.
    destruct (fe_sub_gen ck u v U V) as (d & -> & Ld & Vd); [rewrite p_num; lia|].
    destruct (Z.ltb_spec (fval u) (fval v)) in Vd; [lia|].
    rewrite fst_quiet, fe_add_F, fst_quiet, E2, fe_mul_F, fst_quiet, KK, fst_quiet.
    destruct (fe_half_without_mod_ok d Ld) as [Lh Vh]. rewrite IH, Vh, Vd by (assumption || lia). reflexivity. }
  replace (fval u <=? fval v) with true by (symmetry; apply Z.leb_le; lia).
  cbn [Z.eqb Pos.eqb]. cbv zeta. cbn [length]. rewrite ones_S. apply f_equal.
  destruct (fe_sub_gen ck v u V U) as (d & -> & Ld & Vd); [rewrite p_num; lia|].
  destruct (Z.ltb_spec (fval v) (fval u)) in Vd; [lia|].
  rewrite fst_quiet, fe_add_F, fst_quiet, E2, fe_mul_F, fst_quiet, KK, fst_quiet.
  destruct (fe_half_without_mod_ok d Ld) as [Lh Vh]. rewrite IH, Vh, Vd by (assumption || lia). reflexivity.
Qed.
Lemma inverse_rounds ck a : floadable a -> fval a <> 0 ->
  at_line 881 (fst (fe_inverse_log ck a)) = ones 600 (length (arms 600 p (fval a))).
Proof.
  intros A N. unfold fe_inverse_log. rewrite at_lbind.
  2:{ intros rz. rewrite fst_ask, at_cons. cbn [Z.eqb Pos.eqb app]. destruct (if _ <? _ then _ else _) as [rz'| |]; try reflexivity.
      rewrite fst_quiet. destruct (usub _ _ _ _) as [e| |]; try reflexivity. rewrite fst_quiet, at_lbind by reflexivity.
      unfold fe_inner_two_pow_k_log, lassert. destruct (e <? 260); reflexivity. }
  unfold fe_phase1_log. assert (Z : fe_eqb a fe_zero = false).
  { rewrite fe_eqb_ok by (auto using fcanon_loadable, fcanon_zero). apply Z.eqb_neq. rewrite fval_zero. exact N. }
  rewrite Z. cbn [negb]. rewrite fst_assert, at_cons. cbn [Z.eqb Pos.eqb app]. cbv zeta. rewrite at_lbind.
  2:{ intros rk. rewrite fst_cmp, at_app, at_cmp, fst_ask, at_cons by lia. cbn [Z.eqb Pos.eqb app].
      rewrite at_lbind; [reflexivity|]. intros r. rewrite at_lbind by reflexivity. reflexivity. }
  change (FE 671914833335277 3916664325105025 1367801 0 17592186044416) with FIELD_L.
  rewrite <- enc_zero, <- enc_one, phase1_rounds, fval_FIELD_L.
  - reflexivity.
  - apply flimbs_FIELD_L.
  - apply A.
  - lia.
  - reflexivity.
Qed.

Lemma repeat_split (a b : nat) (x y : list Z) : repeat 1 a ++ 0 :: x = repeat 1 b ++ 0 :: y -> a = b /\ x = y.
Proof.
  revert b. induction a as [|a IH]; intros [|b] H; cbn [repeat app] in H.
  - inversion H. auto.
  - inversion H.
  - inversion H.
  - inversion H as [H1]. destruct (IH b H1) as [-> E]. auto.
Qed.
Lemma app_split {A} (x y x' y' : list A) : length x = length x' -> x ++ y = x' ++ y' -> x = x' /\ y = y'.
Proof.
  revert x'. induction x as [|a x IH]; intros [|a' x'] L H; cbn [length app] in *; try discriminate; [auto|].
  injection H as Ha H. injection L as L. destruct (IH x' L H) as [-> ->]. rewrite Ha. auto.
Qed.

Definition ilog (ck : bool) (z : F) : list branch := fst (fe_inverse_log ck (enc z)).
Lemma ilog_ck ck ck' z : ilog ck z = ilog ck' z.
Proof. exact (f_equal fst (inverse_ck ck ck' (enc z) (enc_c z))). Qed.
Lemma Fval_nz z : z <> 0%F -> Fval z <> 0.
Proof. intros N C. apply N, Feq. exact C. Qed.
Lemma ilog_882 ck z : z <> 0%F -> at_line 882 (ilog ck z) = arms 600 p (Fval z).
Proof. intros N. unfold ilog. rewrite inverse_arms, fval_enc; auto with fe. rewrite fval_enc. apply Fval_nz, N. Qed.
Lemma ilog_881 ck z : z <> 0%F ->
  exists n, n = length (arms 600 p (Fval z)) /\ at_line 881 (ilog ck z) = repeat 1 n ++ [0].
Proof.
  intros N. exists (length (arms 600 p (Fval z))). split; [reflexivity|].
  unfold ilog. rewrite inverse_rounds, fval_enc; auto with fe; [|rewrite fval_enc; apply Fval_nz, N].
  pose proof (canon_bound _ (enc_c z)) as Bz. pose proof (canon_gcd _ (enc_c z)) as G. rewrite fval_enc in Bz, G.
  pose proof (arms_len 600 253 253 p (Fval z) p_bound Bz (G (Fval_nz z N)) ltac:(lia)) as U.
  unfold ones. replace (length (arms 600 p (Fval z)) <? 600)%nat with true by (symmetry; apply Nat.ltb_lt; lia). reflexivity.
Qed.
(** An inversion at the head of two equal logs has the same operand, and what the rest
    shows of the inversions after it is the same. *)
Lemma peel ck ck' z z' l l' : z <> 0%F -> z' <> 0%F ->
  at_line 881 (ilog ck z ++ l) = at_line 881 (ilog ck' z' ++ l') ->
  at_line 882 (ilog ck z ++ l) = at_line 882 (ilog ck' z' ++ l') ->
  z = z' /\ at_line 881 l = at_line 881 l' /\ at_line 882 l = at_line 882 l'.
Proof.
  intros N N' H1 H2. rewrite !at_app in H1, H2. rewrite !ilog_882 in H2 by assumption.
  destruct (ilog_881 ck z N) as (n & En & E). destruct (ilog_881 ck' z' N') as (n' & En' & E'). rewrite E, E', <- !app_assoc in H1.
  change ([0] ++ at_line 881 l) with (0 :: at_line 881 l) in H1. change ([0] ++ at_line 881 l') with (0 :: at_line 881 l') in H1.
  apply repeat_split in H1. destruct H1 as [Enn H1]. apply app_split in H2; [|congruence]. destruct H2 as [Ha H2].
  split; [|split; assumption]. apply Feq.
  pose proof (canon_bound _ (enc_c z)) as B. pose proof (canon_gcd _ (enc_c z)) as G. rewrite fval_enc in B, G.
  pose proof (canon_bound _ (enc_c z')) as B'. pose proof (canon_gcd _ (enc_c z')) as G'. rewrite fval_enc in B', G'.
  apply (arms_inj 600 600 253 253 p (Fval z) 253 253 p (Fval z') p_bound B (G (Fval_nz z N)) ltac:(lia) p_bound B' (G' (Fval_nz z' N')) ltac:(lia) Ha).
Qed.
(** Lines outside the inversion do not occur in its log. *)
Lemma at_cmp_far n a b : 1000 < n -> at_line n (fst (fe_cmp_log a b)) = [].
Proof. intros H. apply at_cmp; lia. Qed.
Lemma at_phase1_far m ck : 1000 < m -> forall n u v r s k, at_line m (fst (fe_phase1_loop_log n ck u v r s k)) = [].
Proof.
  intros M. induction n as [|n IH]; intros u v r s k; [reflexivity|]. cbn [fe_phase1_loop_log].
  rewrite fst_cmp, at_app, at_cmp_far, fst_ask, at_cons by exact M. destruct (Z.eqb_spec 881 m); [lia|]. cbn [app].
  destruct (is_gt _); [|reflexivity]. rewrite fst_cmp, at_app, at_cmp_far, fst_cmp, at_app, at_cmp_far, fst_arm, at_cons by exact M.
  destruct (Z.eqb_spec 882 m); [lia|]. cbn [app]. set (i := if fe_is_even u then _ else _). clearbody i.
  destruct (i =? 0); [|destruct (i =? 1); [|destruct (i =? 2); [|destruct (i =? 3); [|reflexivity]]]]; cbv zeta;
    repeat (apply at_bind_nil; [reflexivity|intros ?]); apply IH.
Qed.
Lemma at_inverse_far m ck a : 1000 < m -> at_line m (fst (fe_inverse_log ck a)) = [].
Proof.
  intros M. unfold fe_inverse_log. apply at_bind_nil.
  - unfold fe_phase1_log. cbv zeta. apply at_bind_nil.
    { unfold lassert. destruct (negb _); cbn [rassert fst]; rewrite at_cons; destruct (Z.eqb_spec 864 m); try lia; reflexivity. }
    intros _. apply at_bind_nil; [apply at_phase1_far; exact M|]. intros rk. rewrite fst_cmp, at_app, at_cmp_far, fst_ask, at_cons by exact M.
    destruct (Z.eqb_spec 911 m); [lia|]. cbn [app]. repeat (apply at_bind_nil; [reflexivity|intros ?]). reflexivity.
  - intros rz. rewrite fst_ask, at_cons. destruct (Z.eqb_spec 918 m); [lia|]. cbn [app].
    apply at_bind_nil; [reflexivity|]. intros rz'. apply at_bind_nil; [reflexivity|]. intros e.
    apply at_bind_nil; [apply at_inner; lia|]. intros f. reflexivity.
Qed.
Lemma at_msq m a : 1000 < m \/ m = 881 \/ m = 882 -> at_line m (mod_sqrt_log_F a) = [].
Proof.
  intros M. unfold mod_sqrt_log_F. destruct (feqb a 0).
  { rewrite at_cons. destruct (Z.eqb_spec 381 m); [lia|]. reflexivity. }
  rewrite at_cons, at_app, at_plog, at_cons by lia. destruct (Z.eqb_spec 381 m); [lia|]. destruct (Z.eqb_spec 387 m); [lia|]. cbn [app].
  destruct (sqb_F a); [|reflexivity]. apply at_sqrt_log; lia.
Qed.

(** ** Logs of the functions on reduced coordinates *)
Open Scope F_scope.
Ltac lrun := repeat first [ rewrite fst_quiet | progress rewrite ?fe_mul_F, ?fe_square_F, ?fe_add_F, ?fe_sub_F, ?fe_neg_F ].
Lemma inv_snd ck z : z <> 0 -> snd (fe_inverse_log ck (enc z)) = Ok (enc (/ z)).
Proof. intros N. rewrite er_inverse. apply fe_inverse_F, N. Qed.
Lemma apt_log ck X Y Z T : Z <> 0 -> fst (apt_of_ept_log ck (EPF X Y Z T)) = ilog ck Z.
Proof.
  intros N. unfold apt_of_ept_log, EPF. cbn [eX eY eZ eT]. rewrite (fst_lbind _ _ _ (inv_snd ck Z N)).
  lrun. unfold quiet. cbn [fst]. apply app_nil_r.
Qed.
Lemma appt_log ck X Y Z : Z <> 0 -> fst (apt_of_ppt_log ck (PPF X Y Z)) = ilog ck Z.
Proof.
  intros N. unfold apt_of_ppt_log, PPF. cbn [pX pY pZ]. rewrite (fst_lbind _ _ _ (inv_snd ck Z N)).
  lrun. unfold quiet. cbn [fst]. apply app_nil_r.
Qed.
Lemma eqb_log ck X Y Z T X' Y' Z' T' : Z <> 0 -> Z' <> 0 ->
  fst (ept_eqb_log ck (EPF X Y Z T) (EPF X' Y' Z' T')) = ilog ck Z ++ ilog ck Z'.
Proof.
  intros N N'. unfold ept_eqb_log.
  rewrite (fst_lbind _ _ (APF (X * / Z) (Y * / Z))) by (rewrite er_apt; apply apt_of_ept_enc, N).
  rewrite (fst_lbind _ _ (APF (X' * / Z') (Y' * / Z'))) by (rewrite er_apt; apply apt_of_ept_enc, N').
  rewrite !apt_log by assumption. unfold quiet. cbn [fst]. rewrite app_nil_r. reflexivity.
Qed.
Lemma peqb_log ck X Y Z X' Y' Z' : Z <> 0 -> Z' <> 0 ->
  fst (ppt_eqb_log ck (PPF X Y Z) (PPF X' Y' Z')) = ilog ck Z ++ ilog ck Z'.
Proof.
  intros N N'. unfold ppt_eqb_log.
  rewrite (fst_lbind _ _ (APF (X * / Z) (Y * / Z))) by (rewrite er_appt; apply apt_of_ppt_enc, N).
  rewrite (fst_lbind _ _ (APF (X' * / Z') (Y' * / Z'))) by (rewrite er_appt; apply apt_of_ppt_enc, N').
  rewrite !appt_log by assumption. unfold quiet. cbn [fst]. rewrite app_nil_r. reflexivity.
Qed.
Definition yden (y : F) : F := cd * (y * y) - - (1).
Lemma div_log ck u v : v <> 0 -> fst (fe_div_val_log ck (enc u) (enc v)) = ilog ck v.
Proof.
  intros N. unfold fe_div_val_log. rewrite (fst_lbind _ _ _ (inv_snd ck v N)). unfold quiet. cbn [fst]. apply app_nil_r.
Qed.
Lemma div_snd ck u v : v <> 0 -> snd (fe_div_val_log ck (enc u) (enc v)) = Ok (enc (u / v)).
Proof. intros N. rewrite er_div_val. apply fe_div_val_F, N. Qed.
Lemma find_log ck y : fst (find_xx_log ck (enc y)) = ilog ck (yden y).
Proof.
  unfold find_xx_log. fconst. lrun. apply div_log, ydz.
Qed.
Lemma new_log ck y s : fst (ppt_new_from_y_coord_log ck (enc y) s) =
  ilog ck (yden y) ++ mod_sqrt_log_F (xx y) ++ [Br 20968 (Z.b2z (sqb_F (xx y)))].
Proof.
  unfold ppt_new_from_y_coord_log. fconst. lrun. fold (yden y).
  assert (D : snd (fe_div_val_log ck (enc (y * y - 1)) (enc (yden y))) = Ok (enc (xx y))).
  { rewrite div_snd by apply ydz. unfold yden. rewrite xx_def. reflexivity. }
  etransitivity; [exact (fst_lbind _ _ _ D)|].
  rewrite div_log by apply ydz. apply f_equal.
  rewrite (fst_lbind _ _ (if sqb_F (xx y) then Some (enc (lx y s)) else None)) by (rewrite er_mod_sqrt; apply fe_mod_sqrt_F').
  rewrite mod_sqrt_log_ok. apply f_equal. rewrite fst_arm. destruct (sqb_F (xx y)); reflexivity.
Qed.
Lemma newe_log ck y s : fst (ept_new_from_y_coord_log ck (enc y) s) =
  (ilog ck (yden y) ++ mod_sqrt_log_F (xx y) ++ [Br 20968 (Z.b2z (sqb_F (xx y)))]) ++ [Br 20649 (Z.b2z (sqb_F (xx y)))].
Proof.
  unfold ept_new_from_y_coord_log.
  rewrite (fst_lbind _ _ (option_map (fun A => prj A 1) (lift y s))) by (rewrite er_new_y; apply ppt_new_from_y).
  rewrite new_log. apply f_equal. rewrite fst_arm. unfold quiet. cbn [fst].
  destruct (lift_cases y s) as [(H & A & HA & ->)|[H ->]]; cbn [option_map]; destruct (sqb_F_spec (xx y)); try tauto; reflexivity.
Qed.
Lemma compress_log ck A z : z <> 0 -> fst (ept_compress_log ck (ext A z)) =
  ilog ck z ++ ilog ck (yden (yc A)) ++ mod_sqrt_log_F (xx (yc A)) ++ [Br 20621 (Z.b2z (psign A))].
Proof.
  intros N. unfold ept_compress_log. rewrite (fst_lbind _ _ (aff A)) by (rewrite er_apt; apply ext_affine, N).
  assert (Ea : fst (apt_of_ept_log ck (ext A z)) = ilog ck z) by (unfold ext; apply apt_log, N). rewrite Ea. apply f_equal.
  unfold aff, APF. cbn [aX aY]. fold (xc A) (yc A).
  rewrite (fst_lbind _ _ (enc (xx (yc A)))) by (rewrite er_find_xx; apply find_xx_enc). rewrite find_log. apply f_equal.
  assert (Sq : sqb_F (xx (yc A)) = true) by (destruct (sqb_F_spec (xx (yc A))) as [|C]; [reflexivity|elim C; apply pt_sq]).
  rewrite (fst_lbind _ _ (Some (enc (ts_root (xx (yc A)))))) by (rewrite er_mod_sqrt, fe_mod_sqrt_F', Sq; reflexivity).
  rewrite mod_sqrt_log_ok. apply f_equal. cbn [unwrap]. rewrite fst_quiet, fst_ask, fe_eqb_F. unfold psign. fold (xc A) (yc A).
  apply f_equal. set (sg := negb _). clearbody sg. cbv zeta. unfold quiet.
  destruct (set_nth _ _ _) as [c| |]; reflexivity.
Qed.

(** ** C98 *)
Lemma canon_enc x : fcanon x -> x <> fe_zero -> exists y, x = enc y /\ y <> 0.
Proof.
  intros X E. exists (fF x). split; [symmetry; apply enc_fF, X|]. intros C. apply E. rewrite <- (enc_fF x X), C. reflexivity.
Qed.
Lemma red_EPF P : reduced_ext P -> eZ P <> fe_zero -> exists X Y Z T, P = EPF X Y Z T /\ Z <> 0.
Proof.
  intros (A & B & C & D) N. exists (fF (eX P)), (fF (eY P)), (fF (eZ P)), (fF (eT P)). split; [apply ept_canon_enc; assumption|].
  intros E. apply N. rewrite <- (enc_fF (eZ P) C), E. reflexivity.
Qed.
Lemma red_PPF P : reduced_proj P -> pZ P <> fe_zero -> exists X Y Z, P = PPF X Y Z /\ Z <> 0.
Proof.
  intros (A & B & C) N. exists (fF (pX P)), (fF (pY P)), (fF (pZ P)). split; [apply ppt_canon_enc; assumption|].
  intros E. apply N. rewrite <- (enc_fF (pZ P) C), E. reflexivity.
Qed.
Lemma two_inversions ck ck' a b a' b' : a <> 0 -> b <> 0 -> a' <> 0 -> b' <> 0 ->
  ilog ck a ++ ilog ck b = ilog ck' a' ++ ilog ck' b' -> a = a' /\ b = b'.
Proof.
  intros A B A' B' H. assert (H1 := f_equal (at_line 881) H). assert (H2 := f_equal (at_line 882) H). clear H.
  destruct (peel ck ck' a a' _ _ A A' H1 H2) as (Ea & H3 & H4). split; [exact Ea|].
  rewrite <- (app_nil_r (ilog ck b)), <- (app_nil_r (ilog ck' b')) in H3, H4.
  destruct (peel ck ck' b b' _ _ B B' H3 H4) as (Eb & _). exact Eb.
Qed.

(** The branches of `==` on Edwards points are those of two inversions: they determine the
    two Z coordinates, and nothing else. *)
Lemma C98_eq_stmt : forall ck ck' P Q P' Q',
  reduced_ext P -> reduced_ext Q -> reduced_ext P' -> reduced_ext Q' ->
  eZ P <> fe_zero -> eZ Q <> fe_zero -> eZ P' <> fe_zero -> eZ Q' <> fe_zero ->
  (log_of (ept_eqb_log ck P Q) = log_of (ept_eqb_log ck' P' Q') <-> eZ P = eZ P' /\ eZ Q = eZ Q').
Proof.
  intros ck ck' P Q P' Q' RP RQ RP' RQ' NP NQ NP' NQ'.
  destruct (red_EPF P RP NP) as (X1 & Y1 & Z1 & T1 & -> & N1). destruct (red_EPF Q RQ NQ) as (X2 & Y2 & Z2 & T2 & -> & N2).
  destruct (red_EPF P' RP' NP') as (X3 & Y3 & Z3 & T3 & -> & N3). destruct (red_EPF Q' RQ' NQ') as (X4 & Y4 & Z4 & T4 & -> & N4).
  unfold log_of. rewrite !eqb_log by assumption. unfold EPF. cbn [eZ]. split.
  - intros H. apply two_inversions in H; [|assumption..]. destruct H as [-> ->]. split; reflexivity.
  - intros [E1 E2]. apply enc_inj in E1, E2. rewrite E1, E2, !(ilog_ck ck ck'). reflexivity.
Qed.
(** So do those of `==` on projective points. *)
Lemma C98_proj_eq_stmt : forall ck ck' P Q P' Q',
  reduced_proj P -> reduced_proj Q -> reduced_proj P' -> reduced_proj Q' ->
  pZ P <> fe_zero -> pZ Q <> fe_zero -> pZ P' <> fe_zero -> pZ Q' <> fe_zero ->
  (log_of (ppt_eqb_log ck P Q) = log_of (ppt_eqb_log ck' P' Q') <-> pZ P = pZ P' /\ pZ Q = pZ Q').
Proof.
  intros ck ck' P Q P' Q' RP RQ RP' RQ' NP NQ NP' NQ'.
  destruct (red_PPF P RP NP) as (X1 & Y1 & Z1 & -> & N1). destruct (red_PPF Q RQ NQ) as (X2 & Y2 & Z2 & -> & N2).
  destruct (red_PPF P' RP' NP') as (X3 & Y3 & Z3 & -> & N3). destruct (red_PPF Q' RQ' NQ') as (X4 & Y4 & Z4 & -> & N4).
  unfold log_of. rewrite !peqb_log by assumption. unfold PPF. cbn [pZ]. split.
  - intros H. apply two_inversions in H; [|assumption..]. destruct H as [-> ->]. split; reflexivity.
  - intros [E1 E2]. apply enc_inj in E1, E2. rewrite E1, E2, !(ilog_ck ck ck'). reflexivity.
Qed.

Lemma sq_pm a b : a * a = b * b <-> a = b \/ a = - b.
Proof.
  split.
  - intros H. assert (K : (a - b) * (a + b) = 0) by (transitivity (a * a - b * b); [ring|rewrite H; ring]).
    apply F_integral in K. destruct K as [K|K]; [left|right].
    + transitivity (a - b + b); [ring|rewrite K; ring].
    + transitivity (a + b - b); [ring|rewrite K; ring].
  - intros [ -> | -> ]; ring.
Qed.
Lemma yden_sq y y' : yden y = yden y' <-> y * y = y' * y'.
Proof.
  unfold yden. split; intros H.
  - apply (F_mul_cancel_l cd); [exact cd_nz|]. transitivity (cd * (y * y) - - (1) - 1); [ring|]. rewrite H. ring.
  - rewrite H. reflexivity.
Qed.
Lemma xx_sq y y' : y * y = y' * y' -> xx y = xx y'.
Proof. intros H. rewrite <- (xx_def y), <- (xx_def y'). exact (f_equal (fun t => (t - 1) / (cd * t - - (1))) H). Qed.

(** The branches of `EdwardsPoint::compress` determine the Z coordinate, the x coordinate,
    and the y coordinate up to its sign. *)
Lemma C98_compress_stmt : forall ck ck' P P' A A', ext_rep P A -> ext_rep P' A' ->
  (log_of (ept_compress_log ck P) = log_of (ept_compress_log ck' P') <->
   eZ P = eZ P' /\ fst A = fst A' /\ (snd A = snd A' \/ snd A = - snd A')).
Proof.
  intros ck ck' P P' A A' R R'. apply ext_rep_iff in R, R'.
  destruct R as (Q & z & -> & N & ->). destruct R' as (Q' & z' & -> & N' & ->).
  unfold log_of. rewrite !compress_log by assumption. fold (xc Q) (yc Q) (xc Q') (yc Q'). unfold ext, EPF. cbn [eZ].
  assert (S : forall B, xc B * xc B = xx (yc B)).
  { intros B. apply curve_xx. pose proof (pt_on B) as H. rewrite (surjective_pairing (pxy B)) in H. exact H. }
  assert (TS : forall B, ts_root (xx (yc B)) * ts_root (xx (yc B)) = xx (yc B)) by (intros B; apply ts_root_ok; exact (pt_sq B)).
  split.
  - intros H. assert (H1 := f_equal (at_line 881) H). assert (H2 := f_equal (at_line 882) H). assert (H3 := f_equal (at_line 20621) H).
    clear H. destruct (peel ck ck' z z' _ _ N N' H1 H2) as (-> & H4 & H5). split; [reflexivity|].
    destruct (peel ck ck' _ _ _ _ (ydz (yc Q)) (ydz (yc Q')) H4 H5) as (Eyd & _).
    assert (Ey : yc Q * yc Q = yc Q' * yc Q') by exact (proj1 (yden_sq (yc Q) (yc Q')) Eyd). clear Eyd.
    split; [|apply sq_pm; exact Ey].
    assert (E3 : forall c w B, at_line 20621 (ilog c w ++ ilog c (yden (yc B)) ++ mod_sqrt_log_F (xx (yc B)) ++ [Br 20621 (Z.b2z (psign B))]) = [Z.b2z (psign B)]).
    { intros c w B. rewrite !at_app, at_cons. unfold ilog. rewrite !at_inverse_far, at_msq by lia. reflexivity. }
    rewrite !E3 in H3. assert (Es : psign Q = psign Q') by (destruct (psign Q), (psign Q'); try reflexivity; discriminate H3). clear H1 H2 H3 H4 H5 E3.
    pose proof (xx_sq _ _ Ey) as Ex. pose proof (S Q) as S1. pose proof (S Q') as S2. pose proof (TS Q) as T1. pose proof (TS Q') as T2.
    unfold psign in Es. fold (xc Q) (yc Q) (xc Q') (yc Q') in Es. rewrite <- Ex in Es, S2, T2. set (r := ts_root (xx (yc Q))) in *.
    assert (C : forall x, x * x = xx (yc Q) -> x = r \/ x = - r) by (intros x Hx; apply sq_pm; rewrite Hx, T1; reflexivity).
    destruct (feqb_spec r (xc Q)) as [<-|M], (feqb_spec r (xc Q')) as [<-|M']; try discriminate Es; [reflexivity|].
    destruct (C _ S1) as [C1|C1]; [congruence|]. destruct (C _ S2) as [C2|C2]; congruence.
  - intros (Ez & Ex & Ey). apply enc_inj in Ez. rewrite Ez, !(ilog_ck ck ck'). apply sq_pm in Ey.
    apply f_equal. assert (Yd : yden (yc Q) = yden (yc Q')) by (apply yden_sq; exact Ey). rewrite Yd. apply f_equal.
    pose proof (xx_sq _ _ Ey) as Exx. rewrite Exx. apply f_equal. unfold psign. fold (xc Q) (yc Q) (xc Q') (yc Q'). rewrite Exx, Ex. reflexivity.
Qed.

Lemma y_log_eq y y' : y * y = y' * y' <-> y = y' \/ y = - y'. Proof. apply sq_pm. Qed.
Lemma newe_fwd ck ck' y y' s s' : fst (ept_new_from_y_coord_log ck (enc y) s) = fst (ept_new_from_y_coord_log ck' (enc y') s') ->
  y = y' \/ y = - y'.
Proof.
  rewrite !newe_log, <- !app_assoc. intros H. assert (H1 := f_equal (at_line 881) H). assert (H2 := f_equal (at_line 882) H). clear H.
  destruct (peel ck ck' _ _ _ _ (ydz y) (ydz y') H1 H2) as (E & _). apply sq_pm. exact (proj1 (yden_sq y y') E).
Qed.
Lemma newe_bwd ck ck' y y' s s' : y = y' \/ y = - y' ->
  fst (ept_new_from_y_coord_log ck (enc y) s) = fst (ept_new_from_y_coord_log ck' (enc y') s').
Proof.
  intros H. apply sq_pm in H. rewrite !newe_log, !(ilog_ck ck ck'). rewrite (proj2 (yden_sq y y') H), (xx_sq y y' H). reflexivity.
Qed.
Lemma newp_fwd ck ck' y y' s s' : fst (ppt_new_from_y_coord_log ck (enc y) s) = fst (ppt_new_from_y_coord_log ck' (enc y') s') ->
  y = y' \/ y = - y'.
Proof.
  rewrite !new_log. intros H. assert (H1 := f_equal (at_line 881) H). assert (H2 := f_equal (at_line 882) H). clear H.
  destruct (peel ck ck' _ _ _ _ (ydz y) (ydz y') H1 H2) as (E & _). apply sq_pm. exact (proj1 (yden_sq y y') E).
Qed.
Lemma newp_bwd ck ck' y y' s s' : y = y' \/ y = - y' ->
  fst (ppt_new_from_y_coord_log ck (enc y) s) = fst (ppt_new_from_y_coord_log ck' (enc y') s').
Proof.
  intros H. apply sq_pm in H. rewrite !new_log, !(ilog_ck ck ck'). rewrite (proj2 (yden_sq y y') H), (xx_sq y y' H). reflexivity.
Qed.

(** The branches of `new_from_y_coord` determine y up to its sign; they do not depend on
    the sign that is asked for. *)
Lemma C98_from_y_stmt : forall ck ck' y y' s s', fcanon y -> fcanon y' ->
  (log_of (ept_new_from_y_coord_log ck y s) = log_of (ept_new_from_y_coord_log ck' y' s') <->
   residue y = residue y' \/ residue y = - residue y') /\
  (log_of (ppt_new_from_y_coord_log ck y s) = log_of (ppt_new_from_y_coord_log ck' y' s') <->
   residue y = residue y' \/ residue y = - residue y').
Proof.
  intros ck ck' y y' s s' C C'. rewrite <- (enc_fF y C), <- (enc_fF y' C'), !residue_enc. unfold log_of.
  split; split; [apply newe_fwd|apply newe_bwd|apply newp_fwd|apply newp_bwd].
Qed.

Lemma decompress_log ck b : is_bytes 32 b ->
  fst (cey_decompress_log ck b) = fst (ept_new_from_y_coord_log ck (enc (toF (le_value b mod 2 ^ 252))) (shr (byte b 31) 7 =? 1)%Z).
Proof.
  intros B. unfold cey_decompress_log. cbv zeta.
  assert (Rb := byte_range 32 b 31 B).
  destruct (set_top_ok b (Z.land (byte b 31) 15) B) as (b' & -> & B' & V & T).
  { rewrite land15. pose proof (Z.mod_pos_bound (byte b 31) 16 ltac:(lia)). lia. }
  rewrite fst_quiet. rewrite land15, T in V.
  assert (V' : (le_value b' = le_value b mod 2 ^ 252)%Z).
  { rewrite V. change (2 ^ 252)%Z with (2 ^ 248 * 16)%Z. rewrite Z.rem_mul_r by lia. reflexivity. }
  destruct (fe_from_bytes_ok b' B') as [C1 C2]. rewrite V' in C2.
  assert (Cn : fcanon (fe_from_bytes b')).
  { split; [apply C1|]. rewrite C2. pose proof p_253.
    pose proof (Z.mod_pos_bound (le_value b) (2 ^ 252) ltac:(lia)). lia. }
  rewrite <- (enc_fF _ Cn). unfold fF. rewrite C2. reflexivity.
Qed.
Lemma toF_pm (a b : Z) : (0 <= a < 2 ^ 252)%Z -> (0 <= b < 2 ^ 252)%Z ->
  (toF a = toF b \/ toF a = - toF b <-> a = b \/ (a + b)%Z = p).
Proof.
  intros A B. pose proof p_253 as P.
  assert (E : forall x y, (0 <= x < p)%Z -> (0 <= y < p)%Z -> (toF x = toF y <-> x = y)).
  { intros x y X Y. rewrite toF_eq, !Z.mod_small by assumption. reflexivity. }
  rewrite E by lia. assert (K : - toF b = toF (p - b)).
  { rewrite toF_sub, toF_p. ring. }
  rewrite K. destruct (Z.eq_dec b 0) as [->|N].
  - rewrite Z.sub_0_r, toF_p. change 0%F with (toF 0). rewrite E by lia. lia.
  - rewrite E by lia. lia.
Qed.
(** The branches of `CompressedEdwardsY::decompress` determine the number formed by the low
    252 bits up to negation modulo p, and nothing else. *)
Lemma C98_decompress_stmt : forall ck ck' b b', is_bytes 32 b -> is_bytes 32 b' ->
  let y := (le_value b mod 2 ^ 252)%Z in let y' := (le_value b' mod 2 ^ 252)%Z in
  (log_of (cey_decompress_log ck b) = log_of (cey_decompress_log ck' b') <-> y = y' \/ (y + y')%Z = p).
Proof.
  intros ck ck' b b' B B' y y'. unfold log_of. rewrite !decompress_log by assumption. fold y y'.
  assert (R : (0 <= y < 2 ^ 252)%Z) by (apply Z.mod_pos_bound; lia).
  assert (R' : (0 <= y' < 2 ^ 252)%Z) by (apply Z.mod_pos_bound; lia).
  clearbody y y'. rewrite <- (toF_pm y y' R R'). split; [apply newe_fwd|apply newe_bwd].
Qed.

(** ** Ristretto *)
Lemma arms_some z : z <> 0 -> arms 600 p (Fval z) <> [].
Proof.
  intros N E. assert (Nz : enc z <> fe_zero) by (intros C; apply N, enc_inj; rewrite C; symmetry; apply enc_zero).
  pose proof (C94_rounds_stmt true (enc z) (enc_c z) Nz) as H. unfold log_of in H. fold (ilog true z) in H.
  rewrite ilog_882, E in H by exact N. cbn [length Z.of_nat] in H. lia.
Qed.
Lemma ratio_882 ck u v : u <> 0 -> at_line 882 (fst (fe_sqrt_ratio_i_log ck (enc u) (enc v))) =
  if feqb v 0 then [] else arms 600 p (Fval v) ++ arms 600 p (Fval v).
Proof.
  intros U. destruct (feqb_spec v 0) as [->|N]; [|apply at_ratio_882; assumption].
  unfold fe_sqrt_ratio_i_log. rewrite <- enc_zero, !fe_eqb_F. destruct (feqb_spec u 0); [tauto|].
  rewrite feqb_refl. reflexivity.
Qed.
Lemma ratio_inj ck ck' u v u' v' : u <> 0 -> u' <> 0 ->
  at_line 882 (fst (fe_sqrt_ratio_i_log ck (enc u) (enc v))) = at_line 882 (fst (fe_sqrt_ratio_i_log ck' (enc u') (enc v'))) ->
  v = v'.
Proof.
  intros U U'. rewrite !ratio_882 by assumption.
  destruct (feqb_spec v 0) as [->|N], (feqb_spec v' 0) as [->|N']; intros H.
  - reflexivity.
  - symmetry in H. apply app_eq_nil in H. elim (arms_some v' N'). apply H.
  - apply app_eq_nil in H. elim (arms_some v N). apply H.
  - apply twice_inj in H. apply Feq.
    pose proof (canon_bound _ (enc_c v)) as B. pose proof (canon_gcd _ (enc_c v)) as G. rewrite fval_enc in B, G.
    pose proof (canon_bound _ (enc_c v')) as B'. pose proof (canon_gcd _ (enc_c v')) as G'. rewrite fval_enc in B', G'.
    apply (arms_inj 600 600 253 253 p (Fval v) 253 253 p (Fval v') p_bound B (G (Fval_nz v N)) ltac:(lia) p_bound B' (G' (Fval_nz v' N')) ltac:(lia) H).
Qed.
Ltac at_tail := repeat (apply at_bind_nil; [first [reflexivity | apply at_is_positive; discriminate]|intros ?]).
Lemma rp_compress_882 ck X Y Z T :
  at_line 882 (fst (rp_compress_log ck (EPF X Y Z T))) =
  at_line 882 (fst (fe_sqrt_ratio_i_log ck (enc 1) (enc ((Z + Y) * (Z - Y) * ((X * Y) * (X * Y)))))).
Proof.
  unfold rp_compress_log, EPF. cbn [eX eY eZ eT]. lrun. rewrite at_lbind.
  - unfold fe_inv_sqrt_log. rewrite enc_one. reflexivity.
  - intros okI. at_tail. reflexivity.
Qed.
(** The branches of `RistrettoPoint::compress` determine (Z² - Y²) X² Y². *)
Lemma C98_ristretto_compress_stmt : forall ck ck' P P', reduced_ext P -> reduced_ext P' ->
  log_of (rp_compress_log ck P) = log_of (rp_compress_log ck' P') ->
  let w := fun Q => (residue (eZ Q) * residue (eZ Q) - residue (eY Q) * residue (eY Q)) *
                    (residue (eX Q) * residue (eX Q) * (residue (eY Q) * residue (eY Q))) in
  w P = w P'.
Proof.
  intros ck ck' P P' (A & B & C & D) (A' & B' & C' & D') H w.
  assert (E : forall Q, fcanon (eX Q) -> fcanon (eY Q) -> fcanon (eZ Q) -> fcanon (eT Q) -> exists X Y Z T, Q = EPF X Y Z T).
  { intros Q Q1 Q2 Q3 Q4. do 4 eexists. apply ept_canon_enc; assumption. }
  destruct (E P A B C D) as (X & Y & Z & T & ->). destruct (E P' A' B' C' D') as (X' & Y' & Z' & T' & ->). clear E.
  apply (f_equal (at_line 882)) in H. unfold log_of in H. rewrite !rp_compress_882 in H. apply ratio_inj in H; [|exact one_neq_zero..].
  unfold w, EPF. cbn [eX eY eZ]. rewrite !residue_enc.
  transitivity ((Z + Y) * (Z - Y) * ((X * Y) * (X * Y))); [ring|]. rewrite H. ring.
Qed.

Lemma at_positive_far n a : (1000 < n \/ n = 882)%Z -> at_line n (fst (fe_is_positive_log a)) = [].
Proof. intros H. apply at_is_positive; lia. Qed.
Lemma cr_head ck b : is_bytes 32 b ->
  exists l, at_line 30112 (fst (cr_decompress_log ck b)) = (if (le_value b <=? (p - 1) / 2)%Z then 0%Z else 1%Z) :: l.
Proof.
  intros B. unfold cr_decompress_log. cbv zeta. rewrite (fst_lbind _ _ _ (er_is_positive _)), at_app, at_positive_far, app_nil_l by lia.
  destruct (fe_from_bytes_ok b B) as [A V]. rewrite fe_is_positive_ok, V by apply A. rewrite fst_ask, at_cons. cbn [Z.eqb Pos.eqb app].
  destruct (le_value b <=? (p - 1) / 2)%Z; eexists; reflexivity.
Qed.
Lemma log_fst {A} (x : lres A) : log_of x = fst x. Proof. reflexivity. Qed.
Definition rpoly (s : F) : F :=
  (- (cd * ((1 - s * s) * (1 - s * s))) - (1 + s * s) * (1 + s * s)) * ((1 + s * s) * (1 + s * s)).
Lemma cr_882 ck b : is_bytes 32 b -> (le_value b <= (p - 1) / 2)%Z ->
  at_line 882 (fst (cr_decompress_log ck b)) =
  at_line 882 (fst (fe_sqrt_ratio_i_log ck (enc 1) (enc (rpoly (toF (le_value b)))))).
Proof.
  intros B L. unfold cr_decompress_log. cbv zeta. rewrite (fst_lbind _ _ _ (er_is_positive _)), at_app, at_positive_far, app_nil_l by lia.
  destruct (fe_from_bytes_ok b B) as [A V]. rewrite fe_is_positive_ok, V by apply A. rewrite fst_ask, at_cons. cbn [Z.eqb Pos.eqb app].
  rewrite (fe_to_from_bytes b B).
  assert (E : bytes_eqb b b = true) by (apply bytes_eqb_spec; reflexivity). rewrite E.
  replace (le_value b <=? (p - 1) / 2)%Z with true by (symmetry; apply Z.leb_le, L). cbn [negb].
  rewrite fst_ask, at_cons. cbn [Z.eqb Pos.eqb app].
  assert (C : fcanon (fe_from_bytes b)).
  { split; [apply A|]. rewrite V. pose proof (le_value_bound 32 b B) as R. pose proof p_odd. clear - L R H. lia. }
  rewrite <- (enc_fF _ C). unfold fF. rewrite V. set (s := toF (le_value b)). clearbody s. clear.
  fconst. lrun. rewrite at_lbind.
  - fold (rpoly s). unfold fe_inv_sqrt_log. rewrite enc_one. reflexivity.
  - intros okI. rewrite fst_ask, at_cons. cbn [Z.eqb Pos.eqb app]. destruct (negb (fst okI)); [reflexivity|].
    at_tail. match goal with |- context [if ?c then quiet (Ok true) else _] => destruct c end; reflexivity.
Qed.
(** The branches of `CompressedRistretto::decompress` tell whether the number is at most
    (p-1)/2, and if it is they determine the polynomial in it whose inverse root is taken. *)
Lemma C98_ristretto_decompress_stmt : forall ck ck' b b', is_bytes 32 b -> is_bytes 32 b' ->
  log_of (cr_decompress_log ck b) = log_of (cr_decompress_log ck' b') ->
  let f := fun s => (- (cd * ((1 - s * s) * (1 - s * s))) - (1 + s * s) * (1 + s * s)) * ((1 + s * s) * (1 + s * s)) in
  ((le_value b <= (p - 1) / 2)%Z <-> (le_value b' <= (p - 1) / 2)%Z) /\
  ((le_value b <= (p - 1) / 2)%Z -> f (toF (le_value b)) = f (toF (le_value b'))).
Proof.
  intros ck ck' b b' B B' H f.
  assert (K : (le_value b <= (p - 1) / 2)%Z <-> (le_value b' <= (p - 1) / 2)%Z).
  { destruct (cr_head ck b B) as [l E]. destruct (cr_head ck' b' B') as [l' E']. rewrite log_fst in H. rewrite log_fst in H. rewrite H, E' in E.
    apply (f_equal (hd 5%Z)) in E. cbn [hd] in E. clear - E.
    generalize dependent ((p - 1) / 2)%Z. intros h E.
    destruct (Z.leb_spec (le_value b) h), (Z.leb_spec (le_value b') h); try discriminate E; clear E; lia. }
  split; [exact K|]. intros L. assert (L' := proj1 K L). change (rpoly (toF (le_value b)) = rpoly (toF (le_value b'))).
  apply (ratio_inj ck ck' 1 _ 1 _ one_neq_zero one_neq_zero).
  rewrite <- (cr_882 ck b B L), <- (cr_882 ck' b' B' L'). rewrite <- !log_fst. apply f_equal. exact H.
Qed.

Lemma elligator_882 ck r : floadable r -> at_line 882 (fst (rp_elligator_log ck r)) =
  at_line 882 (fst (fe_sqrt_ratio_i_log ck (enc (el_N (el_r (fF r)))) (enc (el_D (el_r (fF r)))))).
Proof.
  intros A. unfold rp_elligator_log. cbv zeta. fconst. rewrite (fe_square_ld ck r A). lrun.
  fold (el_r (fF r)). fold (el_N (el_r (fF r))). fold (el_D (el_r (fF r))).
  rewrite at_lbind; [reflexivity|]. intros sqs. at_tail. reflexivity.
Qed.
(** The branches of `elligator_ristretto_flavor` determine r0² up to the reflection
    r0² -> -(1 + d²)/(id) - r0². *)
Lemma C98_elligator_stmt : forall ck ck' r r', floadable r -> floadable r' ->
  log_of (rp_elligator_log ck r) = log_of (rp_elligator_log ck' r') ->
  let a := residue r * residue r in let a' := residue r' * residue r' in
  a = a' \/ residue SQRT_MINUS_ONE * cd * (a + a') = - (1 + cd * cd).
Proof.
  intros ck ck' r r' A A' H a a'. apply (f_equal (at_line 882)) in H. unfold log_of in H. rewrite !elligator_882 in H by assumption.
  apply ratio_inj in H; [|apply el_N_nz..]. unfold el_D, el_r in H. unfold fF in H. fold a a' in H.
  rewrite FI_enc, residue_enc. clearbody a a'.
  assert (K : (FI * a - FI * a') * (FI * cd * (a + a') + (1 + cd * cd)) = 0).
  { transitivity ((- (1) - cd * (FI * a')) * (FI * a' + cd) - (- (1) - cd * (FI * a)) * (FI * a + cd)); [ring|]. rewrite H. ring. }
  apply F_integral in K. destruct K as [K|K]; [left|right].
  - apply (F_mul_cancel_l FI); [intros C; apply FI_nonsq; rewrite C; apply is_sq_zero|]. transitivity (FI * a - FI * a' + FI * a'); [ring|].
    rewrite K. ring.
  - transitivity (FI * cd * (a + a') + (1 + cd * cd) - (1 + cd * cd)); [ring|]. rewrite K. ring.
Qed.

(** Two points with the same branches of `compress`, two encodings with different branches
    of `decompress`, and two field elements with different branches of the map to the group. *)
Example C98_ex :
  ext_rep ept_identity (0, 1) /\ ext_rep (EPF 0 (- (1)) 1 0) (0, - (1)) /\
  log_of (ept_compress_log true ept_identity) = log_of (ept_compress_log true (EPF 0 (- (1)) 1 0)) /\
  is_bytes 32 (repeat 0%Z 32) /\ is_bytes 32 (1%Z :: repeat 0%Z 31) /\
  log_of (cey_decompress_log true (repeat 0%Z 32)) <> log_of (cey_decompress_log false (1%Z :: repeat 0%Z 31)) /\
  log_of (rp_elligator_log true fe_zero) <> log_of (rp_elligator_log false fe_one).
Proof.
  assert (R1 : ext_rep ept_identity (0, 1)).
  { split; [unfold on_curve; ring|]. change ept_identity with (EPF 0 1 1 0). unfold EPF. cbn [eX eY eZ eT fst snd].
    rewrite !residue_enc. refine (conj (enc_c _) (conj (enc_c _) (conj (enc_c _) (conj (enc_c _) (conj one_neq_zero _))))).
    split; [ring|]. split; ring. }
  assert (R2 : ext_rep (EPF 0 (- (1)) 1 0) (0, - (1))).
  { split; [unfold on_curve; ring|]. unfold EPF. cbn [eX eY eZ eT fst snd].
    rewrite !residue_enc. refine (conj (enc_c _) (conj (enc_c _) (conj (enc_c _) (conj (enc_c _) (conj one_neq_zero _))))).
    split; [ring|]. split; ring. }
  assert (B1 : is_bytes 32 (repeat 0%Z 32)) by (split; [reflexivity|repeat constructor; discriminate]).
  assert (B2 : is_bytes 32 (1%Z :: repeat 0%Z 31)) by (split; [reflexivity|repeat constructor; discriminate]).
  split; [exact R1|]. split; [exact R2|]. split.
  { apply (proj2 (C98_compress_stmt true true _ _ _ _ R1 R2)). split; [reflexivity|]. split; [reflexivity|].
    right. cbn [snd]. ring. }
  split; [exact B1|]. split; [exact B2|]. split.
  - intros H. apply (C98_decompress_stmt true false _ _ B1 B2) in H. cbv zeta in H.
    change (le_value (repeat 0%Z 32) mod 2 ^ 252)%Z with 0%Z in H.
    change (le_value (1%Z :: repeat 0%Z 31) mod 2 ^ 252)%Z with 1%Z in H. destruct H; discriminate.
  - intros H. apply C98_elligator_stmt in H; [|auto using fcanon_loadable, fcanon_zero, fcanon_one..].
    cbv zeta in H. destruct H as [H|H]; apply (f_equal Fval) in H; vm_compute in H; discriminate.
Qed.
