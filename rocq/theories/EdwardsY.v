(** * Points from a y coordinate, compression, random points, cosets *)

From Coq Require Import ZArith List Bool Lia Ring Field.
From Verif Require Import Machine FieldModel ScalarModel EdwardsModel Spec MachineFacts FieldLimb FieldOps FieldBytes
  NumTheory Primes Fp FieldF FieldInv FieldStmt ScalarOps ScalarBits Curve CurveGroup EdwardsF PointMul.
Import ListNotations.
Open Scope F_scope.

(** ** Scalar multiplication of extended and projective points *)

Definition rext (P : ept) (A : pt) : Prop := exists z, z <> 0 /\ P = ext A z.
Definition rprj (P : ppt) (A : pt) : Prop := exists z, z <> 0 /\ P = prj A z.

Lemma rext_id : rext ept_identity pO.
Proof. exists 1. split; [exact one_neq_zero|exact ext_identity]. Qed.
Lemma rext_add P Q A B : rext P A -> rext Q B ->
  exists R, (forall ck, ept_add ck P Q = Ok R) /\ rext R (padd A B).
Proof.
  intros (z1 & N1 & ->) (z2 & N2 & ->). destruct (ext_add_z A B z1 z2 N1 N2) as (z & N & E).
  exists (ext (padd A B) z). split; [exact E|]. exists z. split; [exact N|reflexivity].
Qed.
Lemma rext_sub P Q A B : rext P A -> rext Q B ->
  exists R, (forall ck, ept_sub ck P Q = Ok R) /\ rext R (padd A (popp B)).
Proof.
  intros (z1 & N1 & ->) (z2 & N2 & ->). destruct (ext_sub_z A B z1 z2 N1 N2) as (z & N & E).
  exists (ext (padd A (popp B)) z). split; [exact E|]. exists z. split; [exact N|reflexivity].
Qed.
Lemma rext_dbl P A : rext P A -> exists R, (forall ck, ept_double ck P = Ok R) /\ rext R (padd A A).
Proof. intros H. exact (rext_add P P A A H H). Qed.
Lemma rext_neg P A : rext P A -> exists R, (forall ck, ept_neg ck P = Ok R) /\ rext R (popp A).
Proof.
  intros (z & N & ->). exists (ext (popp A) z). split; [intros ck; apply ext_neg_z|].
  exists z. split; [exact N|reflexivity].
Qed.

Lemma rprj_id : rprj ppt_identity pO.
Proof. exists 1. split; [exact one_neq_zero|exact prj_identity]. Qed.
Lemma rprj_add P Q A B : rprj P A -> rprj Q B ->
  exists R, (forall ck, ppt_add ck P Q = Ok R) /\ rprj R (padd A B).
Proof.
  intros (z1 & N1 & ->) (z2 & N2 & ->). destruct (prj_add_z A B z1 z2 N1 N2) as (z & N & E).
  exists (prj (padd A B) z). split; [exact E|]. exists z. split; [exact N|reflexivity].
Qed.
Lemma rprj_sub P Q A B : rprj P A -> rprj Q B ->
  exists R, (forall ck, ppt_sub ck P Q = Ok R) /\ rprj R (padd A (popp B)).
Proof.
  intros (z1 & N1 & ->) (z2 & N2 & ->). destruct (prj_sub_z A B z1 z2 N1 N2) as (z & N & E).
  exists (prj (padd A (popp B)) z). split; [exact E|]. exists z. split; [exact N|reflexivity].
Qed.
Lemma rprj_dbl P A : rprj P A -> exists R, (forall ck, ppt_double ck P = Ok R) /\ rprj R (padd A A).
Proof.
  intros (z1 & N1 & ->). destruct (prj_double_z A z1 N1) as (z & N & E).
  exists (prj (padd A A) z). split; [exact E|]. exists z. split; [exact N|reflexivity].
Qed.
Lemma rprj_neg P A : rprj P A -> exists R, (forall ck, ppt_neg ck P = Ok R) /\ rprj R (popp A).
Proof.
  intros (z & N & ->). exists (prj (popp A) z). split; [intros ck; apply prj_neg_z|].
  exists z. split; [exact N|reflexivity].
Qed.

Lemma ext_rep_rext P A : ext_rep P A <-> exists Q, A = pxy Q /\ rext P Q.
Proof.
  rewrite ext_rep_iff. split.
  - intros (Q & z & E & N & H). exists Q. split; [exact E|]. exists z. split; [exact N|exact H].
  - intros (Q & E & z & N & H). exists Q, z. split; [exact E|]. split; [exact N|exact H].
Qed.
Lemma proj_rep_rprj P A : proj_rep P A <-> exists Q, A = pxy Q /\ rprj P Q.
Proof.
  rewrite proj_rep_iff. split.
  - intros (Q & z & E & N & H). exists Q. split; [exact E|]. exists z. split; [exact N|exact H].
  - intros (Q & E & z & N & H). exists Q, z. split; [exact E|]. split; [exact N|exact H].
Qed.
Lemma rext_rep P A : rext P A -> ext_rep P (pxy A).
Proof. intros H. apply ext_rep_rext. exists A. split; [reflexivity|exact H]. Qed.
Lemma rprj_rep P A : rprj P A -> proj_rep P (pxy A).
Proof. intros H. apply proj_rep_rprj. exists A. split; [reflexivity|exact H]. Qed.
Lemma rext_det P A B : rext P A -> rext P B -> A = B.
Proof.
  intros (z1 & N1 & ->) (z2 & N2 & E). unfold ext in E. apply EPF_inj in E.
  destruct E as (E1 & E2 & E3 & _). subst z2. apply pt_eq.
  rewrite (surjective_pairing (pxy A)), (surjective_pairing (pxy B)).
  apply f_equal2.
  - apply (F_mul_cancel_l z1); [exact N1|]. transitivity (fst (pxy A) * z1); [ring|]. rewrite E1. ring.
  - apply (F_mul_cancel_l z1); [exact N1|]. transitivity (snd (pxy A) * z1); [ring|]. rewrite E2. ring.
Qed.

Lemma ept_mul_rext n P A : sloadable n -> rext P A ->
  exists R, (forall ck, ept_mul ck P n = Ok R) /\ rext R (smul (sval n) A).
Proof. exact (double_and_add_ok ept rext ept_add ept_sub ept_double ept_identity rext_id rext_add rext_sub rext_dbl n P A). Qed.
Lemma ppt_mul_rprj n P A : sloadable n -> rprj P A ->
  exists R, (forall ck, ppt_mul ck P n = Ok R) /\ rprj R (smul (sval n) A).
Proof. exact (double_and_add_ok ppt rprj ppt_add ppt_sub ppt_double ppt_identity rprj_id rprj_add rprj_sub rprj_dbl n P A). Qed.

(** ** The x coordinates of a given y *)

Lemma ydz y : cd * (y * y) - - (1) <> 0.
Proof.
  intros H. assert (Ny : y <> 0).
  { intros ->. apply one_neq_zero. transitivity (cd * (0 * 0) - - (1)); [ring|exact H]. }
  apply cd_nonsq. destruct is_sq_m1 as [i Hi]. exists (i * / y).
  transitivity ((i * i) * (/ y * / y)); [ring|]. rewrite Hi.
  transitivity ((cd * (y * y) - - (1)) * (/ y * / y) - (/ y * / y)); [rewrite H; ring|].
  field. nz.
Qed.
Definition xx (y : F) : F := (y * y - 1) / (cd * (y * y) - - (1)).
Lemma xx_def y : (y * y - 1) / (cd * (y * y) - - (1)) = xx y. Proof. reflexivity. Qed.
Lemma xx_mul y : xx y * (cd * (y * y) - - (1)) = y * y - 1.
Proof. pose proof (ydz y) as N. unfold xx. field. exact N. Qed.
Lemma curve_xx x y : on_curve (x, y) <-> x * x = xx y.
Proof.
  pose proof (ydz y) as N. pose proof (xx_mul y) as M. unfold on_curve. split; intros H.
  - apply (F_mul_cancel_l (cd * (y * y) - - (1))); [exact N|].
    transitivity (xx y * (cd * (y * y) - - (1))); [|ring]. rewrite M.
    apply F_sub_eq. transitivity ((1 + cd * (x * x) * (y * y)) - (- (x * x) + y * y)); [ring|].
    rewrite H. ring.
  - rewrite <- H in M. symmetry. apply F_sub_eq.
    transitivity (x * x * (cd * (y * y) - - (1)) - (y * y - 1)); [ring|]. rewrite M. ring.
Qed.

Lemma ts_root_zero : ts_root 0 = 0.
Proof. apply F_sq_zero. apply ts_root_ok. apply is_sq_zero. Qed.

Lemma fe_mod_sqrt_F' ck a sign : fe_mod_sqrt ck (enc a) sign =
  Ok (if sqb_F a then Some (enc (if sign then - ts_root a else ts_root a)) else None).
Proof.
  rewrite fe_mod_sqrt_F. apply f_equal. destruct (feqb_spec a 0) as [->|N]; [|reflexivity].
  destruct (sqb_F_spec 0) as [S|S]; [|elim S; apply is_sq_zero]. apply f_equal. apply f_equal.
  destruct sign; rewrite ts_root_zero; [ring|reflexivity].
Qed.

Definition lx (y : F) (s : bool) : F := if s then - ts_root (xx y) else ts_root (xx y).
Lemma lift_on y s : is_sq (xx y) -> on_curve (lx y s, y).
Proof.
  intros S. apply curve_xx. transitivity (ts_root (xx y) * ts_root (xx y)); [|apply ts_root_ok; exact S].
  unfold lx. destruct s; ring.
Qed.
#[global] Opaque xx ts_root is_sq_dec sqb_F.
Definition lift (y : F) (s : bool) : option pt :=
  match is_sq_dec (xx y) with
  | left H => Some (pt_of (lx y s, y) (lift_on y s H))
  | right _ => None
  end.
Lemma lift_cases y s :
  (is_sq (xx y) /\ exists A, pxy A = (lx y s, y) /\ lift y s = Some A) \/ (~ is_sq (xx y) /\ lift y s = None).
Proof.
  unfold lift. destruct (is_sq_dec (xx y)) as [H|H]; [left|right].
  - split; [exact H|]. eexists. split; [|reflexivity]. reflexivity.
  - split; [exact H|reflexivity].
Qed.
#[global] Opaque lift.
Lemma Some_None {A : Type} (x : A) : Some x <> None. Proof. discriminate. Qed.
Lemma Some_inj {A : Type} (x y : A) : Some x = Some y -> x = y. Proof. congruence. Qed.
Lemma lift_none y s x : lift y s = None -> ~ on_curve (x, y).
Proof.
  intros E C. destruct (lift_cases y s) as [(_ & A & _ & H)|[H _]].
  - rewrite E in H. symmetry in H. exact (Some_None _ H).
  - apply H. apply curve_xx in C. exists x. exact C.
Qed.
Lemma lift_some y s A : lift y s = Some A -> pxy A = (lx y s, y).
Proof.
  intros E. destruct (lift_cases y s) as [(_ & A' & H & H')|[_ H]].
  - rewrite E in H'. apply Some_inj in H'. subst A'. exact H.
  - rewrite E in H. elim (Some_None _ H).
Qed.
Lemma lift_neg y A B : lift y false = Some A -> lift y true = Some B -> B = popp A.
Proof.
  intros HA HB. apply lift_some in HA. apply lift_some in HB. apply pt_eq.
  unfold popp. rewrite pxy_of, HA, HB. reflexivity.
Qed.
(** The sign under which a point is recovered from its y coordinate. *)
Definition psign (A : pt) : bool := negb (feqb (ts_root (xx (snd (pxy A)))) (fst (pxy A))).
Lemma pt_sq A : is_sq (xx (snd (pxy A))).
Proof.
  pose proof (pt_on A) as H. rewrite (surjective_pairing (pxy A)) in H. apply curve_xx in H.
  exists (fst (pxy A)). exact H.
Qed.
Lemma psign_lx A : lx (snd (pxy A)) (psign A) = fst (pxy A).
Proof.
  pose proof (pt_on A) as C. rewrite (surjective_pairing (pxy A)) in C. apply curve_xx in C.
  unfold lx, psign.
  destruct (feqb_spec (ts_root (xx (snd (pxy A)))) (fst (pxy A))) as [E|E]; cbn [negb]; [exact E|].
  rewrite <- (ts_root_ok _ (pt_sq A)) in C. apply F_sq_eq in C. destruct C as [C|C]; [|rewrite C; ring].
  elim E. symmetry. exact C.
Qed.
Lemma lift_psign A : lift (snd (pxy A)) (psign A) = Some A.
Proof.
  destruct (lift_cases (snd (pxy A)) (psign A)) as [(_ & A' & H & H')|[H _]].
  - rewrite H'. apply f_equal. apply pt_eq. rewrite H, psign_lx. symmetry. apply surjective_pairing.
  - elim H. apply pt_sq.
Qed.

Lemma ppt_new_from_y ck y s :
  ppt_new_from_y_coord ck (enc y) s = Ok (option_map (fun A => prj A 1) (lift y s)).
Proof.
  unfold ppt_new_from_y_coord. frun. rewrite fe_div_val_F by apply ydz. rewrite bind_ok.
  rewrite xx_def. rewrite fe_mod_sqrt_F', bind_ok. fold (lx y s).
  destruct (lift_cases y s) as [(H & A & HA & HL)|[H HL]]; rewrite HL; cbn [option_map].
  - destruct (sqb_F_spec (xx y)) as [H'|H']; [|elim H'; exact H].
    do 2 apply f_equal. unfold prj. rewrite HA. cbn [fst snd].
    fold (PPF (lx y s) y 1). apply PPF_eq; ring.
  - destruct (sqb_F_spec (xx y)) as [H'|H']; [elim H; exact H'|]. reflexivity.
Qed.
Lemma ept_new_from_y ck y s :
  ept_new_from_y_coord ck (enc y) s = Ok (option_map (fun A => ext A 1) (lift y s)).
Proof.
  unfold ept_new_from_y_coord. rewrite ppt_new_from_y, bind_ok.
  destruct (lift y s) as [A|]; [|reflexivity]. cbn [option_map]. rewrite prj_to_ext, bind_ok.
  assert (E : 1 * 1 = 1) by ring. rewrite E. reflexivity.
Qed.

(** ** Compression *)

Lemma find_xx_enc ck y : find_xx ck (enc y) = Ok (enc (xx y)).
Proof. unfold find_xx. frun. rewrite fe_div_val_F by apply ydz. rewrite xx_def. reflexivity. Qed.

Open Scope Z_scope.

Lemma p_253 : 2 ^ 252 < p < 2 ^ 253. Proof. split; reflexivity. Qed.

Lemma compress_ext A z : z <> 0%F ->
  exists b, (forall ck, ept_compress ck (ext A z) = Ok b) /\ is_bytes 32 b /\
    le_value b = Fval (snd (pxy A)) + (if psign A then 2 ^ 255 else 0).
Proof.
  intros N. set (y := snd (pxy A)).
  assert (By := fe_to_bytes_bytes (enc y)). assert (Vy := fe_to_bytes_ok (enc y) (enc_ld y)).
  rewrite fval_enc in Vy. pose proof (Frange y) as Ry. pose proof p_253 as Pb.
  set (c := fe_to_bytes (enc y)) in *.
  set (m := Z.lor (byte c 31) (shl W8 (if psign A then 1 else 0) 7)).
  destruct (set_top_ok c 0 By) as (_ & _ & _ & _ & Tb); [lia|].
  rewrite Vy in Tb.
  assert (Rb : 0 <= byte c 31 < 32).
  { rewrite Tb. split; [apply Z.div_pos; lia|]. apply Z.div_lt_upper_bound; [lia|].
    change (2 ^ 248 * 32) with (2 ^ 253). lia. }
  assert (Em : m = byte c 31 + (if psign A then 128 else 0)).
  { unfold m. destruct (psign A).
    - change (shl W8 1 7) with (1 * 2 ^ 7). rewrite lor_add_low by lia. lia.
    - change (shl W8 0 7) with 0. rewrite Z.lor_0_r. lia. }
  destruct (set_top_ok c m By) as (b & Eb & Bb & Vb & _); [destruct (psign A); lia|].
  exists b. split; [|split; [exact Bb|]].
  - intros ck. unfold ept_compress. rewrite ext_affine by exact N. rewrite bind_ok.
    unfold aff, APF. cbn [aX aY]. fold y. rewrite find_xx_enc, bind_ok, fe_mod_sqrt_F', bind_ok.
    destruct (sqb_F_spec (xx y)) as [S|S]; [|elim S; apply pt_sq]. cbn [unwrap]. rewrite bind_ok, fe_eqb_F.
    fold c. cbv zeta.
    assert (Ps : negb (feqb (ts_root (xx y)) (fst (pxy A))) = psign A) by reflexivity.
    rewrite Ps. fold m. rewrite Eb, bind_ok. unfold cey_from_slice, copy_from_slice.
    rewrite (proj1 Bb). reflexivity.
  - rewrite Vb, Em, Vy, Tb. destruct (psign A); pose proof (Z.div_mod (Fval y) (2 ^ 248)); lia.
Qed.

Lemma land15 x : Z.land x 15 = x mod 16.
Proof. change 15 with (Z.ones 4). rewrite Z.land_ones by lia. reflexivity. Qed.

Lemma decompress_lift b : is_bytes 32 b -> forall ck, cey_decompress ck b =
  Ok (option_map (fun A => ext A 1) (lift (toF (le_value b mod 2 ^ 252)) (2 ^ 255 <=? le_value b))).
Proof.
  intros B ck. unfold cey_decompress. cbv zeta.
  assert (Rb := byte_range 32 b 31 B).
  pose proof (le_value_bound 32 b B) as Rv. change (256 ^ Z.of_nat 32) with (2 ^ 256) in Rv.
  destruct (set_top_ok b (Z.land (byte b 31) 15) B) as (b' & -> & B' & V & T).
  { rewrite land15. lia. }
  rewrite bind_ok. rewrite land15, T in V.
  assert (V' : le_value b' = le_value b mod 2 ^ 252).
  { rewrite V. change (2 ^ 252) with (2 ^ 248 * 16). rewrite Z.rem_mul_r by lia. reflexivity. }
  destruct (fe_from_bytes_ok b' B') as [C1 C2]. rewrite V' in C2.
  assert (Cn : fcanon (fe_from_bytes b')).
  { split; [apply C1|]. rewrite C2. pose proof p_253.
    pose proof (Z.mod_pos_bound (le_value b) (2 ^ 252) ltac:(lia)). lia. }
  rewrite <- (enc_fF _ Cn). unfold fF. rewrite C2.
  assert (Sg : (shr (byte b 31) 7 =? 1) = (2 ^ 255 <=? le_value b)).
  { rewrite shr_div by lia. rewrite T. rewrite Z.div_div by lia. change (2 ^ 248 * 2 ^ 7) with (2 ^ 255).
    assert (Q : 0 <= le_value b / 2 ^ 255 < 2).
    { split; [apply Z.div_pos; lia|]. apply Z.div_lt_upper_bound; lia. }
    pose proof (Z.div_mod (le_value b) (2 ^ 255) ltac:(lia)).
    pose proof (Z.mod_pos_bound (le_value b) (2 ^ 255) ltac:(lia)).
    destruct (Z.eqb_spec (le_value b / 2 ^ 255) 1), (Z.leb_spec (2 ^ 255) (le_value b)); try reflexivity; nia. }
  rewrite Sg. apply ept_new_from_y.
Qed.

Lemma decompress_compress A z b : z <> 0%F -> ept_compress true (ext A z) = Ok b ->
  Fval (snd (pxy A)) < 2 ^ 252 -> forall ck, cey_decompress ck b = Ok (Some (ext A 1)).
Proof.
  intros N E S ck. destruct (compress_ext A z N) as (b' & E' & B & V).
  rewrite E' in E. injection E as ->. rewrite (decompress_lift b B).
  set (y := snd (pxy A)) in *. pose proof (Frange y) as Ry.
  assert (V1 : le_value b mod 2 ^ 252 = Fval y).
  { rewrite V. destruct (psign A).
    - change (2 ^ 255) with (8 * 2 ^ 252). rewrite Z.mod_add by lia. apply Z.mod_small. lia.
    - rewrite Z.add_0_r. apply Z.mod_small. lia. }
  assert (V2 : (2 ^ 255 <=? le_value b) = psign A).
  { rewrite V. destruct (psign A); [apply Z.leb_le|apply Z.leb_gt]; lia. }
  rewrite V1, V2, toF_Fval. unfold y. rewrite lift_psign. reflexivity.
Qed.

Lemma decompress_y b P A ck : is_bytes 32 b -> cey_decompress ck b = Ok (Some P) -> rext P A ->
  Fval (snd (pxy A)) < 2 ^ 252.
Proof.
  intros B E R. rewrite (decompress_lift b B) in E. apply (f_equal (fun r => match r with Ok o => o | _ => None end)) in E.
  destruct (lift _ _) as [A'|] eqn:HL; cbn [option_map] in E; [|symmetry in E; elim (Some_None _ E)].
  apply Some_inj in E. subst P.
  assert (X : A' = A).
  { apply (rext_det (ext A' 1)); [|exact R]. exists 1%F. split; [exact one_neq_zero|reflexivity]. }
  subst A'. apply lift_some in HL. apply (f_equal snd) in HL. cbn [snd] in HL.
  rewrite HL, Fval_toF. pose proof (Z.mod_pos_bound (le_value b) (2 ^ 252) ltac:(lia)).
  pose proof p_253. rewrite Z.mod_small by lia. lia.
Qed.

(** ** Random points *)

Lemma fe_random_enc d : is_bytes 32 d -> fe_random d = Ok (enc (toF (le_value d mod 2 ^ 251))).
Proof.
  intros B. destruct (C16_random_stmt d B) as (r & E & C & V). rewrite E. apply f_equal.
  rewrite <- (enc_fF r C). unfold fF. rewrite V. reflexivity.
Qed.

(** The first draw whose y coordinate lies on the curve. *)
Fixpoint first_lift (draws : list (list Z)) : option pt :=
  match draws with
  | [] => None
  | d :: ds => match lift (toF (le_value d mod 2 ^ 251)) false with
               | Some A => Some A
               | None => first_lift ds
               end
  end.

Lemma ppt_random ck draws : Forall (is_bytes 32) draws ->
  ppt_new_random_point ck draws =
  match first_lift draws with Some A => Ok (prj A 1) | None => NoFuel end.
Proof.
  induction 1 as [|d ds B _ IH]; [reflexivity|].
  cbn [ppt_new_random_point first_lift]. rewrite fe_random_enc by exact B. rewrite bind_ok, ppt_new_from_y, bind_ok.
  destruct (lift (toF (le_value d mod 2 ^ 251)) false) as [A|]; cbn [option_map]; [reflexivity|exact IH].
Qed.
Lemma ept_random ck draws : Forall (is_bytes 32) draws ->
  ept_new_random_point ck draws =
  match first_lift draws with Some A => Ok (ext A 1) | None => NoFuel end.
Proof.
  intros H. unfold ept_new_random_point. rewrite ppt_random by exact H.
  destruct (first_lift draws) as [A|]; [|reflexivity]. cbn [bind]. rewrite prj_to_ext.
  assert (E : (1 * 1 = 1)%F) by ring. rewrite E. reflexivity.
Qed.
Lemma first_lift_none draws : first_lift draws = None ->
  Forall (fun d => forall x, ~ on_curve (x, toF (le_value d mod 2 ^ 251))) draws.
Proof.
  induction draws as [|d ds IH]; [constructor|]. cbn [first_lift].
  destruct (lift (toF (le_value d mod 2 ^ 251)) false) as [A|] eqn:E; [intros H; elim (Some_None _ H)|].
  intros H. constructor; [intros x; exact (lift_none _ _ x E)|exact (IH H)].
Qed.
