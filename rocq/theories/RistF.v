(** * The Ristretto encoder, decoder and map to the group *)

From Coq Require Import ZArith List Bool Lia Ring Field.
From Verif Require Import Machine FieldModel ScalarModel EdwardsModel RistrettoModel Spec NumTheory Primes MachineFacts
  FieldOps FieldBytes Fp FieldF FieldInv Curve CurveGroup EdwardsF EdwardsY Rist.
Import ListNotations.
Open Scope F_scope.

(** ** Inverse square root *)
Lemma isr_true w : fst (sqrt_ratio_spec 1 w) = true ->
  is_sq w /\ snd (sqrt_ratio_spec 1 w) * snd (sqrt_ratio_spec 1 w) * w = 1.
Proof.
  unfold sqrt_ratio_spec. destruct (feqb_spec 1 0) as [E|_]; [elim (one_neq_zero E)|].
  destruct (feqb_spec w 0) as [E|N]; [discriminate|].
  destruct (sqb_F_spec (1 / w)) as [S|S]; [|discriminate]. intros _. cbn [snd]. split.
  - apply is_sq_inv in S. assert (E : / (1 / w) = w).
    { symmetry. apply F_inv_unique. field. exact N. }
    rewrite E in S. exact S.
  - rewrite froot_ok by exact S. field. exact N.
Qed.
Lemma isr_false w : fst (sqrt_ratio_spec 1 w) = false -> w = 0 \/ ~ is_sq w.
Proof.
  unfold sqrt_ratio_spec. destruct (feqb_spec 1 0) as [E|_]; [elim (one_neq_zero E)|].
  destruct (feqb_spec w 0) as [E|N]; [left; exact E|].
  destruct (sqb_F_spec (1 / w)) as [S|S]; [discriminate|]. intros _. right. intros H. apply S.
  assert (E : 1 / w = / w) by (field; exact N). rewrite E. apply is_sq_inv. exact H.
Qed.
Lemma isr_zero : snd (sqrt_ratio_spec 1 0) = 0. Proof. reflexivity. Qed.
Lemma sr_zero u : snd (sqrt_ratio_spec u 0) = 0.
Proof.
  unfold sqrt_ratio_spec. destruct (feqb u 0); [reflexivity|]. destruct (feqb_spec 0 0) as [_|N]; [reflexivity|].
  elim N. reflexivity.
Qed.
Lemma sr_cases u v : u <> 0 -> v <> 0 -> forall ok s, sqrt_ratio_spec u v = (ok, s) ->
  fposb s = true /\
  ((ok = true /\ is_sq (u / v) /\ s * s * v = u) \/ (ok = false /\ ~ is_sq (u / v) /\ s * s * v = FI * u)).
Proof.
  intros U V ok s. unfold sqrt_ratio_spec.
  destruct (feqb_spec u 0) as [E|_]; [elim (U E)|]. destruct (feqb_spec v 0) as [E|_]; [elim (V E)|].
  destruct (sqb_F_spec (u / v)) as [S|S]; intros H;
    pose proof (f_equal fst H) as H1; pose proof (f_equal snd H) as H2; cbn [fst snd] in H1, H2; subst ok s;
    (split; [apply froot_pos|]).
  - left. split; [reflexivity|]. split; [exact S|]. rewrite froot_ok by exact S. field. exact V.
  - right. split; [reflexivity|]. split; [exact S|]. rewrite froot_ok by (apply i_times_nonsq; exact S).
    field. exact V.
Qed.
#[global] Opaque sqrt_ratio_spec.

Lemma cneg_abs ck x : fe_conditional_negate ck (enc x) (negb (fe_is_positive (enc x))) = Ok (enc (fabs x)).
Proof.
  rewrite fe_is_positive_F, fe_conditional_negate_F. unfold fabs. destruct (fposb x); reflexivity.
Qed.

(** ** Encoding *)
Definition cfun (X Y Z T : F) : F :=
  let u1 := (Z + Y) * (Z - Y) in
  let u2 := X * Y in
  let r := snd (sqrt_ratio_spec 1 (u1 * (u2 * u2))) in
  let D1 := u1 * r in
  let D2 := u2 * r in
  let zi := D1 * D2 * T in
  let rot := negb (fposb (T * zi)) in
  let x := if rot then FI * Y else X in
  let y := if rot then FI * X else Y in
  let D := if rot then D1 * FA else D2 in
  let y := if negb (fposb (x * zi)) then - y else y in
  fabs ((Z - y) * D).

Lemma rp_compress_enc ck X Y Z T :
  rp_compress ck (EPF X Y Z T) = Ok (fe_to_bytes (enc (cfun X Y Z T))).
Proof.
  unfold rp_compress, EPF. cbn [eX eY eZ eT]. rewrite FA_enc, FI_enc. frun.
  rewrite fe_inv_sqrt_F. frun. unfold cfun. cbv zeta.
  set (u1 := (Z + Y) * (Z - Y)). set (r := snd _). set (zi := u1 * r * (X * Y * r) * T).
  rewrite !fe_is_positive_F. destruct (negb (fposb (T * zi))); frun.
  - rewrite !fe_is_positive_F, fe_conditional_negate_F. frun.
    destruct (negb (fposb (FI * Y * zi))); rewrite cneg_abs; frun; reflexivity.
  - rewrite !fe_is_positive_F, fe_conditional_negate_F. frun.
    destruct (negb (fposb (X * zi))); rewrite cneg_abs; frun; reflexivity.
Qed.

Lemma cfun_degenerate A z : xc A * yc A = 0 ->
  cfun (xc A * z) (yc A * z) z (xc A * yc A * z) = 0.
Proof.
  intros H. unfold cfun. cbv zeta.
  assert (E : xc A * z * (yc A * z) = 0) by (transitivity (xc A * yc A * (z * z)); [ring|rewrite H; ring]).
  rewrite E, H.
  assert (E2 : (z + yc A * z) * (z - yc A * z) * (0 * 0) = 0) by ring. rewrite E2, isr_zero.
  assert (E3 : 0 * z * ((z + yc A * z) * (z - yc A * z) * 0 * (0 * 0) * (0 * z)) = 0) by ring.
  rewrite E3, fposb_zero. cbn [negb].
  assert (E4 : forall t, fabs (t * (0 * 0)) = 0).
  { intros t. assert (K : t * (0 * 0) = 0) by ring. rewrite K. reflexivity. }
  apply E4.
Qed.

(** The encoded value once the inverse square root is known. *)
Lemma finish C z D : z <> 0 -> D * D * (z * z) * (1 - yc C * yc C) = 1 ->
  esc C (fabs ((z - yc C * z) * D)).
Proof.
  intros N H. split; [apply fabs_pos|]. rewrite fabs_sq.
  transitivity (D * D * (z * z) * (1 - yc C * yc C) * (1 - yc C)); [ring|]. rewrite H. ring.
Qed.

Lemma y2_nz A : xc A * yc A <> 0 -> 1 - yc A * yc A <> 0.
Proof.
  intros H K. assert (E : xc A * xc A * ev A = 0).
  { rewrite ev_curve. transitivity (- (1 - yc A * yc A)); [ring|]. rewrite K. ring. }
  apply F_integral in E. destruct E as [E|E]; [|exact (ev_nz A E)]. apply F_sq_zero in E.
  apply H. rewrite E. ring.
Qed.

Lemma cfun_ok A z : z <> 0 -> even A ->
  esc (pick A) (cfun (xc A * z) (yc A * z) z (xc A * yc A * z)).
Proof.
  intros N E. unfold pick. destruct (feqb_spec (xc A * yc A) 0) as [H|H].
  { rewrite cfun_degenerate by exact H. split; [reflexivity|]. destruct pO_c as [_ ->]. ring. }
  unfold cfun. set (X := xc A * z). set (Y := yc A * z). set (T := xc A * yc A * z). cbv zeta.
  set (u1 := (z + Y) * (z - Y)). set (u2 := X * Y). set (w := u1 * (u2 * u2)).
  pose proof (y2_nz A H) as Hy.
  assert (U1 : u1 = (z * z) * (1 - yc A * yc A)) by (unfold u1, Y; ring).
  assert (U2 : u2 = (z * z) * (xc A * yc A)) by (unfold u2, X, Y; ring).
  assert (Nz : z * z <> 0) by (apply F_mul_nz; exact N).
  assert (N1 : u1 <> 0) by (rewrite U1; apply F_mul_nz; assumption).
  assert (N2 : u2 <> 0) by (rewrite U2; apply F_mul_nz; assumption).
  assert (Nw : w <> 0) by (apply F_mul_nz; [exact N1|apply F_mul_nz; exact N2]).
  assert (Sw : is_sq w).
  { apply is_sq_mul; [|exists u2; reflexivity]. rewrite U1. apply is_sq_mul; [exists z; reflexivity|].
    assert (K : 1 - yc A * yc A = - (1) * (xc A * xc A * ev A)) by (rewrite ev_curve; ring).
    rewrite K. apply is_sq_mul; [exact m1_sq|]. apply is_sq_mul; [exists (xc A); reflexivity|exact E]. }
  destruct (fst (sqrt_ratio_spec 1 w)) eqn:Ok.
  2:{ apply isr_false in Ok. destruct Ok as [K|K]; [elim (Nw K)|elim (K Sw)]. }
  apply isr_true in Ok. destruct Ok as [_ R]. set (r := snd (sqrt_ratio_spec 1 w)) in *.
  set (zi := u1 * r * (u2 * r) * T).
  assert (Zi : zi * z = 1).
  { transitivity (r * r * w); [|exact R]. unfold zi, w. assert (K : T * z = u2) by (unfold T; rewrite U2; ring).
    transitivity (u1 * r * (u2 * r) * (T * z)); [ring|]. rewrite K. ring. }
  assert (Tz : T * zi = xc A * yc A).
  { transitivity (xc A * yc A * (zi * z)); [unfold T; ring|]. rewrite Zi. ring. }
  rewrite Tz.
  set (rot := fposb (xc A * yc A)).
  set (Q := if rot then A else prot A).
  assert (X' : (if negb rot then FI * Y else X) = xc Q * z).
  { unfold Q. destruct rot; cbn [negb]; [reflexivity|]. destruct (prot_c A) as [-> _]. unfold Y. ring. }
  assert (Y' : (if negb rot then FI * X else Y) = yc Q * z).
  { unfold Q. destruct rot; cbn [negb]; [reflexivity|]. destruct (prot_c A) as [_ ->]. unfold X. ring. }
  set (D := if negb rot then u1 * r * FA else u2 * r).
  assert (HD : D * D * (z * z) * (1 - yc Q * yc Q) = 1).
  { unfold D, Q. destruct rot; cbn [negb].
    - transitivity (r * r * w); [|exact R]. transitivity (u2 * r * (u2 * r) * (z * z * (1 - yc A * yc A))); [ring|].
      rewrite <- U1. unfold w. ring.
    - destruct (prot_c A) as [_ ->].
      assert (K : (z * z) * u1 * (1 - FI * xc A * (FI * xc A)) = u2 * u2 * (- (1) - cd)).
      { rewrite U1, U2.
        transitivity (z * z * (z * z) * ((1 - yc A * yc A) * (1 - (FI * FI) * (xc A * xc A)))); [ring|].
        rewrite FI_sq. pose proof (on_c A) as C.
        transitivity (z * z * (z * z) * (1 - (- (xc A * xc A) + yc A * yc A) - xc A * xc A * (yc A * yc A))); [ring|].
        rewrite C. ring. }
      transitivity ((u1 * r * r) * (FA * FA) * ((z * z) * u1 * (1 - FI * xc A * (FI * xc A)))); [ring|].
      rewrite K. transitivity ((r * r * w) * (FA * FA * (- (1) - cd))); [unfold w; ring|].
      rewrite R, FA_sq. ring. }
  rewrite X', Y'.
  assert (Xi : xc Q * z * zi = xc Q) by (transitivity (xc Q * (zi * z)); [ring|rewrite Zi; ring]).
  rewrite Xi. destruct (fposb (xc Q)); cbn [negb].
  - apply finish; assumption.
  - destruct (pneg_c Q) as [_ E2].
    assert (E3 : - (yc Q * z) = yc (pneg Q) * z) by (rewrite E2; ring). rewrite E3.
    apply finish; [exact N|]. rewrite E2. transitivity (D * D * (z * z) * (1 - yc Q * yc Q)); [ring|exact HD].
Qed.

Lemma rp_compress_ok A z : z <> 0 -> even A ->
  exists s, esc (pick A) s /\ forall ck, rp_compress ck (ext A z) = Ok (fe_to_bytes (enc s)).
Proof.
  intros N E. eexists. split; [exact (cfun_ok A z N E)|]. intros ck. apply rp_compress_enc.
Qed.

(** ** Decoding *)
Definition dfun (s : F) : option (F * F) :=
  let u1 := 1 - s * s in
  let u2 := 1 + s * s in
  let v := - (cd * (u1 * u1)) - u2 * u2 in
  let (ok, r) := sqrt_ratio_spec 1 (v * (u2 * u2)) in
  if negb ok then None else
  let x := fabs ((s + s) * (r * u2)) in
  let y := u1 * (r * (r * u2) * v) in
  if negb (fposb (x * y)) || feqb y 0 then None else Some (x, y).

Lemma cr_decompress_enc ck b : is_bytes 32 b -> cr_decompress ck b =
  Ok (if (le_value b <=? (p - 1) / 2)%Z then
        option_map (fun A => EPF (fst A) (snd A) 1 (fst A * snd A)) (dfun (toF (le_value b)))
      else None).
Proof.
  intros B. unfold cr_decompress. cbv zeta. rewrite (fe_to_from_bytes b B).
  destruct (fe_from_bytes_ok b B) as [A V].
  assert (E : bytes_eqb b b = true) by (apply bytes_eqb_spec; reflexivity). rewrite E.
  rewrite fe_is_positive_ok by apply A. rewrite V.
  destruct (Z.leb_spec (le_value b) ((p - 1) / 2)) as [L|L]; [|reflexivity]. cbn [negb orb].
  assert (C : fcanon (fe_from_bytes b)).
  { split; [apply A|]. rewrite V. pose proof (le_value_bound 32 b B) as R. pose proof p_odd. lia. }
  rewrite <- (enc_fF _ C). unfold fF. rewrite V. set (s := toF (le_value b)).
  frun. rewrite fe_inv_sqrt_F. unfold dfun. cbv zeta.
  destruct (sqrt_ratio_spec 1 _) as [ok r]. cbn [fst snd]. rewrite bind_ok.
  destruct ok; cbn [negb]; [|reflexivity]. frun. rewrite cneg_abs. frun.
  rewrite fe_is_positive_F, fe_eqb_F.
  set (x := fabs _). set (y := (1 - s * s) * _).
  destruct (negb (fposb (x * y)) || feqb y 0); reflexivity.
Qed.

Lemma v_nz s : - (cd * ((1 - s * s) * (1 - s * s))) - (1 + s * s) * (1 + s * s) <> 0.
Proof.
  set (u1 := 1 - s * s). set (u2 := 1 + s * s). intros H.
  destruct (F_dec u1 0) as [Z|N].
  - assert (K : u2 * u2 = 0).
    { transitivity (- (- (cd * (u1 * u1)) - u2 * u2) - cd * (u1 * u1)); [ring|]. rewrite H, Z. ring. }
    apply F_sq_zero in K. apply one_neq_zero. apply F_double_zero.
    transitivity (u1 + u2); [unfold u1, u2; ring|]. rewrite Z, K. ring.
  - apply (e_nz (u1 / u2)). destruct (F_dec u2 0) as [Z|N2].
    + exfalso. apply cd_nz. apply (F_mul_cancel_l (u1 * u1)); [apply F_mul_nz; exact N|].
      transitivity (- (- (cd * (u1 * u1)) - u2 * u2) - u2 * u2); [ring|]. rewrite H, Z. ring.
    + transitivity (- (- (cd * (u1 * u1)) - u2 * u2) / (u2 * u2)); [field; exact N2|]. rewrite H.
      assert (K : - 0 = 0) by ring. rewrite K. apply fdiv_0.
Qed.

Lemma dfun_some s x y : fposb s = true -> dfun s = Some (x, y) ->
  exists A, pxy A = (x, y) /\ canonp A /\ even A /\ esc A s.
Proof.
  intros Ps. unfold dfun. cbv zeta. set (u1 := 1 - s * s). set (u2 := 1 + s * s).
  set (v := - (cd * (u1 * u1)) - u2 * u2).
  pose proof (isr_true (v * (u2 * u2))) as IS.
  destruct (sqrt_ratio_spec 1 (v * (u2 * u2))) as [ok r]. cbn [fst snd] in IS.
  destruct ok; cbn [negb]; [|discriminate]. destruct (IS eq_refl) as [Sw R]. clear IS.
  assert (N2 : u2 <> 0). { intros H. apply one_neq_zero. transitivity (r * r * (v * (u2 * u2))); [symmetry; exact R|]. rewrite H. ring. }
  set (Dx := r * u2). set (x' := fabs ((s + s) * Dx)). set (y' := u1 * (r * Dx * v)).
  assert (Y : y' = u1 / u2).
  { apply (F_mul_cancel_l u2); [exact N2|]. transitivity (u1 * (r * r * (v * (u2 * u2)))); [unfold y', Dx; ring|].
    rewrite R. field. exact N2. }
  assert (X : x' * x' * v = (s + s) * (s + s)).
  { unfold x'. rewrite fabs_sq. transitivity ((s + s) * (s + s) * (r * r * (v * (u2 * u2)))); [unfold Dx; ring|].
    rewrite R. ring. }
  destruct (fposb (x' * y')) eqn:Pt; cbn [negb orb]; [|discriminate].
  destruct (feqb_spec y' 0) as [E0|N0]; [discriminate|]. intros E. apply Some_inj in E.
  assert (Cv : on_curve (x', y')).
  { unfold on_curve. apply F_sub_eq. apply (F_mul_cancel_l (u2 * u2)); [apply F_mul_nz; exact N2|].
    transitivity (x' * x' * (- (cd * ((y' * u2) * (y' * u2))) - u2 * u2) + ((y' * u2) * (y' * u2)) - u2 * u2); [ring|].
    assert (K : y' * u2 = u1) by (rewrite Y; field; exact N2). rewrite K. fold v. rewrite X.
    unfold u1, u2. ring. }
  exists (pt_of (x', y') Cv). split; [exact E|].
  assert (C : xc (pt_of (x', y') Cv) = x' /\ yc (pt_of (x', y') Cv) = y') by (split; reflexivity).
  unfold canonp, even, ev, esc. destruct C as [-> ->]. split; [|split].
  - split; [apply fabs_pos|]. split; [exact Pt|]. split; [exact N0|].
    intros H. apply two_nz. rewrite Y in H.
    assert (K : u1 = - u2) by (transitivity (u1 / u2 * u2); [field; exact N2|rewrite H; ring]).
    assert (K2 : u1 + u2 = 0) by (rewrite K; ring).
    rewrite <- K2. unfold u1, u2. apply Feq. transitivity (Fval (1 + 1)); [reflexivity|]. apply f_equal. ring.
  - assert (K : 1 + cd * (y' * y') = - (1) * (v * (u2 * u2)) * (/ (u2 * u2) * / (u2 * u2))).
    { rewrite Y. unfold v. field. exact N2. }
    rewrite K. apply is_sq_mul; [|exists (/ (u2 * u2)); reflexivity].
    apply is_sq_mul; [exact m1_sq|exact Sw].
  - split; [exact Ps|]. rewrite Y.
    transitivity (s * s * ((u1 + u2) / u2)); [field; exact N2|].
    transitivity ((u2 - u1) / u2); [|field; exact N2].
    assert (K : u2 - u1 = s * s * (u1 + u2)) by (unfold u1, u2; ring). rewrite K. field. exact N2.
Qed.

Lemma dfun_ok A s : canonp A -> even A -> esc A s -> dfun s = Some (xc A, yc A).
Proof.
  intros C E S. destruct (esc_y A s S) as [N2 Y].
  unfold dfun. cbv zeta. set (u1 := 1 - s * s) in *. set (u2 := 1 + s * s) in *.
  pose proof (v_nz s) as Nv. fold u1 u2 in Nv. set (v := - (cd * (u1 * u1)) - u2 * u2) in *.
  pose proof (isr_true (v * (u2 * u2))) as IT. pose proof (isr_false (v * (u2 * u2))) as IF.
  destruct (sqrt_ratio_spec 1 (v * (u2 * u2))) as [ok r]. cbn [fst snd] in IT, IF.
  assert (Ev : v = - (1) * ev A * (u2 * u2)).
  { unfold ev, v. rewrite Y. field. exact N2. }
  destruct ok; cbn [negb].
  2:{ exfalso. destruct (IF eq_refl) as [K|K].
      - revert K. apply F_mul_nz; [exact Nv|apply F_mul_nz; exact N2].
      - apply K. apply is_sq_mul; [|exists u2; reflexivity]. rewrite Ev.
        apply is_sq_mul; [|exists u2; reflexivity]. apply is_sq_mul; [exact m1_sq|exact E]. }
  destruct (IT eq_refl) as [_ R]. clear IT IF.
  assert (Y' : u1 * (r * (r * u2) * v) = yc A).
  { rewrite Y. apply (F_mul_cancel_l u2); [exact N2|].
    transitivity (u1 * (r * r * (v * (u2 * u2)))); [ring|]. rewrite R. field. exact N2. }
  assert (X' : fabs ((s + s) * (r * u2)) = xc A).
  { destruct C as (Px & _). apply fpos_sq_inj; [apply fabs_pos|exact Px|]. rewrite fabs_sq.
    apply (F_mul_cancel_l v); [exact Nv|].
    transitivity ((s + s) * (s + s) * (r * r * (v * (u2 * u2)))); [ring|]. rewrite R.
    rewrite Ev. transitivity (- (xc A * xc A * ev A) * (u2 * u2)); [|ring]. rewrite ev_curve, Y.
    transitivity (u2 * u2 - u1 * u1); [unfold u1, u2; ring|]. field. exact N2. }
  rewrite X', Y'. destruct C as (Px & Pt & N0 & _). rewrite Pt. cbn [negb orb].
  destruct (feqb_spec (yc A) 0) as [K|K]; [elim (N0 K)|reflexivity].
Qed.

Lemma ext_1 A : EPF (xc A) (yc A) 1 (xc A * yc A) = ext A 1.
Proof. unfold ext, xc, yc. apply EPF_eq; ring. Qed.

Lemma cr_decompress_some A s b : is_bytes 32 b -> canonp A -> even A -> esc A s -> le_value b = Fval s ->
  forall ck, cr_decompress ck b = Ok (Some (ext A 1)).
Proof.
  intros B C E S V ck. rewrite (cr_decompress_enc ck b B), V, toF_Fval.
  pose proof (proj1 S) as Ps. unfold fposb in Ps. rewrite Ps, (dfun_ok A s C E S). cbn [option_map fst snd].
  rewrite ext_1. reflexivity.
Qed.

Lemma cr_decompress_spec b : is_bytes 32 b -> exists o, (forall ck, cr_decompress ck b = Ok o) /\
  match o with
  | Some P => exists A s, P = ext A 1 /\ canonp A /\ even A /\ esc A s /\ le_value b = Fval s
  | None => forall A s, canonp A -> even A -> esc A s -> le_value b <> Fval s
  end.
Proof.
  intros B.
  exists (if (le_value b <=? (p - 1) / 2)%Z then
        option_map (fun A => EPF (fst A) (snd A) 1 (fst A * snd A)) (dfun (toF (le_value b)))
      else None).
  split; [intros ck; apply cr_decompress_enc; exact B|].
  assert (No : (if (le_value b <=? (p - 1) / 2)%Z then
        option_map (fun A => EPF (fst A) (snd A) 1 (fst A * snd A)) (dfun (toF (le_value b)))
      else None) = None -> forall A s, canonp A -> even A -> esc A s -> le_value b <> Fval s).
  { intros H A s C E S V. pose proof (cr_decompress_some A s b B C E S V true) as K.
    rewrite cr_decompress_enc in K by exact B.
    apply (f_equal (fun r => match r with Ok o => o | _ => None end)) in K.
    apply (Some_None (ext A 1)). rewrite <- H. symmetry. exact K. }
  destruct (Z.leb_spec (le_value b) ((p - 1) / 2)) as [L|L]; [|apply No; reflexivity].
  destruct (dfun (toF (le_value b))) as [[x y]|] eqn:D; cbn [option_map fst snd] in *; [|apply No; reflexivity].
  assert (V : Fval (toF (le_value b)) = le_value b).
  { rewrite Fval_toF. apply Z.mod_small. pose proof (le_value_bound 32 b B) as Rb. pose proof p_odd as O.
    clear - L Rb O. lia. }
  assert (Ps : fposb (toF (le_value b)) = true).
  { unfold fposb. rewrite V. apply Z.leb_le. exact L. }
  destruct (dfun_some _ _ _ Ps D) as (A & EA & C & E & S).
  exists A, (toF (le_value b)). split; [|split; [exact C|split; [exact E|split; [exact S|symmetry; exact V]]]].
  rewrite <- ext_1. unfold xc, yc. rewrite EA. reflexivity.
Qed.
