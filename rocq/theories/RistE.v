(** * The Elligator map and uniform bytes *)

From Coq Require Import ZArith List Bool Lia Ring Field.
From Verif Require Import Machine FieldModel ScalarModel EdwardsModel RistrettoModel Spec NumTheory Primes MachineFacts
  FieldOps FieldBytes Fp FieldF FieldInv Curve CurveGroup EdwardsF EdwardsY Rist RistF.
Import ListNotations.
Open Scope F_scope.

Definition fneg_abs (x : F) : F := if fposb x then - x else x.

Definition el_r (r0 : F) : F := FI * (r0 * r0).
Definition el_N (r : F) : F := (r + 1) * (1 - cd * cd).
Definition el_D (r : F) : F := (- (1) - cd * r) * (r + cd).
Definition el_ok (r0 : F) : bool := fst (sqrt_ratio_spec (el_N (el_r r0)) (el_D (el_r r0))).
Definition el_s0 (r0 : F) : F := snd (sqrt_ratio_spec (el_N (el_r r0)) (el_D (el_r r0))).
Definition el_s (r0 : F) : F := if el_ok r0 then el_s0 r0 else fneg_abs (el_s0 r0 * r0).
Definition el_c (r0 : F) : F := if el_ok r0 then - (1) else el_r r0.
Definition el_T (r0 : F) : F := el_c r0 * (el_r r0 - 1) * ((cd - 1) * (cd - 1)) - el_D (el_r r0).

Lemma rp_elligator_run ck a : floadable a ->
  rp_elligator ck a =
  Ok (let r0 := fF a in let s := el_s r0 in
      let W0 := (s + s) * el_D (el_r r0) in let W1 := el_T r0 * FB in
      let W2 := 1 - s * s in let W3 := 1 + s * s in
      EPF (W0 * W3) (W2 * W1) (W1 * W3) (W0 * W2)).
Proof.
  intros A. unfold rp_elligator. cbv zeta. rewrite FB_enc. fconst.
  rewrite (fe_square_ld ck a A). repeat (progress fstep).
  rewrite fe_sqrt_ratio_i_F, bind_ok. fold (el_r (fF a)).
  fold (el_N (el_r (fF a))). fold (el_D (el_r (fF a))). fold (el_ok (fF a)). fold (el_s0 (fF a)).
  rewrite (fe_mul_ld ck _ a (enc_ld _) A). rewrite fF_enc, bind_ok.
  rewrite fe_is_positive_F, fe_conditional_negate_F, bind_ok. fold (fneg_abs (el_s0 (fF a) * fF a)).
  rewrite !fe_select_F.
  assert (E1 : (if negb (el_ok (fF a)) then fneg_abs (el_s0 (fF a) * fF a) else el_s0 (fF a)) = el_s (fF a)).
  { unfold el_s. destruct (el_ok (fF a)); reflexivity. }
  assert (E2 : (if negb (el_ok (fF a)) then el_r (fF a) else - (1)) = el_c (fF a)).
  { unfold el_c. destruct (el_ok (fF a)); reflexivity. }
  rewrite E1, E2. repeat (progress fstep). fold (el_T (fF a)). reflexivity.
Qed.

Lemma el_r_cases r0 : el_r r0 = 0 \/ ~ is_sq (el_r r0).
Proof.
  destruct (F_dec r0 0) as [->|N]; [left; unfold el_r; ring|right].
  apply nonsq_mul_sq; [exact FI_nonsq|exists r0; reflexivity|apply F_mul_nz; exact N].
Qed.
Lemma one_sq : is_sq 1. Proof. exists 1. ring. Qed.
Lemma el_N_nz r0 : el_N (el_r r0) <> 0.
Proof.
  unfold el_N. apply F_mul_nz.
  - intros H. assert (E : el_r r0 = - (1)) by (transitivity (el_r r0 + 1 - 1); [ring|rewrite H; ring]).
    destruct (el_r_cases r0) as [K|K].
    + rewrite K in E. apply one_neq_zero. transitivity (- - (1)); [ring|]. rewrite <- E. ring.
    + apply K. rewrite E. exact m1_sq.
  - intros H. assert (E : cd * cd = 1 * 1) by (transitivity (1 - (1 - cd * cd)); [ring|rewrite H; ring]).
    apply F_sq_eq in E. apply cd_nonsq. destruct E as [-> | ->]; [exact one_sq|exact m1_sq].
Qed.
Lemma el_r1_nz r0 : el_r r0 - 1 <> 0.
Proof.
  intros H. assert (E : el_r r0 = 1) by (transitivity (el_r r0 - 1 + 1); [ring|rewrite H; ring]).
  destruct (el_r_cases r0) as [K|K].
  - apply one_neq_zero. rewrite <- E. exact K.
  - apply K. rewrite E. exact one_sq.
Qed.
Lemma fneg_abs_sq x : fneg_abs x * fneg_abs x = x * x.
Proof. unfold fneg_abs. destruct (fposb x); ring. Qed.
Lemma fneg_abs_neg x : fposb (- fneg_abs x) = true.
Proof.
  unfold fneg_abs. destruct (fposb x) eqn:E.
  - assert (K : - - x = x) by ring. rewrite K. exact E.
  - destruct (fpos_some x) as [H|H]; [rewrite H in E; discriminate|exact H].
Qed.
Lemma fneg_abs_opp x : fneg_abs (- x) = fneg_abs x.
Proof.
  destruct (F_dec x 0) as [->|N]; [reflexivity|]. unfold fneg_abs. rewrite fposb_opp by exact N.
  destruct (fposb x); cbn [negb]; ring.
Qed.

(** When the denominator vanishes, s = 0. *)
Lemma el_D0 r0 : el_D (el_r r0) = 0 -> el_s r0 = 0 /\ el_T r0 <> 0.
Proof.
  intros H. assert (S0 : el_s0 r0 = 0) by (unfold el_s0; rewrite H; apply sr_zero). split.
  - unfold el_s. rewrite S0. destruct (el_ok r0); [reflexivity|].
    assert (K : 0 * r0 = 0) by ring. rewrite K. reflexivity.
  - unfold el_T. rewrite H. intros K.
    assert (E : el_c r0 * (el_r r0 - 1) * ((cd - 1) * (cd - 1)) = 0).
    { transitivity (el_c r0 * (el_r r0 - 1) * ((cd - 1) * (cd - 1)) - 0); [ring|exact K]. }
    revert E. apply F_mul_nz; [apply F_mul_nz; [|apply el_r1_nz]|].
    + unfold el_c. destruct (el_ok r0).
      * intros E. apply one_neq_zero. transitivity (- - (1)); [ring|]. rewrite E. ring.
      * intros E. revert H. unfold el_D. rewrite E. intros H. apply cd_nz.
        transitivity (- ((- (1) - cd * 0) * (0 + cd))); [ring|]. rewrite H. ring.
    + assert (N : cd - 1 <> 0).
      { intros E. apply cd_nonsq. assert (C : cd = 1) by (transitivity (cd - 1 + 1); [ring|rewrite E; ring]).
        rewrite C. exact one_sq. }
      apply F_mul_nz; exact N.
Qed.

(** Otherwise s^2 is N/D or rN/D. *)
Lemma el_cases r0 : el_D (el_r r0) <> 0 ->
  (is_sq (el_N (el_r r0) / el_D (el_r r0)) /\ el_c r0 = - (1) /\ fposb (el_s r0) = true /\
   el_s r0 * el_s r0 * el_D (el_r r0) = el_N (el_r r0)) \/
  (~ is_sq (el_N (el_r r0) / el_D (el_r r0)) /\ el_c r0 = el_r r0 /\ fposb (- el_s r0) = true /\
   el_s r0 * el_s r0 * el_D (el_r r0) = el_r r0 * el_N (el_r r0)).
Proof.
  intros N. destruct (sr_cases _ _ (el_N_nz r0) N (el_ok r0) (el_s0 r0)) as [P K].
  { unfold el_ok, el_s0. apply surjective_pairing. }
  unfold el_s, el_c. destruct K as [(-> & S & E)|(-> & S & E)]; [left|right].
  - split; [exact S|]. split; [reflexivity|]. split; [exact P|exact E].
  - split; [exact S|]. split; [reflexivity|]. split; [apply fneg_abs_neg|].
    rewrite fneg_abs_sq. transitivity (el_s0 r0 * el_s0 r0 * el_D (el_r r0) * (r0 * r0)); [ring|].
    rewrite E. transitivity (FI * (r0 * r0) * el_N (el_r r0)); [ring|reflexivity].
Qed.

Lemma el_curve r0 : el_D (el_r r0) <> 0 ->
  let s := el_s r0 in let u1 := 1 - s * s in let u2 := 1 + s * s in
  el_D (el_r r0) * el_D (el_r r0) * (- (cd * (u1 * u1)) - u2 * u2) =
  el_T r0 * el_T r0 * (- (1) - cd).
Proof.
  intros N s u1 u2. set (D := el_D (el_r r0)) in *.
  assert (E : D * D * (- (cd * (u1 * u1)) - u2 * u2) =
     - (cd * ((D - s * s * D) * (D - s * s * D))) - (D + s * s * D) * (D + s * s * D)).
  { unfold u1, u2. ring. }
  rewrite E. unfold el_T. destruct (el_cases r0 N) as [(_ & -> & _ & K)|(_ & -> & _ & K)]; fold s D in K; rewrite K;
    unfold D, el_D, el_N; ring.
Qed.
Lemma el_T_nz r0 : el_T r0 <> 0.
Proof.
  destruct (F_dec (el_D (el_r r0)) 0) as [H|N]; [exact (proj2 (el_D0 r0 H))|].
  intros K. pose proof (el_curve r0 N) as E. cbv zeta in E. rewrite K in E.
  assert (Z : 0 * 0 * (- (1) - cd) = 0) by ring. rewrite Z in E. revert E.
  apply F_mul_nz; [apply F_mul_nz; exact N|]. apply v_nz.
Qed.
Lemma el_u2_nz r0 : 1 + el_s r0 * el_s r0 <> 0.
Proof.
  intros H. assert (S : el_s r0 * el_s r0 = - (1)) by (transitivity (1 + el_s r0 * el_s r0 - 1); [ring|rewrite H; ring]).
  destruct (F_dec (el_D (el_r r0)) 0) as [Z|N].
  - destruct (el_D0 r0 Z) as [E _]. apply one_neq_zero. transitivity (- - (1)); [ring|]. rewrite <- S, E. ring.
  - pose proof (el_curve r0 N) as E. cbv zeta in E. rewrite S in E.
    apply cd_nonsq. set (D := el_D (el_r r0)) in *.
    assert (N2 : ftwo * D <> 0) by (apply F_mul_nz; [exact two_nz|exact N]).
    apply (is_sq_mul_cancel (ftwo * D * (ftwo * D))).
    + apply F_mul_nz; exact N2.
    + exists (ftwo * D). reflexivity.
    + assert (T2 : ftwo = 1 + 1) by (apply Feq; reflexivity).
      assert (K : ftwo * D * (ftwo * D) * cd = - (1) * (el_T r0 * el_T r0 * (- (1) - cd))).
      { rewrite <- E, T2. ring. }
      rewrite K. apply is_sq_mul; [exact m1_sq|]. apply is_sq_mul; [exists (el_T r0); reflexivity|exact m1d_sq].
Qed.
Lemma FB_nz : FB <> 0.
Proof.
  intros H. apply m1d_nz. transitivity (- cd - 1); [ring|]. rewrite <- FB_sq, H. ring.
Qed.

(** The point. *)
Definition el_x (r0 : F) : F := (el_s r0 + el_s r0) * el_D (el_r r0) / (el_T r0 * FB).
Definition el_y (r0 : F) : F := (1 - el_s r0 * el_s r0) / (1 + el_s r0 * el_s r0).
Lemma el_on r0 : on_curve (el_x r0, el_y r0).
Proof.
  unfold on_curve, el_x, el_y. pose proof (el_u2_nz r0) as N2.
  pose proof (F_mul_nz _ _ (el_T_nz r0) FB_nz) as N1.
  set (s := el_s r0) in *. set (D := el_D (el_r r0)) in *. set (W1 := el_T r0 * FB) in *.
  set (u2 := 1 + s * s) in *. set (u1 := 1 - s * s) in *.
  assert (K : (s + s) * D * ((s + s) * D) * (- (cd * (u1 * u1)) - u2 * u2) = (u2 * u2 - u1 * u1) * (W1 * W1)).
  { assert (U : u2 * u2 - u1 * u1 = (s + s) * (s + s)) by (unfold u1, u2; ring). rewrite U.
    destruct (F_dec D 0) as [Z|N].
    - destruct (el_D0 r0 Z) as [E _]. fold s in E. rewrite E. ring.
    - pose proof (el_curve r0 N) as E. cbv zeta in E. fold s D u1 u2 in E.
      transitivity ((s + s) * (s + s) * (D * D * (- (cd * (u1 * u1)) - u2 * u2))); [ring|]. rewrite E.
      unfold W1. transitivity ((s + s) * (s + s) * (el_T r0 * el_T r0 * (FB * FB))); [rewrite FB_sq; ring|ring]. }
  apply F_sub_eq. apply (F_mul_cancel_l (W1 * W1 * (u2 * u2))).
  { apply F_mul_nz; apply F_mul_nz; assumption. }
  transitivity ((s + s) * D * ((s + s) * D) * (- (cd * (u1 * u1)) - u2 * u2) - (u2 * u2 - u1 * u1) * (W1 * W1)).
  { clearbody u1 u2 W1 D s. field. split; assumption. }
  rewrite K. ring.
Qed.
Definition el_pt (r0 : F) : pt := pt_of _ (el_on r0).
Lemma el_c_eq r0 : xc (el_pt r0) = el_x r0 /\ yc (el_pt r0) = el_y r0.
Proof. split; reflexivity. Qed.
Lemma el_even r0 : even (el_pt r0).
Proof.
  unfold even, ev. destruct (el_c_eq r0) as [_ ->]. pose proof (el_u2_nz r0) as N2. unfold el_y.
  set (s := el_s r0) in *. set (u1 := 1 - s * s). set (u2 := 1 + s * s) in *.
  assert (V : is_sq (- (cd * (u1 * u1)) - u2 * u2)).
  { destruct (F_dec (el_D (el_r r0)) 0) as [Z|N].
    - destruct (el_D0 r0 Z) as [E _]. fold s in E. unfold u1, u2. rewrite E.
      assert (K : - (cd * ((1 - 0 * 0) * (1 - 0 * 0))) - (1 + 0 * 0) * (1 + 0 * 0) = - (1) - cd) by ring.
      rewrite K. exact m1d_sq.
    - pose proof (el_curve r0 N) as E. cbv zeta in E. fold s u1 u2 in E. set (D := el_D (el_r r0)) in *.
      apply (is_sq_mul_cancel (D * D)); [apply F_mul_nz; exact N|exists D; reflexivity|].
      rewrite E. apply is_sq_mul; [exists (el_T r0); reflexivity|exact m1d_sq]. }
  assert (K : 1 + cd * (u1 / u2 * (u1 / u2)) = - (1) * (- (cd * (u1 * u1)) - u2 * u2) * (/ u2 * / u2)).
  { clearbody u1 u2. field. exact N2. }
  rewrite K. apply is_sq_mul; [|exists (/ u2); reflexivity]. apply is_sq_mul; [exact m1_sq|exact V].
Qed.
Lemma rp_elligator_ok a : floadable a ->
  exists z, z <> 0 /\ forall ck, rp_elligator ck a = Ok (ext (el_pt (fF a)) z).
Proof.
  intros A. exists (el_T (fF a) * FB * (1 + el_s (fF a) * el_s (fF a))).
  pose proof (F_mul_nz _ _ (el_T_nz (fF a)) FB_nz) as N1. pose proof (el_u2_nz (fF a)) as N2.
  split; [apply F_mul_nz; assumption|]. intros ck. rewrite rp_elligator_run by exact A. cbv zeta.
  apply f_equal. unfold ext. fold (xc (el_pt (fF a))) (yc (el_pt (fF a))).
  destruct (el_c_eq (fF a)) as [-> ->]. unfold el_x, el_y.
  set (s := el_s (fF a)) in *. set (D := el_D _) in *. set (W1 := el_T _ * FB) in *. set (u2 := 1 + s * s) in *.
  set (u1 := 1 - s * s). clearbody u1 u2 W1 D s. apply EPF_eq; (field; nz) || ring.
Qed.
Lemma el_opp r0 : el_pt (- r0) = el_pt r0.
Proof.
  assert (R : el_r (- r0) = el_r r0) by (unfold el_r; ring).
  assert (Ok : el_ok (- r0) = el_ok r0) by (unfold el_ok; rewrite R; reflexivity).
  assert (S0 : el_s0 (- r0) = el_s0 r0) by (unfold el_s0; rewrite R; reflexivity).
  assert (S : el_s (- r0) = el_s r0).
  { unfold el_s. rewrite Ok, S0. destruct (el_ok r0); [reflexivity|].
    assert (K : el_s0 r0 * - r0 = - (el_s0 r0 * r0)) by ring. rewrite K. apply fneg_abs_opp. }
  assert (T : el_T (- r0) = el_T r0) by (unfold el_T, el_c; rewrite R, Ok; reflexivity).
  apply pt_c.
  - rewrite (proj1 (el_c_eq (- r0))), (proj1 (el_c_eq r0)). unfold el_x. rewrite S, T, R. reflexivity.
  - rewrite (proj2 (el_c_eq (- r0))), (proj2 (el_c_eq r0)). unfold el_y. rewrite S. reflexivity.
Qed.

(** ** Uniform bytes *)
Lemma copy_ok (l : list Z) n : length l = n -> copy_from_slice n l = Ok l.
Proof. intros <-. unfold copy_from_slice. rewrite Nat.eqb_refl. reflexivity. Qed.

Lemma rp_from_uniform_bytes_ok b : is_bytes 64 b ->
  exists z, z <> 0 /\ forall ck, rp_from_uniform_bytes ck b =
    Ok (ext (padd (el_pt (toF (le_value (firstn 32 b)))) (el_pt (toF (le_value (skipn 32 b))))) z).
Proof.
  intros [L F].
  assert (B1 : is_bytes 32 (firstn 32 b)).
  { split; [rewrite firstn_length, L; reflexivity|]. apply Forall_forall. intros x Hx.
    rewrite Forall_forall in F. apply F. rewrite <- (firstn_skipn 32 b). apply in_or_app. left. exact Hx. }
  assert (B2 : is_bytes 32 (skipn 32 b)).
  { split; [rewrite skipn_length, L; reflexivity|]. apply Forall_forall. intros x Hx.
    rewrite Forall_forall in F. apply F. rewrite <- (firstn_skipn 32 b). apply in_or_app. right. exact Hx. }
  assert (E2 : firstn 32 (skipn 32 b) = skipn 32 b) by (apply firstn_all2; rewrite (proj1 B2); constructor).
  destruct (fe_from_bytes_ok _ B1) as [A1 V1]. destruct (fe_from_bytes_ok _ B2) as [A2 V2].
  destruct (rp_elligator_ok _ A1) as (z1 & N1 & R1). destruct (rp_elligator_ok _ A2) as (z2 & N2 & R2).
  unfold fF in R1, R2. rewrite V1 in R1. rewrite V2 in R2.
  set (P1 := el_pt (toF (le_value (firstn 32 b)))) in *. set (P2 := el_pt (toF (le_value (skipn 32 b)))) in *.
  destruct (rext_add (ext P1 z1) (ext P2 z2) P1 P2) as (R & ER & z & N & EZ).
  { exists z1. split; [exact N1|reflexivity]. }
  { exists z2. split; [exact N2|reflexivity]. }
  exists z. split; [exact N|]. intros ck. unfold rp_from_uniform_bytes. rewrite E2.
  rewrite !copy_ok by (apply B1 || apply B2). rewrite !bind_ok, R1, !bind_ok, R2, bind_ok.
  unfold rp_add. rewrite ER, EZ. reflexivity.
Qed.
