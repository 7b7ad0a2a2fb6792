(** * Group law of the curve *)

From Coq Require Import ZArith List Bool Lia Ring Field Eqdep_dec.
From Verif Require Import Machine FieldModel Spec NumTheory Primes Fp FieldF FieldInv Curve.
Import ListNotations.
Open Scope F_scope.

(** ** The constant d *)

Definition dz : Z := Eval vm_compute in fval EDWARDS_D.
Definition FD : F := Eval vm_compute in toF dz.

Lemma cd_FD : cd = FD.
Proof.
  unfold cd. assert (N : toF 126297 <> 0).
  { intros H. apply (f_equal Fval) in H. vm_compute in H. discriminate. }
  apply (F_mul_cancel_l (toF 126297) _ _ N).
  transitivity (- toF 126296); [field; exact N|].
  apply Feq. vm_compute. reflexivity.
Qed.
Lemma enc_FD : EDWARDS_D = enc FD. Proof. reflexivity. Qed.
Lemma enc_cd : EDWARDS_D = enc cd. Proof. rewrite cd_FD. reflexivity. Qed.

Lemma cd_nonsq : ~ is_sq cd.
Proof. rewrite cd_FD, <- (toF_Fval FD). apply nsqb_true. vm_compute. reflexivity. Qed.
Lemma cd_nz : cd <> 0.
Proof. intros H. apply cd_nonsq. rewrite H. apply is_sq_zero. Qed.

Lemma fdiv_1 x : x / 1 = x.
Proof. field. exact one_neq_zero. Qed.
Lemma fdiv_diag x : x <> 0 -> x / x = 1.
Proof. intros N. field. exact N. Qed.
Lemma fdiv_0 x : 0 / x = 0.
Proof. unfold fdiv. ring. Qed.

#[global] Opaque cd fadd fsub fmul fopp finv fdiv toF fzero fone feqb.

(** c = 1/d turns the curve equation into a rewriting rule. *)
Definition cc : F := / cd.
Lemma cc_nz : cc <> 0. Proof. apply F_inv_nz, cd_nz. Qed.
Lemma cd_cc : cd * cc = 1. Proof. unfold cc. field. exact cd_nz. Qed.
Lemma cd_inv : cd = / cc. Proof. apply F_inv_unique. rewrite <- cd_cc. ring. Qed.

Lemma curve_cc x y : on_curve (x, y) <-> (x * x) * (y * y) = cc * (y * y - x * x - 1).
Proof.
  unfold on_curve. split; intros H.
  - apply (F_mul_cancel_l cd); [exact cd_nz|].
    transitivity (cd * (x * x) * (y * y)); [ring|].
    transitivity (cd * cc * (y * y - x * x - 1)); [|ring]. rewrite cd_cc.
    transitivity (1 + cd * (x * x) * (y * y) - 1); [ring|]. rewrite <- H. ring.
  - transitivity (1 + cd * ((x * x) * (y * y))); [|ring]. rewrite H.
    transitivity (1 + cd * cc * (y * y - x * x - 1)); [|ring]. rewrite cd_cc. ring.
Qed.

(** ** Completeness *)

Lemma complete_sq x1 y1 x2 y2 : on_curve (x1, y1) -> on_curve (x2, y2) ->
  (cd * x1 * x2 * y1 * y2) * (cd * x1 * x2 * y1 * y2) <> 1.
Proof.
  unfold on_curve. intros H1 H2 E. set (e := cd * x1 * x2 * y1 * y2) in *.
  assert (NZ : e <> 0). { intros Z. rewrite Z in E. apply one_neq_zero. rewrite <- E. ring. }
  assert (x1 <> 0) by (intros ->; apply NZ; unfold e; ring).
  assert (y1 <> 0) by (intros ->; apply NZ; unfold e; ring).
  assert (X2 : x2 <> 0) by (intros ->; apply NZ; unfold e; ring).
  assert (K : cd * (x1 * x1) * (y1 * y1) * (y2 * y2 - x2 * x2) = y1 * y1 * (e * e) - x1 * x1).
  { rewrite E. transitivity (cd * (x1 * x1) * (y1 * y1) * (- (x2 * x2) + y2 * y2)); [ring|].
    rewrite H2. transitivity (cd * (x1 * x1) * (y1 * y1) + e * e); [unfold e; ring|].
    rewrite E. transitivity (1 + cd * (x1 * x1) * (y1 * y1)); [ring|]. rewrite <- H1. ring. }
  assert (A : forall s, s * s = - (1) -> s * x2 + y2 <> 0 -> False).
  { intros s S N. apply cd_nonsq.
    assert (Q : (s * x1 + e * y1) * (s * x1 + e * y1) =
                cd * ((x1 * y1 * (s * x2 + y2)) * (x1 * y1 * (s * x2 + y2)))).
    { transitivity ((s * s) * (x1 * x1) + y1 * y1 * (e * e) + (1 + 1) * s * x1 * y1 * e); [ring|].
      rewrite S. transitivity (y1 * y1 * (e * e) - x1 * x1 + (1 + 1) * s * x1 * y1 * e); [ring|].
      rewrite <- K. unfold e.
      transitivity (cd * ((x1 * y1) * (x1 * y1) * ((s * s) * (x2 * x2) + (1 + 1) * s * x2 * y2 + y2 * y2)));
        [rewrite S; ring|ring]. }
    set (w := x1 * y1 * (s * x2 + y2)) in *.
    assert (W : w <> 0) by (unfold w; repeat apply F_mul_nz; assumption).
    exists ((s * x1 + e * y1) / w).
    transitivity ((s * x1 + e * y1) * (s * x1 + e * y1) / (w * w)); [field; assumption|].
    rewrite Q. field. assumption. }
  assert (FIS : fi * fi = - (1)) by exact fi_sq.
  destruct (F_dec (fi * x2 + y2) 0) as [Z1|N]; [|exact (A fi FIS N)].
  destruct (F_dec (- fi * x2 + y2) 0) as [Z2|N].
  - apply X2. apply (F_mul_cancel_l fi).
    { intros Z. rewrite Z in FIS. apply one_neq_zero. transitivity (- - (1)); [ring|].
      rewrite <- FIS. ring. }
    apply F_double_zero in Z1 || idtac.
    assert (D : fi * x2 + fi * x2 = 0).
    { transitivity ((fi * x2 + y2) - (- fi * x2 + y2)); [ring|]. rewrite Z1, Z2. ring. }
    apply F_double_zero in D. rewrite D. ring.
  - apply (A (- fi)); [|exact N]. transitivity (fi * fi); [ring|exact FIS].
Qed.

Lemma complete_plus x1 y1 x2 y2 : on_curve (x1, y1) -> on_curve (x2, y2) ->
  1 + cd * x1 * x2 * y1 * y2 <> 0.
Proof.
  intros H1 H2 E. apply (complete_sq _ _ _ _ H1 H2).
  assert (X : cd * x1 * x2 * y1 * y2 = 1 + cd * x1 * x2 * y1 * y2 - 1) by ring.
  rewrite E in X. rewrite X. ring.
Qed.
Lemma complete_minus x1 y1 x2 y2 : on_curve (x1, y1) -> on_curve (x2, y2) ->
  1 - cd * x1 * x2 * y1 * y2 <> 0.
Proof.
  intros H1 H2 E. apply (complete_sq _ _ _ _ H1 H2).
  assert (X : cd * x1 * x2 * y1 * y2 = 1 - (1 - cd * x1 * x2 * y1 * y2)) by ring.
  rewrite E in X. rewrite X. ring.
Qed.

(** Forms with c. *)
Lemma cc_plus x1 y1 x2 y2 : on_curve (x1, y1) -> on_curve (x2, y2) -> cc + x1 * x2 * y1 * y2 <> 0.
Proof.
  intros H1 H2 E. apply (complete_plus _ _ _ _ H1 H2). rewrite cd_inv.
  transitivity ((cc + x1 * x2 * y1 * y2) / cc); [field; exact cc_nz|]. rewrite E. field. exact cc_nz.
Qed.
Lemma cc_minus x1 y1 x2 y2 : on_curve (x1, y1) -> on_curve (x2, y2) -> cc - x1 * x2 * y1 * y2 <> 0.
Proof.
  intros H1 H2 E. apply (complete_minus _ _ _ _ H1 H2). rewrite cd_inv.
  transitivity ((cc - x1 * x2 * y1 * y2) / cc); [field; exact cc_nz|]. rewrite E. field. exact cc_nz.
Qed.

Lemma sum_cc x1 y1 x2 y2 : on_curve (x1, y1) -> on_curve (x2, y2) ->
  sum (x1, y1) (x2, y2) =
  (cc * (x1 * y2 + y1 * x2) / (cc + x1 * x2 * y1 * y2),
   cc * (y1 * y2 + x1 * x2) / (cc - x1 * x2 * y1 * y2)).
Proof.
  intros H1 H2. pose proof (cc_plus _ _ _ _ H1 H2). pose proof (cc_minus _ _ _ _ H1 H2).
  pose proof cc_nz. unfold sum. rewrite cd_inv. apply f_equal2; field; repeat split; assumption.
Qed.

Lemma frac_eq a b c d : b <> 0 -> d <> 0 -> a * d = c * b -> a / b = c / d.
Proof.
  intros B D H. apply (F_mul_cancel_l (b * d)); [now apply F_mul_nz|].
  transitivity (a * d); [field; assumption|]. rewrite H. field. assumption.
Qed.

Lemma sum_on_curve P Q : on_curve P -> on_curve Q -> on_curve (sum P Q).
Proof.
  destruct P as [x1 y1], Q as [x2 y2]. intros H1 H2.
  rewrite sum_cc by assumption.
  pose proof (cc_plus _ _ _ _ H1 H2) as A. pose proof (cc_minus _ _ _ _ H1 H2) as B.
  apply curve_cc in H1. apply curve_cc in H2. apply curve_cc.
  set (u := cc + x1 * x2 * y1 * y2) in *. set (v := cc - x1 * x2 * y1 * y2) in *.
  apply (F_mul_cancel_l ((u * u) * (v * v))); [repeat apply F_mul_nz; assumption|].
  transitivity (cc * cc * cc * cc * ((x1 * y2 + y1 * x2) * (x1 * y2 + y1 * x2)) *
     ((y1 * y2 + x1 * x2) * (y1 * y2 + x1 * x2))); [field; split; assumption|].
  transitivity (cc * (cc * cc * ((y1 * y2 + x1 * x2) * (y1 * y2 + x1 * x2)) * (u * u)
     - cc * cc * ((x1 * y2 + y1 * x2) * (x1 * y2 + y1 * x2)) * (v * v) - u * u * v * v));
    [|field; split; assumption].
  unfold u, v. clear A B u v. 
  ring [H1 H2].
Qed.

(** ** Group laws on pairs *)

Lemma origin_on_curve : on_curve origin.
Proof. unfold on_curve, origin. ring. Qed.

Lemma opposite_on_curve P : on_curve P -> on_curve (opposite P).
Proof.
  destruct P as [x y]. unfold on_curve, opposite. intros H.
  transitivity (- (x * x) + y * y); [ring|]. rewrite H. ring.
Qed.

Lemma sum_comm P Q : sum P Q = sum Q P.
Proof.
  destruct P as [x1 y1], Q as [x2 y2]. unfold sum. apply f_equal2.
  - apply f_equal2; ring.
  - apply f_equal2; ring.
Qed.

Lemma sum_origin_r P : sum P origin = P.
Proof.
  destruct P as [x y]. unfold sum, origin. apply f_equal2.
  - transitivity (x / 1); [apply f_equal2; ring|apply fdiv_1].
  - transitivity (y / 1); [apply f_equal2; ring|apply fdiv_1].
Qed.
Lemma sum_origin_l P : sum origin P = P.
Proof. rewrite sum_comm. apply sum_origin_r. Qed.

Lemma sum_opposite_r P : on_curve P -> sum P (opposite P) = origin.
Proof.
  destruct P as [x y]. intros H. pose proof (opposite_on_curve _ H) as H'.
  unfold opposite in H'. pose proof (complete_minus _ _ _ _ H H') as N.
  unfold sum, opposite, origin. apply f_equal2.
  - transitivity (0 / (1 + cd * x * - x * y * y)); [apply f_equal2; ring|apply fdiv_0].
  - transitivity ((1 - cd * x * - x * y * y) / (1 - cd * x * - x * y * y)).
    + apply f_equal2; [|reflexivity]. unfold on_curve in H.
      transitivity (- (x * x) + y * y); [ring|]. rewrite H. ring.
    + apply fdiv_diag. exact N.
Qed.

Lemma sum_assoc P Q R : on_curve P -> on_curve Q -> on_curve R ->
  sum (sum P Q) R = sum P (sum Q R).
Proof.
  intros HP HQ HR. pose proof (sum_on_curve _ _ HP HQ) as HPQ.
  pose proof (sum_on_curve _ _ HQ HR) as HQR.
  destruct P as [x1 y1], Q as [x2 y2], R as [x3 y3].
  revert HPQ HQR. rewrite (sum_cc x1 y1 x2 y2), (sum_cc x2 y2 x3 y3) by assumption. intros HPQ HQR.
  rewrite (sum_cc _ _ x3 y3), (sum_cc x1 y1) by assumption.
  pose proof (cc_plus _ _ _ _ HP HQ) as A. pose proof (cc_minus _ _ _ _ HP HQ) as B.
  pose proof (cc_plus _ _ _ _ HQ HR) as C. pose proof (cc_minus _ _ _ _ HQ HR) as D.
  pose proof (cc_plus _ _ _ _ HPQ HR) as A'. pose proof (cc_minus _ _ _ _ HPQ HR) as B'.
  pose proof (cc_plus _ _ _ _ HP HQR) as C'. pose proof (cc_minus _ _ _ _ HP HQR) as D'.
  clear HPQ HQR. apply curve_cc in HP. apply curve_cc in HQ. apply curve_cc in HR.
  set (u := cc + x1 * x2 * y1 * y2) in *. set (v := cc - x1 * x2 * y1 * y2) in *.
  set (s := cc + x2 * x3 * y2 * y3) in *. set (t := cc - x2 * x3 * y2 * y3) in *.
  pose proof cc_nz as NZ.
  apply f_equal2.
  - apply frac_eq; [exact A'|exact C'|].
    apply (F_mul_cancel_l (u * v * s * t)); [repeat apply F_mul_nz; assumption|].
    transitivity (cc * cc * cc * (((x1 * y2 + y1 * x2) * v * y3 + (y1 * y2 + x1 * x2) * u * x3) *
      (s * t + cc * x1 * y1 * (x2 * y3 + y2 * x3) * (y2 * y3 + x2 * x3))));
      [field; repeat split; assumption|].
    transitivity (cc * cc * cc * ((x1 * (y2 * y3 + x2 * x3) * s + y1 * (x2 * y3 + y2 * x3) * t) *
      (u * v + cc * x3 * y3 * (x1 * y2 + y1 * x2) * (y1 * y2 + x1 * x2))));
      [|field; repeat split; assumption].
    unfold u, v, s, t. ring [HP HQ HR].
  - apply frac_eq; [exact B'|exact D'|].
    apply (F_mul_cancel_l (u * v * s * t)); [repeat apply F_mul_nz; assumption|].
    transitivity (cc * cc * cc * (((y1 * y2 + x1 * x2) * u * y3 + (x1 * y2 + y1 * x2) * v * x3) *
      (s * t - cc * x1 * y1 * (x2 * y3 + y2 * x3) * (y2 * y3 + x2 * x3))));
      [field; repeat split; assumption|].
    transitivity (cc * cc * cc * ((y1 * (y2 * y3 + x2 * x3) * s + x1 * (x2 * y3 + y2 * x3) * t) *
      (u * v - cc * x3 * y3 * (x1 * y2 + y1 * x2) * (y1 * y2 + x1 * x2))));
      [|field; repeat split; assumption].
    unfold u, v, s, t. ring [HP HQ HR].
Qed.

(** ** The group of curve points *)

Definition on_curveb (P : xy) : bool :=
  let (x, y) := P in feqb (- (x * x) + y * y) (1 + cd * (x * x) * (y * y)).
Lemma on_curveb_spec P : on_curveb P = true <-> on_curve P.
Proof. destruct P as [x y]. unfold on_curveb, on_curve. apply feqb_eq. Qed.

Record pt : Set := mkpt { pxy : xy; pok : on_curveb pxy = true }.

Lemma pt_eq P Q : pxy P = pxy Q -> P = Q.
Proof.
  destruct P as [P HP], Q as [Q HQ]; cbn [pxy]. intros E. subst Q. apply f_equal.
  apply UIP_dec. apply bool_dec.
Qed.
Lemma pt_on P : on_curve (pxy P).
Proof. apply on_curveb_spec. apply pok. Qed.
Definition pt_of (P : xy) (H : on_curve P) : pt := mkpt P (proj2 (on_curveb_spec P) H).
Lemma pxy_of P H : pxy (pt_of P H) = P. Proof. reflexivity. Qed.

Definition padd (P Q : pt) : pt := pt_of (sum (pxy P) (pxy Q)) (sum_on_curve _ _ (pt_on P) (pt_on Q)).
Definition popp (P : pt) : pt := pt_of (opposite (pxy P)) (opposite_on_curve _ (pt_on P)).
Definition pO : pt := pt_of origin origin_on_curve.

Lemma padd_comm P Q : padd P Q = padd Q P.
Proof. apply pt_eq. apply sum_comm. Qed.
Lemma padd_assoc P Q R : padd (padd P Q) R = padd P (padd Q R).
Proof. apply pt_eq. apply sum_assoc; apply pt_on. Qed.
Lemma padd_O_l P : padd pO P = P.
Proof. apply pt_eq. apply sum_origin_l. Qed.
Lemma padd_O_r P : padd P pO = P.
Proof. apply pt_eq. apply sum_origin_r. Qed.
Lemma padd_opp_r P : padd P (popp P) = pO.
Proof. apply pt_eq. apply sum_opposite_r. apply pt_on. Qed.
Lemma padd_opp_l P : padd (popp P) P = pO.
Proof. rewrite padd_comm. apply padd_opp_r. Qed.
Lemma padd_cancel_l P Q R : padd P Q = padd P R -> Q = R.
Proof.
  intros H. rewrite <- (padd_O_l Q), <- (padd_O_l R), <- (padd_opp_l P), !padd_assoc, H. reflexivity.
Qed.
Lemma padd_cancel_r P Q R : padd Q P = padd R P -> Q = R.
Proof. rewrite !(padd_comm _ P). apply padd_cancel_l. Qed.
Lemma popp_unique P Q : padd P Q = pO -> Q = popp P.
Proof. intros H. apply (padd_cancel_l P). rewrite H, padd_opp_r. reflexivity. Qed.
Lemma popp_O : popp pO = pO.
Proof. symmetry. apply popp_unique. apply padd_O_l. Qed.
Lemma popp_popp P : popp (popp P) = P.
Proof. symmetry. apply popp_unique. apply padd_opp_l. Qed.
Lemma padd_swap P Q R S : padd (padd P Q) (padd R S) = padd (padd P R) (padd Q S).
Proof.
  rewrite !padd_assoc. f_equal. rewrite <- !padd_assoc. f_equal. apply padd_comm.
Qed.
Lemma popp_add P Q : popp (padd P Q) = padd (popp P) (popp Q).
Proof.
  symmetry. apply popp_unique. rewrite padd_swap, !padd_opp_r. apply padd_O_l.
Qed.
Lemma pt_dec (P Q : pt) : {P = Q} + {P <> Q}.
Proof.
  destruct P as [[x1 y1] HP], Q as [[x2 y2] HQ].
  destruct (F_dec x1 x2) as [E1|N]; [|right; intros E; apply N; congruence].
  destruct (F_dec y1 y2) as [E2|N]; [|right; intros E; apply N; congruence].
  left. apply pt_eq. cbn [pxy]. congruence.
Qed.

(** Integer multiples. *)
Definition smul (n : Z) (P : pt) : pt :=
  match n with
  | Z0 => pO
  | Zpos k => Pos.iter (padd P) pO k
  | Zneg k => popp (Pos.iter (padd P) pO k)
  end.

Lemma smul_0 P : smul 0 P = pO. Proof. reflexivity. Qed.
Lemma smul_1 P : smul 1 P = P. Proof. apply padd_O_r. Qed.
Lemma smul_opp n P : smul (- n) P = popp (smul n P).
Proof.
  destruct n; cbn; [symmetry; apply popp_O|reflexivity|symmetry; apply popp_popp].
Qed.
Lemma smul_succ_nn n P : (0 <= n)%Z -> smul (Z.succ n) P = padd P (smul n P).
Proof.
  destruct n; intros H; [apply smul_1 || (cbn; reflexivity)| |lia].
  cbn [Z.succ Z.add smul]. rewrite Pos.add_1_r. apply Pos.iter_succ.
Qed.
Lemma smul_succ n P : smul (Z.succ n) P = padd P (smul n P).
Proof.
  destruct (Z.le_gt_cases 0 n) as [H|H]; [now apply smul_succ_nn|].
  set (m := (- Z.succ n)%Z). assert (Hm : (0 <= m)%Z) by lia.
  replace (Z.succ n) with (- m)%Z by lia. replace n with (- Z.succ m)%Z by lia.
  rewrite !smul_opp, smul_succ_nn, popp_add by assumption.
  rewrite <- padd_assoc, padd_opp_r, padd_O_l. reflexivity.
Qed.
Lemma smul_pred n P : smul (Z.pred n) P = padd (popp P) (smul n P).
Proof.
  replace n with (Z.succ (Z.pred n)) at 2 by lia. rewrite smul_succ.
  rewrite <- padd_assoc, padd_opp_l, padd_O_l. reflexivity.
Qed.
Lemma smul_add m n P : smul (m + n) P = padd (smul m P) (smul n P).
Proof.
  revert m. apply Z.peano_ind.
  - cbn [Z.add]. rewrite smul_0, padd_O_l. reflexivity.
  - intros m IH. rewrite Z.add_succ_l, !smul_succ, IH, padd_assoc. reflexivity.
  - intros m IH. rewrite Z.add_pred_l, !smul_pred, IH, padd_assoc. reflexivity.
Qed.
Lemma smul_sub m n P : smul (m - n) P = padd (smul m P) (popp (smul n P)).
Proof. unfold Z.sub. rewrite smul_add, smul_opp. reflexivity. Qed.
Lemma smul_mul m n P : smul (m * n) P = smul m (smul n P).
Proof.
  revert m. apply Z.peano_ind.
  - reflexivity.
  - intros m IH. rewrite Z.mul_succ_l, smul_add, IH, smul_succ. apply padd_comm.
  - intros m IH. rewrite Z.mul_pred_l, smul_sub, IH, smul_pred. apply padd_comm.
Qed.
Lemma smul_padd n P Q : smul n (padd P Q) = padd (smul n P) (smul n Q).
Proof.
  revert n. apply Z.peano_ind.
  - cbn. symmetry. apply padd_O_l.
  - intros m IH. rewrite !smul_succ, IH. apply padd_swap.
  - intros m IH. rewrite !smul_pred, IH, popp_add. apply padd_swap.
Qed.
Lemma smul_O n : smul n pO = pO.
Proof. replace pO with (smul 0 pO) at 1 by reflexivity. rewrite <- smul_mul, Z.mul_0_r. reflexivity. Qed.
Lemma smul_popp n P : smul n (popp P) = popp (smul n P).
Proof.
  apply popp_unique. rewrite <- smul_padd, padd_opp_r. apply smul_O.
Qed.
Lemma smul_2 P : smul 2 P = padd P P.
Proof. change 2%Z with (1 + 1)%Z. rewrite smul_add, smul_1. reflexivity. Qed.

Lemma multiple_smul n P : (0 <= n)%Z -> multiple n (pxy P) = pxy (smul n P).
Proof.
  intros H. unfold multiple, smul. destruct n as [|k|k]; [reflexivity| |lia].
  clear H. cbn [Z.iter]. induction k as [|k IH] using Pos.peano_ind; [reflexivity|].
  rewrite !Pos.iter_succ, IH. reflexivity.
Qed.
