(** * Cosets of the 4-torsion, even points and canonical representatives *)

From Coq Require Import ZArith List Bool Lia Ring Field.
From Verif Require Import Machine FieldModel ScalarModel EdwardsModel RistrettoModel Spec NumTheory Primes Fp FieldF FieldInv
  Curve CurveGroup EdwardsF EdwardsY.
Import ListNotations.
Open Scope F_scope.

(** ** Constants *)
Definition FA : F := Eval vm_compute in fF INV_SQRT_A_MINUS_D.
Lemma FA_enc : INV_SQRT_A_MINUS_D = enc FA. Proof. reflexivity. Qed.
Lemma FA_sq : FA * FA * (- (1) - cd) = 1.
Proof. rewrite cd_FD. apply Feq. vm_compute. reflexivity. Qed.
Definition FB : F := Eval vm_compute in fF SQRT_AD_MINUS_ONE.
Lemma FB_enc : SQRT_AD_MINUS_ONE = enc FB. Proof. reflexivity. Qed.
Lemma FB_sq : FB * FB = - cd - 1.
Proof. rewrite cd_FD. apply Feq. vm_compute. reflexivity. Qed.
Lemma m1d_sq : is_sq (- (1) - cd).
Proof. exists FB. transitivity (- cd - 1); [exact FB_sq|ring]. Qed.
Lemma m1_sq : is_sq (- (1)).
Proof. exists FI. exact FI_sq. Qed.
Lemma d1_sq : is_sq (1 + cd).
Proof.
  destruct (is_sq_opp _ m1d_sq) as [r E]. exists r. transitivity (- (- (1) - cd)); [exact E|ring].
Qed.
Lemma d1_nz : 1 + cd <> 0.
Proof.
  intros H. apply cd_nonsq. assert (E : cd = - (1)).
  { transitivity ((1 + cd) - 1); [ring|]. rewrite H. ring. }
  rewrite E. exact m1_sq.
Qed.
Lemma m1d_nz : - (1) - cd <> 0.
Proof. intros H. apply d1_nz. transitivity (- (- (1) - cd)); [ring|]. rewrite H. ring. Qed.

(** 1 + d y^2 is never zero. *)
Lemma e_nz y : 1 + cd * (y * y) <> 0.
Proof. intros H. apply (ydz y). transitivity (1 + cd * (y * y)); [ring|exact H]. Qed.

Lemma fpos_both x : fposb x = true -> fposb (- x) = true -> x = 0.
Proof.
  intros H1 H2. destruct (F_dec x 0) as [|N]; [assumption|]. rewrite fposb_opp, H1 in H2 by exact N. discriminate.
Qed.
Lemma fpos_some x : fposb x = true \/ fposb (- x) = true.
Proof.
  destruct (F_dec x 0) as [E|N]; [left; rewrite E; reflexivity|].
  rewrite fposb_opp by exact N. destruct (fposb x); auto.
Qed.

(** ** Even points *)
Definition yc (A : pt) : F := snd (pxy A).
Definition xc (A : pt) : F := fst (pxy A).
Lemma pxy_c A : pxy A = (xc A, yc A). Proof. apply surjective_pairing. Qed.
Lemma pt_c A B : xc A = xc B -> yc A = yc B -> A = B.
Proof. intros H1 H2. apply pt_eq. rewrite !pxy_c, H1, H2. reflexivity. Qed.
Lemma on_c A : - (xc A * xc A) + yc A * yc A = 1 + cd * (xc A * xc A) * (yc A * yc A).
Proof. pose proof (pt_on A) as H. rewrite pxy_c in H. exact H. Qed.

Definition ev (A : pt) : F := 1 + cd * (yc A * yc A).
Definition even (A : pt) : Prop := is_sq (ev A).
Lemma ev_nz A : ev A <> 0. Proof. apply e_nz. Qed.
Lemma ev_curve A : xc A * xc A * ev A = yc A * yc A - 1.
Proof.
  unfold ev. pose proof (on_c A) as H.
  transitivity (yc A * yc A - (- (xc A * xc A) + yc A * yc A) + cd * (xc A * xc A) * (yc A * yc A)); [ring|].
  rewrite H. ring.
Qed.

Lemma padd_c A B : xc (padd A B) = (xc A * yc B + yc A * xc B) / (1 + cd * xc A * xc B * yc A * yc B) /\
  yc (padd A B) = (yc A * yc B + xc A * xc B) / (1 - cd * xc A * xc B * yc A * yc B).
Proof.
  assert (H : pxy (padd A B) = sum (xc A, yc A) (xc B, yc B)) by (rewrite <- !pxy_c; reflexivity).
  change (xc (padd A B)) with (fst (pxy (padd A B))). change (yc (padd A B)) with (snd (pxy (padd A B))).
  rewrite H. split; reflexivity.
Qed.
Lemma plus_nz A B : 1 + cd * xc A * xc B * yc A * yc B <> 0.
Proof. apply complete_plus; rewrite <- pxy_c; apply pt_on. Qed.
Lemma minus_nz A B : 1 - cd * xc A * xc B * yc A * yc B <> 0.
Proof. apply complete_minus; rewrite <- pxy_c; apply pt_on. Qed.

Lemma ev_padd A B : exists m n, m <> 0 /\ n <> 0 /\ ev (padd A B) * (m * m) * (ev A * ev B) = (1 + cd) * (n * n).
Proof.
  destruct (padd_c A B) as [_ Ey]. pose proof (minus_nz A B) as N.
  exists (1 - cd * xc A * xc B * yc A * yc B), (1 + cd * ((yc A * yc B) * (yc A * yc B))).
  split; [exact N|]. split; [apply e_nz|].
  assert (E1 : ev (padd A B) * ((1 - cd * xc A * xc B * yc A * yc B) * (1 - cd * xc A * xc B * yc A * yc B)) =
    (1 + cd * ((yc A * yc B) * (yc A * yc B))) * (1 + cd * ((xc A * xc B) * (xc A * xc B)))).
  { unfold ev at 1. rewrite Ey. field. exact N. }
  rewrite E1.
  assert (E2 : (1 + cd * ((xc A * xc B) * (xc A * xc B))) * (ev A * ev B) =
    (1 + cd) * (1 + cd * ((yc A * yc B) * (yc A * yc B)))).
  { transitivity (ev A * ev B + cd * (xc A * xc A * ev A) * (xc B * xc B * ev B)); [ring|].
    rewrite !ev_curve. unfold ev. ring. }
  transitivity ((1 + cd * ((yc A * yc B) * (yc A * yc B))) *
    ((1 + cd * ((xc A * xc B) * (xc A * xc B))) * (ev A * ev B))); [ring|].
  rewrite E2. ring.
Qed.
Lemma even_prod A B : is_sq (ev A * ev B) -> even (padd A B).
Proof.
  intros S. destruct (ev_padd A B) as (m & n & Nm & Nn & E). unfold even.
  apply (is_sq_mul_cancel (m * m * (ev A * ev B))).
  - apply F_mul_nz; apply F_mul_nz; try exact Nm; apply ev_nz.
  - apply is_sq_mul; [exists m; reflexivity|exact S].
  - assert (E' : m * m * (ev A * ev B) * ev (padd A B) = (1 + cd) * (n * n)) by (rewrite <- E; ring).
    rewrite E'. apply is_sq_mul; [exact d1_sq|exists n; reflexivity].
Qed.
Lemma even_padd A B : even A -> even B -> even (padd A B).
Proof. intros HA HB. apply even_prod. apply is_sq_mul; [exact HA|exact HB]. Qed.
Lemma even_double A : even (padd A A).
Proof. apply even_prod. exists (ev A). reflexivity. Qed.
Lemma even_odd A B : ~ even A -> ~ even B -> even (padd A B).
Proof. intros HA HB. apply even_prod. apply nonsq_mul; [exact HA|exact HB]. Qed.
Lemma popp_c A : xc (popp A) = - xc A /\ yc (popp A) = yc A.
Proof. unfold xc, yc, popp. rewrite pxy_of. destruct (pxy A) as [x y]. split; reflexivity. Qed.
Lemma even_popp A : even A -> even (popp A).
Proof. unfold even, ev. destruct (popp_c A) as [_ ->]. intros H; exact H. Qed.
Lemma pO_c : xc pO = 0 /\ yc pO = 1. Proof. split; reflexivity. Qed.
Lemma even_pO : even pO.
Proof.
  unfold even, ev. destruct pO_c as [_ ->]. destruct d1_sq as [r E]. exists r.
  transitivity (1 + cd); [exact E|ring].
Qed.
Lemma even_smul n A : even A -> even (smul n A).
Proof.
  intros H. destruct n as [|n|n].
  - exact even_pO.
  - assert (G : forall m, (0 <= m)%Z -> even (smul m A)).
    { apply natlike_ind; [exact even_pO|]. intros m Hm IH. rewrite smul_succ.
      apply even_padd; [exact H|exact IH]. }
    apply G. discriminate.
  - assert (G : forall m, (0 <= m)%Z -> even (smul m A)).
    { apply natlike_ind; [exact even_pO|]. intros m Hm IH. rewrite smul_succ.
      apply even_padd; [exact H|exact IH]. }
    change (Z.neg n) with (- Z.pos n)%Z. rewrite smul_opp. apply even_popp. apply G. discriminate.
Qed.

(** ** The 4-torsion *)
Definition t4 (T : pt) : Prop := xc T = 0 \/ yc T = 0.

Lemma x0_y T : xc T = 0 -> yc T = 1 \/ yc T = - (1).
Proof.
  intros H. apply F_sq_eq. pose proof (on_c T) as C. rewrite H in C.
  transitivity (- (0 * 0) + yc T * yc T); [ring|]. rewrite C. ring.
Qed.
Lemma y0_x T : yc T = 0 -> xc T = FI \/ xc T = - FI.
Proof.
  intros H. apply F_sq_eq. rewrite FI_sq. pose proof (on_c T) as C. rewrite H in C.
  transitivity (- (- (xc T * xc T) + 0 * 0)); [ring|]. rewrite C. ring.
Qed.
Lemma t4_cases T : t4 T <-> In (pxy T) [(0, 1); (0, - (1)); (FI, 0); (- FI, 0)].
Proof.
  rewrite pxy_c. split.
  - intros [H|H].
    + destruct (x0_y T H) as [E|E]; rewrite H, E; [left|right; left]; reflexivity.
    + destruct (y0_x T H) as [E|E]; rewrite H, E; [right; right; left|right; right; right; left]; reflexivity.
  - assert (G : forall a b, (a, b) = (xc T, yc T) -> a = 0 \/ b = 0 -> t4 T).
    { intros a b H K. pose proof (f_equal fst H) as H1. pose proof (f_equal snd H) as H2. cbn [fst snd] in H1, H2.
      unfold t4. rewrite <- H1, <- H2. exact K. }
    intros [H|[H|[H|[H|[]]]]]; apply (G _ _ H); (left; reflexivity) || (right; reflexivity).
Qed.

Lemma padd_x_zero A B : xc (padd A B) = 0 <-> xc A * yc B + yc A * xc B = 0.
Proof.
  destruct (padd_c A B) as [E _]. pose proof (plus_nz A B) as N. rewrite E. split; intros H.
  - apply (F_mul_cancel_l (/ (1 + cd * xc A * xc B * yc A * yc B))); [apply F_inv_nz; exact N|].
    transitivity ((xc A * yc B + yc A * xc B) / (1 + cd * xc A * xc B * yc A * yc B)); [field; exact N|].
    rewrite H. ring.
  - rewrite H. apply fdiv_0.
Qed.
Lemma padd_y_zero A B : yc (padd A B) = 0 <-> yc A * yc B + xc A * xc B = 0.
Proof.
  destruct (padd_c A B) as [_ E]. pose proof (minus_nz A B) as N. rewrite E. split; intros H.
  - apply (F_mul_cancel_l (/ (1 - cd * xc A * xc B * yc A * yc B))); [apply F_inv_nz; exact N|].
    transitivity ((yc A * yc B + xc A * xc B) / (1 - cd * xc A * xc B * yc A * yc B)); [field; exact N|].
    rewrite H. ring.
  - rewrite H. apply fdiv_0.
Qed.

Lemma t4_pO : t4 pO. Proof. left. reflexivity. Qed.
Lemma t4_popp T : t4 T -> t4 (popp T).
Proof.
  unfold t4. destruct (popp_c T) as [-> ->]. intros [H|H]; [left; rewrite H; ring|right; exact H].
Qed.
Lemma t4_padd S T : t4 S -> t4 T -> t4 (padd S T).
Proof.
  intros [HS|HS] [HT|HT]; unfold t4; rewrite padd_x_zero, padd_y_zero, HS, HT.
  - left; ring.
  - right; ring.
  - right; ring.
  - left; ring.
Qed.
Lemma t4_smul n T : t4 T -> t4 (smul n T).
Proof.
  intros H. assert (G : forall m, (0 <= m)%Z -> t4 (smul m T)).
  { apply natlike_ind; [exact t4_pO|]. intros m Hm IH. rewrite smul_succ. apply t4_padd; [exact H|exact IH]. }
  destruct n as [|n|n]; [exact t4_pO|apply G; discriminate|].
  change (Z.neg n) with (- Z.pos n)%Z. rewrite smul_opp. apply t4_popp. apply G. discriminate.
Qed.
Lemma even_t4 T : t4 T -> even T.
Proof.
  unfold even, ev. intros [H|H].
  - destruct d1_sq as [r E]. exists r. rewrite E. destruct (x0_y T H) as [-> | ->]; ring.
  - rewrite H. exists 1. ring.
Qed.
(** 2P = O exactly for x = 0. *)
Lemma double_zero T : padd T T = pO <-> xc T = 0.
Proof.
  split.
  - intros H. apply popp_unique in H. pose proof (f_equal xc H) as E. destruct (popp_c T) as [E2 _].
    rewrite E2 in E. apply F_double_zero. rewrite E at 1. ring.
  - intros H. assert (E : popp T = T).
    { destruct (popp_c T) as [E1 E2]. apply pt_c; [rewrite E1, H; ring|exact E2]. }
    rewrite <- E at 2. apply padd_opp_r.
Qed.
Lemma t4_smul4 T : t4 T <-> smul 4 T = pO.
Proof.
  change 4%Z with (2 * 2)%Z. rewrite smul_mul, !smul_2, double_zero, padd_x_zero. unfold t4. split.
  - intros [H|H]; rewrite H; ring.
  - intros H. apply F_integral. apply F_double_zero. rewrite <- H. ring.
Qed.

(** ** Cosets *)
Definition coset (A B : pt) : Prop := t4 (padd B (popp A)).
Lemma coset_refl A : coset A A. Proof. unfold coset. rewrite padd_opp_r. exact t4_pO. Qed.
Lemma coset_sym A B : coset A B -> coset B A.
Proof.
  unfold coset. intros H. apply t4_popp in H. rewrite popp_add, popp_popp, padd_comm in H. exact H.
Qed.
Lemma coset_trans A B C : coset A B -> coset B C -> coset A C.
Proof.
  unfold coset. intros H1 H2. pose proof (t4_padd _ _ H2 H1) as H.
  rewrite padd_assoc, <- (padd_assoc (popp B)), padd_opp_l, padd_O_l in H. exact H.
Qed.
Lemma coset_padd A B C D : coset A B -> coset C D -> coset (padd A C) (padd B D).
Proof.
  unfold coset. intros H1 H2. rewrite popp_add, padd_swap. apply t4_padd; [exact H1|exact H2].
Qed.
Lemma coset_popp A B : coset A B -> coset (popp A) (popp B).
Proof. unfold coset. intros H. rewrite <- popp_add. apply t4_popp. exact H. Qed.
Lemma coset_smul n A B : coset A B -> coset (smul n A) (smul n B).
Proof. unfold coset. intros H. rewrite <- smul_popp, <- smul_padd. apply t4_smul. exact H. Qed.
Lemma coset_of A T : t4 T -> coset A (padd A T).
Proof. unfold coset. intros H. rewrite (padd_comm A T), padd_assoc, padd_opp_r, padd_O_r. exact H. Qed.
Lemma coset_iff A B : coset A B <-> exists T, t4 T /\ B = padd A T.
Proof.
  split; [|intros (T & H & ->); apply coset_of; exact H].
  intros H. exists (padd B (popp A)). split; [exact H|].
  rewrite (padd_comm B), <- padd_assoc, padd_opp_r, padd_O_l. reflexivity.
Qed.
Lemma coset_even A B : coset A B -> even A -> even B.
Proof.
  rewrite coset_iff. intros (T & H & ->) E. apply even_padd; [exact E|apply even_t4; exact H].
Qed.
(** The test of the code. *)
Lemma coset_test A B : coset A B <-> xc A * yc B = yc A * xc B \/ xc A * xc B = yc A * yc B.
Proof.
  unfold coset, t4. rewrite padd_x_zero, padd_y_zero. destruct (popp_c A) as [-> ->].
  assert (E1 : xc B * yc A + yc B * - xc A = yc A * xc B - xc A * yc B) by ring.
  assert (E2 : yc B * yc A + xc B * - xc A = yc A * yc B - xc A * xc B) by ring.
  rewrite E1, E2, !F_sub_eq. split; intros [H|H]; auto.
Qed.

(** Coordinates of the coset members. *)
Lemma coset_coords A B : coset A B <->
  (xc B = xc A /\ yc B = yc A) \/ (xc B = - xc A /\ yc B = - yc A) \/
  (xc B = FI * yc A /\ yc B = FI * xc A) \/ (xc B = - (FI * yc A) /\ yc B = - (FI * xc A)).
Proof.
  split.
  - rewrite coset_iff. intros (T & H & ->). destruct (padd_c A T) as [E1 E2].
    assert (N : xc T * yc T = 0) by (destruct H as [-> | ->]; ring).
    assert (D1 : 1 + cd * xc A * xc T * yc A * yc T = 1).
    { transitivity (1 + cd * xc A * yc A * (xc T * yc T)); [ring|]. rewrite N. ring. }
    assert (D2 : 1 - cd * xc A * xc T * yc A * yc T = 1).
    { transitivity (1 - cd * xc A * yc A * (xc T * yc T)); [ring|]. rewrite N. ring. }
    rewrite D1, fdiv_1 in E1. rewrite D2, fdiv_1 in E2. destruct H as [H|H].
    + destruct (x0_y T H) as [K|K]; rewrite H, K in E1, E2; [left|right; left];
        (split; [rewrite E1|rewrite E2]; ring).
    + destruct (y0_x T H) as [K|K]; rewrite H, K in E1, E2; [right; right; left|right; right; right];
        (split; [rewrite E1|rewrite E2]; ring).
  - rewrite coset_test. intros [[E1 E2]|[[E1 E2]|[[E1 E2]|[E1 E2]]]]; rewrite E1, E2;
      ((left; ring) || (right; ring)).
Qed.

(** ** Canonical representatives *)
Definition canonp (A : pt) : Prop :=
  fposb (xc A) = true /\ fposb (xc A * yc A) = true /\ yc A <> 0 /\ yc A <> - (1).

Lemma canonp_unique A B : coset A B -> canonp A -> canonp B -> A = B.
Proof.
  rewrite coset_coords. intros H (P1 & P2 & N1 & N2) (Q1 & Q2 & M1 & M2).
  assert (G : xc A * yc A = 0 -> xc A = 0).
  { intros E. apply F_integral in E. destruct E as [E|E]; [exact E|elim (N1 E)]. }
  destruct H as [[E1 E2]|[[E1 E2]|H]].
  - apply pt_c; symmetry; assumption.
  - exfalso. rewrite E1 in Q1. pose proof (fpos_both _ P1 Q1) as X0.
    destruct (x0_y A X0) as [Y|Y]; [|elim (N2 Y)]. apply M2. rewrite E2, Y. reflexivity.
  - exfalso. assert (X0 : xc A = 0 /\ yc B = 0).
    { assert (X : xc A = 0).
      { apply G. apply fpos_both; [exact P2|].
        assert (E : - (xc A * yc A) = xc B * yc B).
        { destruct H as [[E1 E2]|[E1 E2]]; rewrite E1, E2;
            (transitivity (FI * FI * (xc A * yc A)); [rewrite FI_sq; ring|ring]). }
        rewrite E. exact Q2. }
      split; [exact X|]. destruct H as [[E1 E2]|[E1 E2]]; rewrite E2, X; ring. }
    exact (M1 (proj2 X0)).
Qed.

Lemma on_neg A : on_curve (- xc A, - yc A).
Proof. unfold on_curve. pose proof (on_c A) as H.
  transitivity (- (xc A * xc A) + yc A * yc A); [ring|]. rewrite H. ring. Qed.
Lemma on_rot A : on_curve (FI * yc A, FI * xc A).
Proof. unfold on_curve. pose proof (on_c A) as H.
  transitivity (FI * FI * (- (- (xc A * xc A) + yc A * yc A))); [ring|]. rewrite H, FI_sq.
  transitivity (1 + cd * (FI * FI * (yc A * yc A)) * (FI * FI * (xc A * xc A))); [rewrite FI_sq; ring|ring]. Qed.
Definition pneg A : pt := pt_of _ (on_neg A).
Definition prot A : pt := pt_of _ (on_rot A).
Lemma pneg_c A : xc (pneg A) = - xc A /\ yc (pneg A) = - yc A. Proof. split; reflexivity. Qed.
Lemma prot_c A : xc (prot A) = FI * yc A /\ yc (prot A) = FI * xc A. Proof. split; reflexivity. Qed.
Lemma coset_pneg A : coset A (pneg A).
Proof. rewrite coset_coords. right; left. apply pneg_c. Qed.
Lemma coset_prot A : coset A (prot A).
Proof. rewrite coset_coords. right; right; left. apply prot_c. Qed.

Lemma xy0_t4 A : xc A * yc A = 0 <-> t4 A.
Proof. split; [apply F_integral|]. intros [H|H]; rewrite H; ring. Qed.
Lemma coset_pO A : t4 A <-> coset pO A.
Proof. unfold coset. rewrite popp_O, padd_O_r. reflexivity. Qed.
Lemma canonp_pO : canonp pO.
Proof.
  unfold canonp. destruct pO_c as [-> ->]. split; [reflexivity|]. split; [reflexivity|].
  split; [exact one_neq_zero|]. intros H. apply minus_one_neq_one. symmetry. exact H.
Qed.
(** The representative the encoder picks. *)
Definition pick (A : pt) : pt :=
  if feqb (xc A * yc A) 0 then pO else
  let R := if fposb (xc A * yc A) then A else prot A in
  if fposb (xc R) then R else pneg R.
Lemma pick_coset A : coset A (pick A).
Proof.
  unfold pick. destruct (feqb_spec (xc A * yc A) 0) as [E|E].
  - apply xy0_t4 in E. apply coset_sym. exact (proj1 (coset_pO A) E).
  - assert (G : coset A (if fposb (xc A * yc A) then A else prot A)).
    { destruct (fposb _); [apply coset_refl|apply coset_prot]. }
    cbv zeta. destruct (fposb (xc (if fposb (xc A * yc A) then A else prot A))); [exact G|].
    apply (coset_trans _ _ _ G). apply coset_pneg.
Qed.
Lemma pick_canonp A : canonp (pick A).
Proof.
  unfold pick. destruct (feqb_spec (xc A * yc A) 0) as [E|E]; [exact canonp_pO|]. cbv zeta.
  assert (G : forall R, xc R * yc R <> 0 -> fposb (xc R * yc R) = true -> canonp (if fposb (xc R) then R else pneg R)).
  { intros R N P.
    assert (K : xc R <> 0 /\ yc R <> 0 /\ yc R <> 1 /\ yc R <> - (1)).
    { assert (X : xc R <> 0) by (intros H; apply N; rewrite H; ring).
      split; [exact X|]. split; [intros H; apply N; rewrite H; ring|].
      assert (Q : yc R * yc R - 1 <> 0).
      { rewrite <- ev_curve. apply F_mul_nz; [apply F_mul_nz; exact X|apply ev_nz]. }
      split; intros H; apply Q; rewrite H; ring. }
    destruct K as (K1 & K2 & K3 & K4). destruct (fposb (xc R)) eqn:S.
    - split; [exact S|]. split; [exact P|]. split; assumption.
    - unfold canonp. destruct (pneg_c R) as [-> ->]. split; [rewrite fposb_opp, S by exact K1; reflexivity|].
      split; [assert (H : - xc R * - yc R = xc R * yc R) by ring; rewrite H; exact P|].
      split; [intros H; apply K2; apply F_opp_eq0; exact H|].
      intros H. apply K3. transitivity (- - yc R); [ring|]. rewrite H. ring. }
  destruct (fposb (xc A * yc A)) eqn:S; apply G.
  - exact E.
  - exact S.
  - destruct (prot_c A) as [-> ->].
    assert (H : FI * yc A * (FI * xc A) = - (xc A * yc A)).
    { transitivity (FI * FI * (xc A * yc A)); [ring|]. rewrite FI_sq. ring. }
    rewrite H. intros K. apply E. apply F_opp_eq0. exact K.
  - destruct (prot_c A) as [-> ->].
    assert (H : FI * yc A * (FI * xc A) = - (xc A * yc A)).
    { transitivity (FI * FI * (xc A * yc A)); [ring|]. rewrite FI_sq. ring. }
    rewrite H, fposb_opp, S by exact E. reflexivity.
Qed.
Lemma pick_eq A B : coset A B <-> pick A = pick B.
Proof.
  split; intros H.
  - apply canonp_unique; [|apply pick_canonp|apply pick_canonp].
    apply (coset_trans _ A); [apply coset_sym, pick_coset|]. apply (coset_trans _ B); [exact H|apply pick_coset].
  - apply (coset_trans _ (pick A)); [apply pick_coset|]. rewrite H. apply coset_sym, pick_coset.
Qed.
Lemma pick_id A : canonp A -> pick A = A.
Proof.
  intros H. apply canonp_unique; [apply coset_sym, pick_coset|apply pick_canonp|exact H].
Qed.

(** ** The encoded field element *)
Definition esc (A : pt) (s : F) : Prop := fposb s = true /\ s * s * (1 + yc A) = 1 - yc A.
Lemma y1_nz A : canonp A -> 1 + yc A <> 0.
Proof.
  intros (_ & _ & _ & N) H. apply N. transitivity ((1 + yc A) - 1); [ring|]. rewrite H. ring.
Qed.
Lemma esc_exists A : even A -> canonp A -> exists s, esc A s.
Proof.
  intros E C. pose proof (y1_nz A C) as N.
  assert (S : is_sq ((1 - yc A) / (1 + yc A))).
  { assert (H : (1 - yc A) / (1 + yc A) = - (1) * (xc A * xc A * ev A) * (/ (1 + yc A) * / (1 + yc A))).
    { rewrite ev_curve. field. exact N. }
    rewrite H. apply is_sq_mul; [|exists (/ (1 + yc A)); reflexivity].
    apply is_sq_mul; [exact m1_sq|]. apply is_sq_mul; [exists (xc A); reflexivity|exact E]. }
  destruct S as [s E2]. exists (fabs s). split; [apply fabs_pos|]. rewrite fabs_sq, E2. field. exact N.
Qed.
Lemma esc_unique A s s' : canonp A -> esc A s -> esc A s' -> s = s'.
Proof.
  intros C (P & E) (P' & E'). apply fpos_sq_inj; [exact P|exact P'|].
  apply (F_mul_cancel_l (1 + yc A)); [exact (y1_nz A C)|].
  transitivity (s * s * (1 + yc A)); [ring|]. rewrite E, <- E'. ring.
Qed.
Lemma esc_y A s : esc A s -> 1 + s * s <> 0 /\ yc A = (1 - s * s) / (1 + s * s).
Proof.
  intros (_ & E). assert (N : 1 + s * s <> 0).
  { intros H. apply two_nz. unfold ftwo. assert (K : s * s = - (1)).
    { transitivity ((1 + s * s) - 1); [ring|]. rewrite H. ring. }
    rewrite K in E. transitivity ((1 - yc A) - - (1) * (1 + yc A)); [|rewrite <- E; ring].
    apply Feq. transitivity (Fval (1 + 1)); [reflexivity|]. apply f_equal. ring. }
  split; [exact N|]. apply (F_mul_cancel_l (1 + s * s)); [exact N|].
  transitivity (1 - s * s + (s * s * (1 + yc A) - (1 - yc A))); [ring|]. rewrite E.
  transitivity (1 - s * s); [ring|]. field. exact N.
Qed.
Lemma esc_inj A B s : canonp A -> canonp B -> esc A s -> esc B s -> A = B.
Proof.
  intros (P1 & _) (P2 & _) HA HB. destruct (esc_y _ _ HA) as [_ Y1]. destruct (esc_y _ _ HB) as [_ Y2].
  assert (Y : yc A = yc B) by (rewrite Y1, Y2; reflexivity).
  apply pt_c; [|exact Y]. apply fpos_sq_inj; [exact P1|exact P2|].
  apply (F_mul_cancel_l (ev A)); [apply ev_nz|].
  transitivity (xc A * xc A * ev A); [ring|]. rewrite ev_curve.
  transitivity (xc B * xc B * ev B); [rewrite ev_curve, Y; reflexivity|].
  unfold ev. rewrite Y. ring.
Qed.
