(** * Preimages of the Elligator map *)

From Coq Require Import ZArith List Bool Lia Ring Field.
From Verif Require Import Machine FieldModel ScalarModel EdwardsModel RistrettoModel Spec NumTheory Primes MachineFacts
  FieldOps FieldBytes Fp FieldF FieldInv Curve CurveGroup EdwardsF EdwardsY Rist RistF RistE.
Import ListNotations.
Open Scope F_scope.

Definition roots (a : F) : list F := [froot a; - froot a].
Lemma roots_in a x : x * x = a -> In x (roots a).
Proof.
  intros E. unfold roots. destruct (fpos_some x) as [H|H].
  - left. apply froot_unique; [exact H|exact E].
  - right. left. assert (K : froot a = - x).
    { apply froot_unique; [exact H|]. rewrite <- E. ring. }
    rewrite K. ring.
Qed.
Lemma el_r_in r0 r : el_r r0 = r -> In r0 (roots (r / FI)).
Proof.
  intros E. apply roots_in. rewrite <- E. unfold el_r. pose proof FI_nz as N.
  set (i := FI) in *. clearbody i. field. exact N.
Qed.

(** The two candidates for r when the image is (x,y) with x nonzero. *)
Definition pre_X (y : F) : F := (1 - y) / (1 + y).
Definition pre_t (x y : F) : F := (froot (pre_X y) + froot (pre_X y)) / (x * FB).
Definition pre_one (X Y : F) : F := (X * (1 - cd) - Y * (1 + cd)) / (X * (1 - cd) + Y * (1 + cd)).
Definition pre_two (X Y : F) : F := (X * (1 - cd) + Y * (1 + cd)) / (X * (1 - cd) - Y * (1 + cd)).
Definition pre (x y : F) : list F :=
  roots (pre_one (pre_X y) (pre_t x y + 1) / FI) ++ roots (pre_two (pre_X y) (1 - pre_t x y) / FI).
(** The candidates when the image is the identity. *)
Definition pre0 : list F := roots (- cd / FI) ++ roots (- (1) / cd / FI).
(** r0 = 0 takes the first branch. *)
Lemma el_zero_sq : is_sq (el_N 0 / el_D 0).
Proof.
  assert (N : el_D 0 <> 0).
  { unfold el_D. intros H. apply cd_nz. transitivity (- ((- (1) - cd * 0) * (0 + cd))); [ring|]. rewrite H. ring. }
  exists (toF 660260003625065512990851714370508782774888499642226457962862104932701787303%Z).
  assert (E : toF 660260003625065512990851714370508782774888499642226457962862104932701787303%Z *
    toF 660260003625065512990851714370508782774888499642226457962862104932701787303%Z * el_D 0 = el_N 0).
  { unfold el_N, el_D. rewrite cd_FD. apply Feq. vm_compute. reflexivity. }
  rewrite <- E. set (w := toF _). set (D := el_D 0) in *. clearbody w D. field. exact N.
Qed.

Lemma cd1_nz : 1 - cd <> 0.
Proof.
  intros H. apply cd_nonsq. assert (E : cd = 1) by (transitivity (1 - (1 - cd)); [ring|rewrite H; ring]).
  rewrite E. exact one_sq.
Qed.
Lemma lin_nz a b X : X <> 0 -> a + b = 0 -> a - b = 0 -> a = X * (1 - cd) -> False.
Proof.
  intros N H H' E. assert (Z : a = 0).
  { apply F_double_zero. transitivity ((a + b) + (a - b)); [ring|]. rewrite H, H'. ring. }
  revert Z. rewrite E. apply F_mul_nz; [exact N|exact cd1_nz].
Qed.
Lemma frac_unique r n d : r * d = n -> (d = 0 -> n = 0 -> False) -> r = n / d.
Proof.
  intros E K. assert (N : d <> 0).
  { intros Z. apply (K Z). rewrite <- E, Z. ring. }
  rewrite <- E. field. exact N.
Qed.
Lemma el_X r0 : pre_X (el_y r0) = el_s r0 * el_s r0.
Proof.
  unfold pre_X, el_y. pose proof (el_u2_nz r0) as N. set (q := el_s r0 * el_s r0) in *. clearbody q.
  assert (T : 1 + 1 <> 0) by exact two_nz.
  assert (N2 : 1 + (1 - q) / (1 + q) <> 0).
  { intros H. apply T. transitivity ((1 + (1 - q) / (1 + q)) * (1 + q)); [field; exact N|]. rewrite H. ring. }
  apply (F_mul_cancel_l (1 + (1 - q) / (1 + q))); [exact N2|].
  transitivity (1 - (1 - q) / (1 + q)).
  - set (w := 1 + (1 - q) / (1 + q)) in *. set (v := 1 - (1 - q) / (1 + q)) in *. clearbody w v. field. exact N2.
  - field. exact N.
Qed.
Lemma el_x_s r0 : el_s r0 = 0 -> el_x r0 = 0 /\ el_y r0 = 1.
Proof.
  intros E. unfold el_x, el_y. rewrite E. assert (E1 : (0 + 0) * el_D (el_r r0) = 0) by ring. rewrite E1, fdiv_0.
  split; [reflexivity|]. assert (E2 : 1 - 0 * 0 = 1) by ring. assert (E3 : 1 + 0 * 0 = 1) by ring.
  rewrite E2, E3. field. exact one_neq_zero.
Qed.
(** t = T/D. *)
Lemma el_t r0 : el_D (el_r r0) <> 0 -> el_s r0 <> 0 ->
  (el_s r0 + el_s r0) / (el_x r0 * FB) = el_T r0 / el_D (el_r r0).
Proof.
  intros N S. unfold el_x. pose proof (el_T_nz r0) as T. pose proof FB_nz as B.
  assert (S2 : el_s r0 + el_s r0 <> 0) by (intros H; apply S; apply F_double_zero; exact H).
  set (D := el_D (el_r r0)) in *. set (t := el_T r0) in *. set (s2 := el_s r0 + el_s r0) in *. set (b := FB) in *.
  clearbody D t s2 b. field. split; [exact N|]. split; [exact B|]. split; [exact T|exact S2].
Qed.
Lemma el_pre r0 : el_x r0 <> 0 -> In r0 (pre (el_x r0) (el_y r0)).
Proof.
  intros HX. assert (S : el_s r0 <> 0) by (intros E; apply HX; exact (proj1 (el_x_s r0 E))).
  assert (N : el_D (el_r r0) <> 0) by (intros E; exact (S (proj1 (el_D0 r0 E)))).
  pose proof (el_t r0 N S) as Et. pose proof (el_X r0) as EX. unfold pre, pre_t. rewrite EX.
  set (s := el_s r0) in *. assert (Q : s * s <> 0) by (apply F_mul_nz; exact S).
  set (D := el_D (el_r r0)) in *. set (r := el_r r0) in *.
  apply in_or_app. destruct (el_cases r0 N) as [(_ & C & P & E)|(_ & C & P & E)];
    fold s r in C, P, E; fold D in E.
  - left. apply el_r_in. fold r. assert (R : froot (s * s) = s) by (apply froot_unique; [exact P|reflexivity]).
    rewrite R, Et. assert (Y : (el_T r0 / D + 1) * D = - ((r - 1) * ((cd - 1) * (cd - 1)))).
    { unfold el_T. fold r. fold D. rewrite C. clearbody D r. field. exact N. }
    set (y := el_T r0 / D + 1) in *. unfold pre_one. apply frac_unique.
    + apply F_sub_eq. apply (F_mul_cancel_l D); [exact N|].
      transitivity ((s * s * D) * (1 - cd) * (r - 1) + y * D * (1 + cd) * (r + 1)); [ring|].
      rewrite E, Y. unfold el_N. ring.
    + intros H H'. exact (lin_nz _ _ _ Q H H' eq_refl).
  - right. apply el_r_in. fold r. assert (R : froot (s * s) = - s) by (apply froot_unique; [exact P|ring]).
    assert (Et' : (froot (s * s) + froot (s * s)) / (el_x r0 * FB) = - (el_T r0 / D)).
    { rewrite R, <- Et. pose proof (F_mul_nz _ _ HX FB_nz) as W. set (w := el_x r0 * FB) in *. clearbody w s. field. exact W. }
    rewrite Et'. assert (Y : (1 - - (el_T r0 / D)) * D = r * (r - 1) * ((cd - 1) * (cd - 1))).
    { unfold el_T. fold r. fold D. rewrite C. clearbody D r. field. exact N. }
    set (y := 1 - - (el_T r0 / D)) in *. unfold pre_two. apply frac_unique.
    + apply F_sub_eq. apply (F_mul_cancel_l D); [exact N|].
      transitivity ((s * s * D) * (1 - cd) * (r - 1) - y * D * (1 + cd) * (r + 1)); [ring|].
      rewrite E, Y. unfold el_N. ring.
    + intros H H'. exact (lin_nz _ _ _ Q H' H eq_refl).
Qed.
Lemma el_x0 r0 : el_x r0 = 0 -> el_s r0 = 0.
Proof.
  intros H. destruct (F_dec (el_s r0) 0) as [E|S]; [exact E|exfalso].
  destruct (F_dec (el_D (el_r r0)) 0) as [E|N]; [exact (S (proj1 (el_D0 r0 E)))|].
  pose proof (F_mul_nz _ _ (el_T_nz r0) FB_nz) as N1. unfold el_x in H.
  assert (K : (el_s r0 + el_s r0) * el_D (el_r r0) = 0).
  { set (a := (el_s r0 + el_s r0) * el_D (el_r r0)) in *. set (b := el_T r0 * FB) in *. clearbody a b.
    transitivity (a / b * b); [field; exact N1|]. rewrite H. ring. }
  revert K. apply F_mul_nz; [|exact N]. intros K. apply S. apply F_double_zero. exact K.
Qed.
Lemma el_pre0 r0 : el_x r0 = 0 -> el_y r0 = 1 /\ In r0 pre0.
Proof.
  intros H. apply el_x0 in H. split; [exact (proj2 (el_x_s r0 H))|]. unfold pre0.
  destruct (F_dec (el_D (el_r r0)) 0) as [Z|N].
  - apply in_or_app. unfold el_D in Z. apply F_integral in Z. destruct Z as [Z|Z].
    + right. apply el_r_in. pose proof cd_nz as C. set (d := cd) in *. set (r := el_r r0) in *. clearbody d r.
      assert (E : d * r = - (1)) by (transitivity (- (1) - (- (1) - d * r)); [ring|rewrite Z; ring]).
      rewrite <- E. field. exact C.
    + left. apply el_r_in. transitivity (el_r r0 + cd - cd); [ring|]. rewrite Z. ring.
  - exfalso. destruct (el_cases r0 N) as [(_ & _ & _ & E)|(S & _ & _ & E)]; rewrite H in E.
    + elim (el_N_nz r0). rewrite <- E. ring.
    + assert (Z : el_r r0 * el_N (el_r r0) = 0) by (rewrite <- E; ring).
      apply F_integral in Z. destruct Z as [Z|Z]; [|elim (el_N_nz r0 Z)].
      apply S. rewrite Z. exact el_zero_sq.
Qed.

(** All candidates for a point. *)
Definition preP (A : pt) : list F :=
  if feqb (xc A) 0 then (if feqb (yc A) 1 then pre0 else []) else pre (xc A) (yc A).
Lemma preP_in r0 : In r0 (preP (el_pt r0)).
Proof.
  unfold preP. destruct (el_c_eq r0) as [-> ->]. destruct (feqb_spec (el_x r0) 0) as [E|N]; [|exact (el_pre r0 N)].
  destruct (el_pre0 r0 E) as [Y K]. rewrite Y. destruct (feqb_spec 1 1) as [_|N]; [exact K|elim N; reflexivity].
Qed.
Lemma preP_length A : (length (preP A) <= 4)%nat.
Proof.
  unfold preP. destruct (feqb (xc A) 0); [|cbn; lia]. destruct (feqb (yc A) 1); cbn; lia.
Qed.

(** The four points of a coset. *)
Lemma on_T1 : on_curve (0, - (1)).
Proof. unfold on_curve. ring. Qed.
Lemma on_T2 : on_curve (FI, 0).
Proof. unfold on_curve. rewrite FI_sq. ring. Qed.
Lemma on_T3 : on_curve (- FI, 0).
Proof. unfold on_curve. assert (E : - FI * - FI = - (1)) by (transitivity (FI * FI); [ring|exact FI_sq]). rewrite E. ring. Qed.
Definition tors : list pt := [pO; pt_of _ on_T1; pt_of _ on_T2; pt_of _ on_T3].
Lemma tors_in T : t4 T <-> In T tors.
Proof.
  rewrite t4_cases. unfold tors. cbn [In]. split.
  - intros [H|[H|[H|[H|[]]]]].
    + left. apply pt_eq. exact H.
    + right. left. apply pt_eq. exact H.
    + right. right. left. apply pt_eq. exact H.
    + right. right. right. left. apply pt_eq. exact H.
  - intros [H|[H|[H|[H|[]]]]]; rewrite <- H.
    + left. reflexivity.
    + right. left. reflexivity.
    + right. right. left. reflexivity.
    + right. right. right. left. reflexivity.
Qed.
Definition pre_coset (A : pt) : list F := flat_map preP (map (padd A) tors).
Lemma pre_coset_in A r0 : coset A (el_pt r0) -> In r0 (pre_coset A).
Proof.
  intros K. unfold pre_coset. apply in_flat_map. exists (el_pt r0). split; [|apply preP_in].
  apply in_map_iff. apply coset_iff in K. destruct K as (T & HT & K). exists T.
  split; [symmetry; exact K|]. apply tors_in. exact HT.
Qed.
Lemma flat_map_le {A B} (f : A -> list B) n l : (forall x, (length (f x) <= n)%nat) -> (length (flat_map f l) <= n * length l)%nat.
Proof.
  intros H. induction l as [|x l IH]; [cbn; lia|]. cbn [flat_map length]. rewrite app_length. specialize (H x). lia.
Qed.
Lemma pre_coset_length A : (length (pre_coset A) <= 16)%nat.
Proof.
  pose proof (flat_map_le preP 4 (map (padd A) tors) preP_length) as H. rewrite map_length in H. exact H.
Qed.
