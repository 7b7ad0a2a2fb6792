(** * Statements about Ristretto equality on arbitrary coordinates: C109 *)

From Coq Require Import ZArith Znumtheory List Bool Lia Ring Field.
From Verif Require Import Machine FieldModel ScalarModel EdwardsModel RistrettoModel Spec OffSpec MachineFacts
  FieldLimb FieldOps FieldBytes NumTheory Primes Fp FieldF FieldInv FieldStmt Curve CurveGroup EdwardsF EdwardsStmt.
Import ListNotations.
Open Scope F_scope.

Lemma rp_eqb_F ck P Q : reduced_ext P -> reduced_ext Q ->
  rp_eqb ck P Q = Ok (feqb (residue (eX P) * residue (eY Q)) (residue (eY P) * residue (eX Q)) ||
                      feqb (residue (eX P) * residue (eX Q)) (residue (eY P) * residue (eY Q))).
Proof.
  intros (A1 & A2 & A3 & A4) (B1 & B2 & B3 & B4).
  rewrite (ept_canon_enc P A1 A2 A3 A4), (ept_canon_enc Q B1 B2 B3 B4). unfold EPF. cbn [eX eY].
  rewrite !residue_enc. unfold rp_eqb. cbn [eX eY]. rewrite !fe_mul_F, !bind_ok, !fe_eqb_F. reflexivity.
Qed.

Lemma residue_zero a : fcanon a -> residue a = 0 -> fval a = 0%Z.
Proof.
  intros [Ha Hr] E. apply (proj1 (toF_eq (fval a) 0)) in E.
  rewrite (Z.mod_small (fval a) p) in E by (split; [exact (proj1 (fval_nonneg a Ha))|exact Hr]). rewrite E. reflexivity.
Qed.

(** ** C109 *)
(** Two points compare equal exactly if X : Y are the same ratio or inverse ratios. Z and T are not looked at. *)
Lemma C109_eq_stmt : forall ck P Q, reduced_ext P -> reduced_ext Q ->
  exists r, rp_eqb ck P Q = Ok r /\
    (r = true <-> residue (eX P) * residue (eY Q) = residue (eY P) * residue (eX Q) \/
                  residue (eX P) * residue (eX Q) = residue (eY P) * residue (eY Q)).
Proof.
  intros ck P Q HP HQ. rewrite (rp_eqb_F ck P Q HP HQ). eexists. split; [reflexivity|].
  rewrite orb_true_iff, !feqb_eq. reflexivity.
Qed.

Definition rat (a b c d : F) : Prop := a * d = b * c \/ a * c = b * d.
Lemma rat_trans a b c d e f : ~ (c = 0 /\ d = 0) -> rat a b c d -> rat c d e f -> rat a b e f.
Proof.
  intros N H1 H2. unfold rat in *.
  (* one of c, d is not zero: cancel it *)
  assert (K : (c <> 0 \/ d <> 0)).
  { destruct (feqb c 0) eqn:G.
    - apply feqb_eq in G. right. intros Zd. apply N. split; [exact G|exact Zd].
    - left. intros Zc. apply (proj2 (feqb_eq c 0)) in Zc. rewrite Zc in G. discriminate G. }
  destruct H1 as [H1|H1], H2 as [H2|H2].
  - left. destruct K as [K|K]; apply (F_mul_cancel_l _ _ _ K).
    + transitivity (a * (c * f)); [ring|]. rewrite H2. transitivity ((a * d) * e); [ring|]. rewrite H1. ring.
    + transitivity ((a * d) * f); [ring|]. rewrite H1. transitivity (b * (c * f)); [ring|]. rewrite H2. ring.
  - right. destruct K as [K|K]; apply (F_mul_cancel_l _ _ _ K).
    + transitivity (a * (c * e)); [ring|]. rewrite H2. transitivity ((a * d) * f); [ring|]. rewrite H1. ring.
    + transitivity ((a * d) * e); [ring|]. rewrite H1. transitivity (b * (c * e)); [ring|]. rewrite H2. ring.
  - right. destruct K as [K|K]; apply (F_mul_cancel_l _ _ _ K).
    + transitivity ((a * c) * e); [ring|]. rewrite H1. transitivity (b * (d * e)); [ring|]. rewrite <- H2. ring.
    + transitivity (a * (d * e)); [ring|]. rewrite <- H2. transitivity ((a * c) * f); [ring|]. rewrite H1. ring.
  - left. destruct K as [K|K]; apply (F_mul_cancel_l _ _ _ K).
    + transitivity ((a * c) * f); [ring|]. rewrite H1. transitivity (b * (d * f)); [ring|]. rewrite <- H2. ring.
    + transitivity (a * (d * f)); [ring|]. rewrite <- H2. transitivity ((a * c) * e); [ring|]. rewrite H1. ring.
Qed.

(** Reflexive and symmetric for all coordinates; transitive through every point with X or Y not zero. *)
Lemma C109_equivalence_stmt : forall ck P Q R, reduced_ext P -> reduced_ext Q -> reduced_ext R ->
  rp_eqb ck P P = Ok true /\ rp_eqb ck P Q = rp_eqb ck Q P /\
  (~ (fval (eX Q) = 0%Z /\ fval (eY Q) = 0%Z) ->
   rp_eqb ck P Q = Ok true -> rp_eqb ck Q R = Ok true -> rp_eqb ck P R = Ok true).
Proof.
  intros ck P Q R HP HQ HR. rewrite !rp_eqb_F by assumption.
  set (a := residue (eX P)). set (b := residue (eY P)). set (e := residue (eX R)). set (f := residue (eY R)).
  split; [|split].
  - apply f_equal. apply orb_true_iff. left. apply feqb_eq. ring.
  - apply f_equal. apply f_equal2.
    + apply eq_true_iff_eq. rewrite !feqb_eq. split; intros E.
      * transitivity (b * residue (eX Q)); [ring|]. rewrite <- E. ring.
      * transitivity (residue (eY Q) * a); [ring|]. rewrite <- E. ring.
    + apply eq_true_iff_eq. rewrite !feqb_eq. split; intros E.
      * transitivity (a * residue (eX Q)); [ring|]. rewrite E. ring.
      * transitivity (residue (eX Q) * a); [ring|]. rewrite E. ring.
  - intros N E1 E2.
    apply (f_equal (fun r => match r with Ok o => o | _ => false end)) in E1.
    apply (f_equal (fun r => match r with Ok o => o | _ => false end)) in E2.
    rewrite orb_true_iff, !feqb_eq in E1, E2. apply f_equal. rewrite orb_true_iff, !feqb_eq.
    apply (rat_trans a b (residue (eX Q)) (residue (eY Q)) e f); [|exact E1|exact E2].
    intros [Z1 Z2]. apply N. destruct HQ as (C1 & C2 & _). split.
    + exact (residue_zero _ C1 Z1).
    + exact (residue_zero _ C2 Z2).
Qed.
(** A value with X = Y = 0 equals every point. *)
Lemma C109_zero_stmt : forall ck P Q, reduced_ext P -> reduced_ext Q -> fval (eX P) = 0%Z -> fval (eY P) = 0%Z ->
  rp_eqb ck P Q = Ok true /\ rp_eqb ck Q P = Ok true.
Proof.
  intros ck P Q HP HQ Z1 Z2. rewrite !rp_eqb_F by assumption.
  assert (R1 : residue (eX P) = 0) by (rewrite Z1; reflexivity).
  assert (R2 : residue (eY P) = 0) by (rewrite Z2; reflexivity). rewrite R1, R2.
  split; apply f_equal; apply orb_true_iff; left; apply feqb_eq; ring.
Qed.

Definition rel_zero : ept := EP fe_zero fe_zero fe_one fe_zero.
Lemma C109_transitive_refuted_stmt : exists P Q R, reduced_ext P /\ reduced_ext Q /\ reduced_ext R /\ forall ck,
  rp_eqb ck P Q = Ok true /\ rp_eqb ck Q R = Ok true /\ rp_eqb ck P R = Ok false.
Proof.
  exists ept_identity, rel_zero, BASEPOINT.
  assert (H1 : reduced_ext ept_identity) by (split; [apply fcanon_zero|split; [apply fcanon_one|split; [apply fcanon_one|apply fcanon_zero]]]).
  assert (H3 : reduced_ext BASEPOINT).
  { destruct base_rep as (_ & C1 & C2 & C3 & C4 & _). split; [exact C1|]. split; [exact C2|]. split; [exact C3|exact C4]. }
  assert (H2 : reduced_ext rel_zero) by (split; [apply fcanon_zero|split; [apply fcanon_zero|split; [apply fcanon_one|apply fcanon_zero]]]).
  split; [exact H1|]. split; [exact H2|]. split; [exact H3|]. intros ck.
  destruct (C109_zero_stmt ck rel_zero ept_identity H2 H1 eq_refl eq_refl) as [_ E1].
  destruct (C109_zero_stmt ck rel_zero BASEPOINT H2 H3 eq_refl eq_refl) as [E2 _].
  split; [exact E1|]. split; [exact E2|]. destruct ck; vm_compute; reflexivity.
Qed.

(** Off the curve the relation is not kept by doubling: (x/2, y/2) equals (x, y), the doubles differ. *)
Definition rel_T : fe := Eval vm_compute in enc (fF (eT BASEPOINT) / toF 2).
Definition rel_half : ept := EP (eX BASEPOINT) (eY BASEPOINT) (fe_from_u8 2) rel_T.
Lemma C109_double_refuted_stmt : exists P A, ext_at P A /\ ~ on_curve A /\ valid_ext BASEPOINT /\ forall ck,
  rp_eqb ck P BASEPOINT = Ok true /\
  (R <- rp_double ck P ;; S <- rp_double ck BASEPOINT ;; rp_eqb ck R S) = Ok false.
Proof.
  exists rel_half, (residue (eX BASEPOINT) / toF 2, residue (eY BASEPOINT) / toF 2).
  assert (N : forall a b : F, Fval a <> Fval b -> a <> b) by (intros a b H E; apply H; now rewrite E).
  split; [|split; [|split]].
  - destruct base_rep as (_ & C1 & C2 & _). unfold ext_at, rel_half, reduced_ext. cbn [eX eY eZ eT fst snd].
    split; [split; [exact C1|split; [exact C2|split; apply canon_check; reflexivity]]|].
    split; [apply N; vm_compute; discriminate|]. split; [apply Feq; vm_compute; reflexivity|].
    split; apply Feq; vm_compute; reflexivity.
  - unfold on_curve. apply N. vm_compute. discriminate.
  - exists base. exact base_rep.
  - intros ck. destruct ck; split; vm_compute; reflexivity.
Qed.
Lemma C109_ex : reduced_ext BASEPOINT /\ ~ (fval (eX BASEPOINT) = 0%Z /\ fval (eY BASEPOINT) = 0%Z) /\
  reduced_ext rel_half /\ rp_eqb true BASEPOINT rel_half = Ok true /\ rp_eqb true ept_identity rel_half = Ok false /\
  reduced_ext rel_zero /\ fval (eX rel_zero) = 0%Z /\ fval (eY rel_zero) = 0%Z.
Proof.
  destruct base_rep as (_ & C1 & C2 & C3 & C4 & _).
  split; [split; [exact C1|]; split; [exact C2|]; split; [exact C3|exact C4]|].
  split; [intros [E _]; vm_compute in E; discriminate E|].
  split; [split; [exact C1|split; [exact C2|split; apply canon_check; reflexivity]]|].
  split; [vm_compute; reflexivity|]. split; [vm_compute; reflexivity|].
  split; [split; [apply fcanon_zero|split; [apply fcanon_zero|split; [apply fcanon_one|apply fcanon_zero]]]|].
  split; reflexivity.
Qed.
