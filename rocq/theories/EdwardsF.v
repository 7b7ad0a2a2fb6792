(** * The Edwards point code as equations over the field *)

From Coq Require Import ZArith List Bool Lia Ring Field.
From Verif Require Import Machine FieldModel EdwardsModel Spec MachineFacts FieldLimb FieldOps FieldBytes
  NumTheory Primes Fp FieldF FieldInv Curve CurveGroup.
Import ListNotations.
Open Scope F_scope.

Definition EPF (x y z t : F) : ept := EP (enc x) (enc y) (enc z) (enc t).
Definition PPF (x y z : F) : ppt := PP (enc x) (enc y) (enc z).
Definition APF (x y : F) : apt := AP (enc x) (enc y).

Lemma EPF_eq x y z t x' y' z' t' : x = x' -> y = y' -> z = z' -> t = t' ->
  EPF x y z t = EPF x' y' z' t'.
Proof. intros -> -> -> ->. reflexivity. Qed.
Lemma PPF_eq x y z x' y' z' : x = x' -> y = y' -> z = z' -> PPF x y z = PPF x' y' z'.
Proof. intros -> -> ->. reflexivity. Qed.
Lemma APF_eq x y x' y' : x = x' -> y = y' -> APF x y = APF x' y'.
Proof. intros -> ->. reflexivity. Qed.
Lemma EPF_inj x y z t x' y' z' t' : EPF x y z t = EPF x' y' z' t' ->
  x = x' /\ y = y' /\ z = z' /\ t = t'.
Proof.
  unfold EPF. intros H. assert (A := f_equal eX H). assert (B := f_equal eY H).
  assert (C := f_equal eZ H). assert (D := f_equal eT H). cbn [eX eY eZ eT] in *.
  repeat split; now apply enc_inj.
Qed.

Lemma fe_from_u8_2 : fe_from_u8 2 = enc ftwo. Proof. vm_compute. reflexivity. Qed.

(** Side conditions of [field] that are hypotheses, matched syntactically
    ([field] leaves the constant 1 in unfolded form). *)
Ltac nz0 := match goal with
  | |- _ /\ _ => split; nz0
  | H : ?a <> 0 |- ?b <> 0 => constr_eq a b; exact H
  end.
Ltac nz := change {| Fval := 1; Fok := toF_ok 1 |} with fone; nz0.

Ltac fstep :=
  rewrite ?fe_mul_F, ?fe_square_F, ?fe_add_F, ?fe_sub_F, ?fe_neg_F, ?bind_ok.
Ltac fconst := rewrite <- ?enc_one, <- ?enc_zero, <- ?enc_m1, <- ?enc_m1', ?enc_cd, ?FI_enc.
Ltac frun := fconst; repeat (progress fstep).

Section Run.
Variable ck : bool.

Lemma ept_add_enc X1 Y1 Z1 T1 X2 Y2 Z2 T2 :
  ept_add ck (EPF X1 Y1 Z1 T1) (EPF X2 Y2 Z2 T2) =
  Ok (let A := X1 * X2 in let B := Y1 * Y2 in let C := cd * T1 * T2 in let D := Z1 * Z2 in
      let E := (X1 + Y1) * (X2 + Y2) - A - B in let F := D - C in let G := D + C in let H := B + A in
      EPF (E * F) (G * H) (F * G) (E * H)).
Proof. unfold ept_add, EPF. cbn [eX eY eZ eT]. frun. reflexivity. Qed.

Lemma ept_neg_enc X Y Z T : ept_neg ck (EPF X Y Z T) = Ok (EPF (- X) Y Z (- T)).
Proof. unfold ept_neg, EPF. cbn [eX eY eZ eT]. frun. reflexivity. Qed.

Lemma ept_sub_enc X1 Y1 Z1 T1 X2 Y2 Z2 T2 :
  ept_sub ck (EPF X1 Y1 Z1 T1) (EPF X2 Y2 Z2 T2) =
  Ok (let X2 := - X2 in let T2 := - T2 in
      let A := X1 * X2 in let B := Y1 * Y2 in let C := cd * T1 * T2 in let D := Z1 * Z2 in
      let E := (X1 + Y1) * (X2 + Y2) - A - B in let F := D - C in let G := D + C in
      let H := B - - (1) * A in
      EPF (E * F) (G * H) (F * G) (E * H)).
Proof.
  unfold ept_sub. rewrite ept_neg_enc, bind_ok. unfold EPF. cbn [eX eY eZ eT]. frun. reflexivity.
Qed.

Lemma ept_double_enc X Y Z T : ept_double ck (EPF X Y Z T) = ept_add ck (EPF X Y Z T) (EPF X Y Z T).
Proof. reflexivity. Qed.

Lemma ppt_add_enc X1 Y1 Z1 X2 Y2 Z2 :
  ppt_add ck (PPF X1 Y1 Z1) (PPF X2 Y2 Z2) =
  Ok (let A := Z1 * Z2 in let B := A * A in let C := X1 * X2 in let D := Y1 * Y2 in
      let E := cd * C * D in let F := B - E in let G := B + E in
      PPF (A * (F * (((X1 + Y1) * (X2 + Y2) - C) - D))) (A * G * (D + C)) (F * G)).
Proof. unfold ppt_add, PPF. cbn [pX pY pZ]. frun. reflexivity. Qed.

Lemma ppt_neg_enc X Y Z : ppt_neg ck (PPF X Y Z) = Ok (PPF (- X) Y Z).
Proof. unfold ppt_neg, PPF. cbn [pX pY pZ]. frun. reflexivity. Qed.

Lemma ppt_sub_enc X1 Y1 Z1 X2 Y2 Z2 :
  ppt_sub ck (PPF X1 Y1 Z1) (PPF X2 Y2 Z2) = ppt_add ck (PPF X1 Y1 Z1) (PPF (- X2) Y2 Z2).
Proof. unfold ppt_sub. rewrite ppt_neg_enc, bind_ok. reflexivity. Qed.

Lemma ppt_double_enc X Y Z : ppt_double ck (PPF X Y Z) =
  Ok (let B := (X + Y) * (X + Y) in let C := X * X in let D := Y * Y in let E := - (1) * C in
      let F := E + D in let H := Z * Z in let J := F - ftwo * H in
      PPF ((B - C - D) * J) (F * (E - D)) (F * J)).
Proof. unfold ppt_double, PPF. cbn [pX pY pZ]. rewrite fe_from_u8_2. frun. reflexivity. Qed.

Lemma ept_of_ppt_enc X Y Z : ept_of_ppt ck (PPF X Y Z) = Ok (EPF (X * Z) (Y * Z) (Z * Z) (X * Y)).
Proof. unfold ept_of_ppt, PPF, EPF. cbn [pX pY pZ]. frun. reflexivity. Qed.
Lemma ept_of_apt_enc X Y : ept_of_apt ck (APF X Y) = Ok (EPF X Y 1 (X * Y)).
Proof. unfold ept_of_apt, APF, EPF. cbn [aX aY]. frun. reflexivity. Qed.

Lemma apt_of_ept_enc X Y Z T : Z <> 0 -> apt_of_ept ck (EPF X Y Z T) = Ok (APF (X * / Z) (Y * / Z)).
Proof.
  intros N. unfold apt_of_ept, EPF, APF. cbn [eX eY eZ eT].
  rewrite fe_inverse_F by exact N. frun. reflexivity.
Qed.
Lemma apt_of_ept_zero X Y T : apt_of_ept ck (EPF X Y 0 T) = Panic.
Proof. unfold apt_of_ept, EPF. cbn [eX eY eZ eT]. rewrite fe_inverse_zero. reflexivity. Qed.
Lemma apt_of_ppt_enc X Y Z : Z <> 0 -> apt_of_ppt ck (PPF X Y Z) = Ok (APF (X * / Z) (Y * / Z)).
Proof.
  intros N. unfold apt_of_ppt, PPF, APF. cbn [pX pY pZ].
  rewrite fe_inverse_F by exact N. frun. reflexivity.
Qed.
Lemma apt_of_ppt_zero X Y : apt_of_ppt ck (PPF X Y 0) = Panic.
Proof. unfold apt_of_ppt, PPF. cbn [pX pY pZ]. rewrite fe_inverse_zero. reflexivity. Qed.
Lemma apt_eqb_enc X1 Y1 X2 Y2 : apt_eqb (APF X1 Y1) (APF X2 Y2) = feqb X1 X2 && feqb Y1 Y2.
Proof. unfold apt_eqb, APF. cbn [aX aY]. rewrite !fe_eqb_F. reflexivity. Qed.
Lemma apt_neg_enc X Y : apt_neg ck (APF X Y) = Ok (APF (- X) Y).
Proof. unfold apt_neg, APF. cbn [aX aY]. frun. reflexivity. Qed.

Lemma ept_eqb_enc X1 Y1 Z1 T1 X2 Y2 Z2 T2 : Z1 <> 0 -> Z2 <> 0 ->
  ept_eqb ck (EPF X1 Y1 Z1 T1) (EPF X2 Y2 Z2 T2) =
  Ok (feqb (X1 * / Z1) (X2 * / Z2) && feqb (Y1 * / Z1) (Y2 * / Z2)).
Proof.
  intros N1 N2. unfold ept_eqb. rewrite !apt_of_ept_enc, !bind_ok, apt_eqb_enc by assumption. reflexivity.
Qed.
Lemma ppt_eqb_enc X1 Y1 Z1 X2 Y2 Z2 : Z1 <> 0 -> Z2 <> 0 ->
  ppt_eqb ck (PPF X1 Y1 Z1) (PPF X2 Y2 Z2) =
  Ok (feqb (X1 * / Z1) (X2 * / Z2) && feqb (Y1 * / Z1) (Y2 * / Z2)).
Proof.
  intros N1 N2. unfold ppt_eqb. rewrite !apt_of_ppt_enc, !bind_ok, apt_eqb_enc by assumption. reflexivity.
Qed.

Lemma apt_is_valid_enc X Y : apt_is_valid ck (APF X Y) =
  Ok (feqb (- (1) * (X * X) + Y * Y) (1 + cd * (X * X) * (Y * Y))).
Proof. unfold apt_is_valid, APF. cbn [aX aY]. frun. rewrite fe_eqb_F. reflexivity. Qed.
Lemma ppt_is_valid_enc X Y Z : ppt_is_valid ck (PPF X Y Z) =
  Ok (feqb ((- (1) * (X * X) + Y * Y) * (Z * Z)) (Z * Z * (Z * Z) + cd * (X * X) * (Y * Y))).
Proof. unfold ppt_is_valid, PPF. cbn [pX pY pZ]. frun. rewrite fe_eqb_F. reflexivity. Qed.
Lemma ept_is_valid_enc X Y Z T : ept_is_valid ck (EPF X Y Z T) = ppt_is_valid ck (PPF X Y Z).
Proof. reflexivity. Qed.
End Run.

(** Reduced points are encodings. *)
Lemma ept_canon_enc P : fcanon (eX P) -> fcanon (eY P) -> fcanon (eZ P) -> fcanon (eT P) ->
  P = EPF (fF (eX P)) (fF (eY P)) (fF (eZ P)) (fF (eT P)).
Proof.
  intros. destruct P as [x y z t]. unfold EPF. cbn [eX eY eZ eT] in *. rewrite !enc_fF by assumption.
  reflexivity.
Qed.
Lemma ppt_canon_enc P : fcanon (pX P) -> fcanon (pY P) -> fcanon (pZ P) ->
  P = PPF (fF (pX P)) (fF (pY P)) (fF (pZ P)).
Proof.
  intros. destruct P as [x y z]. unfold PPF. cbn [pX pY pZ] in *. rewrite !enc_fF by assumption.
  reflexivity.
Qed.
Lemma apt_canon_enc P : fcanon (aX P) -> fcanon (aY P) -> P = APF (fF (aX P)) (fF (aY P)).
Proof.
  intros. destruct P as [x y]. unfold APF. cbn [aX aY] in *. rewrite !enc_fF by assumption.
  reflexivity.
Qed.

(** ** Representations *)

Definition ext (A : pt) (z : F) : ept :=
  EPF (fst (pxy A) * z) (snd (pxy A) * z) z (fst (pxy A) * snd (pxy A) * z).
Definition prj (A : pt) (z : F) : ppt := PPF (fst (pxy A) * z) (snd (pxy A) * z) z.
Definition aff (A : pt) : apt := APF (fst (pxy A)) (snd (pxy A)).

Lemma residue_enc x : residue (enc x) = x.
Proof. exact (fF_enc x). Qed.

Lemma ext_rep_iff P A : ext_rep P A <-> exists Q z, A = pxy Q /\ z <> 0 /\ P = ext Q z.
Proof.
  split.
  - intros (HA & C1 & C2 & C3 & C4 & NZ & E1 & E2 & E3).
    exists (pt_of A HA), (fF (eZ P)). split; [reflexivity|]. split; [exact NZ|].
    rewrite (ept_canon_enc P C1 C2 C3 C4) at 1. unfold ext. rewrite pxy_of.
    apply EPF_eq; [exact E1|exact E2|reflexivity|exact E3].
  - intros (Q & z & -> & NZ & ->). unfold ext_rep, ext, EPF. cbn [eX eY eZ eT]. rewrite !residue_enc.
    split; [apply pt_on|]. do 4 (split; [apply enc_c|]). split; [exact NZ|].
    split; [reflexivity|]. split; reflexivity.
Qed.
Lemma proj_rep_iff P A : proj_rep P A <-> exists Q z, A = pxy Q /\ z <> 0 /\ P = prj Q z.
Proof.
  split.
  - intros (HA & C1 & C2 & C3 & NZ & E1 & E2).
    exists (pt_of A HA), (fF (pZ P)). split; [reflexivity|]. split; [exact NZ|].
    rewrite (ppt_canon_enc P C1 C2 C3) at 1. unfold prj. rewrite pxy_of.
    apply PPF_eq; [exact E1|exact E2|reflexivity].
  - intros (Q & z & -> & NZ & ->). unfold proj_rep, prj, PPF. cbn [pX pY pZ]. rewrite !residue_enc.
    split; [apply pt_on|]. do 3 (split; [apply enc_c|]). split; [exact NZ|].
    split; reflexivity.
Qed.
Lemma aff_rep_iff P A : aff_rep P A <-> exists Q, A = pxy Q /\ P = aff Q.
Proof.
  split.
  - intros (HA & C1 & C2 & E1 & E2). exists (pt_of A HA). split; [reflexivity|].
    rewrite (apt_canon_enc P C1 C2) at 1. unfold aff. rewrite pxy_of.
    apply APF_eq; [exact E1|exact E2].
  - intros (Q & -> & ->). unfold aff_rep, aff, APF. cbn [aX aY]. rewrite !residue_enc.
    split; [apply pt_on|]. do 2 (split; [apply enc_c|]). split; reflexivity.
Qed.

(** ** The point operations on representations *)

Lemma ext_add_z A B z1 z2 : z1 <> 0 -> z2 <> 0 ->
  exists z, z <> 0 /\ forall ck, ept_add ck (ext A z1) (ext B z2) = Ok (ext (padd A B) z).
Proof.
  intros N1 N2. destruct A as [[x1 y1] HA], B as [[x2 y2] HB].
  pose proof (proj1 (on_curveb_spec _) HA) as CA. pose proof (proj1 (on_curveb_spec _) HB) as CB.
  pose proof (complete_plus _ _ _ _ CA CB) as P1. pose proof (complete_minus _ _ _ _ CA CB) as P2.
  exists ((z1 * z2 * (1 - cd * x1 * x2 * y1 * y2)) * (z1 * z2 * (1 + cd * x1 * x2 * y1 * y2))).
  split; [repeat apply F_mul_nz; assumption|]. intros ck.
  unfold ext at 1 2. rewrite ept_add_enc. cbv zeta. apply f_equal. unfold ext, padd. rewrite pxy_of.
  cbn [pxy fst snd]. unfold sum. cbn [fst snd].
  apply EPF_eq; field; nz.
Qed.

Lemma ext_double_z A z1 : z1 <> 0 ->
  exists z, z <> 0 /\ forall ck, ept_double ck (ext A z1) = Ok (ext (padd A A) z).
Proof. intros N. exact (ext_add_z A A z1 z1 N N). Qed.

Lemma ext_neg_z ck A z : ept_neg ck (ext A z) = Ok (ext (popp A) z).
Proof.
  destruct A as [[x y] HA]. unfold ext at 1. rewrite ept_neg_enc. apply f_equal. unfold ext, popp.
  rewrite pxy_of. cbn [pxy opposite fst snd]. apply EPF_eq; ring.
Qed.

Lemma ext_sub_add ck A z1 B z2 : ept_sub ck (ext A z1) (ext B z2) = ept_add ck (ext A z1) (ext (popp B) z2).
Proof.
  destruct A as [[x1 y1] HA], B as [[x2 y2] HB]. unfold ext, popp. rewrite pxy_of.
  cbn [pxy opposite fst snd]. rewrite ept_sub_enc, ept_add_enc. cbv zeta. apply f_equal.
  apply EPF_eq; ring.
Qed.
Lemma ext_sub_z A B z1 z2 : z1 <> 0 -> z2 <> 0 ->
  exists z, z <> 0 /\ forall ck, ept_sub ck (ext A z1) (ext B z2) = Ok (ext (padd A (popp B)) z).
Proof.
  intros N1 N2. destruct (ext_add_z A (popp B) z1 z2 N1 N2) as (z & N & E).
  exists z. split; [exact N|]. intros ck. rewrite ext_sub_add. apply E.
Qed.

Lemma ext_identity : ept_identity = ext pO 1.
Proof.
  unfold ept_identity. rewrite <- enc_one, <- enc_zero. unfold ext, pO. rewrite pxy_of. unfold origin.
  cbn [fst snd]. fold (EPF 0 1 1 0). apply EPF_eq; ring.
Qed.

Lemma fxz x z : z <> 0 -> x * z * / z = x.
Proof. intros N. field. exact N. Qed.

Lemma ext_affine ck A z : z <> 0 -> apt_of_ept ck (ext A z) = Ok (aff A).
Proof.
  intros N. unfold ext. rewrite apt_of_ept_enc by exact N. rewrite !fxz by exact N. reflexivity.
Qed.

Lemma feqb_xy a b c d : feqb a c && feqb b d = true <-> (a, b) = (c, d).
Proof.
  rewrite andb_true_iff, !feqb_eq. split; [intros [-> ->]; reflexivity|].
  intros E. split; congruence.
Qed.
Definition pt_eqb (A B : pt) : bool :=
  feqb (fst (pxy A)) (fst (pxy B)) && feqb (snd (pxy A)) (snd (pxy B)).
Lemma pt_eqb_spec A B : reflect (A = B) (pt_eqb A B).
Proof.
  apply iff_reflect. unfold pt_eqb. rewrite feqb_xy, <- !surjective_pairing.
  split; [intros ->; reflexivity|apply pt_eq].
Qed.

Lemma ext_eqb ck A B z1 z2 : z1 <> 0 -> z2 <> 0 -> ept_eqb ck (ext A z1) (ext B z2) = Ok (pt_eqb A B).
Proof.
  intros N1 N2. unfold ext. rewrite ept_eqb_enc, !fxz by assumption. reflexivity.
Qed.

Lemma prj_affine ck A z : z <> 0 -> apt_of_ppt ck (prj A z) = Ok (aff A).
Proof.
  intros N. unfold prj. rewrite apt_of_ppt_enc by exact N. rewrite !fxz by exact N. reflexivity.
Qed.
Lemma prj_eqb ck A B z1 z2 : z1 <> 0 -> z2 <> 0 -> ppt_eqb ck (prj A z1) (prj B z2) = Ok (pt_eqb A B).
Proof.
  intros N1 N2. unfold prj. rewrite ppt_eqb_enc, !fxz by assumption. reflexivity.
Qed.
Lemma aff_eqb A B : apt_eqb (aff A) (aff B) = pt_eqb A B.
Proof. unfold aff. apply apt_eqb_enc. Qed.

Lemma ext_to_prj A z : ppt_of_ept (ext A z) = prj A z.
Proof. reflexivity. Qed.
Lemma aff_to_prj A : ppt_of_apt (aff A) = prj A 1.
Proof.
  unfold ppt_of_apt, aff, prj, APF. cbn [aX aY]. rewrite <- enc_one. fold (PPF (fst (pxy A)) (snd (pxy A)) 1).
  apply PPF_eq; ring.
Qed.
Lemma aff_to_ext ck A : ept_of_apt ck (aff A) = Ok (ext A 1).
Proof. unfold aff. rewrite ept_of_apt_enc. apply f_equal. unfold ext. apply EPF_eq; ring. Qed.
Lemma prj_to_ext ck A z : ept_of_ppt ck (prj A z) = Ok (ext A (z * z)).
Proof. unfold prj. rewrite ept_of_ppt_enc. apply f_equal. unfold ext. apply EPF_eq; ring. Qed.

Lemma prj_add_z A B z1 z2 : z1 <> 0 -> z2 <> 0 ->
  exists z, z <> 0 /\ forall ck, ppt_add ck (prj A z1) (prj B z2) = Ok (prj (padd A B) z).
Proof.
  intros N1 N2. destruct A as [[x1 y1] HA], B as [[x2 y2] HB].
  pose proof (proj1 (on_curveb_spec _) HA) as CA. pose proof (proj1 (on_curveb_spec _) HB) as CB.
  pose proof (complete_plus _ _ _ _ CA CB) as P1. pose proof (complete_minus _ _ _ _ CA CB) as P2.
  exists ((z1 * z2 * (z1 * z2) * (1 - cd * x1 * x2 * y1 * y2)) * (z1 * z2 * (z1 * z2) * (1 + cd * x1 * x2 * y1 * y2))).
  split; [repeat apply F_mul_nz; assumption|]. intros ck.
  unfold prj at 1 2. rewrite ppt_add_enc. cbv zeta. apply f_equal. unfold prj, padd. rewrite pxy_of.
  cbn [pxy fst snd]. unfold sum. cbn [fst snd].
  apply PPF_eq; field; nz.
Qed.

Lemma prj_neg_z ck A z : ppt_neg ck (prj A z) = Ok (prj (popp A) z).
Proof.
  destruct A as [[x y] HA]. unfold prj at 1. rewrite ppt_neg_enc. apply f_equal. unfold prj, popp.
  rewrite pxy_of. cbn [pxy opposite fst snd]. apply PPF_eq; ring.
Qed.
Lemma prj_sub_z A B z1 z2 : z1 <> 0 -> z2 <> 0 ->
  exists z, z <> 0 /\ forall ck, ppt_sub ck (prj A z1) (prj B z2) = Ok (prj (padd A (popp B)) z).
Proof.
  intros N1 N2. destruct (prj_add_z A (popp B) z1 z2 N1 N2) as (z & N & E).
  exists z. split; [exact N|]. intros ck. unfold ppt_sub. rewrite prj_neg_z, bind_ok. apply E.
Qed.

(** Doubling: the denominators 1 + dx^2y^2 and 1 - dx^2y^2 in the form used. *)
Lemma prj_double_z A z1 : z1 <> 0 ->
  exists z, z <> 0 /\ forall ck, ppt_double ck (prj A z1) = Ok (prj (padd A A) z).
Proof.
  intros N1. destruct A as [[x y] HA].
  pose proof (proj1 (on_curveb_spec _) HA) as CA.
  pose proof (complete_plus _ _ _ _ CA CA) as P1. pose proof (complete_minus _ _ _ _ CA CA) as P2.
  assert (E1 : 1 + cd * x * x * y * y = y * y - x * x).
  { unfold on_curve in CA. transitivity (- (x * x) + y * y); [|ring]. rewrite CA. ring. }
  assert (E2 : 1 - cd * x * x * y * y = ftwo - (y * y - x * x)).
  { rewrite <- E1. unfold ftwo. ring. }
  rewrite E1 in P1. rewrite E2 in P2.
  exists (- (z1 * z1 * (z1 * z1) * (y * y - x * x) * (ftwo - (y * y - x * x)))).
  split.
  { intros H. apply (F_opp_eq0 (z1 * z1 * (z1 * z1) * (y * y - x * x) * (ftwo - (y * y - x * x)))) in H.
    revert H. repeat apply F_mul_nz; assumption. }
  intros ck.
  unfold prj at 1. rewrite ppt_double_enc. cbv zeta. apply f_equal. unfold prj, padd. rewrite pxy_of.
  cbn [pxy fst snd]. unfold sum. cbn [fst snd]. rewrite E1, E2.
  apply PPF_eq; field; nz.
Qed.

Lemma prj_identity : ppt_identity = prj pO 1.
Proof.
  unfold ppt_identity. rewrite <- enc_one, <- enc_zero. unfold prj, pO. rewrite pxy_of. unfold origin.
  cbn [fst snd]. fold (PPF 0 1 1). apply PPF_eq; ring.
Qed.
