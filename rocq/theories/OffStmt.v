(** * Statements about points that are not on the curve: C108 *)

From Coq Require Import ZArith Znumtheory List Bool Lia Ring Field.
From Verif Require Import Machine FieldModel ScalarModel EdwardsModel Spec OffSpec MachineFacts
  FieldLimb FieldOps FieldBytes NumTheory Primes Fp FieldF FieldInv FieldStmt ScalarOps ScalarBits Curve CurveGroup EdwardsF EdwardsY EdwardsStmt.
Import ListNotations.
Open Scope F_scope.

Lemma sq_times_cd e w : is_sq e -> e <> 0 -> cd * (w * w) <> e.
Proof.
  intros [s S] NZ E. apply cd_nonsq.
  assert (W : w <> 0). { intros ->. apply NZ. rewrite <- E. ring. }
  exists (s / w). transitivity ((s * s) / (w * w)); [field; exact W|]. rewrite S, <- E. field. exact W.
Qed.
Lemma never_plus x y : 1 + cd * (x * x) * (y * y) <> 0.
Proof.
  intros E. apply (sq_times_cd (- (1)) (x * y)).
  - exists fi. exact fi_sq.
  - intros Z. apply one_neq_zero. transitivity (- - (1)); [ring|]. rewrite Z. ring.
  - transitivity (1 + cd * (x * x) * (y * y) - 1); [ring|]. rewrite E. ring.
Qed.
Lemma never_minus x y : 1 - cd * (x * x) * (y * y) <> 0.
Proof.
  intros E. apply (sq_times_cd 1 (x * y)).
  - apply is_sq_one.
  - apply one_neq_zero.
  - transitivity (1 - (1 - cd * (x * x) * (y * y))); [ring|]. rewrite E. ring.
Qed.

Lemma inv_one : / 1 = 1. Proof. symmetry. apply F_inv_unique. ring. Qed.
Lemma pair_eq (a b c d : F) : a = c -> b = d -> (a, b) = (c, d). Proof. intros -> ->. reflexivity. Qed.

Definition extp (A : xy) (z : F) : ept := EPF (fst A * z) (snd A * z) z (fst A * snd A * z).
Definition prjp (A : xy) (z : F) : ppt := PPF (fst A * z) (snd A * z) z.

Lemma ext_at_iff P A : ext_at P A <-> exists z, z <> 0 /\ P = extp A z.
Proof.
  split.
  - intros ((C1 & C2 & C3 & C4) & NZ & E1 & E2 & E3). exists (fF (eZ P)). split; [exact NZ|].
    rewrite (ept_canon_enc P C1 C2 C3 C4) at 1. apply EPF_eq; [exact E1|exact E2|reflexivity|exact E3].
  - intros (z & NZ & ->). unfold ext_at, reduced_ext, extp, EPF. cbn [eX eY eZ eT]. rewrite !residue_enc.
    split; [split; [apply enc_c|split; [apply enc_c|split; apply enc_c]]|]. split; [exact NZ|]. split; [reflexivity|]. split; reflexivity.
Qed.
Lemma proj_at_iff P A : proj_at P A <-> exists z, z <> 0 /\ P = prjp A z.
Proof.
  split.
  - intros ((C1 & C2 & C3) & NZ & E1 & E2). exists (fF (pZ P)). split; [exact NZ|].
    rewrite (ppt_canon_enc P C1 C2 C3) at 1. apply PPF_eq; [exact E1|exact E2|reflexivity].
  - intros (z & NZ & ->). unfold proj_at, reduced_proj, prjp, PPF. cbn [pX pY pZ]. rewrite !residue_enc.
    split; [split; [apply enc_c|split; apply enc_c]|]. split; [exact NZ|]. split; reflexivity.
Qed.

(** ** C108 *)
(** Addition does not ask in which order the points come, on the curve or off it. *)
Lemma C108_comm_stmt : forall ck P Q P' Q', reduced_ext P -> reduced_ext Q -> reduced_proj P' -> reduced_proj Q' ->
  ept_add ck P Q = ept_add ck Q P /\ ppt_add ck P' Q' = ppt_add ck Q' P'.
Proof.
  intros ck P Q P' Q' (A1 & A2 & A3 & A4) (B1 & B2 & B3 & B4) (C1 & C2 & C3) (D1 & D2 & D3). split.
  - rewrite (ept_canon_enc P A1 A2 A3 A4), (ept_canon_enc Q B1 B2 B3 B4), !ept_add_enc. cbv zeta.
    apply f_equal. apply EPF_eq; ring.
  - rewrite (ppt_canon_enc P' C1 C2 C3), (ppt_canon_enc Q' D1 D2 D3), !ppt_add_enc. cbv zeta.
    apply f_equal. apply PPF_eq; ring.
Qed.
(** The identity is neutral for every pair of coordinates. *)
Lemma C108_neutral_stmt : forall ck P A P', ext_at P A -> proj_at P' A ->
  (exists R, ept_add ck P ept_identity = Ok R /\ ext_at R A) /\
  (exists R, ppt_add ck P' ppt_identity = Ok R /\ proj_at R A).
Proof.
  intros ck P [x y] P' H H'. apply ext_at_iff in H. apply proj_at_iff in H'.
  destruct H as (z & NZ & ->), H' as (z' & NZ' & ->). split.
  - unfold extp. change ept_identity with (EPF 0 1 1 0). rewrite ept_add_enc. cbv zeta. eexists. split; [reflexivity|].
    apply ext_at_iff. exists (z * z). split; [now apply F_mul_nz|]. unfold extp. cbn [fst snd]. apply EPF_eq; ring.
  - unfold prjp. change ppt_identity with (PPF 0 1 1). rewrite ppt_add_enc. cbv zeta. eexists. split; [reflexivity|].
    apply proj_at_iff. exists ((z' * z') * (z' * z')). split; [repeat apply F_mul_nz; assumption|].
    unfold prjp. cbn [fst snd]. apply PPF_eq; ring.
Qed.

Definition dbl (A : xy) : xy :=
  let (x, y) := A in
  ((x * y + x * y) / (1 + cd * (x * x) * (y * y)), (y * y + x * x) / (1 - cd * (x * x) * (y * y))).
Lemma dbl_on A : on_curve (dbl A) <-> on_curve A \/ on_curve (swapped A).
Proof.
  destruct A as [x y]. unfold dbl, swapped, on_curve. cbn [fst snd].
  pose proof (never_plus x y) as P. pose proof (never_minus x y) as M.
  remember (cd * (x * x) * (y * y)) as t eqn:T.
  assert (K : let X := (x * y + x * y) / (1 + t) in let Y := (y * y + x * x) / (1 - t) in
    (- (X * X) + Y * Y) - (1 + cd * (X * X) * (Y * Y)) =
    ((y * y - x * x) - (1 + t)) * ((y * y - x * x) + (1 + t)) / ((1 + t) * (1 + t))).
  { cbv zeta.
    transitivity ((- ((1+1+1+1) * (x * x) * (y * y) * ((1 - t) * (1 - t))) + ((y * y + x * x) * (y * y + x * x)) * ((1 + t) * (1 + t))
      - ((1 + t) * (1 - t)) * ((1 + t) * (1 - t)) - (1+1+1+1) * (cd * (x * x) * (y * y)) * ((y * y + x * x) * (y * y + x * x))) / (((1 + t) * (1 - t)) * ((1 + t) * (1 - t)))).
    - clear T. field. nz.
    - rewrite <- T. clear T. field. nz. }
  cbv zeta in K. set (X := (x * y + x * y) / (1 + t)) in *. set (Y := (y * y + x * x) / (1 - t)) in *.
  split.
  - intros E. assert (Z : ((y * y - x * x) - (1 + t)) * ((y * y - x * x) + (1 + t)) = 0).
    { transitivity (((- (X * X) + Y * Y) - (1 + cd * (X * X) * (Y * Y))) * ((1 + t) * (1 + t))).
      - rewrite K. field. nz.
      - rewrite E. ring. }
    apply F_integral in Z. destruct Z as [Z|Z]; [left|right].
    + transitivity ((y * y - x * x - (1 + t)) + (1 + t)); [ring|]. rewrite Z, T. ring.
    + transitivity ((1 + t) - (y * y - x * x + (1 + t))); [ring|]. rewrite Z, T. ring.
  - intros H. assert (Z : ((y * y - x * x) - (1 + t)) * ((y * y - x * x) + (1 + t)) = 0).
    { destruct H as [H|H].
      - transitivity (((- (x * x) + y * y) - (1 + t)) * ((y * y - x * x) + (1 + t))); [ring|]. rewrite H, T. ring.
      - transitivity (((y * y - x * x) - (1 + t)) * ((1 + t) - (- (y * y) + x * x))); [ring|]. rewrite H, T. ring. }
    apply F_sub_eq. rewrite K, Z. field. nz.
Qed.

Lemma ext_double_at ck P A : ext_at P A -> exists R, ept_double ck P = Ok R /\ ext_at R (dbl A).
Proof.
  intros H. apply ext_at_iff in H. destruct H as (z & NZ & ->).
  unfold extp. rewrite ept_double_enc, ept_add_enc. cbv zeta. eexists. split; [reflexivity|].
  apply ext_at_iff. destruct A as [x y]. cbn [fst snd].
  pose proof (never_plus x y) as Pl. pose proof (never_minus x y) as Mi.
  exists ((z * z * (1 - cd * (x * x) * (y * y))) * (z * z * (1 + cd * (x * x) * (y * y)))).
  split; [repeat apply F_mul_nz; assumption|]. unfold extp, dbl. cbn [fst snd]. apply EPF_eq; field; nz.
Qed.
(** Doubling in extended coordinates never leaves the affine plane. It reaches the curve exactly from the points
    of the curve and their mirror images. *)
Lemma C108_ext_double_stmt : forall ck P A, ext_at P A ->
  exists R B, ept_double ck P = Ok R /\ ext_at R B /\ (on_curve B <-> on_curve A \/ on_curve (swapped A)).
Proof.
  intros ck P A H. destruct (ext_double_at ck P A H) as (R & E & G). exists R, (dbl A).
  split; [exact E|]. split; [exact G|]. apply dbl_on.
Qed.
(** A point minus itself is the identity exactly on the curve. *)
Lemma C108_ext_self_stmt : forall ck P A, ext_at P A ->
  exists R b, ept_sub ck P P = Ok R /\ ept_eqb ck R ept_identity = Ok b /\ (b = true <-> on_curve A).
Proof.
  intros ck P [x y] H. apply ext_at_iff in H. destruct H as (z & NZ & ->).
  pose proof (never_plus x y) as Pl. pose proof (never_minus x y) as Mi.
  unfold on_curve. remember (cd * (x * x) * (y * y)) as t eqn:T.
  unfold extp. cbn [fst snd]. rewrite ept_sub_enc. cbv zeta. eexists. eexists. split; [reflexivity|].
  change ept_identity with (EPF 0 1 1 0).
  match goal with |- ept_eqb _ (EPF ?X ?Y ?Z ?U) _ = _ /\ _ =>
    replace (EPF X Y Z U) with (EPF 0 ((z * z * (1 - t)) * (z * z * (y * y - x * x))) ((z * z * (1 + t)) * (z * z * (1 - t))) 0)
      by (apply EPF_eq; rewrite ?T; ring) end.
  rewrite ept_eqb_enc; [|repeat apply F_mul_nz; assumption|apply one_neq_zero]. split; [reflexivity|].
  rewrite feqb_xy. clear T.
  assert (Q : (z * z * (1 - t)) * (z * z * (y * y - x * x)) * / ((z * z * (1 + t)) * (z * z * (1 - t))) = (y * y - x * x) / (1 + t)).
  { field. nz. }
  split.
  - intros E. apply (f_equal snd) in E. cbn [snd] in E. rewrite Q in E.
    transitivity ((y * y - x * x) / (1 + t) * (1 + t)); [field; nz|].
    transitivity (1 * / 1 * (1 + t)); [now rewrite E|]. rewrite inv_one. ring.
  - intros E. apply pair_eq; [ring|]. rewrite Q.
    transitivity ((- (x * x) + y * y) / (1 + t)); [field; nz|]. rewrite E, inv_one. field. nz.
Qed.
Lemma C108_proj_self_stmt : forall ck P A, proj_at P A ->
  exists R b, ppt_sub ck P P = Ok R /\ ppt_eqb ck R ppt_identity = Ok b /\ (b = true <-> on_curve A).
Proof.
  intros ck P [x y] H. apply proj_at_iff in H. destruct H as (z & NZ & ->).
  pose proof (never_plus x y) as Pl. pose proof (never_minus x y) as Mi.
  unfold on_curve. remember (cd * (x * x) * (y * y)) as t eqn:T. remember ((z * z) * (z * z)) as w eqn:W.
  assert (NW : w <> 0) by (rewrite W; repeat apply F_mul_nz; exact NZ).
  unfold prjp. cbn [fst snd]. rewrite ppt_sub_enc, ppt_add_enc. cbv zeta. eexists. eexists. split; [reflexivity|].
  change ppt_identity with (PPF 0 1 1).
  match goal with |- ppt_eqb _ (PPF ?X ?Y ?Z) _ = _ /\ _ =>
    replace (PPF X Y Z) with (PPF 0 ((w * (1 - t)) * (w * (y * y - x * x))) ((w * (1 + t)) * (w * (1 - t))))
      by (apply PPF_eq; rewrite ?T, ?W; ring) end.
  rewrite ppt_eqb_enc; [|repeat apply F_mul_nz; assumption|apply one_neq_zero]. split; [reflexivity|].
  rewrite feqb_xy. clear T W.
  assert (Q : (w * (1 - t)) * (w * (y * y - x * x)) * / ((w * (1 + t)) * (w * (1 - t))) = (y * y - x * x) / (1 + t)).
  { field. nz. }
  split.
  - intros E. apply (f_equal snd) in E. cbn [snd] in E. rewrite Q in E.
    transitivity ((y * y - x * x) / (1 + t) * (1 + t)); [field; nz|].
    transitivity (1 * / 1 * (1 + t)); [now rewrite E|]. rewrite inv_one. ring.
  - intros E. apply pair_eq; [ring|]. rewrite Q.
    transitivity ((- (x * x) + y * y) / (1 + t)); [field; nz|]. rewrite E, inv_one. field. nz.
Qed.

Definition pdbl (A : xy) : xy :=
  let (x, y) := A in ((x * y + x * y) / (y * y - x * x), (y * y + x * x) / (ftwo - (y * y - x * x))).
Lemma proj_double_at ck P A : proj_at P A ->
  snd A * snd A <> fst A * fst A -> snd A * snd A <> fst A * fst A + (1 + 1) ->
  exists R, ppt_double ck P = Ok R /\ proj_at R (pdbl A).
Proof.
  intros H N1 N2. destruct A as [x y]. apply proj_at_iff in H. destruct H as (z & NZ & ->). cbn [fst snd] in *.
  assert (M1 : y * y - x * x <> 0) by (intros Z; apply N1; now apply F_sub_eq).
  assert (M2 : y * y - x * x - ftwo <> 0).
  { intros Z. apply N2. transitivity (y * y - x * x - ftwo + (x * x + ftwo)); [ring|]. rewrite Z. unfold ftwo. ring. }
  assert (M3 : ftwo - (y * y - x * x) <> 0).
  { intros Z. apply M2. transitivity (- (ftwo - (y * y - x * x))); [ring|]. rewrite Z. ring. }
  unfold prjp. cbn [fst snd]. rewrite ppt_double_enc. cbv zeta. eexists. split; [reflexivity|].
  unfold pdbl. assert (TW : ftwo = 1 + 1) by reflexivity. remember ftwo as q eqn:Q. clear Q.
  apply proj_at_iff. exists ((z * z) * (y * y - x * x) * ((z * z) * (y * y - x * x - q))).
  split; [repeat apply F_mul_nz; assumption|]. unfold prjp. cbn [fst snd].
  apply PPF_eq; field; nz.
Qed.
(** Doubling in projective coordinates does not use d: it stays on whichever curve of the family the point is on. *)
Lemma C108_proj_double_stmt : forall ck P A e, proj_at P A -> on_twist e A ->
  snd A * snd A <> fst A * fst A -> snd A * snd A <> fst A * fst A + (1 + 1) ->
  exists R B, ppt_double ck P = Ok R /\ proj_at R B /\ on_twist e B.
Proof.
  intros ck P A e H HE N1 N2. destruct (proj_double_at ck P A H N1 N2) as (R & E & G). exists R, (pdbl A).
  split; [exact E|]. split; [exact G|]. clear P R H E G. destruct A as [x y]. cbn [fst snd] in N1, N2. unfold pdbl.
  assert (M1 : y * y - x * x <> 0) by (intros Z; apply N1; now apply F_sub_eq).
  assert (M3 : ftwo - (y * y - x * x) <> 0).
  { intros Z. apply N2. transitivity (x * x + ftwo - (ftwo - (y * y - x * x))); [ring|]. rewrite Z. unfold ftwo. ring. }
  assert (TW : ftwo = 1 + 1) by reflexivity. remember ftwo as q eqn:Q. clear Q.
  unfold on_twist in *.
    assert (S1 : y * y - x * x = 1 + e * ((x * x) * (y * y))). { transitivity (- (x * x) + y * y); [ring|]. rewrite HE. ring. }
    assert (N : - ((1+1+1+1) * ((x * x) * (y * y)) * ((q - (y * y - x * x)) * (q - (y * y - x * x))))
      + ((y * y - x * x) * (y * y - x * x) + (1+1+1+1) * ((x * x) * (y * y))) * ((y * y - x * x) * (y * y - x * x))
      - ((y * y - x * x) * (y * y - x * x)) * ((q - (y * y - x * x)) * (q - (y * y - x * x)))
      - e * ((1+1+1+1) * ((x * x) * (y * y))) * ((y * y - x * x) * (y * y - x * x) + (1+1+1+1) * ((x * x) * (y * y))) = 0).
    { rewrite S1, TW. ring. }
    apply F_sub_eq.
    match type of N with ?n = 0 => transitivity (n / (((y * y - x * x) * (y * y - x * x)) * ((q - (y * y - x * x)) * (q - (y * y - x * x))))) end.
    - clear N TW. field. nz.
    - rewrite N. field. nz.
Qed.
(** Its third coordinate vanishes in the two cases left out, and only there. *)
Lemma C108_proj_double_zero_stmt : forall ck P A, proj_at P A ->
  exists R, ppt_double ck P = Ok R /\
    (residue (pZ R) = 0 <-> snd A * snd A = fst A * fst A \/ snd A * snd A = fst A * fst A + (1 + 1)).
Proof.
  intros ck P [x y] H. apply proj_at_iff in H. destruct H as (z & NZ & ->). cbn [fst snd] in *.
  unfold prjp. cbn [fst snd]. rewrite ppt_double_enc. cbv zeta. eexists. split; [reflexivity|].
  unfold PPF. cbn [pZ]. match goal with |- toF (fval (enc ?a)) = 0 <-> _ => replace (toF (fval (enc a))) with a by (symmetry; apply fF_enc) end.
  unfold ftwo. split.
  - intros E. assert (Z : (z * z) * ((z * z) * ((y * y - x * x) * (y * y - (x * x + (1 + 1))))) = 0) by (rewrite <- E; ring).
    apply F_integral in Z. destruct Z as [Z|Z]; [exfalso; revert Z; apply F_mul_nz; exact NZ|].
    apply F_integral in Z. destruct Z as [Z|Z]; [exfalso; revert Z; apply F_mul_nz; exact NZ|].
    apply F_integral in Z. destruct Z as [Z|Z]; [left|right]; now apply F_sub_eq.
  - intros E. transitivity ((z * z) * ((z * z) * ((y * y - x * x) * (y * y - (x * x + (1 + 1)))))); [ring|].
    destruct E as [E|E]; rewrite E; ring.
Qed.

(** Where both doublings have a result and neither coordinate is zero, the two agree exactly on the curve. *)
Lemma C108_doublings_stmt : forall ck P Q A, ext_at P A -> proj_at Q A -> fst A <> 0 -> snd A <> 0 ->
  snd A * snd A <> fst A * fst A -> snd A * snd A <> fst A * fst A + (1 + 1) ->
  exists R S B C, ept_double ck P = Ok R /\ ext_at R B /\ ppt_double ck Q = Ok S /\ proj_at S C /\
    (B = C <-> on_curve A).
Proof.
  intros ck P Q A H1 H2 NX NY N1 N2.
  destruct (ext_double_at ck P A H1) as (R & R1 & R2). destruct (proj_double_at ck Q A H2 N1 N2) as (S & S1 & S2).
  exists R, S, (dbl A), (pdbl A). split; [exact R1|]. split; [exact R2|]. split; [exact S1|]. split; [exact S2|].
  clear R R1 R2 S S1 S2 H1 H2. destruct A as [x y]. cbn [fst snd] in NX, NY, N1, N2. unfold dbl, pdbl, on_curve.
  assert (M1 : y * y - x * x <> 0) by (intros Z; apply N1; now apply F_sub_eq). clear N1 N2.
  pose proof (never_plus x y) as Pl. pose proof (never_minus x y) as Mi.
  assert (XY : x * y + x * y <> 0).
  { intros Z. assert (E : ftwo * (x * y) = 0) by (rewrite <- Z; unfold ftwo; ring). revert E.
    apply F_mul_nz; [exact two_nz|]. apply F_mul_nz; assumption. }
  remember (cd * (x * x) * (y * y)) as t eqn:T. clear T. split.
  - intros E. apply (f_equal fst) in E. cbn [fst] in E. remember (x * y + x * y) as w eqn:W. clear W.
    transitivity (y * y - x * x); [ring|].
    transitivity (w / (y * y - x * x) * (y * y - x * x) * (y * y - x * x) / w); [field; nz|].
    rewrite <- E. transitivity ((y * y - x * x) * (w / (1 + t)) * ((y * y - x * x) / w)); [field; nz|].
    rewrite E. transitivity (y * y - x * x); [field; nz|].
    assert (K : w / (1 + t) * ((1 + t) * (y * y - x * x)) = w / (y * y - x * x) * ((1 + t) * (y * y - x * x))) by (rewrite E; reflexivity).
    apply (F_mul_cancel_l w); [exact XY|]. transitivity (w / (1 + t) * ((1 + t) * (y * y - x * x))); [field; nz|].
    rewrite K. field. nz.
  - intros E. assert (G : y * y - x * x = 1 + t). { rewrite <- E. ring. }
    apply pair_eq; [rewrite G; reflexivity|]. rewrite G. apply f_equal2; [reflexivity|]. unfold ftwo. ring.
Qed.

Lemma compress_at ck x y z : z <> 0 ->
  (~ is_sq (xx y) /\ ept_compress ck (extp (x, y) z) = Panic) \/
  (is_sq (xx y) /\ exists b, ept_compress ck (extp (x, y) z) = Ok b /\ is_bytes 32 b /\
    le_value b = (Fval y + (if feqb (ts_root (xx y)) x then 0 else 2 ^ 255))%Z).
Proof.
  intros N. unfold ept_compress, extp. cbn [fst snd]. rewrite apt_of_ept_enc by exact N. rewrite bind_ok. unfold APF. cbn [aX aY].
  assert (E : y * z * / z = y) by (field; exact N). rewrite E. clear E.
  assert (E : x * z * / z = x) by (field; exact N). rewrite E. clear E.
  rewrite find_xx_enc, bind_ok, fe_mod_sqrt_F', bind_ok.
  destruct (sqb_F_spec (xx y)) as [Sq|Ns]; [|left; split; [exact Ns|reflexivity]]. right. split; [exact Sq|].
  cbn [unwrap]. rewrite bind_ok, fe_eqb_F. cbv zeta.
  set (sg := feqb _ _). clearbody sg.
  assert (By := fe_to_bytes_bytes (enc y)). assert (Vy := fe_to_bytes_ok (enc y) (enc_ld y)).
  rewrite fval_enc in Vy. pose proof (Frange y) as Ry. pose proof p_253 as Pb.
  set (c := fe_to_bytes (enc y)) in *.
  set (m := Z.lor (byte c 31) (shl W8 (if negb sg then 1 else 0) 7)).
  destruct (set_top_ok c 0 By) as (_ & _ & _ & _ & Tb); [lia|].
  rewrite Vy in Tb.
  assert (Rb : (0 <= byte c 31 < 32)%Z).
  { rewrite Tb. split; [apply Z.div_pos; lia|]. apply Z.div_lt_upper_bound; [lia|].
    change (2 ^ 248 * 32)%Z with (2 ^ 253)%Z. lia. }
  assert (Em : (m = byte c 31 + (if sg then 0 else 128))%Z).
  { unfold m. destruct sg; cbn [negb].
    - change (shl W8 0 7) with 0%Z. rewrite Z.lor_0_r. lia.
    - change (shl W8 1 7) with (1 * 2 ^ 7)%Z. rewrite lor_add_low by lia. lia. }
  destruct (set_top_ok c m By) as (b & Eb & Bb & Vb & _); [destruct sg; lia|].
  rewrite Eb, bind_ok. exists b. split; [unfold cey_from_slice, copy_from_slice; rewrite (proj1 Bb); reflexivity|].
  split; [exact Bb|]. rewrite Vb, Em, Vy, Tb. destruct sg; pose proof (Z.div_mod (Fval y) (2 ^ 248)); lia.
Qed.
(** Compressing a pair off the curve panics if no curve point has its ordinate. Else it gives that ordinate with
    the top bit set, whatever the abscissa. *)
Lemma C108_compress_stmt : forall ck P A, ext_at P A -> ~ on_curve A ->
  (ept_compress ck P = Panic <-> forall x, ~ on_curve (x, snd A)) /\
  forall x, on_curve (x, snd A) ->
    exists b, ept_compress ck P = Ok b /\ is_bytes 32 b /\ le_value b = (Fval (snd A) + 2 ^ 255)%Z.
Proof.
  intros ck P [x y] H O. apply ext_at_iff in H. destruct H as (z & NZ & ->). cbn [snd].
  destruct (compress_at ck x y z NZ) as [[NS E]|[Sq (b & E & B & V)]].
  - assert (NO : forall x0, ~ on_curve (x0, y)). { intros x0 C. apply NS. exists x0. exact (proj1 (curve_xx x0 y) C). }
    split; [split; [intros _; exact NO|intros _; exact E]|]. intros x0 C. elim (NO x0 C).
  - split.
    + split; [intros X; rewrite E in X; discriminate X|]. intros NO. exfalso. exact (NO (lx y false) (lift_on y false Sq)).
    + intros x0 C. exists b. split; [exact E|]. split; [exact B|]. rewrite V.
      destruct (feqb (ts_root (xx y)) x) eqn:G; [|reflexivity]. exfalso. apply O. apply feqb_eq in G. subst x.
      exact (lift_on y false Sq).
Qed.
Lemma eqb_at ck P Q A B : ext_at P A -> ext_at Q B -> ept_eqb ck P Q = Ok true -> A = B.
Proof.
  intros HP HQ E. apply ext_at_iff in HP. apply ext_at_iff in HQ.
  destruct HP as (z & NZ & ->), HQ as (w & NW & ->). destruct A as [x y], B as [u v].
  unfold extp in E. cbn [fst snd] in E. rewrite ept_eqb_enc in E; [|exact NZ|exact NW].
  apply (f_equal (fun r => match r with Ok o => o | _ => false end)) in E.
  apply andb_true_iff in E. destruct E as [E1 E2]. apply feqb_eq in E1. apply feqb_eq in E2.
  apply pair_eq.
  - transitivity (x * z * / z); [field; exact NZ|]. rewrite E1. field. exact NW.
  - transitivity (y * z * / z); [field; exact NZ|]. rewrite E2. field. exact NW.
Qed.
Lemma at_rep P A : ext_at P A -> on_curve A -> ext_rep P A.
Proof.
  intros ((C1 & C2 & C3 & C4) & NZ & E1 & E2 & E3) O. unfold ext_rep.
  split; [exact O|]. split; [exact C1|]. split; [exact C2|]. split; [exact C3|]. split; [exact C4|].
  split; [exact NZ|]. split; [exact E1|]. split; [exact E2|exact E3].
Qed.
Lemma rep_at P A : ext_rep P A -> ext_at P A.
Proof.
  intros (O & C1 & C2 & C3 & C4 & NZ & E1 & E2 & E3). unfold ext_at, reduced_ext.
  split; [split; [exact C1|]; split; [exact C2|]; split; [exact C3|exact C4]|].
  split; [exact NZ|]. split; [exact E1|]. split; [exact E2|exact E3].
Qed.
(** Compression and decompression give back a point equal to P exactly for the curve points with y below 2^252. *)
Lemma C108_round_trip_stmt : forall ck P A, ext_at P A ->
  ((exists b Q, ept_compress ck P = Ok b /\ cey_decompress ck b = Ok (Some Q) /\ ept_eqb ck Q P = Ok true) <->
   on_curve A /\ (Fval (snd A) < 2 ^ 252)%Z).
Proof.
  intros ck P A H. split.
  - intros (b & Q & E & D & EQ).
    assert (B : is_bytes 32 b).
    { destruct A as [x y]. apply ext_at_iff in H. destruct H as (z & NZ & ->).
      destruct (compress_at ck x y z NZ) as [[NS E']|[Sq (b' & E' & B & V)]]; rewrite E' in E; [discriminate|].
      apply (f_equal (fun r => match r with Ok o => o | _ => [] end)) in E. subst b'. exact B. }
    destruct (C43_decompress_stmt ck b B) as (o & D' & R). rewrite D in D'.
    apply (f_equal (fun r => match r with Ok o => o | _ => None end)) in D'. subst o.
    destruct R as (x & R). pose proof (eqb_at ck Q P _ A (rep_at _ _ R) H EQ) as X. rewrite X in R.
    pose proof (ext_rep_on _ _ R) as OA. split; [exact OA|].
    apply (proj2 (C42_round_trip_partial_stmt ck P A b (at_rep P A H OA) E)). exists Q. split; [exact D|exact R].
  - intros [O S]. pose proof (at_rep P A H O) as REP. destruct (C42_compress_stmt ck P A REP) as (b & E & _).
    destruct (proj1 (C42_round_trip_partial_stmt ck P A b REP E) S) as (Q & D & R).
    exists b, Q. split; [exact E|]. split; [exact D|].
    destruct (C34_valid_eq_stmt ck Q P A A R REP) as (c & EC & IC). rewrite EC. apply f_equal. exact (proj2 IC eq_refl).
Qed.

(** The sum of two pairs: the affine formula, as long as its denominators are not zero; else Z = 0. *)
Lemma C108_add_stmt : forall ck P Q A B, ext_at P A -> ext_at Q B ->
  exists R, ept_add ck P Q = Ok R /\
    let t := cd * (fst A * fst B) * (snd A * snd B) in
    (residue (eZ R) = 0 <-> t * t = 1) /\
    (t * t <> 1 -> ext_at R ((fst A * snd B + snd A * fst B) / (1 + t), (snd A * snd B + fst A * fst B) / (1 - t))).
Proof.
  intros ck P Q [x y] [u v] HP HQ. apply ext_at_iff in HP. apply ext_at_iff in HQ.
  destruct HP as (z & NZ & ->), HQ as (w & NW & ->). cbn [fst snd].
  unfold extp. cbn [fst snd]. rewrite ept_add_enc. cbv zeta. eexists. split; [reflexivity|].
  remember (cd * (x * u) * (y * v)) as t eqn:T.
  match goal with |- context [EPF ?X ?Y ?Z ?U] =>
    replace (EPF X Y Z U) with (EPF ((x * v + y * u) * (z * w) * (z * w * (1 - t))) ((y * v + x * u) * (z * w) * (z * w * (1 + t)))
      ((z * w * (1 + t)) * (z * w * (1 - t))) ((x * v + y * u) * (z * w) * ((y * v + x * u) * (z * w))))
      by (apply EPF_eq; rewrite ?T; ring) end.
  clear T. unfold EPF at 1. cbn [eZ]. rewrite residue_enc.
  assert (NZW : z * w <> 0) by (apply F_mul_nz; [exact NZ|exact NW]).
  split; [split|].
  - intros Z. apply F_integral in Z. destruct Z as [Z|Z]; apply F_integral in Z; destruct Z as [Z|Z]; try (elim (NZW Z)).
    + transitivity (1 - (1 + t) * (1 - t)); [ring|]. rewrite Z. ring.
    + transitivity (1 - (1 + t) * (1 - t)); [ring|]. rewrite Z. ring.
  - intros E. transitivity (z * w * (z * w) * (1 - t * t)); [ring|]. rewrite E. ring.
  - intros NE. assert (N1 : 1 + t <> 0). { intros Z. apply NE. transitivity (1 - (1 + t) * (1 - t)); [ring|]. rewrite Z. ring. }
    assert (N2 : 1 - t <> 0). { intros Z. apply NE. transitivity (1 - (1 + t) * (1 - t)); [ring|]. rewrite Z. ring. }
    apply ext_at_iff. exists ((z * w * (1 + t)) * (z * w * (1 - t))).
    split; [repeat apply F_mul_nz; assumption|]. unfold extp. cbn [fst snd]. apply EPF_eq; field; nz.
Qed.

Lemma C108_proj_add_stmt : forall ck P Q A B, proj_at P A -> proj_at Q B ->
  exists R, ppt_add ck P Q = Ok R /\
    let t := cd * (fst A * fst B) * (snd A * snd B) in
    (residue (pZ R) = 0 <-> t * t = 1) /\
    (t * t <> 1 -> proj_at R ((fst A * snd B + snd A * fst B) / (1 + t), (snd A * snd B + fst A * fst B) / (1 - t))).
Proof.
  intros ck P Q [x y] [u v] HP HQ. apply proj_at_iff in HP. apply proj_at_iff in HQ.
  destruct HP as (z & NZ & ->), HQ as (w & NW & ->). cbn [fst snd].
  unfold prjp. cbn [fst snd]. rewrite ppt_add_enc. cbv zeta. eexists. split; [reflexivity|].
  remember (cd * (x * u) * (y * v)) as t eqn:T. remember (z * w * (z * w)) as q eqn:Q.
  match goal with |- context [PPF ?X ?Y ?Z] =>
    replace (PPF X Y Z) with (PPF (q * (x * v + y * u) * (q * (1 - t))) (q * (y * v + x * u) * (q * (1 + t)))
      ((q * (1 + t)) * (q * (1 - t)))) by (apply PPF_eq; rewrite ?T, ?Q; ring) end.
  assert (NZW : q <> 0) by (rewrite Q; repeat apply F_mul_nz; assumption).
  clear T Q. unfold PPF at 1. cbn [pZ]. rewrite residue_enc.
  split; [split|].
  - intros Z. apply F_integral in Z. destruct Z as [Z|Z]; apply F_integral in Z; destruct Z as [Z|Z]; try (elim (NZW Z)).
    + transitivity (1 - (1 + t) * (1 - t)); [ring|]. rewrite Z. ring.
    + transitivity (1 - (1 + t) * (1 - t)); [ring|]. rewrite Z. ring.
  - intros E. transitivity (q * q * (1 - t * t)); [ring|]. rewrite E. ring.
  - intros NE. assert (N1 : 1 + t <> 0). { intros Z. apply NE. transitivity (1 - (1 + t) * (1 - t)); [ring|]. rewrite Z. ring. }
    assert (N2 : 1 - t <> 0). { intros Z. apply NE. transitivity (1 - (1 + t) * (1 - t)); [ring|]. rewrite Z. ring. }
    apply proj_at_iff. exists ((q * (1 + t)) * (q * (1 - t))).
    split; [repeat apply F_mul_nz; assumption|]. unfold prjp. cbn [fst snd]. apply PPF_eq; field; nz.
Qed.

Lemma C108_ex :
  let P := EP (fe_from_u8 2) (fe_from_u8 3) fe_one (fe_from_u8 6) in
  let Q := PP (fe_from_u8 2) (fe_from_u8 3) fe_one in let A := (toF 2, toF 3) in
  (forall x, ~ on_curve (x, toF 6)) /\ cd * (1 * 1) * (1 * / cd) * (cd * (1 * 1) * (1 * / cd)) = 1 /\
  ext_at P A /\ proj_at Q A /\ ~ on_curve A /\ ~ on_curve (swapped A) /\ on_twist (/ toF 9) A /\
  fst A <> 0 /\ snd A <> 0 /\ snd A * snd A <> fst A * fst A /\ snd A * snd A <> fst A * fst A + (1 + 1) /\
  ext_at (EP (fe_from_u8 2) fe_one fe_one (fe_from_u8 2)) (toF 2, 1) /\ ~ on_curve (toF 2, 1) /\ on_curve (0, 1).
Proof.
  cbv zeta.
  split; [exact (proj2 (proj2 (proj2 C41_ex)))|].
  split; [field; intros Z; apply cd_nonsq; exists 0; rewrite Z; ring|].
  assert (N : forall a b : F, Fval a <> Fval b -> a <> b) by (intros a b H E; apply H; now rewrite E).
  unfold ext_at, proj_at, reduced_ext, reduced_proj, fcanon, on_curve, on_twist, swapped. cbn [eX eY eZ eT pX pY pZ fst snd].
  repeat match goal with |- _ /\ _ => split end.
  all: try (apply N; vm_compute; discriminate).
  all: try (apply Feq; vm_compute; reflexivity).
  all: try (vm_compute; first [reflexivity|discriminate]).
  all: unfold flimbs, fe_from_u8, fe_one; cbn [f0 f1 f2 f3 f4]; lia.
Qed.
