(** * The Edwards and the Montgomery form are isomorphic groups *)

From Coq Require Import ZArith Znumtheory List Bool Lia Ring Field.
From Verif Require Import Spec NumTheory Primes Fp Curve CurveGroup DocModel.
Import ListNotations.
Open Scope F_scope.

(** The constants: A = 505186 and a square root f of -(A + 2). *)
Definition mont_f : F := toF 6272437909123683492138327062244366292075219795713283335376046606920261336691.
Notation two := (1 + 1).
Lemma toF_two : toF 2 = two.
Proof. change 2%Z with (1 + 1)%Z. rewrite toF_add. reflexivity. Qed.
Lemma f_sq : mont_f * mont_f = - (mont_A + two).
Proof. rewrite <- toF_two. unfold mont_f, mont_A. rewrite <- toF_mul, <- toF_add, <- toF_opp. apply Feq. rewrite !Fval_toF. vm_compute. reflexivity. Qed.
Lemma toF_nz z : (z mod p <> 0)%Z -> toF z <> 0.
Proof. intros H E. apply H. rewrite <- Fval_toF, E. reflexivity. Qed.
Lemma A2_nz : mont_A + two <> 0.
Proof. rewrite <- toF_two. unfold mont_A. rewrite <- toF_add. apply toF_nz. vm_compute. discriminate. Qed.
Lemma A_d : cd * (mont_A + two) = two - mont_A.
Proof.
  rewrite cd_FD. change FD with (toF dz). rewrite <- toF_two. unfold mont_A. rewrite <- toF_add, <- toF_sub, <- toF_mul.
  apply Feq. rewrite !Fval_toF. vm_compute. reflexivity.
Qed.
Lemma f_nz : mont_f <> 0.
Proof. intros E. pose proof f_sq as H. rewrite E in H. apply A2_nz. apply F_opp_eq0. rewrite <- H. ring. Qed.
(** A - 2 is no square, so no point has u = -1. *)
Lemma Am2_nonsq : ~ is_sq (mont_A - two).
Proof.
  intros (y & Ey). pose proof A_d as H. pose proof f_sq as G. apply cd_nonsq. exists (y / mont_f).
  assert (E : mont_f * mont_f * cd = y * y).
  { rewrite Ey, G. transitivity (- (cd * (mont_A + two))); [ring|]. rewrite H. ring. }
  transitivity (y * y / (mont_f * mont_f)); [field; exact f_nz|]. rewrite <- E. field. exact f_nz.
Qed.

Notation fA := mont_A.
Notation ff := mont_f.
#[local] Opaque mont_A mont_f.

Lemma A_sq_plus : exists g, g * g = fA + two /\ g <> 0.
Proof.
  assert (I : exists i, i * i = - (1)).
  { exists fi. apply Feq. vm_compute. reflexivity. }
  destruct I as (i & Ei). exists (i * ff). split.
  - transitivity (i * i * (ff * ff)); [ring|]. rewrite Ei, f_sq. ring.
  - apply F_mul_nz; [|exact f_nz]. intros E. rewrite E in Ei. apply (one_neq_zero). transitivity (- (- (1))); [ring|]. rewrite <- Ei. ring.
Qed.
Lemma quadratic_nz u : u * u + fA * u + 1 <> 0.
Proof.
  intros E. destruct A_sq_plus as (g & Eg & Ng). apply Am2_nonsq. exists ((two * u + fA) / g).
  assert (H : (two * u + fA) * (two * u + fA) = (fA - two) * (fA + two)).
  { transitivity (two * two * (u * u + fA * u + 1) + (fA - two) * (fA + two)); [ring|]. rewrite E. ring. }
  rewrite <- Eg in H. transitivity ((two * u + fA) * (two * u + fA) / (g * g)); [field; exact Ng|]. rewrite H. field. exact Ng.
Qed.
Lemma four_nz : two * two <> 0.
Proof. apply F_mul_nz; exact two_nz. Qed.
Lemma one_plus_d : 1 + cd <> 0.
Proof.
  intros E. pose proof A_d as H. assert (K : (1 + cd) * (fA + two) = two * two).
  { transitivity (fA + two + cd * (fA + two)); [ring|]. rewrite H. ring. }
  rewrite E in K. apply four_nz. rewrite <- K. ring.
Qed.

(** The map from the Edwards curve, by the documented maps. *)
Definition mont (P : xy) : point :=
  let (x, y) := P in
  if feqb x 0 then if feqb y 1 then None else Some (0, 0) else Some (ted_to_mon (rescale ff P)).
Definition unmont (P : point) : xy :=
  match P with
  | None => origin
  | Some (u, v) => if feqb u 0 then (0, - (1)) else (ff * u / v, (u - 1) / (u + 1))
  end.
Notation on_mont P := (on_cubic fA 1 0 P).

Lemma feqb_true x y : x = y -> feqb x y = true. Proof. apply feqb_eq. Qed.
Lemma feqb_false x y : x <> y -> feqb x y = false.
Proof. intros H. destruct (feqb_spec x y); [contradiction|reflexivity]. Qed.

Lemma div_nz x y : x <> 0 -> y <> 0 -> x / y <> 0.
Proof. intros Nx Ny E. apply Nx. transitivity (x / y * y); [field; exact Ny|]. rewrite E. ring. Qed.
Lemma curve_x0 y : on_curve (0, y) -> y = 1 \/ y = - (1).
Proof.
  intros H. cbn in H. destruct (F_sq_eq y 1) as [E|E]; [|left; exact E|right; exact E].
  transitivity (- (0 * 0) + y * y); [ring|]. rewrite H. ring.
Qed.
Lemma curve_y x y : on_curve (x, y) -> x <> 0 -> 1 - y <> 0 /\ 1 + y <> 0.
Proof.
  intros H N. cbn in H.
  assert (K : (1 - y) * (1 + y) = - (x * x) * (1 + cd * (y * y))).
  { transitivity (1 - (- (x * x) + y * y) - x * x); [ring|]. rewrite H. ring. }
  assert (Z : y * y = 1 -> False).
  { intros E. rewrite E in K. assert (Z : x * x * (1 + cd) = 0).
    { transitivity (- (- (x * x) * (1 + cd * 1))); [ring|]. rewrite <- K. transitivity (y * y - 1); [ring|]. rewrite E. ring. }
    apply F_integral in Z. destruct Z as [Z|Z]; [apply F_sq_zero in Z; exact (N Z)|exact (one_plus_d Z)]. }
  split; intros E; apply Z.
  - assert (E' : y = 1) by (transitivity (1 - (1 - y)); [ring|rewrite E; ring]). rewrite E'. ring.
  - assert (E' : y = - (1)) by (transitivity (1 + y - 1); [ring|rewrite E; ring]). rewrite E'. ring.
Qed.
Lemma mont_param x y : on_curve (x, y) -> x <> 0 -> exists u v, mont (x, y) = Some (u, v) /\ u <> 0 /\ v <> 0 /\ u + 1 <> 0 /\
  v * v = u * u * u + fA * (u * u) + u /\ x = ff * u / v /\ y = (u - 1) / (u + 1) /\ u = (1 + y) / (1 - y).
Proof.
  intros H N. destruct (curve_y x y H N) as [N1 N2]. cbn in H. pose proof f_nz as Nf. pose proof two_nz as N3. unfold ftwo in N3.
  exists ((1 + y) / (1 - y)), ((1 + y) / ((1 - y) * (x / ff))).
  assert (K : - ((fA + two) * ((1 + y) * (1 - y))) = x * x * ((fA + two) + (two - fA) * (y * y))).
  { rewrite <- A_d. transitivity ((fA + two) * (- (x * x) + y * y - 1 + x * x)); [ring|]. rewrite H. ring. }
  split; [unfold mont; rewrite (feqb_false x 0 N); reflexivity|].
  split; [apply div_nz; assumption|].
  split; [apply div_nz; [exact N2|apply F_mul_nz; [exact N1|apply div_nz; assumption]]|].
  assert (U : (1 + y) / (1 - y) + 1 = two / (1 - y)) by (field; exact N1).
  split; [rewrite U; apply div_nz; assumption|].
  split; [|split; [|split; [|reflexivity]]].
  - transitivity ((1 + y) * (1 + y) * (ff * ff) / ((1 - y) * (1 - y) * (x * x))); [field; repeat split; assumption|]. rewrite f_sq.
    transitivity ((1 + y) * (- ((fA + two) * ((1 + y) * (1 - y)))) / ((1 - y) * (1 - y) * (1 - y) * (x * x))); [field; repeat split; assumption|].
    rewrite K. field. repeat split; assumption.
  - field. repeat split; assumption.
  - rewrite U. field. split; assumption.
Qed.
Lemma unmont_on u v : on_mont (Some (u, v)) -> u <> 0 -> v <> 0 /\ u + 1 <> 0 /\ on_curve (ff * u / v, (u - 1) / (u + 1)).
Proof.
  intros H N. cbn in H. pose proof f_nz as Nf. pose proof two_nz as N3. unfold ftwo in N3.
  assert (Nv : v <> 0).
  { intros E. rewrite E in H. assert (Z : u * (u * u + fA * u + 1) = 0).
    { transitivity (u * u * u + fA * (u * u) + 1 * u + 0); [ring|]. rewrite <- H. ring. }
    apply F_integral in Z. destruct Z as [Z|Z]; [exact (N Z)|exact (quadratic_nz u Z)]. }
  assert (Nu : u + 1 <> 0).
  { intros E. assert (E' : u = - (1)) by (transitivity (u + 1 - 1); [ring|rewrite E; ring]). apply Am2_nonsq. exists v. rewrite H, E'. ring. }
  split; [exact Nv|]. split; [exact Nu|]. cbn.
  assert (K : (fA + two) * (- (ff * ff) * (u * u) * ((u + 1) * (u + 1)) + (u - 1) * (u - 1) * (v * v)) =
    (fA + two) * (v * v * ((u + 1) * (u + 1)) + cd * (ff * ff) * (u * u) * ((u - 1) * (u - 1)))).
  { transitivity ((fA + two) * (v * v * ((u + 1) * (u + 1))) + cd * (fA + two) * (ff * ff) * (u * u) * ((u - 1) * (u - 1))); [|ring].
    rewrite A_d, f_sq, H. ring. }
  apply F_mul_cancel_l in K; [|exact A2_nz].
  transitivity ((- (ff * ff) * (u * u) * ((u + 1) * (u + 1)) + (u - 1) * (u - 1) * (v * v)) / (v * v * ((u + 1) * (u + 1)))); [field; split; assumption|].
  rewrite K. field. split; assumption.
Qed.

(** The two maps are inverse to each other. *)
Lemma mont_on P : on_curve P -> on_mont (mont P).
Proof.
  destruct P as [x y]. intros H. destruct (F_dec x 0) as [->|N].
  - unfold mont. rewrite feqb_true by reflexivity. destruct (feqb y 1); cbn; [exact I|ring].
  - destruct (mont_param x y H N) as (u & v & E & _ & _ & _ & V & _). rewrite E. cbn. rewrite V. ring.
Qed.
Lemma unmont_on_curve P : on_mont P -> on_curve (unmont P).
Proof.
  destruct P as [[u v]|]; intros H; [|exact origin_on_curve]. cbn [unmont]. destruct (feqb_spec u 0) as [E|N].
  - cbn. ring.
  - apply unmont_on; assumption.
Qed.
Lemma unmont_mont P : on_curve P -> unmont (mont P) = P.
Proof.
  destruct P as [x y]. intros H. destruct (F_dec x 0) as [->|N].
  - unfold mont. rewrite feqb_true by reflexivity. destruct (feqb_spec y 1) as [->|N]; [reflexivity|].
    cbn [unmont]. rewrite feqb_true by reflexivity. destruct (curve_x0 y H) as [E| ->]; [contradiction|reflexivity].
  - destruct (mont_param x y H N) as (u & v & E & Nu & _ & _ & _ & Ex & Ey & _). rewrite E. cbn [unmont]. rewrite feqb_false by exact Nu.
    rewrite <- Ex, <- Ey. reflexivity.
Qed.
Lemma mont_unmont P : on_mont P -> mont (unmont P) = P.
Proof.
  destruct P as [[u v]|]; intros H.
  - cbn [unmont]. destruct (feqb_spec u 0) as [->|N].
    + unfold mont. rewrite feqb_true by reflexivity. rewrite feqb_false by exact minus_one_neq_one. f_equal. f_equal. symmetry. apply F_sq_zero.
      cbn in H. rewrite H. ring.
    + destruct (unmont_on u v H N) as (Nv & Nu & C). pose proof f_nz as Nf. pose proof two_nz as N3. unfold ftwo in N3.
      unfold mont. rewrite feqb_false.
      * unfold ted_to_mon, rescale.
        assert (U1 : 1 + (u - 1) / (u + 1) = two * u / (u + 1)) by (field; exact Nu).
        assert (U2 : 1 - (u - 1) / (u + 1) = two / (u + 1)) by (field; exact Nu).
        rewrite U1, U2. f_equal. f_equal; field; repeat split; assumption.
      * apply div_nz; [apply F_mul_nz; assumption|exact Nv].
  - unfold unmont, mont, origin. rewrite !feqb_true by reflexivity. reflexivity.
Qed.

(** ** The chord-and-tangent law *)
Definition slope (a2 a4 x1 y1 x2 l : F) : Prop :=
  l * (two * y1 + l * (x2 - x1)) = x1 * x1 + x1 * x2 + x2 * x2 + a2 * (x1 + x2) + a4.
Lemma third_on a2 a4 a6 l x1 y1 x2 : on_cubic a2 a4 a6 (Some (x1, y1)) -> slope a2 a4 x1 y1 x2 l -> on_cubic a2 a4 a6 (third a2 l x1 y1 x2).
Proof.
  unfold slope. cbn. intros E G.
  assert (E4 : a4 = l * (two * y1 + l * (x2 - x1)) - (x1 * x1 + x1 * x2 + x2 * x2 + a2 * (x1 + x2))) by (rewrite G; ring).
  assert (E6 : a6 = y1 * y1 - (x1 * x1 * x1 + a2 * (x1 * x1) + a4 * x1)) by (rewrite E; ring).
  rewrite E6, E4. ring.
Qed.
Lemma chord_slope a2 a4 a6 x1 y1 x2 y2 : on_cubic a2 a4 a6 (Some (x1, y1)) -> on_cubic a2 a4 a6 (Some (x2, y2)) -> x2 - x1 <> 0 ->
  slope a2 a4 x1 y1 x2 ((y2 - y1) / (x2 - x1)).
Proof.
  unfold slope. cbn. intros E1 E2 N. apply (F_mul_cancel_l (x2 - x1)); [exact N|].
  transitivity (y2 * y2 - y1 * y1); [field; exact N|]. rewrite E1, E2. ring.
Qed.
Lemma tangent_slope a2 a4 x1 y1 : two * y1 <> 0 ->
  slope a2 a4 x1 y1 x1 (((1 + 1 + 1) * (x1 * x1) + (1 + 1) * a2 * x1 + a4) / ((1 + 1) * y1)).
Proof. unfold slope. intros N. pose proof two_nz as N3. unfold ftwo in N3. assert (Ny : y1 <> 0) by (intros E; apply N; rewrite E; ring). field. split; assumption. Qed.
Lemma cubic_add_on a2 a4 a6 P Q : on_cubic a2 a4 a6 P -> on_cubic a2 a4 a6 Q -> on_cubic a2 a4 a6 (cubic_add a2 a4 P Q).
Proof.
  destruct P as [[x1 y1]|], Q as [[x2 y2]|]; intros H1 H2; try assumption. unfold cubic_add.
  destruct (feqb_spec x1 x2) as [E|N].
  - subst x2. destruct (feqb_spec y1 (- y2)) as [_|N]; [exact I|]. apply (third_on _ a4); [exact H1|]. apply tangent_slope.
    cbn in H1, H2. destruct (F_sq_eq y1 y2) as [E|E]; [rewrite H1, H2; reflexivity| |contradiction]. subst y2.
    apply F_mul_nz; [exact two_nz|]. intros E. apply N. rewrite E. ring.
  - apply (third_on _ a4); [exact H1|]. apply (chord_slope _ _ a6); [exact H1|exact H2|]. intros E. apply N.
    transitivity (x2 - (x2 - x1)); [ring|]. rewrite E. ring.
Qed.

Section Sum.
Context (u1 v1 u2 v2 : F) (N1 : u1 <> 0) (M1 : v1 <> 0) (K1 : u1 + 1 <> 0) (N2 : u2 <> 0) (M2 : v2 <> 0) (K2 : u2 + 1 <> 0)
  (E1 : v1 * v1 = u1 * u1 * u1 + fA * (u1 * u1) + u1) (E2 : v2 * v2 = u2 * u2 * u2 + fA * (u2 * u2) + u2).
Definition Ny := v1 * v2 * (u1 - 1) * (u2 - 1) - (fA + two) * (u1 * u2) * (u1 + 1) * (u2 + 1).
Definition Dy := v1 * v2 * (u1 + 1) * (u2 + 1) - (fA - two) * (u1 * u2) * (u1 - 1) * (u2 - 1).
Definition Nx := u1 * v2 * (u1 + 1) * (u2 - 1) + u2 * v1 * (u2 + 1) * (u1 - 1).
Definition Dx := v1 * v2 * (u1 + 1) * (u2 + 1) + (fA - two) * (u1 * u2) * (u1 - 1) * (u2 - 1).
Let P1 : xy := (ff * u1 / v1, (u1 - 1) / (u1 + 1)).
Let P2 : xy := (ff * u2 / v2, (u2 - 1) / (u2 + 1)).
Context (C1 : on_curve P1) (C2 : on_curve P2).
Lemma dxy : cd * (ff * u1 / v1) * (ff * u2 / v2) * ((u1 - 1) / (u1 + 1)) * ((u2 - 1) / (u2 + 1)) =
  (fA - two) * (u1 * u2) * (u1 - 1) * (u2 - 1) / (v1 * v2 * (u1 + 1) * (u2 + 1)).
Proof.
  transitivity (- (cd * (- (ff * ff)) * (u1 * u2) * (u1 - 1) * (u2 - 1)) / (v1 * v2 * (u1 + 1) * (u2 + 1))); [field; repeat split; assumption|].
  rewrite f_sq. assert (E : cd * - - (fA + two) = two - fA) by (transitivity (cd * (fA + two)); [ring|exact A_d]). rewrite E. field. repeat split; assumption.
Qed.
Lemma sum_forms : Dy <> 0 /\ Dx <> 0 /\ sum P1 P2 = (ff * Nx / Dx, Ny / Dy).
Proof.
  pose proof (complete_plus _ _ _ _ C1 C2) as Cp. pose proof (complete_minus _ _ _ _ C1 C2) as Cm.
  rewrite dxy in Cp, Cm. set (W := v1 * v2 * (u1 + 1) * (u2 + 1)) in *.
  assert (NW : W <> 0) by (unfold W; repeat apply F_mul_nz; assumption).
  assert (ED : Dy = W * (1 - (fA - two) * (u1 * u2) * (u1 - 1) * (u2 - 1) / W)) by (unfold Dy; fold W; field; exact NW).
  assert (EX : Dx = W * (1 + (fA - two) * (u1 * u2) * (u1 - 1) * (u2 - 1) / W)) by (unfold Dx; fold W; field; exact NW).
  assert (ND : Dy <> 0) by (rewrite ED; apply F_mul_nz; assumption).
  assert (NX : Dx <> 0) by (rewrite EX; apply F_mul_nz; assumption).
  split; [exact ND|]. split; [exact NX|]. unfold sum, P1, P2. rewrite dxy. fold W. f_equal.
  - apply frac_eq; [exact Cp|exact NX|]. rewrite EX. unfold Nx, W. field. repeat split; assumption.
  - apply frac_eq; [exact Cm|exact ND|]. rewrite ED. unfold Ny. assert (FS : fA + two = - (ff * ff)) by (rewrite f_sq; ring). rewrite FS. unfold W. field. repeat split; assumption.
Qed.

(** The formulas for the third point give the Edwards sum. *)
Lemma sum_third l : slope fA 1 u1 v1 u2 l -> v2 = v1 + l * (u2 - u1) ->
  let u3 := l * l - fA - u1 - u2 in let v3 := l * (u1 - u3) - v1 in
  (u3 - 1) * Dy = (u3 + 1) * Ny -> u3 * Dx = v3 * Nx -> mont (sum P1 P2) = third fA l u1 v1 u2.
Proof.
  intros G V u3 v3 HY HX. assert (H : on_mont (Some (u3, v3))).
  { apply (third_on fA 1 0 l u1 v1 u2); [cbn; rewrite E1; ring|exact G]. }
  change (third fA l u1 v1 u2) with (Some (u3, v3)). rewrite <- (mont_unmont _ H). f_equal.
  destruct sum_forms as (ND & NX & S). pose proof (sum_on_curve _ _ C1 C2) as CS. rewrite S in CS |- *.
  clearbody v3 u3. cbn [unmont]. destruct (feqb_spec u3 0) as [Z|N].
  - rewrite Z in HY. assert (Y : Ny / Dy = - (1)).
    { transitivity (- (- ((0 + 1) * Ny)) / Dy); [apply f_equal2; [ring|reflexivity]|]. rewrite <- HY. field. exact ND. }
    rewrite Y in CS |- *. f_equal. destruct (F_dec (ff * Nx / Dx) 0) as [E|E]; [exact E|exfalso].
    destruct (curve_y _ _ CS E) as [_ K]. apply K. ring.
  - destruct (unmont_on u3 v3 H N) as (Nv & Nu & _). f_equal.
    + apply frac_eq; [exact NX|exact Nv|]. transitivity (ff * (v3 * Nx)); [ring|]. rewrite <- HX. ring.
    + apply frac_eq; [exact ND|exact Nu|]. transitivity ((u3 + 1) * Ny); [ring|]. rewrite <- HY. ring.
Qed.
Lemma sum_chord : u1 <> u2 -> mont (sum P1 P2) = third fA ((v2 - v1) / (u2 - u1)) u1 v1 u2.
Proof.
  intros N. assert (ND : u2 - u1 <> 0) by (intros E; apply N; transitivity (u2 - (u2 - u1)); [ring|rewrite E; ring]).
  apply sum_third.
  - apply (chord_slope fA 1 0); [cbn; rewrite E1; ring|cbn; rewrite E2; ring|exact ND].
  - field. exact ND.
  - set (D := u2 - u1) in *. set (W := (u1 * u2 + 1) * (u1 + u2) + two * fA * (u1 * u2) - two * (v1 * v2)).
    assert (EU : (v2 - v1) / D * ((v2 - v1) / D) - fA - u1 - u2 = W / (D * D)).
    { transitivity ((v1 * v1 + v2 * v2 - two * (v1 * v2) - (fA + u1 + u2) * (D * D)) / (D * D)); [field; exact ND|]. rewrite E1, E2. apply f_equal2; [|reflexivity].
      unfold W, D. ring. }
    rewrite EU. transitivity ((W - D * D) * Dy / (D * D)); [field; exact ND|].
    assert (K : (W - D * D) * Dy = (W + D * D) * Ny) by (unfold W, D, Dy, Ny; ring [E1 E2]).
    rewrite K. field. exact ND.
  - set (D := u2 - u1) in *. set (W := (u1 * u2 + 1) * (u1 + u2) + two * fA * (u1 * u2) - two * (v1 * v2)).
    assert (EU : (v2 - v1) / D * ((v2 - v1) / D) - fA - u1 - u2 = W / (D * D)).
    { transitivity ((v1 * v1 + v2 * v2 - two * (v1 * v2) - (fA + u1 + u2) * (D * D)) / (D * D)); [field; exact ND|]. rewrite E1, E2. apply f_equal2; [|reflexivity].
      unfold W, D. ring. }
    rewrite EU. transitivity (W * D * Dx / (D * D * D)); [field; exact ND|].
    assert (K : W * D * Dx = ((v2 - v1) * (u1 * (D * D) - W) - v1 * (D * D * D)) * Nx) by (unfold W, D, Dx, Nx; ring [E1 E2]).
    rewrite K. field. exact ND.
Qed.
End Sum.
Lemma sum_tangent u v : u <> 0 -> v <> 0 -> u + 1 <> 0 -> v * v = u * u * u + fA * (u * u) + u ->
  on_curve (ff * u / v, (u - 1) / (u + 1)) ->
  mont (sum (ff * u / v, (u - 1) / (u + 1)) (ff * u / v, (u - 1) / (u + 1))) =
  third fA (((1 + 1 + 1) * (u * u) + (1 + 1) * fA * u + 1) / ((1 + 1) * v)) u v u.
Proof.
  intros N M K E C. pose proof two_nz as N3. unfold ftwo in N3. assert (N2v : two * v <> 0) by (apply F_mul_nz; assumption).
  apply (sum_third u v u v M K M K E C C).
  - apply tangent_slope. exact N2v.
  - ring.
  - set (t := (1 + 1 + 1) * (u * u) + two * fA * u + 1). set (w := two * v) in *.
    set (T := t * t - w * w * (fA + two * u)).
    assert (EU : t / w * (t / w) - fA - u - u = T / (w * w)) by (unfold T; field; exact N2v).
    rewrite EU. transitivity ((T - w * w) * Dy u v u v / (w * w)); [field; exact N2v|].
    assert (H : (T - w * w) * Dy u v u v = (T + w * w) * Ny u v u v) by (unfold T, t, w, Dy, Ny; ring [E]).
    rewrite H. field. exact N2v.
  - set (t := (1 + 1 + 1) * (u * u) + two * fA * u + 1). set (w := two * v) in *.
    set (T := t * t - w * w * (fA + two * u)).
    assert (EU : t / w * (t / w) - fA - u - u = T / (w * w)) by (unfold T; field; exact N2v).
    rewrite EU. transitivity (T * w * Dx u v u v / (w * w * w)); [field; exact N2v|].
    assert (H : T * w * Dx u v u v = (t * (u * (w * w) - T) - v * (w * w * w)) * Nx u v u v) by (unfold T, t, w, Dx, Nx; ring [E]).
    rewrite H. field. exact N2v.
Qed.

(** The map is a homomorphism. *)
Lemma mont_T : mont (0, - (1)) = Some (0, 0).
Proof. unfold mont. rewrite feqb_true by reflexivity. rewrite feqb_false by exact minus_one_neq_one. reflexivity. Qed.
Lemma mont_O : mont origin = None.
Proof. unfold mont, origin. rewrite !feqb_true by reflexivity. reflexivity. Qed.
Lemma sum_T x y : sum (0, - (1)) (x, y) = (- x, - y).
Proof.
  unfold sum. f_equal.
  - transitivity (- x / 1); [apply f_equal2; ring|]. apply fdiv_1.
  - transitivity (- y / 1); [apply f_equal2; ring|]. apply fdiv_1.
Qed.
Lemma opp_nz x : x <> 0 -> - x <> 0.
Proof. intros N E. apply N. apply F_opp_eq0. exact E. Qed.
Lemma mont_neg u v : u <> 0 -> v <> 0 -> u + 1 <> 0 -> on_mont (Some (u, v)) ->
  mont (- (ff * u / v), - ((u - 1) / (u + 1))) = Some (1 / u, - (v / (u * u))).
Proof.
  intros N M K H. pose proof f_nz as Nf. pose proof two_nz as N3. unfold ftwo in N3. unfold mont. rewrite feqb_false.
  - unfold ted_to_mon, rescale.
    assert (U1 : 1 + - ((u - 1) / (u + 1)) = two / (u + 1)) by (field; exact K).
    assert (U2 : 1 - - ((u - 1) / (u + 1)) = two * u / (u + 1)) by (field; exact K).
    rewrite U1, U2. f_equal. f_equal; field; repeat split; try assumption. apply opp_nz, F_mul_nz; assumption.
  - apply opp_nz. apply div_nz; [apply F_mul_nz; assumption|exact M].
Qed.
Lemma mont_add_T x y : on_curve (x, y) -> x <> 0 ->
  mont (- x, - y) = cubic_add fA 1 (Some (0, 0)) (mont (x, y)) /\ mont (- x, - y) = cubic_add fA 1 (mont (x, y)) (Some (0, 0)).
Proof.
  intros C N. destruct (mont_param x y C N) as (u & v & E & Nu & Nv & Ku & V & Ex & Ey & _). rewrite E.
  assert (EN : mont (- x, - y) = Some (1 / u, - (v / (u * u)))).
  { rewrite Ex, Ey. apply mont_neg; [exact Nu|exact Nv|exact Ku|]. cbn. rewrite V. ring. }
  rewrite EN.
  assert (L1 : v * v / (u * u) = u + fA + 1 / u) by (rewrite V; field; exact Nu).
  split; unfold cubic_add, third.
  - rewrite feqb_false by (intros E0; apply Nu; symmetry; exact E0).
    assert (L : (v - 0) / (u - 0) = v / u) by (apply f_equal2; ring). rewrite L.
    assert (X : v / u * (v / u) - fA - 0 - u = 1 / u).
    { transitivity (v * v / (u * u) - fA - u); [field; exact Nu|]. rewrite L1. ring. }
    rewrite X. f_equal. f_equal. field. exact Nu.
  - rewrite feqb_false by exact Nu.
    assert (L : (0 - v) / (0 - u) = v / u) by (field; split; [exact Nu|]; intros E0; apply (opp_nz u Nu); rewrite <- E0; ring). rewrite L.
    assert (X : v / u * (v / u) - fA - u - 0 = 1 / u).
    { transitivity (v * v / (u * u) - fA - u); [field; exact Nu|]. rewrite L1. ring. }
    rewrite X. f_equal. f_equal. field. exact Nu.
Qed.
Lemma mont_opposite P : on_curve P -> mont (opposite P) = cubic_opp (mont P).
Proof.
  destruct P as [x y]. intros C. cbn [opposite]. destruct (F_dec x 0) as [->|N].
  - assert (E : - 0 = 0) by ring. rewrite E. unfold mont. rewrite feqb_true by reflexivity. destruct (feqb y 1); [reflexivity|].
    cbn [cubic_opp]. rewrite E. reflexivity.
  - destruct (curve_y x y C N) as [N1 N2]. pose proof f_nz as Nf. unfold mont. rewrite !feqb_false by (try exact N; apply opp_nz; exact N).
    unfold ted_to_mon, rescale, cubic_opp. f_equal. f_equal. field. repeat split; try assumption. apply opp_nz. exact N.
Qed.
Theorem mont_add P Q : on_curve P -> on_curve Q -> mont (sum P Q) = cubic_add fA 1 (mont P) (mont Q).
Proof.
  destruct P as [x1 y1], Q as [x2 y2]. intros C1 C2. destruct (F_dec x1 0) as [->|N1].
  - destruct (curve_x0 y1 C1) as [-> | ->].
    + fold origin. rewrite sum_origin_l, mont_O. reflexivity.
    + rewrite sum_T, mont_T. destruct (F_dec x2 0) as [->|N2].
      * assert (E : - 0 = 0) by ring. rewrite E. destruct (curve_x0 y2 C2) as [-> | ->].
        -- rewrite mont_T. fold origin. rewrite mont_O. reflexivity.
        -- assert (E1 : - - (1) = 1) by ring. rewrite E1, mont_T. fold origin. rewrite mont_O. unfold cubic_add. rewrite feqb_true by reflexivity.
           rewrite feqb_true by (symmetry; exact E). reflexivity.
      * apply mont_add_T; assumption.
  - destruct (F_dec x2 0) as [->|N2].
    + rewrite sum_comm. destruct (curve_x0 y2 C2) as [-> | ->].
      * fold origin. rewrite sum_origin_l, mont_O. destruct (mont (x1, y1)) as [[u v]|]; reflexivity.
      * rewrite sum_T, mont_T. apply mont_add_T; assumption.
    + destruct (mont_param x1 y1 C1 N1) as (u1 & v1 & F1 & U1 & V1 & K1 & E1 & X1 & Y1 & _).
      destruct (mont_param x2 y2 C2 N2) as (u2 & v2 & F2 & U2 & V2 & K2 & E2 & X2 & Y2 & _).
      rewrite F1, F2. unfold cubic_add. destruct (feqb_spec u1 u2) as [D|D].
      * subst u2. destruct (feqb_spec v1 (- v2)) as [G|G].
        -- assert (EQ : (x2, y2) = opposite (x1, y1)).
           { cbn [opposite]. rewrite X1, X2, Y1, Y2, G. f_equal. field. split; [apply opp_nz|]; exact V2. }
           rewrite EQ, sum_opposite_r by exact C1. exact mont_O.
        -- assert (EV : v1 = v2).
           { destruct (F_sq_eq v1 v2) as [E|E]; [rewrite E1, E2; reflexivity|exact E|contradiction]. }
           subst v2. rewrite X1, Y1 in C1 |- *. rewrite X2, Y2. apply sum_tangent; assumption.
      * rewrite X1, Y1 in C1 |- *. rewrite X2, Y2 in C2 |- *. apply (sum_chord u1 v1 u2 v2 V1 K1 V2 K2 E1 E2 C1 C2 D).
Qed.
