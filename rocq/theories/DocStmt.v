(** * Statements about the curve of the documentation: C90, C91 *)

From Coq Require Import ZArith List Bool Lia Ring Field Znumtheory.
From Verif Require Import Spec NumTheory Primes Fp Curve CurveGroup EdwardsY Rist RistSpec GroupCheck GroupOrder GroupStmt EllStmt EdwardsStmt
  DocModel Forms DocPrimes DocFacts.
Import ListNotations.
Open Scope F_scope.

Lemma self_div x : x <> 0 -> x / (- x) = - (1).
Proof. intros N. field. first [exact N|exact (opp_nz x N)]. Qed.
Lemma div_opp_eq x y c : y <> 0 -> c * y = - x -> x / (- y) = c.
Proof. intros N E. assert (Ex : x = - (c * y)) by (rewrite E; ring). rewrite Ex. field. first [exact N|exact (opp_nz y N)]. Qed.

(** ** C90 *)
(** The two maps of main.tex, for every Montgomery curve and the twisted Edwards curve with
    a = (A+2)/B and d = (A-2)/B. *)
Lemma C90_maps_stmt : forall A B, B <> 0 ->
  (forall u v, on_montgomery A B (u, v) -> v <> 0 -> u + 1 <> 0 ->
    on_edwards ((A + (1 + 1)) / B) ((A - (1 + 1)) / B) (mon_to_ted (u, v)) /\ (u <> 0 -> ted_to_mon (mon_to_ted (u, v)) = (u, v))) /\
  (forall x y, on_edwards ((A + (1 + 1)) / B) ((A - (1 + 1)) / B) (x, y) -> x <> 0 -> 1 - y <> 0 ->
    on_montgomery A B (ted_to_mon (x, y)) /\ (1 + y <> 0 -> mon_to_ted (ted_to_mon (x, y)) = (x, y))).
Proof.
  intros A B NB. pose proof two_nz as N2. unfold ftwo in N2. split.
  - intros u v H Nv Nu. split.
    + unfold mon_to_ted, on_edwards, on_montgomery in *.
      apply (F_mul_cancel_l (B * (v * v) * ((u + 1) * (u + 1)))).
      { apply F_mul_nz; apply F_mul_nz; try assumption. apply F_mul_nz; assumption. }
      transitivity ((A + (1 + 1)) * (u * u) * ((u + 1) * (u + 1)) + B * (v * v) * ((u - 1) * (u - 1))); [field; repeat split; assumption|].
      transitivity (B * (v * v) * ((u + 1) * (u + 1)) + (A - (1 + 1)) * (u * u) * ((u - 1) * (u - 1))); [|field; repeat split; assumption].
      rewrite H. ring.
    + intros N0. unfold ted_to_mon, mon_to_ted.
      assert (E1 : 1 + (u - 1) / (u + 1) = (1 + 1) * u / (u + 1)) by (field; exact Nu).
      assert (E2 : 1 - (u - 1) / (u + 1) = (1 + 1) / (u + 1)) by (field; exact Nu).
      rewrite E1, E2. f_equal; field; repeat split; assumption.
  - intros x y H Nx Ny. split.
    + unfold ted_to_mon, on_edwards, on_montgomery in *.
      assert (H2 : (A + (1 + 1)) * (x * x) + B * (y * y) = B + (A - (1 + 1)) * (x * x) * (y * y)).
      { transitivity (B * ((A + (1 + 1)) / B * (x * x) + y * y)); [field; exact NB|]. rewrite H. field. exact NB. }
      assert (H3 : B * ((1 + y) * (1 - y)) = (x * x) * (A * ((1 - y) * (1 + y)) + (1 + 1) * (1 + y * y))).
      { transitivity (B - B * (y * y)); [ring|].
        assert (H4 : B * (y * y) = B + (A - (1 + 1)) * (x * x) * (y * y) - (A + (1 + 1)) * (x * x)) by (rewrite <- H2; ring).
        rewrite H4. ring. }
      apply (F_mul_cancel_l ((1 - y) * (1 - y) * (1 - y) * (x * x))).
      { apply F_mul_nz; apply F_mul_nz; try assumption. apply F_mul_nz; assumption. }
      transitivity (B * ((1 + y) * (1 - y)) * (1 + y)); [field; repeat split; assumption|]. rewrite H3.
      transitivity (x * x * ((1 + y) * (1 + y) * (1 + y) + A * ((1 + y) * (1 + y) * (1 - y)) + (1 + y) * ((1 - y) * (1 - y)))); [ring|].
      field. repeat split; assumption.
    + intros N1. unfold ted_to_mon, mon_to_ted. apply f_equal2; [field; repeat split; assumption|].
      assert (E1 : (1 + y) / (1 - y) - 1 = (1 + 1) * y / (1 - y)) by (field; exact Ny).
      assert (E2 : (1 + y) / (1 - y) + 1 = (1 + 1) / (1 - y)) by (field; exact Ny).
      rewrite E1, E2. field. split; assumption.
Qed.
(** Applied to the curve of the code itself the second map leads to the Montgomery curve
    with B = -(A+2), *)
Lemma C90_direct_stmt : forall x y, on_curve (x, y) -> x <> 0 -> on_montgomery mont_A (- (mont_A + (1 + 1))) (ted_to_mon (x, y)).
Proof.
  intros x y H N. destruct (curve_y x y H N) as [N1 N2].
  pose proof A2_nz as NA. pose proof A_d as Ad. set (AA := mont_A) in *. clearbody AA.
  destruct (C90_maps_stmt AA (- (AA + (1 + 1))) (opp_nz _ NA)) as [_ G].
  apply (G x y); [|exact N|exact N1]. cbn in *.
  assert (E1 : (AA + (1 + 1)) / (- (AA + (1 + 1))) = - (1)) by (apply self_div; exact NA).
  assert (E2 : (AA - (1 + 1)) / (- (AA + (1 + 1))) = cd).
  { apply div_opp_eq; [exact NA|]. rewrite Ad. ring. }
  rewrite E1, E2. transitivity (- (x * x) + y * y); [ring|exact H].
Qed.
(** not to the documented one with B = 1. *)
Lemma C90_direct_refuted_stmt : exists P, on_curve P /\ fst P <> 0 /\ ~ on_montgomery mont_A 1 (ted_to_mon P).
Proof.
  exists base. split; [exact base_on|].
  assert (N : fst base <> 0) by (cbn; apply toF_nz; vm_compute; discriminate). split; [exact N|].
  intros H. pose proof (C90_direct_stmt (fst base) (snd base) base_on N) as G. change (fst base, snd base) with base in G.
  destruct (ted_to_mon base) as [u v] eqn:E. unfold ted_to_mon, base in E.
  assert (K : (mont_A + (1 + 1) + 1) * (v * v) = 0).
  { cbn in H, G. transitivity (1 * (v * v) - - (mont_A + (1 + 1)) * (v * v)); [ring|]. rewrite H, G. ring. }
  assert (Nk : mont_A + (1 + 1) + 1 <> 0).
  { rewrite <- toF_two, F1. unfold mont_A. rewrite <- !toF_add. apply toF_nz. vm_compute. discriminate. }
  destruct (F_integral _ _ K) as [K1|K1]; [contradiction|]. apply F_sq_zero in K1.
  injection E as _ Ev. rewrite K1 in Ev.
  assert (X : toF 5 <> 0) by (apply toF_nz; vm_compute; discriminate).
  assert (Y1 : 1 + toF 3 / toF 5 <> 0).
  { intros Q. assert (Q2 : toF 8 = 0). { transitivity (toF 5 * (1 + toF 3 / toF 5)); [|rewrite Q; ring].
      transitivity (toF 5 + toF 3); [rewrite <- toF_add; reflexivity|field; exact X]. }
    revert Q2. apply toF_nz. vm_compute. discriminate. }
  assert (Y2 : 1 - toF 3 / toF 5 <> 0).
  { intros Q. assert (Q2 : toF 2 = 0). { transitivity (toF 5 * (1 - toF 3 / toF 5)); [|rewrite Q; ring].
      transitivity (toF 5 - toF 3); [rewrite <- toF_sub; reflexivity|field; exact X]. }
    revert Q2. apply toF_nz. vm_compute. discriminate. }
  revert Ev. apply div_nz; [exact Y1|]. apply F_mul_nz; [exact Y2|exact N].
Qed.
(** The scaling of main.tex: substituting x/f for x, with f^2 = -a, turns the equation with
    parameters a and d into the one with parameters -1 and -d/a. *)
Lemma C90_scaling_stmt : forall a d f, f * f = - a -> f <> 0 ->
  forall P, on_edwards a d (rescale f P) <-> on_edwards (- (1)) (- d / a) P.
Proof.
  intros a d f E N [x y]. assert (Ea : a = - (f * f)) by (rewrite E; ring). rewrite Ea. unfold on_edwards, rescale.
  assert (E1 : - (f * f) * (x / f * (x / f)) = - (1) * (x * x)) by (field; exact N).
  assert (E2 : d * (x / f * (x / f)) = - d / (- (f * f)) * (x * x)) by (field; split; [apply opp_nz, F_mul_nz; exact N|exact N]).
  rewrite E1, E2. reflexivity.
Qed.
(** The curve of the code and the Montgomery curve of the README are isomorphic: scaling
    followed by the map of main.tex, extended to the two points where it is undefined, is a
    bijection that takes the addition of the code's curve to the chord-and-tangent law. *)
Lemma C90_montgomery_stmt : exists (f : F) (phi : xy -> point) (psi : point -> xy),
  f * f = - (mont_A + (1 + 1)) /\
  (forall x y, x <> 0 -> phi (x, y) = Some (ted_to_mon (rescale f (x, y)))) /\
  phi origin = None /\ phi (0, - (1)) = Some (0, 0) /\
  (forall P, on_curve P -> on_cubic mont_A 1 0 (phi P) /\ psi (phi P) = P) /\
  (forall P, on_cubic mont_A 1 0 P -> on_curve (psi P) /\ phi (psi P) = P) /\
  (forall P Q, on_curve P -> on_curve Q -> phi (sum P Q) = cubic_add mont_A 1 (phi P) (phi Q)) /\
  (forall P, on_curve P -> phi (opposite P) = cubic_opp (phi P)).
Proof.
  exists mont_f, mont, unmont. split; [exact f_sq|].
  split; [intros x y N; unfold mont; rewrite feqb_false by exact N; reflexivity|].
  split; [exact mont_O|]. split; [exact mont_T|].
  split; [intros P H; split; [exact (mont_on P H)|exact (unmont_mont P H)]|].
  split; [intros P H; split; [exact (unmont_on_curve P H)|exact (mont_unmont P H)]|].
  split; [exact mont_add|exact mont_opposite].
Qed.
(** The Weierstrass curve of the README is isomorphic to the Montgomery curve by the affine
    change of coordinates (36 u + 12 A, 216 v). *)
Lemma C90_weierstrass_stmt : exists (phi psi : point -> point),
  phi None = None /\
  (forall u v, phi (Some (u, v)) = Some (toF 36 * u + toF 12 * mont_A, toF 216 * v)) /\
  (forall P, psi (phi P) = P /\ phi (psi P) = P) /\
  (forall P, on_cubic 0 wei_a wei_b (phi P) <-> on_cubic mont_A 1 0 P) /\
  (forall P Q, on_cubic mont_A 1 0 P -> on_cubic mont_A 1 0 Q ->
    phi (cubic_add mont_A 1 P Q) = cubic_add 0 wei_a (phi P) (phi Q)).
Proof.
  exists wei, (unmove six shift). split; [reflexivity|]. split.
  { intros u v. cbn. unfold six. rewrite <- !toF_mul. reflexivity. }
  split; [intros P; split; [exact (unmove_move six shift six_nz P)|exact (move_unmove six shift six_nz P)]|].
  split; [exact wei_on|exact wei_add].
Qed.
(** The formulas of sage_weierstrass_code, for every A. *)
Lemma C90_shift_stmt : forall A u v, on_montgomery A 1 (u, v) <->
  on_cubic 0 ((toF 3 - A * A) / toF 3) ((toF 2 * (A * A * A) - toF 9 * A) / toF 27) (Some (u + A / toF 3, v)).
Proof.
  intros A u v. assert (N : toF 3 <> 0) by (apply toF_nz; vm_compute; discriminate).
  assert (E27 : toF 27 = toF 3 * toF 3 * toF 3) by (rewrite <- !toF_mul; reflexivity).
  assert (E9 : toF 9 = toF 3 * toF 3) by (rewrite <- !toF_mul; reflexivity).
  assert (E3 : toF 3 = 1 + 1 + 1) by (rewrite F1, <- !toF_add; reflexivity).
  cbn [on_montgomery on_cubic]. rewrite E27, E9, toF_two.
  assert (G : (u + A / toF 3) * (u + A / toF 3) * (u + A / toF 3) + 0 * ((u + A / toF 3) * (u + A / toF 3)) + (toF 3 - A * A) / toF 3 * (u + A / toF 3) +
    ((1 + 1) * (A * A * A) - toF 3 * toF 3 * A) / (toF 3 * toF 3 * toF 3) = u * u * u + A * (u * u) + u).
  { transitivity (u * u * u + toF 3 / toF 3 * A * (u * u) + toF 3 * (A * A) / (toF 3 * toF 3) * u - A * A / toF 3 * u + u + (1 + 1 + 1 - toF 3) * (A * A * A) / (toF 3 * toF 3 * toF 3)
       + (1 + 1 + 1 - toF 3) * (A * (u * u)) / toF 3 + (1 + 1 + 1 - toF 3) * (A * A * u) / (toF 3 * toF 3)); [field; exact N|].
    rewrite <- E3. field. exact N. }
  rewrite G. assert (V : 1 * (v * v) = v * v) by ring. rewrite V. reflexivity.
Qed.
(** The order printed in the documentation is the number of points, in all three forms. *)
Lemma C90_count_stmt :
  (exists l, NoDup l /\ Z.of_nat (length l) = doc_G /\ forall P, In P l <-> on_curve P) /\
  (exists l, NoDup l /\ Z.of_nat (length l) = doc_G /\ forall P, In P l <-> on_cubic mont_A 1 0 P) /\
  (exists l, NoDup l /\ Z.of_nat (length l) = doc_G /\ forall P, In P l <-> on_cubic 0 wei_a wei_b P).
Proof.
  assert (E : doc_G = (8 * L)%Z) by (vm_compute; reflexivity). rewrite E.
  split; [exact C57_count_stmt|]. split; [exact mont_count|exact wei_count].
Qed.
(** The chord-and-tangent law on the Montgomery curve is an abelian group law. *)
Lemma C90_laws_stmt : let C := on_cubic mont_A 1 0 in let add := cubic_add mont_A 1 in
  (forall P Q, C P -> C Q -> C (add P Q)) /\
  (forall P Q R, C P -> C Q -> C R -> add (add P Q) R = add P (add Q R)) /\
  (forall P Q, C P -> C Q -> add P Q = add Q P) /\
  (forall P, add None P = P) /\
  (forall P, C P -> C (cubic_opp P) /\ add P (cubic_opp P) = None).
Proof.
  cbv zeta. split; [intros P Q HP HQ; apply (cubic_add_on mont_A 1 0); assumption|].
  split; [|split; [|split]].
  - intros P Q R HP HQ HR. rewrite <- (mont_unmont P HP), <- (mont_unmont Q HQ), <- (mont_unmont R HR).
    pose proof (unmont_on_curve P HP) as GP. pose proof (unmont_on_curve Q HQ) as GQ. pose proof (unmont_on_curve R HR) as GR.
    rewrite <- (mont_add _ _ GP GQ), <- (mont_add _ _ GQ GR).
    rewrite <- (mont_add _ _ (sum_on_curve _ _ GP GQ) GR), <- (mont_add _ _ GP (sum_on_curve _ _ GQ GR)).
    apply f_equal. apply sum_assoc; assumption.
  - intros P Q HP HQ. rewrite <- (mont_unmont P HP), <- (mont_unmont Q HQ).
    pose proof (unmont_on_curve P HP) as GP. pose proof (unmont_on_curve Q HQ) as GQ.
    rewrite <- (mont_add _ _ GP GQ), <- (mont_add _ _ GQ GP). apply f_equal. apply sum_comm.
  - reflexivity.
  - intros P HP. pose proof (unmont_on_curve P HP) as GP. rewrite <- (mont_unmont P HP). rewrite <- (mont_opposite _ GP). split.
    + apply mont_on. apply opposite_on_curve. exact GP.
    + rewrite <- (mont_add _ _ GP (opposite_on_curve _ GP)). rewrite sum_opposite_r by exact GP. exact mont_O.
Qed.
(** `mult` of the sage session computes the k-fold sum of every point, for every k. *)
Lemma C90_mult_stmt : forall fuel P k, on_cubic mont_A 1 0 P -> (0 <= k < 2 ^ Z.of_nat fuel)%Z ->
  sage_mult (S fuel) mont_A 1 P k = Some (Z.iter k (cubic_add mont_A 1 P) None).
Proof.
  intros fuel P k HP B. pose proof (unmont_on_curve P HP) as GP. rewrite <- (mont_unmont P HP).
  rewrite iter_mont by (exact GP || apply B). exact (sage_mult_ok fuel _ k GP B).
Qed.
(** Of the points with first coordinate 1, 2, 3 and 4 exactly those with first coordinate 4
    are annihilated by L; they exist, and one is the image of the basepoint of the code. *)
Lemma C90_basepoint_stmt : (forall u v, In u [1; 2; 3; 4]%Z -> on_montgomery mont_A 1 (toF u, v) ->
    (Z.iter L (cubic_add mont_A 1 (Some (toF u, v))) None = None <-> u = 4%Z)) /\
  (let v := toF 2387694734969974503585694617203302024142786955946516383730480941479078023877 in
   on_montgomery mont_A 1 (toF 4, v) /\ v * v = toF 8083044 /\
   exists f, f * f = - (mont_A + (1 + 1)) /\ ted_to_mon (rescale f base) = (toF 4, v)).
Proof.
  split.
  - intros u v Hu H. assert (C : on_cubic mont_A 1 0 (Some (toF u, v))).
    { cbn in *. transitivity (1 * (v * v)); [ring|]. rewrite H. ring. }
    assert (N : toF u <> 0) by (apply toF_nz; repeat (destruct Hu as [<-|Hu]; [vm_compute; discriminate|]); destruct Hu).
    destruct (unmont_y _ _ C N) as (P & _ & Y & E). rewrite <- E, L_mont. rewrite F1, <- toF_add, <- toF_sub in Y.
    destruct Hu as [<-|[<-|[<-|[<-|[]]]]].
    + split; [|discriminate]. intros Z0. exfalso. revert Z0. apply base_1.
      apply (F_mul_cancel_l (toF 2)); [apply toF_nz; vm_compute; discriminate|]. transitivity (yc P * toF (1 + 1)); [cbn; ring|]. rewrite Y. cbn. rewrite <- F0. ring.
    + split; [|discriminate]. intros Z0. exfalso. revert Z0. apply base_2. exact Y.
    + exfalso. exact (base_3 v C).
    + split; [reflexivity|]. intros _. apply base_4. exact Y.
  - cbv zeta. split; [|split].
    + cbn. unfold mont_A. rewrite F1, <- !toF_mul, <- !toF_add. apply Feq. rewrite !Fval_toF. vm_compute. reflexivity.
    + rewrite <- toF_mul. apply Feq. rewrite !Fval_toF. vm_compute. reflexivity.
    + exists mont_f. split; [exact f_sq|]. unfold rescale, ted_to_mon, base.
      assert (N5 : toF 5 <> 0) by (apply toF_nz; vm_compute; discriminate).
      assert (N2 : toF 2 <> 0) by (apply toF_nz; vm_compute; discriminate).
      assert (E1 : 1 + toF 3 / toF 5 = toF 8 / toF 5).
      { transitivity ((toF 5 + toF 3) / toF 5); [field; exact N5|]. rewrite <- toF_add. reflexivity. }
      assert (E2 : 1 - toF 3 / toF 5 = toF 2 / toF 5).
      { transitivity ((toF 5 - toF 3) / toF 5); [field; exact N5|]. rewrite <- toF_sub. reflexivity. }
      rewrite E1, E2. assert (E8 : toF 8 = toF 2 * toF 4) by (rewrite <- toF_mul; reflexivity). rewrite E8.
      assert (Nb : toF base_x <> 0) by (apply toF_nz; vm_compute; discriminate). pose proof f_nz as Nf.
      apply f_equal2; [field; split; assumption|].
      transitivity (toF 4 * mont_f / toF base_x); [field; repeat split; assumption|].
      apply div_unique; [exact Nb|]. unfold mont_f. rewrite <- !toF_mul. apply Feq. rewrite !Fval_toF. vm_compute. reflexivity.
Qed.
(** main.tex chooses as generator of the whole group the point with the smallest first
    coordinate that has order 8L: that coordinate is 2. *)
Lemma C90_generator_stmt : (forall v, on_montgomery mont_A 1 (toF 1, v) -> Z.iter 4 (cubic_add mont_A 1 (Some (toF 1, v))) None = None) /\
  (forall v n, on_montgomery mont_A 1 (toF 2, v) -> (0 <= n)%Z ->
    (Z.iter n (cubic_add mont_A 1 (Some (toF 2, v))) None = None <-> (doc_G | n)%Z)) /\
  (exists v, on_montgomery mont_A 1 (toF 2, v)).
Proof.
  assert (X : forall u v, toF u <> 0 -> on_montgomery mont_A 1 (toF u, v) -> exists P, yc P * toF (u + 1) = toF (u - 1) /\ mont (pxy P) = Some (toF u, v)).
  { intros u v N H. assert (C : on_cubic mont_A 1 0 (Some (toF u, v))).
    { cbn in *. transitivity (1 * (v * v)); [ring|]. rewrite H. ring. }
    destruct (unmont_y _ _ C N) as (P & _ & Y & E). exists P. split; [|exact E]. rewrite toF_add, toF_sub. exact Y. }
  assert (G : forall n P, (0 <= n)%Z -> Z.iter n (cubic_add mont_A 1 (mont (pxy P))) None = None <-> smul n P = pO).
  { intros n P Hn. rewrite iter_mont by (exact (pt_on P) || exact Hn). rewrite multiple_smul by exact Hn. rewrite <- mont_O. split.
    - intros E. apply mont_inj in E; [|apply pt_on|exact origin_on_curve]. apply pt_eq. exact E.
    - intros ->. reflexivity. }
  split; [|split].
  - intros v H. destruct (X 1%Z v ltac:(apply toF_nz; vm_compute; discriminate) H) as (P & Y & E). rewrite <- E. apply G; [lia|].
    apply t4_smul4. right. apply (F_mul_cancel_l (toF 2)); [apply toF_nz; vm_compute; discriminate|].
    transitivity (yc P * toF (1 + 1)); [cbn; ring|]. rewrite Y. cbn. rewrite <- F0. ring.
  - intros v n H Hn. destruct (X 2%Z v ltac:(apply toF_nz; vm_compute; discriminate) H) as (P & Y & E). rewrite <- E.
    assert (D : doc_G = (8 * L)%Z) by (vm_compute; reflexivity). rewrite D, G by exact Hn. apply gen_order. exact Y.
  - exists (toF 7107104002761152137756180340655542446098915189822648077640018100673760222465).
    cbn. unfold mont_A. rewrite F1, <- !toF_mul, <- !toF_add. apply Feq. rewrite !Fval_toF. vm_compute. reflexivity.
Qed.
(** Its eightfold multiple, which main.tex names as the basepoint, is not the basepoint of the
    code or its negative: the first coordinate is not 4. *)
Lemma C90_generator_refuted_stmt : exists v, on_montgomery mont_A 1 (toF 2, v) /\
  forall w, Z.iter 8 (cubic_add mont_A 1 (Some (toF 2, v))) None <> Some (toF 4, w).
Proof.
  destruct C90_generator_stmt as (_ & _ & (v & H)). exists v. split; [exact H|]. intros w K.
  assert (C : on_cubic mont_A 1 0 (Some (toF 2, v))).
  { cbn in *. transitivity (1 * (v * v)); [ring|]. rewrite H. ring. }
  destruct (unmont_y _ _ C ltac:(apply toF_nz; vm_compute; discriminate)) as (P & _ & Y & E). rewrite F1, <- toF_add, <- toF_sub in Y.
  rewrite <- E, iter_mont in K by (apply pt_on || lia). rewrite multiple_smul in K by lia.
  pose proof (gen_8 P Y) as G8. remember (smul 8 P) as Q eqn:EQ. clear EQ.
  assert (U : unmont (mont (pxy Q)) = pxy Q) by (apply unmont_mont, pt_on). rewrite K in U. cbn [unmont] in U.
  rewrite feqb_false in U by (apply toF_nz; vm_compute; discriminate).
  apply (f_equal snd) in U. cbn [snd] in U. fold (yc Q) in U. rewrite G8 in U.
  assert (N5 : toF 5 <> 0) by (apply toF_nz; vm_compute; discriminate).
  rewrite F1, <- toF_add, <- toF_sub in U. apply (f_equal (fun z => z * toF 5)) in U.
  assert (U2 : toF 3 = toF gen8_y * toF 5).
  { rewrite <- U. change (4 - 1)%Z with 3%Z. change (4 + 1)%Z with 5%Z. field. exact N5. }
  rewrite <- toF_mul in U2. apply (f_equal Fval) in U2. rewrite !Fval_toF in U2. vm_compute in U2. discriminate U2.
Qed.
(** The addition and doubling of the sage session in extended coordinates represent the sum,
    for every two representations of points of the curve. *)
Lemma C90_extended_stmt : forall P Q A B, quad_rep P A -> quad_rep Q B -> on_curve A -> on_curve B ->
  quad_rep (sage_add (- (1)) cd P Q) (sum A B) /\ quad_rep (sage_double (- (1)) P) (sum A A).
Proof.
  intros [[[X1 Y1] T1] Z1] [[[X2 Y2] T2] Z2] [x1 y1] [x2 y2] (N1 & EX1 & EY1 & ET1) (N2 & EX2 & EY2 & ET2) C1 C2. cbn [fst snd] in *. subst X1 Y1 T1 X2 Y2 T2.
  pose proof (complete_plus _ _ _ _ C1 C2) as Dp. pose proof (complete_minus _ _ _ _ C1 C2) as Dm.
  pose proof (complete_plus _ _ _ _ C1 C1) as Ep. pose proof (complete_minus _ _ _ _ C1 C1) as Em. split.
  - unfold sage_add, quad_rep, sum. cbn [fst snd].
    assert (F1' : Z1 * Z2 - cd * (x1 * y1 * Z1) * (x2 * y2 * Z2) = Z1 * Z2 * (1 - cd * x1 * x2 * y1 * y2)) by ring.
    assert (F2' : Z1 * Z2 + cd * (x1 * y1 * Z1) * (x2 * y2 * Z2) = Z1 * Z2 * (1 + cd * x1 * x2 * y1 * y2)) by ring.
    rewrite F1', F2'. set (m := 1 - cd * x1 * x2 * y1 * y2) in *. set (q := 1 + cd * x1 * x2 * y1 * y2) in *. clearbody m q.
    assert (N : Z1 * Z2 <> 0) by (apply F_mul_nz; assumption).
    split; [apply F_mul_nz; apply F_mul_nz; assumption|]. repeat split; field; repeat split; assumption.
  - unfold sage_double, quad_rep, sum. cbn [fst snd]. cbn in C1.
    assert (G1 : y1 * Z1 * (y1 * Z1) + - (1) * (x1 * Z1 * (x1 * Z1)) = Z1 * Z1 * (1 + cd * x1 * x1 * y1 * y1)).
    { transitivity (Z1 * Z1 * (- (x1 * x1) + y1 * y1)); [ring|]. rewrite C1. ring. }
    assert (G2 : (1 + 1) * (Z1 * Z1) - y1 * Z1 * (y1 * Z1) - - (1) * (x1 * Z1 * (x1 * Z1)) = Z1 * Z1 * (1 - cd * x1 * x1 * y1 * y1)).
    { transitivity (Z1 * Z1 * (1 + 1 - (- (x1 * x1) + y1 * y1))); [ring|]. rewrite C1. ring. }
    rewrite G1, G2. set (m := 1 - cd * x1 * x1 * y1 * y1) in *. set (q := 1 + cd * x1 * x1 * y1 * y1) in *. clearbody m q.
    assert (N : Z1 * Z1 <> 0) by (apply F_mul_nz; assumption).
    split; [apply F_mul_nz; apply F_mul_nz; assumption|]. repeat split; field; repeat split; assumption.
Qed.
(** The formula in the comment of the session does not. *)
Lemma C90_comment_refuted_stmt : exists P A, quad_rep P A /\ on_curve A /\ ~ quad_rep (sage_add_comment (- (1)) cd P P) (sum A A).
Proof.
  exists (0, 1, 0, 1), origin. split; [|split; [exact origin_on_curve|]].
  - cbn. split; [exact one_neq_zero|]. repeat split; ring.
  - intros H. unfold sage_add_comment in H. destruct H as (_ & _ & H & _).
    rewrite (sum_origin_l origin) in H. cbn [origin snd] in H. apply one_neq_zero.
    transitivity (1 * ((1 * 1 - cd * 0 * 0) * (1 * 1 + cd * 0 * 0))); [ring|]. rewrite <- H. ring.
Qed.
(** The session's expression for the square of the second coordinate. *)
Lemma C90_second_stmt : forall x y, on_curve (x, y) <-> y * y = sage_Y cd x.
Proof.
  intros x y. assert (N : cd * (x * x) - 1 <> 0).
  { intros E. apply cd_nonsq. exists (1 / x). assert (Nx : x <> 0).
    { intros X0. rewrite X0 in E. apply one_neq_zero. transitivity (- (cd * (0 * 0) - 1)); [ring|]. rewrite E. ring. }
    apply (F_mul_cancel_l (x * x)); [apply F_mul_nz; exact Nx|]. transitivity 1; [field; exact Nx|].
    transitivity (1 + (cd * (x * x) - 1)); [rewrite E; ring|ring]. }
  unfold sage_Y. cbn. split; intros H.
  - symmetry. apply div_unique; [exact N|]. transitivity (- (y * y) + cd * (x * x) * (y * y)); [ring|].
    assert (H2 : cd * (x * x) * (y * y) = - (x * x) + y * y - 1) by (rewrite H; ring). rewrite H2. ring.
  - assert (H2 : (y * y) * (cd * (x * x) - 1) = - (x * x) - 1) by (rewrite H; field; exact N).
    transitivity (- (x * x) - 1 + y * y + 1); [ring|]. rewrite <- H2. ring.
Qed.
(** The subgroup order printed in the documentation is not that of the code's subgroup: *)
Lemma C90_r_refuted_stmt : exists P, on_curve P /\ multiple L P = origin /\ multiple doc_r P <> origin.
Proof.
  exists base. split; [exact base_on|]. change origin with (pxy pO).
  rewrite !multiple_B by (vm_compute; discriminate). split; [rewrite smul_L_B; reflexivity|].
  intros H. apply pt_eq in H. apply order_B in H. apply Z.mod_divide in H; [|vm_compute; discriminate].
  revert H. vm_compute. discriminate.
Qed.
(** the equation printed in the definition of main.tex is not satisfied by its basepoint, *)
Lemma C90_equation_refuted_stmt : exists P, on_curve P /\ ~ on_main_tex P.
Proof.
  exists base. split; [exact base_on|]. intros H. pose proof base_on as G. unfold base in *. cbn in H, G.
  assert (E : toF 126296 / toF 126297 = - cd).
  { destruct cd_num as [N E]. apply div_unique; [exact N|]. transitivity (- (cd * toF 126297)); [ring|]. rewrite E. ring. }
  rewrite E in H. rewrite G in H. clear E G.
  set (x := toF base_x) in *. assert (N5 : toF 5 <> 0) by (apply toF_nz; vm_compute; discriminate).
  assert (Nx : x <> 0) by (apply toF_nz; vm_compute; discriminate).
  assert (N3 : toF 3 <> 0) by (apply toF_nz; vm_compute; discriminate). clearbody x.
  assert (K : (1 + 1) * (cd * (x * x) * (toF 3 / toF 5 * (toF 3 / toF 5))) = 0).
  { transitivity (1 + cd * (x * x) * (toF 3 / toF 5 * (toF 3 / toF 5)) - (1 + - cd * (x * x) * (toF 3 / toF 5 * (toF 3 / toF 5)))); [ring|]. rewrite H. ring. }
  revert K. apply F_mul_nz; [exact two_nz|]. pose proof (div_nz _ _ N3 N5) as Ny.
  assert (Nd : cd <> 0) by (intros Z0; apply cd_nonsq; exists 0; rewrite Z0; ring).
  apply F_mul_nz; [apply F_mul_nz; [exact Nd|apply F_mul_nz; exact Nx]|apply F_mul_nz; exact Ny].
Qed.
(** and the second hexadecimal form of the basepoint is not a point of the curve. *)
Lemma C90_hex_refuted_stmt : exists v, v = 0x23E4A96ED9E13AF0600EA21DB1007D9FB6E47BDD233BBBD82EB8E634305E0B1%Z /\ ~ on_montgomery mont_A 1 (toF 4, toF v).
Proof.
  eexists. split; [reflexivity|]. intros H. cbn [on_montgomery] in H. unfold mont_A in H. rewrite F1, <- !toF_mul, <- !toF_add in H.
  apply (f_equal Fval) in H. rewrite !Fval_toF in H. vm_compute in H. discriminate H.
Qed.
(** The points of the sage session and their printed sum and double:
    sage_codes/Point computation 111-115, 136-140, 152-156, 182-186. *)
Definition quad_of (a b c d : Z) : quad := (toF a, toF b, toF c, toF d).
Definition sage_P : quad := quad_of 14 209320140320440078856110758841281411362780900395675344846360946607335974114
  2930481964486161103985550623777939759078932605539454827849053252502703637596 1.
Definition sage_Q : quad := quad_of 67 3295852391766231710775359255962084372654764936733420286493628916624458118402
  3711942928369658202753473258169825742155759979741931015014609265275066403264 1.
Lemma C90_ex : doc_p = p /\ on_curve base /\ base <> origin /\ on_cubic mont_A 1 0 (Some (0, 0)) /\
  (exists A, quad_rep sage_P A /\ on_curve A) /\ (exists A, quad_rep sage_Q A /\ on_curve A) /\
  sage_add (- (1)) cd sage_P sage_Q = quad_of
    6071577539228590191219387911031602982956051495655581694654126271979753651722
    837202702872841412924343780706778248153230580612427863707303374823451692769
    3870569102798123767101920828945730089305537575358572428982223506408632563886
    5030678076965133398451320860257582818948884882165145613987735041289292101393 /\
  sage_double (- (1)) sage_P = quad_of
    149787030802898863214220589614787467360377956858885734134859441157998105502
    4114181249139963708922561672280278463269518807069632207462778037420327721750
    465221815300404819953157336686579853418396566040992296296754217912562254655
    3604554139948105518509753594085031057181477091926039562012636801913890184366.
Proof.
  assert (R : forall a b c : Z, (c mod p = a * b mod p)%Z -> quad_rep (quad_of a b c 1) (toF a, toF b)).
  { intros a b c E. unfold quad_of, quad_rep. cbn [fst snd]. rewrite <- F1. split; [exact one_neq_zero|].
    split; [ring|]. split; [ring|]. transitivity (toF a * toF b); [|ring]. rewrite <- toF_mul. apply Feq. rewrite !Fval_toF. exact E. }
  split; [vm_compute; reflexivity|]. split; [exact base_on|]. split; [exact base_neq|]. split; [cbn; ring|].
  split; [|split].
  - eexists. split; [apply R; vm_compute; reflexivity|]. unfold on_curve. rewrite cd_FD. apply Feq. vm_compute. reflexivity.
  - eexists. split; [apply R; vm_compute; reflexivity|]. unfold on_curve. rewrite cd_FD. apply Feq. vm_compute. reflexivity.
  - unfold sage_add, sage_double, sage_P, sage_Q, quad_of. rewrite cd_FD.
    split; (repeat apply f_equal2); apply Feq; vm_compute; reflexivity.
Qed.

(** ** C91 *)
(** The embedding degree of the subgroup: L divides p^k - 1 exactly for the multiples of
    (L-1)/15, so for no k below (L-1)/100. *)
Lemma C91_embedding_stmt : forall k, (0 < k)%Z ->
  ((L | p ^ k - 1)%Z <-> ((L - 1) / 15 | k)%Z) /\ ((L | p ^ k - 1)%Z -> ((L - 1) / 100 <= k)%Z).
Proof.
  intros k Hk. assert (E : (L | p ^ k - 1)%Z <-> ((L - 1) / 15 | k)%Z).
  { rewrite <- order_p_mod_L by exact Hk. pose proof L_pos as PL. split.
    - intros [c Ec]. assert (E : (p ^ k = 1 + c * L)%Z) by (clear - Ec; lia). rewrite E, Z_mod_plus_full. reflexivity.
    - intros D. apply Z.mod_divide; [lia|]. rewrite Zminus_mod, D. reflexivity. }
  split; [exact E|]. intros D. apply E in D. apply Z.divide_pos_le in D; [|exact Hk].
  apply Z.le_trans with ((L - 1) / 15)%Z; [vm_compute; discriminate|exact D].
Qed.
(** Every quadratic twist, affine points and the point at infinity, has order 4q for one and
    the same prime q of more than 2^249. *)
Lemma C91_twist_stmt : exists q, prime q /\ (2 ^ 249 < q)%Z /\ forall B, ~ (exists b, b * b = B) ->
  exists m, NoDup m /\ (Z.of_nat (length m) + 1 = 4 * q)%Z /\ forall P, In P m <-> on_montgomery mont_A B P.
Proof.
  exists 1809251394333065553493296640760748560192233568137954612408278327457774000433%Z.
  split; [exact pr1809251394333065553493296640760748560192233568137954612408278327457774000433|]. split; [vm_compute; reflexivity|].
  intros B NB. destruct (twist_count B NB) as (m & ND & Len & H). exists m. split; [exact ND|]. split; [|exact H].
  rewrite Len. vm_compute. reflexivity.
Qed.
(** The trace t satisfies Hasse's bound, and dividing 4p - t^2 by any square that divides it
    leaves more than 2^100. *)
Lemma C91_discriminant_stmt : forall l t, NoDup l -> (forall P, In P l <-> on_curve P) -> t = (p + 1 - Z.of_nat (length l))%Z ->
  (t * t < 4 * p)%Z /\ forall s, (0 < s)%Z -> (s * s | 4 * p - t * t)%Z -> (2 ^ 100 < (4 * p - t * t) / (s * s))%Z.
Proof.
  intros l t ND H Et. destruct C57_count_stmt as (l' & ND' & Len & H').
  assert (E : length l = length l') by (apply same_length; [exact ND|exact ND'|intros P; rewrite H, H'; reflexivity]).
  rewrite E, Len in Et. assert (T : t = trace) by (rewrite Et; reflexivity). rewrite T. clear.
  split; [vm_compute; reflexivity|]. exact discriminant_large.
Qed.
(** Both traces printed in the sage session differ from p + 1 minus the number of points. *)
Lemma C91_trace_refuted_stmt : exists l, NoDup l /\ (forall P, In P l <-> on_curve P) /\
  (p + 1 - Z.of_nat (length l) <> 88182086828089156368837628454358249258)%Z /\
  (p + 1 - Z.of_nat (length l) <> 88182086828089156368837628454358249260)%Z /\
  (p + 1 - Z.of_nat (length l) = - 88182086828089156368837628454358249258)%Z.
Proof.
  destruct C57_count_stmt as (l & ND & Len & H). exists l. split; [exact ND|]. split; [exact H|]. rewrite Len.
  repeat split; vm_compute; try discriminate; reflexivity.
Qed.
(** The squares and nonsquares the derivation asks for: A+2 is a square, A-2 and A^2-4 are
    not; in particular the curve is not singular. *)
Lemma C91_parameters_stmt : (exists g, g * g = mont_A + (1 + 1)) /\ ~ (exists g, g * g = mont_A - (1 + 1)) /\
  ~ (exists g, g * g = mont_A * mont_A - toF 4).
Proof.
  destruct A_sq_plus as (g & Eg & Ng). split; [exists g; exact Eg|]. split; [exact Am2_nonsq|].
  assert (E : mont_A * mont_A - toF 4 = (mont_A - (1 + 1)) * (mont_A + (1 + 1))).
  { assert (E4 : toF 4 = (1 + 1) * (1 + 1)) by (rewrite <- toF_two, <- toF_mul; reflexivity). rewrite E4. ring. }
  rewrite E. apply (nonsq_mul_sq _ _ Am2_nonsq); [exists g; exact Eg|exact A2_nz].
Qed.
(** There is one point of order two and there are two of order four. *)
Lemma C91_torsion_stmt : exists j, j * j = - (1) /\ j <> - j /\
  (forall P, on_curve P -> (P <> origin /\ sum P P = origin <-> P = (0, - (1)))) /\
  (forall P, on_curve P -> (sum P P <> origin /\ sum (sum P P) (sum P P) = origin <-> P = (j, 0) \/ P = (- j, 0))).
Proof.
  destruct is_sq_m1 as (j & Ej). exists j. split; [exact Ej|].
  assert (Nj : j <> 0). { intros E. rewrite E in Ej. apply one_neq_zero. transitivity (- - (1)); [ring|]. rewrite <- Ej. ring. }
  assert (D : forall P, on_curve P -> (sum P P = origin <-> P = origin \/ P = (0, - (1)))).
  { intros P H. apply on_pt in H. destruct H as (Q & ->). change (sum (pxy Q) (pxy Q)) with (pxy (padd Q Q)). change origin with (pxy pO). split.
    - intros E. apply pt_eq in E. apply double_zero in E. destruct (x0_y Q E) as [Y|Y]; [left|right]; rewrite pxy_c, E, Y; reflexivity.
    - intros E. f_equal. apply double_zero. unfold xc. destruct E as [E|E]; rewrite E; reflexivity. }
  assert (N : (0, - (1)) <> origin).
  { intros E. apply (f_equal snd) in E. exact (minus_one_neq_one E). }
  split; [|split].
  - intros E. apply Nj. apply (F_mul_cancel_l (1 + 1)); [exact two_nz|]. transitivity (j - (- j)); [ring|]. rewrite <- E. ring.
  - intros P H. rewrite (D P H). split; [tauto|]. intros ->. split; [exact N|right; reflexivity].
  - intros P H. rewrite (D _ (sum_on_curve _ _ H H)).
    assert (T : sum P P = (0, - (1)) <-> snd P = 0).
    { apply on_pt in H. destruct H as (Q & ->). change (sum (pxy Q) (pxy Q)) with (pxy (padd Q Q)). split.
      - intros E. assert (T4 : t4 Q).
        { apply t4_smul4. change 4%Z with (2 * 2)%Z. rewrite smul_mul, !smul_2. apply double_zero. unfold xc. rewrite E. reflexivity. }
        destruct T4 as [X|Y]; [|exact Y]. exfalso. apply N. rewrite <- E. change origin with (pxy pO). f_equal. apply double_zero. exact X.
      - intros Y. assert (T4 : t4 Q) by (right; exact Y). apply t4_smul4 in T4. change 4%Z with (2 * 2)%Z in T4.
        rewrite smul_mul, !smul_2 in T4. apply double_zero in T4.
        destruct (x0_y _ T4) as [E|E]; [exfalso|rewrite pxy_c, T4, E; reflexivity].
        assert (Z0 : padd Q Q = pO) by (apply pt_c; [exact T4|exact E]). apply double_zero in Z0.
        pose proof (on_c Q) as C. rewrite Z0 in C. unfold yc in C. rewrite Y in C. apply one_neq_zero.
        transitivity (1 + cd * (0 * 0) * (0 * 0)); [ring|]. rewrite <- C. ring. }
    split.
    + intros [NO E]. assert (E2 : sum P P = (0, - (1))) by (destruct E as [E|E]; [contradiction|exact E]).
      apply T in E2. destruct P as [x y]. cbn in E2, H. subst y.
      destruct (F_sq_eq x j) as [X|X]; [|left; rewrite X; reflexivity|right; rewrite X; reflexivity].
      rewrite Ej. transitivity (- (- (x * x) + 0 * 0)); [ring|]. rewrite H. ring.
    + intros E. assert (Y : snd P = 0) by (destruct E as [E|E]; rewrite E; reflexivity). apply T in Y. rewrite Y. split; [exact N|right; reflexivity].
Qed.
(** The remaining requirements: the rho method takes more than 2^100 steps on the subgroup,
    the subgroup order is not the characteristic, and on the Weierstrass form a root r with
    3r^2 + a a square exists and b is not zero. *)
Lemma C91_rho_stmt : (2 ^ 200 * 1000 * 1000 < 886 * 886 * L)%Z /\ prime L /\ prime p /\ rel_prime L p /\
  (exists r s, r * r * r + wei_a * r + wei_b = 0 /\ toF 3 * (r * r) + wei_a = s * s) /\ wei_b <> 0.
Proof.
  split; [vm_compute; reflexivity|]. split; [exact prime_L|]. split; [exact prime_p|].
  split; [apply Zgcd_1_rel_prime; vm_compute; reflexivity|]. split.
  - exists (toF (12 * 505186)), (toF 36). unfold wei_a, wei_b. rewrite <- !toF_mul, <- !toF_add, F0. split; apply Feq; rewrite !Fval_toF; vm_compute; reflexivity.
  - apply toF_nz. vm_compute. discriminate.
Qed.
Lemma C91_ex : (exists B, ~ (exists b, b * b = B)) /\ (exists k, (0 < k)%Z /\ (L | p ^ k - 1)%Z) /\
  (exists s, (1 < s)%Z /\ (s * s | 4 * p - (p + 1 - 8 * L) * (p + 1 - 8 * L))%Z) /\
  exists l : list xy, NoDup l /\ forall P, In P l <-> on_curve P.
Proof.
  split; [exists cd; exact cd_nonsq|]. split; [|split].
  - assert (G : forall e, e = ((L - 1) / 15)%Z -> (0 < e)%Z -> (L | p ^ e - 1)%Z).
    { intros e He Pe. apply C91_embedding_stmt; [exact Pe|]. rewrite He. exists 1%Z. ring. }
    exists ((L - 1) / 15)%Z. split; [reflexivity|]. apply G; reflexivity.
  - exists 4%Z. split; [reflexivity|]. apply Z.mod_divide; [discriminate|]. vm_compute. reflexivity.
  - destruct C57_count_stmt as (l & ND & _ & H). exists l. split; assumption.
Qed.
