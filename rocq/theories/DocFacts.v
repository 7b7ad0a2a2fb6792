(** * Facts behind the statements about the documentation *)

From Coq Require Import ZArith List Bool Lia Ring Field Znumtheory Permutation.
From Verif Require Import Spec NumTheory Primes Fp Curve CurveGroup EdwardsY Rist RistSpec GroupCheck GroupOrder GroupStmt EllStmt DocModel Forms.
Import ListNotations.
Open Scope F_scope.

(** ** Changing coordinates of a cubic *)
(** (u, v) becomes (s^2 u + t, s^3 v). *)
Definition move (s t : F) (P : point) : point :=
  match P with None => None | Some (u, v) => Some (s * s * u + t, s * s * s * v) end.
Definition unmove (s t : F) (P : point) : point :=
  match P with None => None | Some (x, y) => Some ((x - t) / (s * s), y / (s * s * s)) end.
Section Move.
Context (s t a2 a4 a6 : F) (Ns : s <> 0).
Definition b2 := s * s * a2 - (1 + 1 + 1) * t.
Definition b4 := (1 + 1 + 1) * (t * t) - (1 + 1) * (s * s) * a2 * t + s * s * (s * s) * a4.
Definition b6 := - (t * t * t) + s * s * a2 * (t * t) - s * s * (s * s) * a4 * t + s * s * s * (s * s * s) * a6.
Lemma sss_nz : s * s * s <> 0.
Proof. apply F_mul_nz; [apply F_mul_nz; exact Ns|exact Ns]. Qed.
Lemma ss_nz : s * s <> 0.
Proof. apply F_mul_nz; exact Ns. Qed.
Lemma move_on P : on_cubic b2 b4 b6 (move s t P) <-> on_cubic a2 a4 a6 P.
Proof.
  destruct P as [[u v]|]; [|split; intros _; exact I]. cbn. unfold b2, b4, b6. split; intros H.
  - apply (F_mul_cancel_l (s * s * s * (s * s * s))); [apply F_mul_nz; exact sss_nz|].
    transitivity (s * s * s * v * (s * s * s * v)); [ring|]. rewrite H. ring.
  - transitivity (s * s * s * (s * s * s) * (v * v)); [ring|]. rewrite H. ring.
Qed.
Lemma unmove_move P : unmove s t (move s t P) = P.
Proof.
  destruct P as [[u v]|]; [|reflexivity]. cbn [unmove move].
  assert (E1 : (s * s * u + t - t) / (s * s) = u) by (field; exact Ns).
  assert (E2 : s * s * s * v / (s * s * s) = v) by (field; exact Ns).
  rewrite E1, E2. reflexivity.
Qed.
Lemma move_unmove P : move s t (unmove s t P) = P.
Proof.
  destruct P as [[u v]|]; [|reflexivity]. cbn [unmove move].
  assert (E1 : s * s * ((u - t) / (s * s)) + t = u) by (field; exact Ns).
  assert (E2 : s * s * s * (v / (s * s * s)) = v) by (field; exact Ns).
  rewrite E1, E2. reflexivity.
Qed.
Lemma move_third l x1 y1 x2 : move s t (third a2 l x1 y1 x2) = third b2 (s * l) (s * s * x1 + t) (s * s * s * y1) (s * s * x2 + t).
Proof.
  unfold third. cbn [move]. cbv zeta. unfold b2.
  assert (E : s * s * (l * l - a2 - x1 - x2) + t = s * l * (s * l) - (s * s * a2 - (1 + 1 + 1) * t) - (s * s * x1 + t) - (s * s * x2 + t)) by ring.
  rewrite <- E.
  assert (E2 : s * s * s * (l * (x1 - (l * l - a2 - x1 - x2)) - y1) = s * l * (s * s * x1 + t - (s * s * (l * l - a2 - x1 - x2) + t)) - s * s * s * y1) by ring.
  rewrite E2. reflexivity.
Qed.
Lemma move_add P Q : on_cubic a2 a4 a6 P -> on_cubic a2 a4 a6 Q -> move s t (cubic_add a2 a4 P Q) = cubic_add b2 b4 (move s t P) (move s t Q).
Proof.
  destruct P as [[x1 y1]|], Q as [[x2 y2]|]; intros HP HQ; try reflexivity. pose proof two_nz as N3. unfold ftwo in N3.
  cbn [move]. unfold cubic_add. destruct (feqb_spec x1 x2) as [E|N].
  - rewrite E. rewrite (feqb_true (s * s * x2 + t)) by reflexivity. destruct (feqb_spec y1 (- y2)) as [G|M].
    + rewrite G. rewrite feqb_true by ring. reflexivity.
    + rewrite feqb_false.
      * assert (Ey : y1 = y2).
        { rewrite E in HP. cbn in HP, HQ. destruct (F_sq_eq y1 y2) as [K|K]; [rewrite HP, HQ; reflexivity|exact K|contradiction]. }
        assert (Ny : y1 <> 0).
        { intros Z0. apply M. rewrite <- Ey, Z0. ring. }
        rewrite move_third. f_equal. unfold b2, b4. field. repeat split; assumption.
      * intros K. apply M. apply (F_mul_cancel_l (s * s * s)); [exact sss_nz|]. rewrite K. ring.
  - rewrite feqb_false.
    + assert (ND : x2 - x1 <> 0) by (intros E; apply N; transitivity (x2 - (x2 - x1)); [ring|rewrite E; ring]).
      rewrite move_third. f_equal.
      assert (D : s * s * x2 + t - (s * s * x1 + t) = s * s * (x2 - x1)) by ring. rewrite D.
      field. split; [exact ND|exact Ns].
    + intros K. apply N. apply (F_mul_cancel_l (s * s)); [exact ss_nz|].
      transitivity (s * s * x1 + t - t); [ring|]. rewrite K. ring.
Qed.
End Move.

(** ** The Weierstrass form of the README *)
Definition six : F := toF 6.
Definition shift : F := toF 12 * mont_A.
Definition wei : point -> point := move six shift.
Lemma six_nz : six <> 0. Proof. apply toF_nz. vm_compute. discriminate. Qed.
Lemma F1 : 1 = toF 1. Proof. reflexivity. Qed.
Lemma F0 : 0 = toF 0. Proof. reflexivity. Qed.
Lemma wei_b2 : b2 six shift mont_A = 0.
Proof. unfold b2, shift, six, mont_A. rewrite F1, F0. rewrite <- ?toF_mul, <- ?toF_add, <- ?toF_mul, <- ?toF_sub, <- ?toF_mul, <- ?toF_sub. apply Feq. rewrite !Fval_toF. vm_compute. reflexivity. Qed.
Lemma wei_b4 : b4 six shift mont_A 1 = wei_a.
Proof. apply Feq. vm_compute. reflexivity. Qed.
Lemma wei_b6 : b6 six shift mont_A 1 0 = wei_b.
Proof. apply Feq. vm_compute. reflexivity. Qed.
Lemma wei_on P : on_cubic 0 wei_a wei_b (wei P) <-> on_cubic mont_A 1 0 P.
Proof. rewrite <- wei_b2, <- wei_b4, <- wei_b6. apply move_on. exact six_nz. Qed.
Lemma wei_add P Q : on_cubic mont_A 1 0 P -> on_cubic mont_A 1 0 Q -> wei (cubic_add mont_A 1 P Q) = cubic_add 0 wei_a (wei P) (wei Q).
Proof. intros HP HQ. rewrite <- wei_b2, <- wei_b4. exact (move_add six shift mont_A 1 0 six_nz P Q HP HQ). Qed.

(** ** Counting *)
Lemma same_length {A : Type} (l m : list A) : NoDup l -> NoDup m -> (forall x, In x l <-> In x m) -> length l = length m.
Proof. intros N M H. apply Permutation_length. apply NoDup_Permutation; assumption. Qed.
Lemma map_NoDup {A B : Type} (f : A -> B) (g : B -> A) (l : list A) : NoDup l -> (forall x, In x l -> g (f x) = x) -> NoDup (map f l).
Proof.
  induction 1 as [|x l N ND IH]; intros H; [constructor|]. cbn. constructor.
  - intros K. apply in_map_iff in K. destruct K as (y & E & K). apply N.
    rewrite <- (H x (or_introl eq_refl)), <- E, (H y (or_intror K)). exact K.
  - apply IH. intros y Hy. apply H. right. exact Hy.
Qed.
Lemma mont_count : exists l : list point, NoDup l /\ Z.of_nat (length l) = (8 * L)%Z /\ forall P, In P l <-> on_cubic mont_A 1 0 P.
Proof.
  destruct C57_count_stmt as (l & ND & N & H). exists (map mont l). split; [|split].
  - apply (map_NoDup mont unmont); [exact ND|]. intros P HP. apply unmont_mont. apply H. exact HP.
  - rewrite map_length. exact N.
  - intros P. split.
    + intros K. apply in_map_iff in K. destruct K as (A & <- & HA). apply mont_on. apply H. exact HA.
    + intros K. apply in_map_iff. exists (unmont P). split; [apply mont_unmont; exact K|]. apply H. apply unmont_on_curve. exact K.
Qed.
Lemma wei_count : exists l : list point, NoDup l /\ Z.of_nat (length l) = (8 * L)%Z /\ forall P, In P l <-> on_cubic 0 wei_a wei_b P.
Proof.
  destruct mont_count as (l & ND & N & H). exists (map wei l). split; [|split].
  - apply (map_NoDup wei (unmove six shift)); [exact ND|]. intros P _. apply unmove_move. exact six_nz.
  - rewrite map_length. exact N.
  - intros P. split.
    + intros K. apply in_map_iff in K. destruct K as (A & <- & HA). apply wei_on. apply H. exact HA.
    + intros K. pose proof (move_unmove six shift six_nz P) as G. fold wei in G. rewrite <- G in K. rewrite <- G. apply in_map. apply H.
      exact (proj1 (wei_on _) K).
Qed.
(** The affine points of the two twists lie above the same first coordinates. *)
Definition rhs (u : F) : F := u * u * u + mont_A * (u * u) + u.
Lemma two_roots (B : F) : ~ is_sq B -> forall c, exists l1 l2 : list F, NoDup l1 /\ NoDup l2 /\ (length l1 + length l2 = 2)%nat /\
  (forall v, In v l1 <-> v * v = c) /\ (forall v, In v l2 <-> B * (v * v) = c).
Proof.
  intros NB c. assert (B0 : B <> 0). { intros E. apply NB. exists 0. rewrite E. ring. }
  assert (TwoRoots : forall w, w <> 0 -> NoDup [w; - w]).
  { intros w Nw. constructor; [|constructor; [intros []|constructor]]. intros [E|[]].
    apply Nw. apply (F_mul_cancel_l (1 + 1)); [exact two_nz|]. transitivity (w - (- w)); [ring|]. rewrite E. ring. }
  destruct (F_dec c 0) as [->|Nc].
  - assert (N0 : NoDup [0]) by (constructor; [intros []|constructor]).
    exists [0], [0]. repeat split; try assumption.
    + intros [<-|[]]. ring.
    + intros E. left. symmetry. exact (F_sq_zero v E).
    + intros [<-|[]]. ring.
    + intros E. left. symmetry. destruct (F_integral _ _ E) as [K|K]; [contradiction|exact (F_sq_zero v K)].
  - destruct (is_sq_dec c) as [S|S].
    + destruct S as (w & Ew). assert (Nw : w <> 0) by (intros E; apply Nc; rewrite <- Ew, E; ring).
      exists [w; - w], []. split; [exact (TwoRoots w Nw)|]. split; [constructor|]. split; [reflexivity|]. split; [|].
      * intros v. split.
        -- intros [<-|[<-|[]]]; [exact Ew|]. rewrite <- Ew. ring.
        -- intros E. destruct (F_sq_eq v w) as [K|K]; [rewrite E, Ew; reflexivity|left; symmetry; exact K|right; left; symmetry; exact K].
      * intros v. split; [intros []|]. intros E. apply NB.
        assert (Nv : v <> 0) by (intros Z0; apply Nc; rewrite <- E, Z0; ring).
        exists (w / v). transitivity (w * w / (v * v)); [field; exact Nv|]. rewrite Ew, <- E. field. exact Nv.
    + assert (S2 : is_sq (c * B)) by (apply nonsq_mul; assumption). destruct S2 as (z & Ez).
      set (w := z / B). assert (Ew : B * (w * w) = c).
      { unfold w. transitivity (z * z / B); [field; exact B0|]. rewrite Ez. field. exact B0. }
      clearbody w. assert (Nw : w <> 0) by (intros E; apply Nc; rewrite <- Ew, E; ring).
      exists [], [w; - w]. split; [constructor|]. split; [exact (TwoRoots w Nw)|]. split; [reflexivity|]. split.
      * intros v. split; [intros []|]. intros E. apply S. exists v. exact E.
      * intros v. split.
        -- intros [<-|[<-|[]]]; [exact Ew|]. rewrite <- Ew. ring.
        -- intros E. destruct (F_sq_eq v w) as [K|K]; [|left; symmetry; exact K|right; left; symmetry; exact K].
           apply (F_mul_cancel_l B); [exact B0|]. rewrite E, Ew. reflexivity.
Qed.
Lemma two_curves B (us : list F) : ~ is_sq B -> NoDup us -> exists m1 m2 : list xy, NoDup m1 /\ NoDup m2 /\ (length m1 + length m2 = 2 * length us)%nat /\
  (forall P, In P m1 <-> In (fst P) us /\ on_montgomery mont_A 1 P) /\ (forall P, In P m2 <-> In (fst P) us /\ on_montgomery mont_A B P).
Proof.
  intros NB. induction 1 as [|u us Nu ND (m1 & m2 & N1 & N2 & Len & H1 & H2)].
  - exists [], []. split; [constructor|]. split; [constructor|]. split; [reflexivity|].
    split; intros P; (split; [intros []|intros [[] _]]).
  - destruct (two_roots B NB (rhs u)) as (l1 & l2 & R1 & R2 & Rl & G1 & G2).
    assert (Cat : forall (l : list F) (m : list xy), NoDup l -> NoDup m -> (forall P, In P m -> In (fst P) us) -> NoDup (map (fun v => (u, v)) l ++ m)).
    { clear - Nu. intros l m Nl Nm H. induction Nl as [|v l Nv Nl IH]; [exact Nm|]. cbn. constructor; [|exact IH].
      intros K. apply in_app_or in K. destruct K as [K|K].
      - apply in_map_iff in K. destruct K as (w & E & K). apply Nv. apply (f_equal snd) in E. cbn in E. rewrite <- E. exact K.
      - apply Nu. exact (H _ K). }
    exists (map (fun v => (u, v)) l1 ++ m1), (map (fun v => (u, v)) l2 ++ m2). split; [|split; [|split; [|split]]].
    + apply Cat; [exact R1|exact N1|]. intros P HP. apply H1. exact HP.
    + apply Cat; [exact R2|exact N2|]. intros P HP. apply H2. exact HP.
    + rewrite !app_length, !map_length. cbn [length]. clear - Rl Len. unfold xy in *. lia.
    + intros P. rewrite in_app_iff, H1. split.
      * intros [K|[K1 K2]]; [|split; [right; exact K1|exact K2]]. apply in_map_iff in K. destruct K as (v & <- & K).
        split; [left; reflexivity|]. apply G1 in K. cbn. transitivity (v * v); [ring|exact K].
      * intros [[K1|K1] K2]; [left|right; split; assumption]. destruct P as [u' v]. cbn in K1. subst u'.
        apply in_map_iff. exists v. split; [reflexivity|]. apply G1. cbn in K2. transitivity (1 * (v * v)); [ring|exact K2].
    + intros P. rewrite in_app_iff, H2. split.
      * intros [K|[K1 K2]]; [|split; [right; exact K1|exact K2]]. apply in_map_iff in K. destruct K as (v & <- & K).
        split; [left; reflexivity|]. apply G2 in K. exact K.
      * intros [[K1|K1] K2]; [left|right; split; assumption]. destruct P as [u' v]. cbn in K1. subst u'.
        apply in_map_iff. exists v. split; [reflexivity|]. apply G2. exact K2.
Qed.
Lemma affine_count : forall m, NoDup m -> (forall P, In P m <-> on_montgomery mont_A 1 P) -> (Z.of_nat (length m) + 1 = 8 * L)%Z.
Proof.
  intros m ND H. destruct mont_count as (l & NDl & Len & Hl).
  assert (E : length (None :: map (@Some xy) m) = length l).
  { apply same_length; [|exact NDl|].
    - constructor.
      + intros K. apply in_map_iff in K. destruct K as (x & E & _). discriminate E.
      + apply (map_NoDup (@Some xy) (fun o => match o with Some x => x | None => origin end)); [exact ND|reflexivity].
    - intros P. rewrite Hl. destruct P as [P|].
      + split.
        * intros [E|K]; [discriminate E|]. apply in_map_iff in K. destruct K as (x & E & K). injection E as <-. apply H in K.
          destruct x as [u v]. cbn in *. transitivity (1 * (v * v)); [ring|]. rewrite K. ring.
        * intros K. right. apply in_map. apply H. destruct P as [u v]. cbn in *. transitivity (v * v); [ring|]. rewrite K. ring.
      + split; [intros _; exact I|intros _; left; reflexivity]. }
  cbn [length] in E. rewrite map_length in E. rewrite <- Len, <- E. lia.
Qed.
Theorem twist_count B : ~ is_sq B -> exists m, NoDup m /\ (Z.of_nat (length m) + 1 = 2 * (p + 1) - 8 * L)%Z /\ forall P, In P m <-> on_montgomery mont_A B P.
Proof.
  intros NB. destruct all_F as (us & ND & Len & All). destruct (two_curves B us NB ND) as (m1 & m2 & N1 & N2 & S & H1 & H2).
  exists m2. split; [exact N2|]. split.
  - pose proof (affine_count m1 N1) as K. assert (Z.of_nat (length m1) + 1 = 8 * L)%Z.
    { apply K. intros P. rewrite H1. split; [intros [_ Q]; exact Q|intros Q; split; [apply All|exact Q]]. }
    clear K. clear - S Len H. apply (f_equal Z.of_nat) in S. rewrite Nat2Z.inj_add, Nat2Z.inj_mul, Len in S. lia.
  - intros P. rewrite H2. split; [intros [_ Q]; exact Q|intros Q; split; [apply All|exact Q]].
Qed.

(** ** Multiples on the Montgomery curve *)
Lemma mont_inj P Q : on_curve P -> on_curve Q -> mont P = mont Q -> P = Q.
Proof. intros HP HQ E. rewrite <- (unmont_mont P HP), <- (unmont_mont Q HQ), E. reflexivity. Qed.
Lemma multiple_on n P : on_curve P -> (0 <= n)%Z -> on_curve (multiple n P).
Proof. intros H Hn. apply on_pt in H. destruct H as (A & ->). rewrite multiple_smul by exact Hn. apply pt_on. Qed.
Lemma ziter_succ {T : Type} n (f : T -> T) x : (0 <= n)%Z -> Z.iter (Z.succ n) f x = f (Z.iter n f x).
Proof.
  intros H. destruct n as [|k|k]; [reflexivity| |lia]. change (Z.succ (Zpos k)) with (Zpos (k + 1)). cbn [Z.iter].
  rewrite Pos.add_1_r. apply Pos.iter_succ.
Qed.
Lemma iter_mont n A : on_curve A -> (0 <= n)%Z -> Z.iter n (cubic_add mont_A 1 (mont A)) None = mont (multiple n A).
Proof.
  intros H Hn. pattern n. apply natlike_ind; [| |exact Hn].
  - cbn. symmetry. exact mont_O.
  - intros k Hk IH. unfold multiple. rewrite !ziter_succ by exact Hk. fold (multiple k A). rewrite IH.
    symmetry. apply mont_add; [exact H|apply multiple_on; assumption].
Qed.
Lemma sage_mult_ok fuel : forall A k, on_curve A -> (0 <= k < 2 ^ Z.of_nat fuel)%Z ->
  sage_mult (S fuel) mont_A 1 (mont A) k = Some (mont (multiple k A)).
Proof.
  assert (Step : forall fuel A k, on_curve A -> (0 < k)%Z ->
    sage_mult fuel mont_A 1 (cubic_add mont_A 1 (mont A) (mont A)) (k / 2) = Some (mont (multiple (k / 2) (sum A A))) ->
    sage_mult (S fuel) mont_A 1 (mont A) k = Some (mont (multiple k A))).
  { intros fu A k H Hk E. cbn [sage_mult]. destruct (Z.eqb_spec k 0) as [K0|_]; [lia|]. rewrite E. f_equal.
    pose proof (Z.div_mod k 2 ltac:(lia)) as D. pose proof (Z.mod_pos_bound k 2 ltac:(lia)) as B.
    apply on_pt in H. destruct H as (P & ->). change (sum (pxy P) (pxy P)) with (pxy (padd P P)).
    rewrite multiple_smul by (apply Z.div_pos; lia). rewrite (multiple_smul k) by lia. rewrite <- smul_2, <- smul_mul.
    destruct (Z.eqb_spec (k mod 2) 1) as [E1|N1].
    - rewrite <- mont_add by apply pt_on. change (sum (pxy P) (pxy (smul (k / 2 * 2) P))) with (pxy (padd P (smul (k / 2 * 2) P))).
      do 2 f_equal. rewrite <- smul_succ. f_equal. lia.
    - do 3 f_equal. lia. }
  induction fuel as [|fuel IH]; intros A k H B.
  - assert (k = 0)%Z as -> by (cbn in B; lia). exact (f_equal Some (eq_sym mont_O)).
  - destruct (Z.eq_dec k 0) as [->|N]; [exact (f_equal Some (eq_sym mont_O))|].
    apply Step; [exact H|lia|]. rewrite <- mont_add by exact H. apply IH; [apply sum_on_curve; exact H|].
    rewrite Nat2Z.inj_succ, Z.pow_succ_r in B by lia. split; [apply Z.div_pos; lia|apply Z.div_lt_upper_bound; lia].
Qed.

(** ** Candidates for the basepoint *)
Lemma unmont_y u v : on_cubic mont_A 1 0 (Some (u, v)) -> u <> 0 -> exists P, unmont (Some (u, v)) = pxy P /\ yc P * (u + 1) = u - 1 /\ mont (pxy P) = Some (u, v).
Proof.
  intros H N. pose proof (unmont_on_curve _ H) as C. destruct (on_pt _ C) as (P & E). exists P. split; [exact E|].
  split; [|rewrite <- E; exact (mont_unmont _ H)].
  unfold yc. rewrite <- E. cbn [unmont]. rewrite feqb_false by exact N. destruct (unmont_on u v H N) as (_ & K & _). cbn. field. exact K.
Qed.
Lemma L_mont P : Z.iter L (cubic_add mont_A 1 (mont (pxy P))) None = None <-> smul L P = pO.
Proof.
  assert (G : forall n, (0 <= n)%Z -> Z.iter n (cubic_add mont_A 1 (mont (pxy P))) None = None <-> smul n P = pO).
  { intros n Hn. rewrite iter_mont by (exact (pt_on P) || exact Hn). rewrite multiple_smul by exact Hn. rewrite <- mont_O. split.
    - intros E. apply mont_inj in E; [|apply pt_on|exact origin_on_curve]. apply pt_eq. exact E.
    - intros ->. reflexivity. }
  apply G. pose proof L_pos. lia.
Qed.
Lemma y_cases P (c : Z) (n : Z) : yc P * toF n = toF c -> (n mod p <> 0)%Z -> yc P = toF c / toF n.
Proof. intros E N. rewrite <- E. field. apply toF_nz. exact N. Qed.
Lemma base_4 P : yc P * toF 5 = toF 3 -> smul L P = pO.
Proof.
  intros E. assert (Y : yc P = yc pB).
  { rewrite (y_cases P 3 5 E) by (vm_compute; discriminate). reflexivity. }
  assert (X : xc P = xc pB \/ xc P = - xc pB).
  { apply F_sq_eq. pose proof (ev_curve P) as G. pose proof (ev_curve pB) as H. pose proof (ev_nz pB) as N. unfold ev in G, H, N. rewrite Y in G.
    apply (F_mul_cancel_l (1 + cd * (yc pB * yc pB))); [exact N|].
    transitivity (yc pB * yc pB - 1); [rewrite <- G; ring|rewrite <- H; ring]. }
  destruct X as [X|X].
  - rewrite (pt_c P pB X Y). exact smul_L_B.
  - assert (Q : P = popp pB).
    { apply pt_c; destruct (popp_c pB) as [X1 Y1]; [rewrite X1; exact X|rewrite Y1; exact Y]. }
    rewrite Q, smul_popp, smul_L_B. exact popp_O.
Qed.
Lemma base_1 P : yc P = 0 -> smul L P <> pO.
Proof.
  intros Y H. assert (T : smul 4 P = pO) by (apply t4_smul4; right; exact Y).
  assert (E : P = pO).
  { assert (R : rel_prime L 4) by (apply Zgcd_1_rel_prime; vm_compute; reflexivity).
    apply rel_prime_bezout in R. destruct R as [a b R]. rewrite <- (smul_1 P), <- R, smul_add, !smul_mul, H, T, !smul_O, padd_O_l. reflexivity. }
  rewrite E in Y. revert Y. exact one_neq_zero.
Qed.
Lemma dz9_nonsq : ~ is_sq (toF (9 + dz)).
Proof. apply nsqb_true. vm_compute. reflexivity. Qed.
Lemma base_2 P : yc P * toF 3 = 1 -> smul L P <> pO.
Proof.
  intros Y H. assert (E : P = padd (smul ((L + 1) / 2) P) (smul ((L + 1) / 2) P)).
  { rewrite <- smul_2, <- smul_mul.
    assert (Q : (2 * ((L + 1) / 2) = L + 1)%Z) by (vm_compute; reflexivity). rewrite Q, smul_add, H, smul_1, padd_O_l. reflexivity. }
  assert (S : is_sq (ev P)) by (rewrite E; apply even_double).
  pose proof dz9_nonsq as N.
  apply N. destruct S as (r & Er). exists (r * toF 3). transitivity (r * r * (toF 3 * toF 3)); [ring|]. rewrite Er. unfold ev.
  transitivity (toF 3 * toF 3 + cd * ((yc P * toF 3) * (yc P * toF 3))); [ring|]. rewrite Y, cd_FD. change FD with (toF dz). rewrite F1, <- !toF_mul, <- toF_add. 
  reflexivity.
Qed.
Lemma base_3 v : ~ on_cubic mont_A 1 0 (Some (toF 3, v)).
Proof.
  intros H. assert (N : ~ is_sq (toF 4546704)) by (apply nsqb_true; vm_compute; reflexivity).
  apply N. exists v. cbn in H. rewrite H. unfold mont_A. rewrite F1, F0, <- !toF_mul, <- !toF_add. reflexivity.
Qed.

(** ** The smallest first coordinate of a generator of the whole group *)
Definition gen_x : Z := 1987690902726160915525709621737165415790493636000125987678731127035634441177.
Definition gen_y : Z := 4824670384888174809315457708695329493904744239586605070667967292190302833993.
Lemma gen_on : on_curve (toF gen_x, toF gen_y).
Proof. unfold on_curve. rewrite cd_FD. apply Feq. vm_compute. reflexivity. Qed.
Definition pG : pt := pt_of _ gen_on.
Lemma pG_coords : coords pG gen_x gen_y. Proof. split; reflexivity. Qed.
Definition gen8_y : Z := 1290918722912721098103968216116877869164847018151749237086972287267405568360.
Lemma gen8 : yc (smul 8 pG) = toF gen8_y.
Proof.
  pose proof (chk_dbl_ok pG gen_x gen_y
    4671588933753627572774297061709640435402538941447878409364314514463753987454 4117114635656475129563880198678369085346450742078026366890891617924481309738
    12475546545411943352703633302087662499613401460545083386021163597846316697494062050839961005248050689565831113165395533320721594133921558452988651018422
    (-10994814826025082225603962633229045274093863468977263143171779706555167661483783956356131379051078805830789391237282090198458967866943644535552073221158)
    pG_coords ltac:(vm_compute; reflexivity)) as C2.
  pose proof (chk_dbl_ok _ _ _
    5425945264625047989896854736791550308366630703176182884518399474490696794395 4977594286038558212347329970359201058285499573691662403403051606706246860640
    (-3653614628806224656366964143245426442180411424412206628851349552597827814977879875617584209657603305609312445879300493414431694441380933790897052377496)
    3351713003501793199052696956217244266022263255641648510512828826665161300404110349890378684880798324165537483029774874800418927039035967959265725433400
    C2 ltac:(vm_compute; reflexivity)) as C4.
  pose proof (chk_dbl_ok _ _ _
    1417686599925318894129796011195123509953622153886942960528333400646081462368 gen8_y
    (-913735654409177026723446975318357247805781864001085676055488913102628860691467626144409044512996846539265619663487920638044217022619211985202899860000)
    832030481300910397784640236819117291081956170873702081112522015701173243136160942041452257314882668249239040130974015806159336009738155656770192807355
    C4 ltac:(vm_compute; reflexivity)) as C8.
  change 8%Z with (2 * (2 * 2))%Z. rewrite smul_mul, (smul_mul 2 2), !smul_2. exact (proj2 C8).
Qed.
Lemma same_y P Q : yc P = yc Q -> P = Q \/ P = popp Q.
Proof.
  intros Y. assert (X : xc P = xc Q \/ xc P = - xc Q).
  { apply F_sq_eq. pose proof (ev_curve P) as G. pose proof (ev_curve Q) as H. pose proof (ev_nz Q) as N. unfold ev in G, H, N. rewrite Y in G.
    apply (F_mul_cancel_l (1 + cd * (yc Q * yc Q))); [exact N|].
    transitivity (yc Q * yc Q - 1); [rewrite <- G; ring|rewrite <- H; ring]. }
  destruct X as [X|X]; [left; exact (pt_c P Q X Y)|right]. apply pt_c; destruct (popp_c Q) as [X1 Y1]; [rewrite X1; exact X|rewrite Y1; exact Y].
Qed.
Lemma gen_8 P : yc P * toF 3 = 1 -> yc (smul 8 P) = toF gen8_y.
Proof.
  intros E. assert (Y : yc P = yc pG).
  { assert (N : toF 3 <> 0) by (apply toF_nz; vm_compute; discriminate). apply (F_mul_cancel_l (toF 3)); [exact N|].
    transitivity 1; [rewrite <- E; ring|]. rewrite (proj2 pG_coords), <- toF_mul. apply Feq. rewrite Fval_toF. vm_compute. reflexivity. }
  destruct (same_y P pG Y) as [-> | ->]; [exact gen8|]. rewrite smul_popp, (proj2 (popp_c _)). exact gen8.
Qed.
Lemma gen_order P n : yc P * toF 3 = 1 -> smul n P = pO <-> (8 * L | n)%Z.
Proof.
  intros E. pose proof (gen_8 P E) as G8.
  assert (Odd : ~ even P).
  { pose proof dz9_nonsq as N. intros (r & Er). apply N. exists (r * toF 3).
    transitivity (r * r * (toF 3 * toF 3)); [ring|]. rewrite Er. unfold ev.
    transitivity (toF 3 * toF 3 + cd * ((yc P * toF 3) * (yc P * toF 3))); [ring|]. rewrite E, cd_FD. change FD with (toF dz). rewrite F1, <- !toF_mul, <- toF_add. reflexivity. }
  destruct (point_comb P) as (a & b & Ha & Hb & EP). rewrite EP in *. clear E.
  rewrite even_comb in Odd. rewrite comb_smul in *. rewrite comb_zero.
  assert (Na : ~ (L | a)%Z).
  { intros D. assert (Z8 : comb (8 * a) (8 * b) = pO) by (apply comb_zero; split; [destruct D as [k ->]; exists (8 * k)%Z; ring|exists b; ring]).
    rewrite Z8 in G8. assert (K : yc pO = 1) by reflexivity. rewrite K in G8. apply (f_equal Fval) in G8. rewrite F1, !Fval_toF in G8. vm_compute in G8. discriminate G8. }
  assert (R8 : rel_prime 8 b).
  { change 8%Z with (2 * (2 * 2))%Z. assert (R2 : rel_prime 2 b).
    { apply prime_rel_prime; [exact prime_2|]. intros [k Ek]. apply Odd. rewrite Ek, Z.mul_comm, Z.even_mul. reflexivity. }
    apply rel_prime_sym. repeat apply rel_prime_mult; apply rel_prime_sym; exact R2. }
  split.
  - intros [D1 D2]. assert (E1 : (L | n)%Z).
    { destruct (prime_mult L prime_L _ _ D1) as [K|K]; [exact K|contradiction]. }
    assert (E2 : (8 | n)%Z). { apply (Gauss 8 b); [rewrite Z.mul_comm; exact D2|exact R8]. }
    assert (R : rel_prime 8 L) by (apply Zgcd_1_rel_prime; vm_compute; reflexivity).
    destruct E1 as [k ->]. assert (E3 : (8 | k)%Z) by (apply (Gauss 8 L); [rewrite Z.mul_comm; exact E2|exact R]).
    destruct E3 as [m ->]. exists m. ring.
  - intros [k ->]. split; [exists (k * 8 * a)%Z; ring|exists (k * L * b)%Z; ring].
Qed.
