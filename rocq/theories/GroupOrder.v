(** * The group of curve points: order 8L, structure, multiples of the basepoint *)

From Coq Require Import ZArith Znumtheory List Bool Lia Ring Field.
From Verif Require Import Machine FieldModel EdwardsModel Spec NumTheory Primes Fp FieldOps FieldF FieldInv
  Curve CurveGroup EdwardsF EdwardsY EdwardsStmt Rist GroupCheck.
Import ListNotations.

(** ** Counting *)
Lemma pigeon (f : Z -> Z) M N : (0 <= M)%Z -> (0 <= N)%Z ->
  (forall a, (0 <= a < M)%Z -> (0 <= f a < N)%Z) ->
  (forall a b, (0 <= a < M)%Z -> (0 <= b < M)%Z -> f a = f b -> a = b) -> (M <= N)%Z.
Proof.
  intros HM HN R I.
  pose (dom := map Z.of_nat (seq 0 (Z.to_nat M))). pose (cod := map Z.of_nat (seq 0 (Z.to_nat N))).
  assert (D : forall a, In a dom <-> (0 <= a < M)%Z).
  { intros a. unfold dom. rewrite in_map_iff. split.
    - intros (n & <- & H). apply in_seq in H. lia.
    - intros H. exists (Z.to_nat a). split; [lia|]. apply in_seq. lia. }
  assert (C : forall a, In a cod <-> (0 <= a < N)%Z).
  { intros a. unfold cod. rewrite in_map_iff. split.
    - intros (n & <- & H). apply in_seq in H. lia.
    - intros H. exists (Z.to_nat a). split; [lia|]. apply in_seq. lia. }
  assert (ND : NoDup dom). { apply FinFun.Injective_map_NoDup; [intros x y; lia|apply seq_NoDup]. }
  assert (NI : NoDup (map f dom)).
  { clear - ND I D. assert (X : forall a, In a dom -> (0 <= a < M)%Z) by (intros a; apply D). clear D.
    induction dom as [|a l IH]; cbn [map]; [constructor|]. apply NoDup_cons_iff in ND. destruct ND as [NA ND]. constructor.
    - intros H. apply in_map_iff in H. destruct H as (b & E & H). apply NA.
      rewrite <- (I b a); [exact H| | |exact E]; apply X; [right; exact H|left; reflexivity].
    - apply IH; [exact ND|]. intros b Hb. apply X. right. exact Hb. }
  assert (Inc : incl (map f dom) cod).
  { intros b H. apply in_map_iff in H. destruct H as (a & <- & H). apply C, R, D, H. }
  apply (NoDup_incl_length NI) in Inc. unfold dom, cod in Inc. rewrite !map_length, !seq_length in Inc. lia.
Qed.

Lemma bounded_dec (Q : Z -> Prop) : (forall a, {Q a} + {~ Q a}) -> forall M, (0 <= M)%Z ->
  {exists a, (0 <= a < M)%Z /\ Q a} + {~ exists a, (0 <= a < M)%Z /\ Q a}.
Proof.
  intros D. apply (natlike_rec2 (fun M => {exists a, (0 <= a < M)%Z /\ Q a} + {~ exists a, (0 <= a < M)%Z /\ Q a})).
  - right. intros (a & H & _). lia.
  - intros M HM [H|H].
    + left. destruct H as (a & H & K). exists a. split; [lia|exact K].
    + destruct (D M) as [K|K].
      * left. exists M. split; [lia|exact K].
      * right. intros (a & Ha & Ka). apply H. exists a. split; [|exact Ka].
        assert (a <> M) by (intros ->; exact (K Ka)). lia.
Qed.

(** ** Arithmetic of L *)
Lemma L_pos : (0 < L)%Z. Proof. reflexivity. Qed.
Lemma L_mod8 : (L mod 8 = 3)%Z. Proof. reflexivity. Qed.
Lemma L_big : (2 * p < 2 * (8 * L))%Z. Proof. reflexivity. Qed.
#[global] Opaque L.

(** ** The order of the basepoint *)
Lemma even_B : even pB.
Proof.
  exists (toF 1682535532348432736588988275181349341119849259486286637077182405238248215905)%Z.
  unfold ev. destruct pB_coords as [_ Y]. rewrite Y, cd_FD. apply Feq. vm_compute. reflexivity.
Qed.
Lemma pB_nO : pB <> pO.
Proof.
  intros H. apply (f_equal xc) in H. destruct pB_coords as [X _]. rewrite X, (proj1 pO_c) in H.
  apply (f_equal Fval) in H. clear X. vm_compute in H. discriminate H.
Qed.
Lemma smul_L_mod n A : smul L A = pO -> smul (n mod L) A = smul n A.
Proof.
  intros H. rewrite (Z.div_mod n L) at 2 by (pose proof L_pos; lia).
  rewrite smul_add, Z.mul_comm, smul_mul, H, smul_O, padd_O_l. reflexivity.
Qed.
Theorem order_B n : smul n pB = pO <-> (L | n)%Z.
Proof.
  split.
  - intros H. destruct (Zdivide_dec L n) as [D|R]; [exact D|]. apply (prime_rel_prime L prime_L) in R. exfalso. apply pB_nO.
    apply rel_prime_bezout in R. destruct R as [u v E]. rewrite <- (smul_1 pB), <- E, smul_add, !smul_mul, smul_L_B, H, !smul_O, padd_O_l. reflexivity.
  - intros [k ->]. rewrite smul_mul, smul_L_B. apply smul_O.
Qed.

(** ** A point of order 8 *)
Definition x8 : Z := 0x269ffc9d8d7e035d798a63c7804c0ee01d88a3d8eda93237921d9997b63c6e7.
Definition y8 : Z := 0x8932020911182a9f4ec5d2141fbcad9cef5495d9480d2ddf64da8cda8aebaf.
Definition w8 : Z := 0xdc5487c206ac74ac3a53b23f0be58f4402a55ad9cb70d8d1a54d0f64805bb8.
Lemma t8_on : on_curve (toF x8, toF y8).
Proof. unfold on_curve. rewrite cd_FD. apply Feq. vm_compute. reflexivity. Qed.
Definition pT : pt := pt_of _ t8_on.
Lemma pT_coords : coords pT x8 y8. Proof. split; reflexivity. Qed.
Lemma odd_T : ~ even pT.
Proof.
  unfold even. assert (E : ev pT = (cd * (toF w8 * toF w8))%F).
  { unfold ev. rewrite (proj2 pT_coords), cd_FD. apply Feq. vm_compute. reflexivity. }
  rewrite E. apply nonsq_mul_sq; [exact cd_nonsq|exists (toF w8); reflexivity|].
  intros H. apply (f_equal Fval) in H. vm_compute in H. discriminate H.
Qed.
Lemma T_2 : t4 (smul 2 pT).
Proof.
  rewrite smul_2. right. apply padd_y_zero. destruct pT_coords as [X Y]. rewrite X, Y.
  apply Feq. vm_compute. reflexivity.
Qed.
Lemma T_8 : smul 8 pT = pO.
Proof. change 8%Z with (4 * 2)%Z. rewrite smul_mul. apply t4_smul4. exact T_2. Qed.
Lemma T_4 : smul 4 pT <> pO.
Proof. intros H. apply t4_smul4, even_t4 in H. exact (odd_T H). Qed.
Lemma smul_8_mod n : smul (n mod 8) pT = smul n pT.
Proof.
  rewrite (Z.div_mod n 8) at 2 by lia. rewrite smul_add, Z.mul_comm, smul_mul, T_8, smul_O, padd_O_l. reflexivity.
Qed.
Lemma even_T n : even (smul n pT) <-> Z.even n = true.
Proof.
  rewrite (Z.div_mod n 2) at 1 by lia. rewrite Zmod_even, smul_add, smul_mul.
  assert (E : even (smul 2 (smul (n / 2) pT))) by (rewrite smul_2; apply even_double).
  destruct (Z.even n).
  - rewrite smul_0, padd_O_r. split; [reflexivity|intros _; exact E].
  - rewrite smul_1. split; [|discriminate]. intros H. exfalso. apply odd_T.
    rewrite <- (padd_O_l pT), <- (padd_opp_l (smul 2 (smul (n / 2) pT))), padd_assoc.
    apply even_padd; [apply even_popp; exact E|exact H].
Qed.
Lemma order_T n : smul n pT = pO <-> (8 | n)%Z.
Proof.
  split.
  - intros H. rewrite <- smul_8_mod in H. apply Z.mod_divide; [lia|].
    pose proof (Z.mod_pos_bound n 8 ltac:(lia)) as B. set (m := (n mod 8)%Z) in *. clearbody m.
    assert (E : Z.even m = true) by (apply even_T; rewrite H; exact even_pO).
    assert (C : (m = 0 \/ m = 2 \/ m = 4 \/ m = 6)%Z).
    { assert (X : (m = 0 \/ m = 1 \/ m = 2 \/ m = 3 \/ m = 4 \/ m = 5 \/ m = 6 \/ m = 7)%Z) by lia.
      destruct X as [-> | [-> | [-> | [-> | [-> | [-> | [-> | ->]]]]]]]; try discriminate E; lia. }
    destruct C as [C | [C | [C | C]]]; rewrite C in H; [exact C| | |]; exfalso; apply T_4.
    + change 4%Z with (2 * 2)%Z. rewrite smul_mul, H. apply smul_O.
    + exact H.
    + change 4%Z with (6 * 2 - 8)%Z. rewrite smul_sub, T_8, popp_O, padd_O_r, Z.mul_comm, smul_mul, H. apply smul_O.
  - intros [k ->]. rewrite smul_mul, T_8. apply smul_O.
Qed.

(** ** Every point *)
Definition comb (a b : Z) : pt := padd (smul a pB) (smul b pT).
Lemma comb_add a b a' b' : padd (comb a b) (comb a' b') = comb (a + a') (b + b').
Proof. unfold comb. rewrite padd_swap, <- !smul_add. reflexivity. Qed.
Lemma comb_opp a b : popp (comb a b) = comb (- a) (- b).
Proof. unfold comb. rewrite popp_add, <- !smul_opp. reflexivity. Qed.
Lemma comb_smul n a b : smul n (comb a b) = comb (n * a) (n * b).
Proof. unfold comb. rewrite smul_padd, <- !smul_mul. reflexivity. Qed.
Lemma comb_mod a b : comb (a mod L) (b mod 8) = comb a b.
Proof. unfold comb. rewrite smul_L_mod by exact smul_L_B. rewrite smul_8_mod. reflexivity. Qed.
Lemma L_8 n : (L | 8 * n)%Z -> (L | n)%Z.
Proof.
  intros H. apply (prime_mult L prime_L) in H. destruct H as [H|H]; [|exact H]. exfalso.
  apply Z.divide_pos_le in H; [|lia]. revert H. change (~ (L <= 8)%Z). apply Z.lt_nge. reflexivity.
Qed.
Lemma comb_zero a b : comb a b = pO <-> (L | a)%Z /\ (8 | b)%Z.
Proof.
  split.
  - intros H. assert (HB : (L | a)%Z).
    { apply L_8, order_B. pose proof (comb_smul 8 a b) as E. rewrite H, smul_O in E. unfold comb in E.
      rewrite (Z.mul_comm 8 b), (smul_mul b 8), T_8, smul_O, padd_O_r in E. symmetry. exact E. }
    split; [exact HB|]. apply order_T. unfold comb in H. apply order_B in HB. rewrite HB, padd_O_l in H. exact H.
  - intros [H1 H2]. unfold comb. apply order_B in H1. apply order_T in H2. rewrite H1, H2. apply padd_O_l.
Qed.
Lemma comb_inj a b a' b' : comb a b = comb a' b' -> (L | a - a')%Z /\ (8 | b - b')%Z.
Proof.
  intros H. apply comb_zero. assert (E : padd (comb a b) (popp (comb a' b')) = pO) by (rewrite H; apply padd_opp_r).
  rewrite comb_opp, comb_add in E. exact E.
Qed.

(** Indexing by one integer. *)
Definition idx (k : Z) : pt := comb (k mod L) (k / L).
Lemma idx_of a b : exists k, (0 <= k < 8 * L)%Z /\ comb a b = idx k.
Proof.
  pose proof L_pos as HL. pose proof (Z.mod_pos_bound a L HL) as B1. pose proof (Z.mod_pos_bound b 8 ltac:(lia)) as B2.
  exists (a mod L + (b mod 8) * L)%Z. split; [nia|].
  unfold idx. rewrite Z.mod_add, Z.div_add by lia. rewrite (Z.mod_small (a mod L)), (Z.div_small (a mod L)) by exact B1.
  rewrite Z.add_0_l. symmetry. apply comb_mod.
Qed.
Lemma div_small_zero m a : (m | a)%Z -> (- m < a < m)%Z -> a = 0%Z.
Proof. intros [k ->] H. assert (C : (k <= -1 \/ k = 0 \/ 1 <= k)%Z) by lia. destruct C as [C | [C | C]]; [nia|rewrite C; lia|nia]. Qed.
Lemma idx_inj k k' : (0 <= k < 8 * L)%Z -> (0 <= k' < 8 * L)%Z -> idx k = idx k' -> k = k'.
Proof.
  intros H H' E. apply comb_inj in E. destruct E as [E1 E2]. pose proof L_pos as HL.
  pose proof (Z.mod_pos_bound k L HL) as B1. pose proof (Z.mod_pos_bound k' L HL) as B2.
  assert (D1 : (0 <= k / L < 8)%Z) by (split; [apply Z.div_pos; lia|apply Z.div_lt_upper_bound; lia]).
  assert (D2 : (0 <= k' / L < 8)%Z) by (split; [apply Z.div_pos; lia|apply Z.div_lt_upper_bound; lia]).
  apply div_small_zero in E1; [|lia]. apply div_small_zero in E2; [|lia].
  rewrite (Z.div_mod k L), (Z.div_mod k' L) by lia.
  replace (k / L)%Z with (k' / L)%Z by lia. lia.
Qed.

(** At most 2p points. *)
Definition code (A : pt) : Z := (2 * Fval (yc A) + (if fposb (xc A) then 0 else 1))%Z.
Lemma code_range A : (0 <= code A < 2 * p)%Z.
Proof. unfold code. pose proof (Frange (yc A)). destruct (fposb _); lia. Qed.
Lemma code_inj A B : code A = code B -> A = B.
Proof.
  unfold code. intros H.
  assert (X : Fval (yc A) = Fval (yc B) /\ fposb (xc A) = fposb (xc B)).
  { destruct (fposb (xc A)), (fposb (xc B)); split; try reflexivity; lia. }
  destruct X as [Y S]. apply Feq in Y.
  pose proof (ev_curve A) as CA. pose proof (ev_curve B) as CB. unfold ev in CA, CB. rewrite Y in CA. rewrite <- CB in CA.
  assert (Q : (xc A * xc A)%F = (xc B * xc B)%F).
  { apply (F_mul_cancel_l (1 + cd * (yc B * yc B))%F); [apply e_nz|].
    transitivity ((xc A * xc A * (1 + cd * (yc B * yc B)))%F); [ring|]. rewrite CA. ring. }
  apply pt_c; [|exact Y]. apply F_sq_eq in Q. destruct Q as [Q|Q]; [exact Q|].
  destruct (F_dec (xc B) 0%F) as [Z|N].
  - rewrite Q, Z. ring.
  - exfalso. rewrite Q, fposb_opp in S by exact N. destruct (fposb (xc B)); discriminate S.
Qed.

Theorem every_point A : exists k, (0 <= k < 8 * L)%Z /\ A = idx k.
Proof.
  destruct (bounded_dec (fun k => A = idx k) (fun k => pt_dec A (idx k)) (8 * L)) as [H|H];
    [pose proof L_pos; lia|exact H|]. exfalso.
  assert (NH : forall a b, A <> comb a b).
  { intros a b E. destruct (idx_of a b) as (k & R & K). apply H. exists k. split; [exact R|]. rewrite E. exact K. }
  pose proof L_pos as HL. set (M := (8 * L)%Z) in *. assert (HM : (0 < M)%Z) by (unfold M; lia).
  pose (f := fun k => code (padd (idx (k mod M)) (smul (k / M) A))).
  assert (B : (2 * M <= 2 * p)%Z).
  { apply (pigeon f); [lia|pose proof p_pos; lia|intros a _; apply code_range|].
    intros a b Ha Hb E. apply code_inj in E.
    pose proof (Z.mod_pos_bound a M HM) as B1. pose proof (Z.mod_pos_bound b M HM) as B2.
    assert (D1 : (0 <= a / M < 2)%Z) by (split; [apply Z.div_pos; lia|apply Z.div_lt_upper_bound; lia]).
    assert (D2 : (0 <= b / M < 2)%Z) by (split; [apply Z.div_pos; lia|apply Z.div_lt_upper_bound; lia]).
    assert (N : forall k k', padd (idx k) (smul 0 A) <> padd (idx k') (smul 1 A)).
    { intros k k' X. rewrite smul_0, smul_1, padd_O_r in X. unfold idx in X.
      apply (NH (- (k' mod L) + k mod L)%Z (- (k' / L) + k / L)%Z).
      rewrite <- comb_add, <- comb_opp, X, <- padd_assoc, padd_opp_l, padd_O_l. reflexivity. }
    rewrite (Z.div_mod a M), (Z.div_mod b M) by lia.
    set (qa := (a / M)%Z) in *. set (qb := (b / M)%Z) in *. set (ra := (a mod M)%Z) in *. set (rb := (b mod M)%Z) in *.
    clearbody qa qb ra rb.
    assert (C : (qa = 0 \/ qa = 1)%Z /\ (qb = 0 \/ qb = 1)%Z) by lia.
    assert (Q : qa = qb).
    { destruct C as [[-> | ->] [-> | ->]]; try reflexivity; exfalso; [|symmetry in E]; exact (N _ _ E). }
    rewrite Q in *. apply padd_cancel_r in E. apply idx_inj in E; [|exact B1|exact B2]. rewrite E. reflexivity. }
  pose proof L_big. unfold M in B. lia.
Qed.

(** ** Consequences *)
Lemma point_comb A : exists a b, (0 <= a < L)%Z /\ (0 <= b < 8)%Z /\ A = comb a b.
Proof.
  destruct (every_point A) as (k & H & E). pose proof L_pos as HL. exists (k mod L)%Z, (k / L)%Z.
  split; [apply Z.mod_pos_bound; exact HL|]. split; [|exact E].
  split; [apply Z.div_pos; lia|apply Z.div_lt_upper_bound; lia].
Qed.
Lemma comb_unique a b a' b' : (0 <= a < L)%Z -> (0 <= b < 8)%Z -> (0 <= a' < L)%Z -> (0 <= b' < 8)%Z ->
  comb a b = comb a' b' -> a = a' /\ b = b'.
Proof.
  intros Ha Hb Ha' Hb' E. apply comb_inj in E. destruct E as [E1 E2].
  apply div_small_zero in E1; [|lia]. apply div_small_zero in E2; lia.
Qed.
Lemma smul_8L A : smul (8 * L) A = pO.
Proof.
  destruct (point_comb A) as (a & b & _ & _ & ->). rewrite comb_smul. apply comb_zero. split.
  - exists (8 * a)%Z. ring.
  - exists (L * b)%Z. ring.
Qed.
Lemma even_comb a b : even (comb a b) <-> Z.even b = true.
Proof.
  rewrite <- even_T. unfold comb. split; intros H.
  - rewrite <- (padd_O_l (smul b pT)), <- (padd_opp_l (smul a pB)), padd_assoc.
    apply even_padd; [apply even_popp, even_smul, even_B|exact H].
  - apply even_padd; [apply even_smul, even_B|exact H].
Qed.
Lemma L_half : (L + 1 = 2 * ((L + 1) / 2))%Z.
Proof. apply Z.div_exact; [lia|]. rewrite Z.add_mod by lia.
  assert (E : (L mod 2 = 1)%Z).
  { pose proof L_mod8 as H. rewrite (Z.div_mod L 8), H by lia.
    replace (8 * (L / 8) + 3)%Z with (1 + (4 * (L / 8) + 1) * 2)%Z by ring. rewrite Z.mod_add by lia. reflexivity. }
  rewrite E. reflexivity.
Qed.
Lemma even_iff_double A : even A <-> exists C, A = padd C C.
Proof.
  split.
  - intros H. destruct (point_comb A) as (a & b & _ & _ & ->). apply even_comb in H.
    apply Z.even_spec in H. destruct H as [c ->].
    exists (comb (a * ((L + 1) / 2)) c). rewrite comb_add.
    replace (a * ((L + 1) / 2) + a * ((L + 1) / 2))%Z with (a * (2 * ((L + 1) / 2)))%Z by ring.
    rewrite <- L_half. rewrite <- (comb_mod a), <- (comb_mod (a * (L + 1))).
    apply f_equal2; [|apply f_equal2; [lia|reflexivity]].
    replace (a * (L + 1))%Z with (a + a * L)%Z by ring. symmetry. apply Z.mod_add. pose proof L_pos; lia.
  - intros (C & ->). apply even_double.
Qed.
Lemma t4_T b : t4 (smul b pT) <-> Z.even b = true.
Proof.
  split.
  - intros H. apply even_t4 in H. apply even_T. exact H.
  - intros H. apply Z.even_spec in H. destruct H as [c ->]. rewrite Z.mul_comm, smul_mul. apply t4_smul. exact T_2.
Qed.
Lemma t4_comb a b : t4 (comb a b) <-> (L | a)%Z /\ Z.even b = true.
Proof.
  split.
  - intros H. assert (E := H). apply t4_smul4 in E. rewrite comb_smul in E. apply comb_zero in E. destruct E as [E _].
    assert (D : (L | a)%Z). { apply L_8. destruct E as [k E]. exists (2 * k)%Z. lia. }
    split; [exact D|]. apply order_B in D. unfold comb in H. rewrite D, padd_O_l in H. apply t4_T. exact H.
  - intros [D H]. unfold comb. apply order_B in D. rewrite D, padd_O_l. apply t4_T. exact H.
Qed.
(** The cosets of even points are those of the multiples of the basepoint. *)
Lemma even_coset A : even A -> exists n, (0 <= n < L)%Z /\ coset A (smul n pB).
Proof.
  intros H. destruct (point_comb A) as (a & b & Ha & _ & ->). apply even_comb in H. exists a. split; [exact Ha|].
  apply coset_sym. unfold comb. apply coset_of. apply t4_T. exact H.
Qed.
Lemma coset_B m n : coset (smul m pB) (smul n pB) <-> (L | n - m)%Z.
Proof.
  unfold coset. rewrite <- smul_sub. assert (E : smul (n - m) pB = comb (n - m) 0) by (unfold comb; rewrite smul_0, padd_O_r; reflexivity).
  rewrite E, t4_comb. split; [intros [H _]; exact H|intros H; split; [exact H|reflexivity]].
Qed.
Lemma even_L A : even A -> t4 (smul L A).
Proof.
  intros H. destruct (point_comb A) as (a & b & Ha & _ & ->). apply even_comb in H. rewrite comb_smul. apply t4_comb.
  split; [exists a; ring|]. rewrite Z.even_mul, H. apply orb_true_r.
Qed.
Lemma order_L A : smul L A = pO <-> exists n, A = smul n pB.
Proof.
  split.
  - intros H. destruct (point_comb A) as (a & b & Ha & Hb & ->). rewrite comb_smul in H. apply comb_zero in H.
    destruct H as [_ H]. exists a. assert (E : b = 0%Z).
    { apply Z.mod_divide in H; [|lia]. rewrite Z.mul_mod, L_mod8, (Z.mod_small b) in H by lia.
      apply Z.mod_divide in H; [|lia]. destruct H as [k H]. clear - H Hb. lia. }
    rewrite E. unfold comb. rewrite smul_0. apply padd_O_r.
  - intros (n & ->). rewrite <- smul_mul, Z.mul_comm, smul_mul, smul_L_B. apply smul_O.
Qed.
