(** * Statements about the search for the coefficient: C106 *)

From Coq Require Import ZArith Znumtheory List Bool Lia Ring Field.
From Verif Require Import Machine MachineFacts Spec NumTheory Primes Fp FieldF FieldInv ScriptModel SageModel SearchModel SearchSpec SageStmt Curve DocModel DocPrimes DocFacts DocStmt EllStmt RandStmt.
Import ListNotations.
Open Scope Z_scope.

Lemma test_iff O A : sound O -> (derivation_test O A = true <-> exists r s, prime r /\ prime s /\ orc_order O A = 8 * r /\ orc_twist O A = 4 * s).
Proof.
  intros [_ S]. unfold derivation_test. generalize (orc_order O A), (orc_twist O A). intros o t. split.
  - destruct (Z.eqb_spec (o mod 8) 0) as [E|]; [|discriminate]. destruct (orc_prime O (o / 8)) eqn:P; [|discriminate].
    destruct (Z.eqb_spec (t mod 4) 0) as [E'|]; [|discriminate]. intros Q. exists (o / 8), (t / 4).
    split; [apply S; exact P|]. split; [apply S; exact Q|]. clear - E E'. lia.
  - intros (r & s & R & T & -> & ->). rewrite (Z.mul_comm 8), (Z.mul_comm 4), !Z.mod_mul, !Z.div_mul by discriminate. cbn [Z.eqb].
    rewrite (proj2 (S r) R). apply S. exact T.
Qed.
Lemma odd_p : Z.odd p = true. Proof. reflexivity. Qed.
(** The candidates that give a singular cubic. *)
Lemma singular i : (get_A i ^ 2 - 4) mod p = 0 <-> i mod p = 0 \/ (i + 1) mod p = 0.
Proof.
  unfold get_A. replace ((i * 4 + 2) ^ 2 - 4) with (16 * (i * (i + 1))) by ring.
  assert (N : p <> 0) by discriminate. split.
  - intros H. apply Z.mod_divide in H; [|exact N]. apply (prime_mult p prime_p) in H. destruct H as [H|H].
    + exfalso. apply Z.mod_divide in H; [|exact N]. vm_compute in H. discriminate H.
    + apply (prime_mult p prime_p) in H. destruct H as [H|H]; [left|right]; apply Z.mod_divide; assumption.
  - intros H. apply Z.mod_divide; [exact N|]. apply Z.divide_mul_r. destruct H as [H|H]; apply Z.mod_divide in H; try exact N.
    + apply Z.divide_mul_l. exact H.
    + apply Z.divide_mul_r. exact H.
Qed.
Lemma singular_range i : 1 <= i < p -> ((get_A i ^ 2 - 4) mod p = 0 <-> i = p - 1).
Proof.
  intros H. rewrite singular. rewrite (Z.mod_small i) by (clear - H; lia). split.
  - intros [E|E]; [exfalso; clear - E H; lia|]. destruct (Z.eq_dec i (p - 1)) as [|N]; [assumption|].
    rewrite Z.mod_small in E by (clear - H N; lia). exfalso; clear - E H; lia.
  - intros ->. right. replace (p - 1 + 1) with p by ring. apply Z.mod_same. discriminate.
Qed.
(** One round. *)
Lemma round fuel O i : sound O -> 1 <= i < p ->
  derivation_loop (S fuel) O p i =
  (if Z.eq_dec i (p - 1) then Panic else if derivation_test O (get_A i mod p) && negb (orc_square O (get_A i ^ 2 - 4) && orc_square O (get_A i + 2)) then Ok (get_A i mod p) else derivation_loop fuel O p (i + 1)).
Proof.
  intros S H. cbn [derivation_loop]. destruct (C96_derivation_stmt (orc_square O) p i prime_p odd_p (proj1 S)) as (b & -> & B). rewrite bind_ok.
  pose proof (singular_range i H) as G.
  destruct (Z.eq_dec i (p - 1)) as [E|E].
  - rewrite (proj2 (Z.eqb_eq _ 0) (proj2 G E)).
    destruct b; [exfalso|reflexivity]. destruct (proj1 B eq_refl) as (_ & N & _). apply N. rewrite E. unfold get_A.
    replace ((p - 1) * 4 + 2 + 2) with (4 * p) by ring. apply Z.mod_mul. discriminate.
  - destruct (Z.eqb_spec ((get_A i ^ 2 - 4) mod p) 0) as [K|_]; [elim E; apply G; exact K|].
    assert (N : (get_A i + 2) mod p <> 0).
    { intros K. apply E, G. apply Z.mod_divide in K; [|discriminate]. apply Z.mod_divide; [discriminate|].
      replace (get_A i ^ 2 - 4) with ((get_A i + 2) * (get_A i - 2)) by ring. apply Z.divide_mul_l. exact K. }
    assert (Bb : b = orc_square O (get_A i ^ 2 - 4) && orc_square O (get_A i + 2)).
    { apply eq_true_iff_eq. rewrite B, andb_true_iff, (proj1 S), (proj1 S). tauto. }
    rewrite <- Bb. destruct b; [rewrite andb_false_r; reflexivity|]. rewrite andb_true_r. reflexivity.
Qed.
Lemma wanted_iff O i : sound O -> 1 <= i < p - 1 ->
  (wanted O i <-> derivation_test O (get_A i mod p) && negb (orc_square O (get_A i ^ 2 - 4) && orc_square O (get_A i + 2)) = true).
Proof.
  intros S H. rewrite andb_true_iff, (test_iff O _ S), negb_true_iff. unfold wanted. cbv zeta.
  replace (4 * i + 2) with (get_A i) by (unfold get_A; ring). rewrite <- Z.pow_2_r.
  assert (N : (get_A i + 2) mod p <> 0).
  { intros K. assert (E : i = p - 1); [|clear - E H; lia]. apply (singular_range i); [clear - H; lia|]. apply Z.mod_divide in K; [|discriminate]. apply Z.mod_divide; [discriminate|].
    replace (get_A i ^ 2 - 4) with ((get_A i + 2) * (get_A i - 2)) by ring. apply Z.divide_mul_l. exact K. }
  rewrite <- (proj1 S), <- (proj1 S). destruct (orc_square O (get_A i ^ 2 - 4)), (orc_square O (get_A i + 2)); cbn [andb]; intuition congruence.
Qed.
(** The loop from i: the first wanted candidate, a singular one, or the end of the fuel. *)
Lemma loop_spec O : sound O -> forall fuel i, 1 <= i < p ->
  let n := Z.of_nat fuel in
  match derivation_loop fuel O p i with
  | Ok A => exists j, i <= j < i + n /\ j < p - 1 /\ A = get_A j mod p /\ wanted O j /\ forall k, i <= k < j -> ~ wanted O k
  | Panic => p <= i + n /\ forall k, i <= k < p - 1 -> ~ wanted O k
  | NoFuel => i + n <= p - 1 /\ forall k, i <= k < i + n -> ~ wanted O k
  end.
Proof.
  intros S. induction fuel as [|fuel IH]; intros i H n.
  - cbn [derivation_loop]. subst n. change (Z.of_nat 0) with 0. split; [clear - H; lia|]. intros k K. exfalso; clear - K; lia.
  - subst n. rewrite (round fuel O i S H). rewrite Nat2Z.inj_succ. set (n := Z.of_nat fuel) in *. assert (Pn : 0 <= n) by apply Zle_0_nat.
    destruct (Z.eq_dec i (p - 1)) as [E|E].
    { split; [clear - E Pn; lia|]. intros k K. exfalso; clear - K E; lia. }
    assert (H' : 1 <= i < p - 1) by (clear - H E; lia). pose proof (wanted_iff O i S H') as W.
    destruct (derivation_test O (get_A i mod p) && _).
    + exists i. split; [clear - Pn; lia|]. split; [apply H'|]. split; [reflexivity|]. split; [apply W; reflexivity|].
      intros k K. exfalso; clear - K; lia.
    + assert (NW : ~ wanted O i) by (intros K; apply W in K; discriminate K).
      specialize (IH (i + 1) ltac:(clear - H'; lia)). cbv zeta in IH. fold n in IH.
      assert (X : forall b, (forall k, i + 1 <= k < b -> ~ wanted O k) -> forall k, i <= k < b -> ~ wanted O k).
      { intros b F k K. destruct (Z.eq_dec k i) as [->|D]; [exact NW|]. apply F. clear - K D; lia. }
      destruct (derivation_loop fuel O p (i + 1)) as [A| |].
      * destruct IH as (j & J1 & J2 & J3 & J4 & J5). exists j. split; [clear - J1; lia|]. split; [exact J2|]. split; [exact J3|]. split; [exact J4|]. exact (X j J5).
      * destruct IH as (I1 & I2). split; [clear - I1; lia|]. exact (X (p - 1) I2).
      * destruct IH as (I1 & I2). split; [clear - I1; lia|]. replace (i + Z.succ n) with (i + 1 + n) by ring. apply X. exact I2.
Qed.

Lemma count_unique A B n m : counts A B n -> counts A B m -> n = m.
Proof.
  intros (l & N & H & ->) (l' & N' & H' & ->). rewrite (same_length l l' N N'); [reflexivity|].
  intros x. rewrite H, H'. reflexivity.
Qed.
Definition affine_part (l : list point) : list xy := flat_map (fun o : point => match o with Some P => [P] | None => [] end) l.
Lemma affine_in l P : In P (affine_part l) <-> In (Some P) l.
Proof.
  unfold affine_part. rewrite in_flat_map. split.
  - intros (o & J & M). destruct o as [Q|]; [destruct M as [<-|[]]; exact J|destruct M].
  - intros J. exists (Some P). split; [exact J|left; reflexivity].
Qed.
Lemma affine_nodup l : NoDup l -> ~ In None l -> NoDup (affine_part l) /\ length (affine_part l) = length l.
Proof.
  induction l as [|o l IH]; intros N I; [split; [constructor|reflexivity]|]. apply NoDup_cons_iff in N. destruct N as [U V].
  destruct (IH V (fun J => I (or_intror J))) as [A B]. destruct o as [P|]; [|elim I; left; reflexivity].
  change (affine_part (Some P :: l)) with (P :: affine_part l). split.
  - apply NoDup_cons_iff. split; [|exact A]. rewrite affine_in. exact U.
  - cbn [length]. rewrite B. reflexivity.
Qed.
Lemma order_A : counts 505186 1%F (8 * L).
Proof.
  destruct mont_count as (l & ND & Len & H).
  assert (G : exists m, NoDup m /\ length l = S (length m) /\ forall P, In P m <-> In (Some P) l).
  { assert (I : In None l) by (apply H; exact I). clear H Len.
    destruct (in_split _ _ I) as (l1 & l2 & E). rewrite E in *. pose proof (NoDup_remove _ _ _ ND) as [N1 N2].
    exists (affine_part (l1 ++ l2)). destruct (affine_nodup _ N1 N2) as [A B]. split; [exact A|]. split.
    - rewrite app_length. cbn [length]. rewrite Nat.add_succ_r, <- app_length. apply f_equal. symmetry. exact B.
    - intros P. rewrite affine_in, !in_app_iff. cbn [In]. split; [intros [K|K]; [left; exact K|right; right; exact K]|].
      intros [K|[K|K]]; [left; exact K|discriminate K|right; exact K]. }
  destruct G as (m & NM & LM & HM). exists m. split; [exact NM|]. split.
  - intros P. rewrite HM, H. destruct P as [u v]. unfold on_cubic, on_montgomery, mont_A. generalize (toF 505186). clear. intros a.
    assert (E : (u * u * u + a * (u * u) + 1 * u + 0 = u * u * u + a * (u * u) + u)%F) by ring.
    assert (E' : (1 * (v * v) = v * v)%F) by ring. rewrite E'. split; intros H; [rewrite H; exact E|rewrite H; symmetry; exact E].
  - rewrite <- Len, LM. rewrite Nat2Z.inj_succ. reflexivity.
Qed.
Lemma wanted_A O : right O -> wanted O 126296.
Proof.
  intros [S R]. destruct (R (505186 mod p)) as (O1 & B & NB & O2). unfold wanted. cbv zeta. change (4 * 126296 + 2) with 505186.
  change (505186 mod p) with 505186 in *. split.
  - intros ((y & Hy) & _). destruct C91_parameters_stmt as (_ & _ & N). apply N. exists (toF y).
    apply toF_eq in Hy. rewrite toF_mul in Hy. rewrite Hy. unfold mont_A. apply Feq. vm_compute. reflexivity.
  - destruct C91_twist_stmt as (q & Pq & _ & T). destruct (T B NB) as (m & Nm & Lm & Hm).
    exists L, q. split; [exact prime_L|]. split; [exact Pq|]. split; [exact (count_unique _ _ _ _ O1 order_A)|].
    apply (count_unique 505186 B); [exact O2|]. exists m. split; [exact Nm|]. split; [exact Hm|]. symmetry. exact Lm.
Qed.

(** ** C106 *)
(** What the search ends with, for any orders the oracle may answer: the first wanted
    candidate; the exception of the singular cubic at i = p - 1 if there is none. *)
Lemma C106_search_stmt : forall O fuel, sound O ->
  (forall A, derivation fuel O = Ok A <->
     exists i, 1 <= i <= Z.of_nat fuel /\ i < p - 1 /\ A = (4 * i + 2) mod p /\ wanted O i /\ forall j, 1 <= j < i -> ~ wanted O j) /\
  (derivation fuel O = Panic <-> p - 1 <= Z.of_nat fuel /\ forall i, 1 <= i < p - 1 -> ~ wanted O i) /\
  (derivation fuel O = NoFuel <-> Z.of_nat fuel < p - 1 /\ forall i, 1 <= i <= Z.of_nat fuel -> ~ wanted O i).
Proof.
  intros O fuel S. pose proof (loop_spec O S fuel 1 ltac:(split; reflexivity || discriminate)) as H. cbv zeta in H. fold (derivation fuel O) in H.
  set (n := Z.of_nat fuel) in *. assert (Pn : 0 <= n) by apply Zle_0_nat. assert (GA : forall i, get_A i = 4 * i + 2) by (intros i; unfold get_A; ring).
  destruct (derivation fuel O) as [B| |].
  - destruct H as (j & J1 & J2 & J3 & J4 & J5). split; [|split].
    + intros A. split.
      * intros E. injection E as <-. exists j. rewrite <- GA. split; [clear - J1; lia|]. split; [exact J2|]. split; [exact J3|]. split; [exact J4|exact J5].
      * intros (i & I1 & I2 & -> & I4 & I5). f_equal. rewrite J3, <- GA. f_equal. f_equal.
        destruct (Z.lt_trichotomy i j) as [C|[C|C]]; [exfalso; apply (J5 i); [clear - C I1; lia|exact I4]|symmetry; exact C|exfalso; apply (I5 j); [clear - C J1; lia|exact J4]].
    + split; [discriminate|]. intros (_ & N). exfalso. apply (N j); [clear - J1 J2; lia|exact J4].
    + split; [discriminate|]. intros (_ & N). exfalso. apply (N j); [clear - J1 J2; lia|exact J4].
  - destruct H as (H1 & H2). split; [|split].
    + intros A. split; [discriminate|]. intros (i & I1 & I2 & _ & I4 & _). exfalso. apply (H2 i); [clear - I1 I2; lia|exact I4].
    + split; [intros _|reflexivity]. split; [clear - H1; lia|exact H2].
    + split; [discriminate|]. intros (N & _). exfalso; clear - N H1; lia.
  - destruct H as (H1 & H2). split; [|split].
    + intros A. split; [discriminate|]. intros (i & I1 & I2 & _ & I4 & _). exfalso. apply (H2 i); [clear - I1 I2; lia|exact I4].
    + split; [discriminate|]. intros (N & _). exfalso; clear - N H1; lia.
    + split; [intros _|reflexivity]. split; [clear - H1; lia|]. intros i I. apply H2. clear - I; lia.
Qed.
(** With the true orders the coefficient of the curve is wanted, so the search ends, no later
    than there, and without the exception.  (That no smaller coefficient is wanted is not
    shown: it would need the orders of 126295 other curves.) *)
Lemma C106_ends_stmt : forall O, right O -> wanted O 126296 /\ exists i, 1 <= i <= 126296 /\ wanted O i /\ (forall j, 1 <= j < i -> ~ wanted O j) /\
  forall fuel, 126296 <= Z.of_nat fuel -> derivation fuel O = Ok (4 * i + 2).
Proof.
  intros O R. pose proof (wanted_A O R) as W. split; [exact W|].
  destruct (C106_search_stmt O (Z.to_nat 126296) (proj1 R)) as (H1 & H2 & H3).
  rewrite Z2Nat.id in * by discriminate.
  destruct (derivation (Z.to_nat 126296) O) as [A| |].
  - destruct (proj1 (H1 A) eq_refl) as (i & I1 & I2 & _ & I4 & I5). exists i. split; [exact I1|]. split; [exact I4|]. split; [exact I5|].
    intros fuel F. apply (proj1 (C106_search_stmt O fuel (proj1 R))). exists i. split; [clear - I1 F; lia|]. split; [exact I2|].
    split; [|split; [exact I4|exact I5]]. rewrite Z.mod_small; [reflexivity|]. assert (Pn : 505187 < p) by reflexivity. clear - I1 Pn. lia.
  - exfalso. destruct (proj1 H2 eq_refl) as (K & _). vm_compute in K. apply K. reflexivity.
  - exfalso. destruct (proj1 H3 eq_refl) as (_ & K). apply (K 126296); [split; discriminate|exact W].
Qed.
(** Whatever the search prints, its curve has order 8r and its twist 4s with r and s prime. *)
Lemma C106_result_stmt : forall O fuel A, right O -> derivation fuel O = Ok A -> 0 <= A <= 505186 /\ A mod 4 = 2 /\
  exists r s B, prime r /\ prime s /\ counts A 1%F (8 * r) /\ ~ is_sq B /\ counts A B (4 * s).
Proof.
  intros O fuel A R E. destruct (C106_ends_stmt O R) as (W & i & I1 & I2 & I3 & _).
  apply (proj1 (C106_search_stmt O fuel (proj1 R))) in E. destruct E as (j & J1 & J2 & -> & J4 & J5).
  assert (j = i).
  { destruct (Z.lt_trichotomy i j) as [C|[C|C]]; [exfalso; apply (J5 i); [clear - C I1; lia|exact I2]|symmetry; exact C|exfalso; apply (I3 j); [clear - C J1; lia|exact J4]]. }
  subst j. assert (Pn : 505187 < p) by reflexivity. destruct J4 as (_ & r & s & Pr & Ps & Or & Ot). destruct (proj2 R ((4 * i + 2) mod p)) as (C1 & B & NB & C2). rewrite Or in C1. rewrite Ot in C2.
  rewrite (Z.mod_small (4 * i + 2) p) in * by (clear - I1 Pn; lia).
  split; [clear - I1; lia|]. split; [|exists r, s, B; exact (conj Pr (conj Ps (conj C1 (conj NB C2))))].
  replace (4 * i + 2) with (2 + i * 4) by ring. rewrite Z.mod_add by discriminate. reflexivity.
Qed.
(** There is an oracle that answers correctly, and one for which nothing is wanted. *)
Lemma C106_ex : (exists O, right O) /\ exists O, sound O /\ forall i, ~ wanted O i.
Proof.
  assert (SQ : forall x, sqb_F (toF x) = true <-> exists y, (y * y) mod p = x mod p).
  { intros x. destruct (sqb_F_spec (toF x)) as [Q|Q].
    - split; [intros _|reflexivity]. destruct Q as (y & Hy). exists (Fval y). apply toF_eq. rewrite toF_mul, toF_Fval. exact Hy.
    - split; [discriminate|]. intros (y & Hy). elim Q. exists (toF y). rewrite <- toF_mul. apply toF_eq. exact Hy. }
  assert (PR : forall x, (if prime_dec x then true else false) = true <-> prime x).
  { intros x. destruct (prime_dec x) as [Q|Q]; split; intros H; try reflexivity; try discriminate H; try exact Q; elim (Q H). }
  split.
  - destruct all_F as (l & ND & _ & All).
    pose (pts := fun (A : Z) (B : F) => filter (fun P : xy => let (u, v) := P in feqb (B * (v * v))%F (u * u * u + toF A * (u * u) + u)%F) (list_prod l l)).
    assert (C : forall A B, counts A B (Z.of_nat (length (pts A B)) + 1)).
    { intros A B. exists (pts A B). split; [|split; [|reflexivity]].
      - apply NoDup_filter. exact (list_prod_nodup l l ND ND).
      - intros [u v]. unfold pts. split.
        + intros K. apply filter_In in K. destruct K as [_ K]. apply feqb_eq in K. exact K.
        + intros K. apply filter_In. split; [apply in_prod; apply All|apply feqb_eq; exact K]. }
    exists (Oracle (fun x => sqb_F (toF x)) (fun A => Z.of_nat (length (pts A 1%F)) + 1) (fun A => Z.of_nat (length (pts A FI)) + 1)
      (fun x => if prime_dec x then true else false)).
    split; [split; [exact SQ|exact PR]|]. intros A. cbn [orc_order orc_twist]. split; [apply C|]. exists FI. split; [exact FI_nonsq|apply C].
  - exists (Oracle (fun x => sqb_F (toF x)) (fun A => 1) (fun A => 1) (fun x => if prime_dec x then true else false)).
    split; [split; [exact SQ|exact PR]|]. intros i (_ & r & s & _ & _ & H & _). cbn [orc_order] in H. clear - H. lia.
Qed.
