(** * C95: the safe-curve verifier for every input

    The routines of "sage_codes/Safe Curve code" that establish the numbers it prints, for
    arbitrary moduli, orders and lists of primes. *)

From Coq Require Import ZArith Znumtheory Zpow_facts List Bool Lia.
From Verif Require Import Machine NumTheory DocPrimes SafeModel.
Import ListNotations.
Open Scope Z_scope.

(** The number a piece of the printed sum stands for. *)
Definition piece_value (x : piece) : Z :=
  match x with
  | Power neg j => (if neg then -1 else 1) * 2 ^ j
  | Number neg m => (if neg then -1 else 1) * m
  end.
Definition pieces_value (s : list piece) : Z := fold_right (fun x r => piece_value x + r) 0 s.
(** No integer square other than one divides it. *)
Definition squarefree (m : Z) : Prop := forall s, (s * s | m) -> s * s = 1.

(** ** The printed sum *)
Lemma pieces_value_app s t : pieces_value (s ++ t) = pieces_value s + pieces_value t.
Proof. induction s as [|x s IH]; cbn; [reflexivity|]. unfold pieces_value in *. rewrite IH. ring. Qed.
Lemma grow_spec n : forall fuel j, Z.abs n <= 2 ^ (j + Z.of_nat fuel) -> 0 <= j ->
  exists j', grow (S fuel) j n = Ok j' /\ j <= j' /\ Z.abs n <= 2 ^ j' /\ (j' = j \/ 2 ^ (j' - 1) < Z.abs n).
Proof.
  induction fuel as [|fuel IH]; intros j H J; cbn [grow].
  - cbn [Z.of_nat] in H. rewrite Z.add_0_r in H. rewrite (proj2 (Z.ltb_ge _ _)) by exact H. exists j.
    split; [reflexivity|]. split; [lia|]. split; [exact H|left; reflexivity].
  - destruct (Z.ltb_spec (2 ^ j) (Z.abs n)) as [L|L].
    + destruct (IH (j + 1)) as (j' & E & J1 & J2 & J3); [|lia|].
      { replace (j + 1 + Z.of_nat fuel) with (j + Z.of_nat (S fuel)) by lia. exact H. }
      exists j'. cbn [grow] in E. split; [exact E|]. split; [lia|]. split; [exact J2|]. right.
      destruct J3 as [->|J3]; [|exact J3]. replace (j + 1 - 1) with j by ring. exact L.
    + exists j. split; [reflexivity|]. split; [lia|]. split; [exact L|left; reflexivity].
Qed.
Lemma log2_step j n m : 15 <= j -> 0 <= m <= 2 ^ (j - 10) -> Z.abs (n - 2 ^ j) <= 2 ^ (j - 10) -> 0 < m -> Z.log2 m + 9 <= Z.log2 n.
Proof.
  intros J M N P. assert (B : 2 ^ (j - 1) <= n).
  { assert (E : 2 ^ j = 2 * 2 ^ (j - 1)) by (rewrite <- Z.pow_succ_r by lia; f_equal; lia).
    assert (E' : 2 ^ (j - 10) <= 2 ^ (j - 1)) by (apply Z.pow_le_mono_r; lia). lia. }
  assert (L1 : j - 1 <= Z.log2 n) by (rewrite <- (Z.log2_pow2 (j - 1)) by lia; apply Z.log2_le_mono; exact B).
  assert (L2 : Z.log2 m <= j - 10) by (rewrite <- (Z.log2_pow2 (j - 10)) by lia; apply Z.log2_le_mono; apply M).
  lia.
Qed.
Lemma expand2_loop_spec : forall k n, Z.abs n < k -> exists s, pieces_value s = n /\
  (n <> 0 -> 9 * Z.of_nat (length s) <= Z.log2 (Z.abs n) + 9) /\
  forall fuel s0, Z.log2 (Z.abs n) + 3 <= Z.of_nat fuel -> expand2_loop fuel n s0 = Ok (s0 ++ s).
Proof.
  intros k. destruct (Z.le_gt_cases 0 k) as [Hk|Hk]; [|intros n N; pose proof (Z.abs_nonneg n); lia].
  pattern k. apply Z_lt_induction; [|exact Hk]. clear k Hk. intros k IH n N.
  destruct (Z.eq_dec n 0) as [->|N0].
  { exists []. split; [reflexivity|]. split; [contradiction|]. intros fuel s0 F. destruct fuel; [cbn in F; lia|].
    rewrite app_nil_r. reflexivity. }
  set (a := Z.abs n) in *. assert (A : 0 < a) by (unfold a; lia).
  pose proof (Z.log2_nonneg a) as L0. pose proof (Z.log2_spec a A) as [LA LB].
  assert (G : exists j, (forall fuel, Z.log2 a + 3 <= Z.of_nat fuel -> grow fuel 16 n = Ok j) /\ 16 <= j).
  { set (f0 := Z.to_nat (Z.log2 a + 2)).
    assert (B : forall f, Z.log2 a + 2 <= Z.of_nat f -> Z.abs n <= 2 ^ (16 + Z.of_nat f)).
    { intros f Hf. fold a. apply Z.le_trans with (2 ^ Z.succ (Z.log2 a)); [lia|]. apply Z.pow_le_mono_r; lia. }
    destruct (grow_spec n f0 16 (B f0 ltac:(lia)) ltac:(lia)) as (j & Ej & J1 & J2 & J3).
    exists j. split; [|exact J1]. intros fuel F. destruct fuel as [|fuel]; [lia|].
    destruct (grow_spec n fuel 16 (B fuel ltac:(lia)) ltac:(lia)) as (j' & Ej' & J1' & J2' & J3'). rewrite Ej'. f_equal.
    destruct (Z.lt_trichotomy j' j) as [C|[C|C]]; [exfalso|exact C|exfalso].
    - destruct J3 as [->|J3]; [lia|]. assert (2 ^ j' <= 2 ^ (j - 1)) by (apply Z.pow_le_mono_r; lia). lia.
    - destruct J3' as [->|J3']; [lia|]. assert (2 ^ j <= 2 ^ (j' - 1)) by (apply Z.pow_le_mono_r; lia). lia. }
  destruct G as (j0 & G & J0).
  set (j := if a - 2 ^ (j0 - 1) <? 2 ^ j0 - a then j0 - 1 else j0).
  assert (J : 15 <= j) by (unfold j; destruct (_ <? _); lia).
  destruct (Z.ltb_spec (2 ^ (j - 10)) (Z.abs (a - 2 ^ j))) as [C|C].
  - exists [if 0 <? n then Number false n else Number true (- n)]. split; [|split].
    + unfold pieces_value. destruct (0 <? n); cbn [fold_right piece_value]; ring.
    + cbn [length]. lia.
    + intros fuel s0 F. destruct fuel as [|fuel]; [lia|]. cbn [expand2_loop]. rewrite (proj2 (Z.eqb_neq n 0) N0).
      rewrite (G (S fuel)) by exact F. cbn [bind]. cbv zeta. fold a. fold j. rewrite (proj2 (Z.ltb_lt _ _) C).
      destruct fuel as [|fuel]; [lia|]. reflexivity.
  - set (n' := if 0 <? n then n - 2 ^ j else n + 2 ^ j).
    assert (N' : Z.abs n' = Z.abs (a - 2 ^ j)) by (unfold n', a; destruct (Z.ltb_spec 0 n); lia).
    assert (S' : Z.abs n' < a).
    { rewrite N'. assert (E : 2 ^ (j - 1) <= a).
      { assert (E : 2 ^ j = 2 * 2 ^ (j - 1)) by (rewrite <- Z.pow_succ_r by lia; f_equal; lia).
        assert (E' : 2 ^ (j - 10) <= 2 ^ (j - 1)) by (apply Z.pow_le_mono_r; lia). lia. }
      assert (E' : 2 ^ (j - 10) < 2 ^ (j - 1)) by (apply Z.pow_lt_mono_r; lia). lia. }
    assert (L' : n' <> 0 -> Z.log2 (Z.abs n') + 9 <= Z.log2 a).
    { intros Z'. apply (log2_step j); lia. }
    destruct (IH a ltac:(lia) n' S') as (s & V & W & E).
    exists ((if 0 <? n then Power false j else Power true j) :: s). split; [|split].
    + unfold pieces_value in *. cbn [fold_right]. rewrite V. unfold n'. destruct (0 <? n); cbn [piece_value]; ring.
    + intros _. cbn [length]. rewrite Nat2Z.inj_succ. destruct (Z.eq_dec n' 0) as [Z0|Z0].
      * destruct s as [|x s]; [cbn; lia|]. specialize (E 3%nat []). rewrite Z0 in E. specialize (E ltac:(cbn; lia)). discriminate E.
      * specialize (W Z0). specialize (L' Z0). lia.
    + intros fuel s0 F. destruct fuel as [|fuel]; [lia|]. cbn [expand2_loop]. rewrite (proj2 (Z.eqb_neq n 0) N0).
      rewrite (G (S fuel)) by exact F. cbn [bind]. cbv zeta. fold a. fold j. rewrite (proj2 (Z.ltb_ge _ _) C).
      assert (F' : Z.log2 (Z.abs n') + 3 <= Z.of_nat fuel \/ n' = 0).
      { destruct (Z.eq_dec n' 0) as [Z0|Z0]; [right; exact Z0|left]. specialize (L' Z0). lia. }
      assert (R : forall s1, expand2_loop fuel n' s1 = Ok (s1 ++ s)).
      { intros s1. destruct F' as [F'|Z0]; [apply E; exact F'|].
        pose proof (E 3%nat []) as E3. rewrite Z0 in E3. specialize (E3 ltac:(cbn; lia)). cbn in E3. injection E3 as <-.
        rewrite Z0, app_nil_r. destruct fuel; [lia|reflexivity]. }
      specialize (R (s0 ++ [if 0 <? n then Power false j else Power true j])). rewrite <- app_assoc in R. cbn [app] in R.
      unfold n' in R. destruct (0 <? n); exact R.
Qed.


(** ** The prime certificates *)
Lemma div2 v d : 2 <= v -> d <> 0 -> d mod v = 0 -> d = v * (d / v) /\ d / v <> 0 /\ 2 * Z.abs (d / v) <= Z.abs d.
Proof.
  intros V D M. pose proof (Z.div_mod d v ltac:(lia)) as E. rewrite M, Z.add_0_r in E.
  assert (N : d / v <> 0) by (intros H; rewrite H in E; lia). split; [exact E|]. split; [exact N|].
  rewrite E at 2. rewrite Z.abs_mul. rewrite (Z.abs_eq v) by lia. apply Z.mul_le_mono_nonneg_r; lia.
Qed.
Lemma pow_fuel f : 2 ^ Z.of_nat (S f) = 2 * 2 ^ Z.of_nat f.
Proof. rewrite Nat2Z.inj_succ, Z.pow_succ_r by lia. reflexivity. Qed.
Lemma size_ind (P : Z -> Prop) : (forall d, d <> 0 -> (forall d', d' <> 0 -> 2 * Z.abs d' <= Z.abs d -> P d') -> P d) -> forall d, d <> 0 -> P d.
Proof.
  intros H d D. assert (A : 0 <= Z.abs d) by lia. remember (Z.abs d) as k eqn:E. revert d D E. pattern k. apply Z_lt_induction; [|exact A].
  clear k A. intros k IH d D E. apply H; [exact D|]. intros d' D' L. apply (IH (Z.abs d')); [lia|exact D'|reflexivity].
Qed.
Lemma divide_out_spec v : 2 <= v -> forall d, d <> 0 -> exists e r, 0 <= e /\ d = v ^ e * r /\ ~ (v | r) /\
  forall fuel, Z.abs d < 2 ^ Z.of_nat fuel -> divide_out fuel v d = Ok r.
Proof.
  intros V d D. pattern d. apply size_ind; [|exact D]. clear d D. intros d D IH.
  destruct (Z.eq_dec (d mod v) 0) as [M|M].
  - destruct (div2 v d V D M) as (E & N & L). destruct (IH _ N L) as (e & r & E0 & E1 & E2 & E3).
    exists (e + 1), r. split; [lia|]. split.
    { rewrite Z.pow_add_r, Z.pow_1_r by lia. rewrite E, E1 at 1. ring. }
    split; [exact E2|]. intros fuel F. destruct fuel as [|fuel]; [cbn in F; lia|]. cbn [divide_out].
    rewrite M, Z.eqb_refl. apply E3. rewrite pow_fuel in F. lia.
  - exists 0, d. split; [lia|]. split; [rewrite Z.pow_0_r; ring|]. split.
    { intros Dv. apply M. apply Z.mod_divide; [lia|exact Dv]. }
    intros fuel F. destruct fuel as [|fuel]; [cbn in F; lia|]. cbn [divide_out]. rewrite (proj2 (Z.eqb_neq _ _) M). reflexivity.
Qed.
Lemma part_spec v : 2 <= v -> forall d, d <> 0 -> exists e r, d = v ^ Z.of_nat e * r /\ ~ (v | r) /\
  forall fuel, Z.abs d < 2 ^ Z.of_nat fuel -> part fuel v d = Ok (v ^ Z.of_nat e).
Proof.
  intros V d D. pattern d. apply size_ind; [|exact D]. clear d D. intros d D IH.
  destruct (Z.eq_dec (d mod v) 0) as [M|M].
  - destruct (div2 v d V D M) as (E & N & L). destruct (IH _ N L) as (e & r & E1 & E2 & E3).
    exists (S e), r. rewrite Nat2Z.inj_succ, Z.pow_succ_r by lia. split.
    { rewrite E, E1 at 1. ring. }
    split; [exact E2|]. intros fuel F. destruct fuel as [|fuel]; [cbn in F; lia|]. cbn [part].
    rewrite M, Z.eqb_refl. rewrite E3 by (rewrite pow_fuel in F; lia). reflexivity.
  - exists O, d. cbn [Z.of_nat]. rewrite Z.pow_0_r. split; [ring|]. split.
    { intros Dv. apply M. apply Z.mod_divide; [lia|exact Dv]. }
    intros fuel F. destruct fuel as [|fuel]; [cbn in F; lia|]. cbn [part]. rewrite (proj2 (Z.eqb_neq _ _) M). reflexivity.
Qed.
Lemma zprod_app l k : zprod (l ++ k) = zprod l * zprod k.
Proof. unfold zprod. induction l as [|x l IH]; cbn [fold_right app]; [symmetry; apply Z.mul_1_l|]. rewrite IH. ring. Qed.
Lemma zprod_repeat v e : zprod (repeat v e) = v ^ Z.of_nat e.
Proof.
  induction e as [|e IH]; [reflexivity|]. cbn [repeat]. rewrite Nat2Z.inj_succ, Z.pow_succ_r by lia. rewrite <- IH. reflexivity.
Qed.
Lemma zprod_pos l : Forall prime l -> 0 < zprod l.
Proof. induction 1 as [|x l [H _] _ IH]; [reflexivity|]. cbn -[Z.mul]. unfold zprod in *. lia. Qed.
Lemma gcd_shift n x : 1 < n -> Z.gcd ((x - 1) mod n) n = Z.gcd (x mod n - 1) n.
Proof.
  intros N. rewrite Z.gcd_mod by lia. rewrite (Z.gcd_comm (x mod n - 1) n).
  replace (x - 1) with (x mod n - 1 + (x / n) * n) by (pose proof (Z.div_mod x n); lia). apply Z.gcd_add_mult_diag_r.
Qed.
Lemma cert_loop_sound fuel n b : 2 < n -> n - 1 < 2 ^ Z.of_nat fuel -> forall vs f0, Forall prime vs -> Forall prime f0 ->
  (forall q, In q f0 -> Z.gcd ((b ^ ((n - 1) / q)) mod n - 1) n = 1) ->
  exists fs, cert_loop fuel n b vs (zprod f0) = Ok (zprod fs) /\ Forall prime fs /\
    (forall q, In q fs -> Z.gcd ((b ^ ((n - 1) / q)) mod n - 1) n = 1).
Proof.
  intros N F. induction vs as [|v vs IH]; intros f0 V F0 Q; cbn [cert_loop]; [exists f0; auto|]. inversion V as [|? ? Pv Pvs]; subst.
  destruct (((zprod f0 * zprod f0 <=? n) && (n mod v =? 1) && (Z.gcd ((b ^ ((n - 1) / v) - 1) mod n) n =? 1))%bool) eqn:T; [|apply IH; assumption].
  apply andb_prop in T. destruct T as [T G]. apply Z.eqb_eq in G. rewrite gcd_shift in G by lia.
  destruct (part_spec v ltac:(destruct Pv; lia) (n - 1) ltac:(lia)) as (e & r & _ & _ & E). rewrite E by lia. cbn [bind].
  rewrite <- zprod_repeat, <- zprod_app. apply IH; [exact Pvs| |].
  - apply Forall_app. split; [exact F0|]. apply Forall_forall. intros x X. apply repeat_spec in X. subst. exact Pv.
  - intros q I. apply in_app_or in I. destruct I as [I|I]; [apply Q; exact I|]. apply repeat_spec in I. subst. exact G.
Qed.
Lemma base_loop_sound fuel n V : 2 < n -> n - 1 < 2 ^ Z.of_nat fuel -> Forall prime V -> forall bases,
  exists ok, base_loop fuel n V bases = Ok ok /\ (ok = true -> prime n).
Proof.
  intros N F PV. induction bases as [|b0 bases IH]; cbn [base_loop]; [exists false; split; [reflexivity|discriminate]|].
  set (b := b0 mod n). destruct (negb (b ^ (n - 1) mod n =? 1)) eqn:T; [exact IH|]. apply negb_false_iff, Z.eqb_eq in T.
  destruct (cert_loop_sound fuel n b N F (rev V) [] (Forall_rev PV) (Forall_nil _)) as (fs & E & P & Q); [intros q []|].
  change (zprod []) with 1 in E. rewrite E. cbn [bind]. pose proof (zprod_pos fs P) as Pos.
  destruct (Z.leb_spec (zprod fs * zprod fs) n) as [L|L]; [exact IH|].
  destruct (negb (n mod zprod fs =? 1)) eqn:M; [exact IH|]. apply negb_false_iff, Z.eqb_eq in M.
  exists true. split; [reflexivity|]. intros _. apply (pocklington n b fs); try assumption; [lia|].
  exists (n / zprod fs). pose proof (Z.div_mod n (zprod fs) ltac:(lia)). lia.
Qed.
Lemma add_new_in n V x : In x (add_new n V) <-> x = n \/ In x V.
Proof.
  unfold add_new. destruct (existsb (Z.eqb n) V) eqn:E.
  - apply existsb_exists in E. destruct E as (y & I & Y). apply Z.eqb_eq in Y. subst y. split; [auto|]. intros [->|H]; assumption.
  - rewrite in_app_iff. cbn. intuition congruence.
Qed.
Lemma add_new_nodup n V : NoDup V -> NoDup (add_new n V).
Proof.
  intros H. unfold add_new. destruct (existsb (Z.eqb n) V) eqn:E; [exact H|].
  assert (N : ~ In n V).
  { intros I. assert (existsb (Z.eqb n) V = true) by (apply existsb_exists; exists n; split; [exact I|apply Z.eqb_refl]). congruence. }
  clear E. induction V as [|y V IH]; cbn; [repeat constructor; intros []|]. inversion H; subst. constructor.
  - rewrite in_app_iff. cbn. intros [I|[I|[]]]; [contradiction|]. apply N. left. congruence.
  - apply IH; [assumption|]. intros I. apply N. right. exact I.
Qed.
Lemma verify_primes_sound is_prime bases : (forall n, is_prime n = true -> 1 < n) -> forall fuel lines V,
  (forall n, In n lines -> n <= 2 ^ Z.of_nat fuel) -> Forall prime V -> NoDup V ->
  exists W, verify_primes fuel is_prime bases lines V = Ok W /\ Forall prime W /\ NoDup W /\ incl V W /\
    (forall n, In n W -> In n V \/ In n lines).
Proof.
  intros O fuel. induction lines as [|n lines IH]; intros V L PV ND; cbn [verify_primes].
  { exists V. repeat split; auto. apply incl_refl. }
  assert (L' : forall m, In m lines -> m <= 2 ^ Z.of_nat fuel) by (intros m I; apply L; right; exact I).
  destruct (is_prime n) eqn:T; cbn [negb].
  2: { destruct (IH V L' PV ND) as (W & E & A & B & C & D). exists W. repeat split; auto.
       intros m I. destruct (D m I); [left|right; right]; assumption. }
  specialize (O n T).
  assert (K : prime n -> exists W, verify_primes fuel is_prime bases lines (add_new n V) = Ok W /\ Forall prime W /\ NoDup W /\ incl V W /\
    (forall m, In m W -> In m V \/ In m (n :: lines))).
  { intros P. destruct (IH (add_new n V) L') as (W & E & A & B & C & D).
    - apply Forall_forall. intros x X. apply add_new_in in X. destruct X as [->|X]; [exact P|]. rewrite Forall_forall in PV. apply PV, X.
    - apply add_new_nodup, ND.
    - exists W. split; [exact E|]. split; [exact A|]. split; [exact B|]. split.
      + intros x X. apply C, add_new_in. right. exact X.
      + intros m I. destruct (D m I) as [X|X]; [|right; right; exact X]. apply add_new_in in X. destruct X as [->|X]; [right; left; reflexivity|left; exact X]. }
  destruct (Z.eqb_spec n 2) as [->|N2]; [apply K, prime_2|].
  destruct (base_loop_sound fuel n V ltac:(lia)) with (bases := bases) as (ok & E & P); [|exact PV|].
  { specialize (L n (or_introl eq_refl)). lia. }
  rewrite E. cbn [bind]. destruct ok; [apply K, P; reflexivity|].
  destruct (IH V L' PV ND) as (W & E' & A & B & C & D). exists W. repeat split; auto.
  intros m I. destruct (D m I); [left|right; right]; assumption.
Qed.

(** A prime whose predecessor factors over the verified primes is certified by any base
    that generates the multiplicative group. *)
Definition primitive (n b : Z) : Prop := b ^ (n - 1) mod n = 1 /\ forall k, 0 < k < n - 1 -> b ^ k mod n <> 1.
Lemma part_pos v e : 2 <= v -> 0 < v ^ Z.of_nat e.
Proof. intros. apply Z.pow_pos_nonneg; lia. Qed.
Lemma cert_loop_full fuel n b : prime n -> 2 < n -> n - 1 < 2 ^ Z.of_nat fuel -> primitive n b ->
  forall vs f m, NoDup vs -> Forall prime vs -> 0 < f -> f * m = n - 1 -> (forall v, In v vs -> ~ (v | f)) ->
  (forall q, prime q -> (q | m) -> n < f * f \/ In q vs) ->
  exists g, cert_loop fuel n b vs f = Ok g /\ n < g * g /\ n mod g = 1.
Proof.
  intros P N F R. induction vs as [|v vs IH]; intros f m ND PV Pf E D Q; cbn [cert_loop].
  - exists f. split; [reflexivity|]. assert (L : n < f * f).
    { destruct (Z.lt_ge_cases n (f * f)) as [L|L]; [exact L|]. exfalso. assert (M : m = 1).
      { assert (0 < m) by nia. destruct (Z.eq_dec m 1) as [|M]; [assumption|]. destruct (prime_divisor m) as (q & Pq & Dq); [lia|].
        destruct (Q q Pq Dq) as [C|[]]. lia. }
      rewrite M in E. nia. }
    split; [exact L|]. symmetry. apply Zmod_unique with m; [nia|lia].
  - inversion ND as [|? ? NI ND']; inversion PV as [|? ? Pv PV']; subst.
    assert (V2 : 2 <= v) by (destruct Pv; lia).
    assert (D' : forall w, In w vs -> ~ (w | f)) by (intros w I; apply D; right; exact I).
    destruct (((f * f <=? n) && (n mod v =? 1) && (Z.gcd ((b ^ ((n - 1) / v) - 1) mod n) n =? 1))%bool) eqn:T.
    + destruct (part_spec v V2 (n - 1) ltac:(lia)) as (e & r & E1 & E2 & E3). rewrite E3 by lia. cbn [bind].
      pose proof (part_pos v e V2) as Pp.
      assert (C : rel_prime (v ^ Z.of_nat e) f).
      { apply rel_prime_sym, rel_prime_Zpower_r; [lia|]. apply rel_prime_sym. apply prime_rel_prime; [exact Pv|]. apply D. left. reflexivity. }
      assert (Dm : (v ^ Z.of_nat e | m)).
      { apply Gauss with f; [|exact C]. rewrite E. exists r. lia. }
      destruct Dm as [m' Em]. apply (IH (f * v ^ Z.of_nat e) m'); [exact ND'|exact PV'|nia|rewrite Em in E; lia| |].
      * intros w I W. rewrite Forall_forall in PV'. pose proof (PV' w I) as Pw. apply prime_mult in W; [|exact Pw].
        destruct W as [W|W]; [exact (D' w I W)|]. apply prime_power_prime in W; [|lia|exact Pw|exact Pv]. subst w. exact (NI I).
      * intros q Pq Dq. destruct (Q q Pq) as [C1|[C1|C1]].
        { rewrite Em. apply Z.divide_mul_l. exact Dq. }
        { left. apply andb_prop in T. destruct T as [T _]. apply andb_prop in T. destruct T as [T _]. apply Z.leb_le in T. lia. }
        { exfalso. subst q. apply E2. destruct Dq as [c Dq]. exists (f * c).
          apply (Z.mul_reg_l _ _ (v ^ Z.of_nat e)); [lia|]. rewrite <- E1, <- E, Em, Dq. ring. }
        { right. exact C1. }
    + apply (IH f m); [exact ND'|exact PV'|exact Pf|exact E|exact D'|]. intros q Pq Dq.
      destruct (Q q Pq Dq) as [C|[C|C]]; [left; exact C| |right; exact C]. left. subst q.
      destruct (Z.lt_ge_cases n (f * f)) as [L|L]; [exact L|]. exfalso.
      assert (Dn : (v | n - 1)) by (destruct Dq as [c Dq]; exists (f * c); rewrite <- E, Dq; ring).
      assert (T1 : n mod v = 1).
      { destruct Dn as [c Dn]. symmetry. apply Zmod_unique with c; [lia|lia]. }
      assert (T2 : Z.gcd ((b ^ ((n - 1) / v) - 1) mod n) n = 1).
      { rewrite gcd_shift by lia. apply Zgcd_1_rel_prime. apply rel_prime_sym. apply prime_rel_prime; [exact P|].
        destruct Dn as [c Dn]. assert (Ec : (n - 1) / v = c) by (rewrite Dn; apply Z.div_mul; lia). rewrite Ec.
        intros [k Dk]. apply (proj2 R c); [nia|]. pose proof (Z.mod_pos_bound (b ^ c) n ltac:(lia)).
        assert (k = 0) by nia. lia. }
      rewrite (proj2 (Z.leb_le _ _) L), T1, T2 in T. discriminate T.
Qed.
Lemma base_loop_full fuel n V b : prime n -> 2 < n -> n - 1 < 2 ^ Z.of_nat fuel -> Forall prime V -> NoDup V ->
  (forall q, prime q -> (q | n - 1) -> In q V) -> primitive n b -> forall bases, In b bases -> base_loop fuel n V bases = Ok true.
Proof.
  intros P N F PV ND Q R. induction bases as [|b0 bases IH]; intros I; [destruct I|]. cbn [base_loop]. set (c := b0 mod n).
  assert (K : In b bases -> (if negb (c ^ (n - 1) mod n =? 1) then base_loop fuel n V bases
    else f <- cert_loop fuel n c (rev V) 1 ;; if f * f <=? n then base_loop fuel n V bases
      else if negb (n mod f =? 1) then base_loop fuel n V bases else Ok true) = Ok true).
  { intros J. rewrite (IH J). destruct (negb _); [reflexivity|].
    destruct (cert_loop_sound fuel n c N F (rev V) [] (Forall_rev PV) (Forall_nil _)) as (fs & E & _); [intros q []|].
    change (zprod []) with 1 in E. rewrite E. cbn [bind]. destruct (_ <=? _); [reflexivity|]. destruct (negb _); reflexivity. }
  destruct I as [->|I]; [|apply K; exact I]. clear K IH.
  assert (R' : primitive n c).
  { destruct R as [R1 R2]. split; [unfold c; rewrite pow_mod_idemp by lia; exact R1|]. intros k Hk. unfold c. rewrite pow_mod_idemp by lia. apply R2, Hk. }
  rewrite (proj1 R'). cbn [Z.eqb negb Pos.eqb].
  destruct (cert_loop_full fuel n c P N F R' (rev V) 1 (n - 1)) as (g & E & G1 & G2).
  - apply NoDup_rev, ND.
  - apply Forall_rev, PV.
  - lia.
  - lia.
  - intros v I D. apply in_rev in I. rewrite Forall_forall in PV. destruct (PV v I). apply Z.divide_1_r_nonneg in D; lia.
  - intros q Pq Dq. right. apply in_rev. rewrite rev_involutive. apply Q; assumption.
  - rewrite E. cbn [bind]. rewrite (proj2 (Z.leb_gt _ _) G1), G2. reflexivity.
Qed.
Lemma verify_primes_app fuel is_prime bases a b : forall V,
  verify_primes fuel is_prime bases (a ++ b) V = (W <- verify_primes fuel is_prime bases a V ;; verify_primes fuel is_prime bases b W).
Proof.
  induction a as [|n a IH]; intros V; cbn [app verify_primes bind]; [reflexivity|].
  destruct (negb (is_prime n)); [apply IH|]. destruct (n =? 2); [apply IH|]. destruct (base_loop fuel n V bases) as [ok| |]; cbn [bind]; [apply IH|reflexivity|reflexivity].
Qed.

(** ** Orders *)
Lemma divide_all_spec : forall V d, Forall prime V -> d <> 0 -> exists r,
  (forall fuel, Z.abs d < 2 ^ Z.of_nat fuel -> divide_all fuel V d = Ok r) /\ (r | d) /\ r <> 0 /\ (0 < d -> 0 < r) /\
  (forall v, In v V -> ~ (v | r)) /\ (forall q, prime q -> (q | d) -> In q V \/ (q | r)).
Proof.
  induction V as [|v V IH]; intros d PV D; cbn [divide_all].
  { exists d. split; [reflexivity|]. split; [apply Z.divide_refl|]. split; [exact D|]. split; [auto|]. split; [intros v []|]. intros q _ H. right. exact H. }
  inversion PV as [|? ? Pv PV']; subst. assert (V2 : 2 <= v) by (destruct Pv; lia).
  destruct (divide_out_spec v V2 d D) as (e & r & E0 & E1 & E2 & E3).
  assert (Pe : 0 < v ^ e) by (apply Z.pow_pos_nonneg; lia).
  assert (R0 : r <> 0) by (intros ->; lia). destruct (IH r PV' R0) as (r' & F & D1 & D2 & D3 & D4 & D5).
  exists r'. split; [|split; [|split; [|split; [|split]]]].
  - intros fuel L. rewrite E3 by exact L. cbn [bind]. apply F. assert (Z.abs r <= Z.abs d) by (rewrite E1, Z.abs_mul, (Z.abs_eq (v ^ e)) by lia; nia). lia.
  - apply Z.divide_trans with r; [exact D1|]. exists (v ^ e). exact E1.
  - exact D2.
  - intros H. apply D3. nia.
  - intros w [<-|I]; [|apply D4; exact I]. intros H. apply E2. apply Z.divide_trans with r'; assumption.
  - intros q Pq Dq. rewrite E1 in Dq. apply prime_mult in Dq; [|exact Pq]. destruct Dq as [Dq|Dq].
    + left. left. symmetry. apply prime_power_prime with e; assumption.
    + destruct (D5 q Pq Dq) as [H|H]; [left; right; exact H|right; exact H].
Qed.
Lemma divide_all_one V d r : 0 < d -> (r | d) -> r <> 0 -> (0 < d -> 0 < r) -> (forall v, In v V -> ~ (v | r)) ->
  (forall q, prime q -> (q | d) -> In q V \/ (q | r)) -> (r = 1 <-> (forall q, prime q -> (q | d) -> In q V)).
Proof.
  intros P D N S A B. split.
  - intros -> q Pq Dq. destruct (B q Pq Dq) as [H|H]; [exact H|]. destruct Pq. apply Z.divide_1_r_nonneg in H; lia.
  - intros H. specialize (S P). destruct (Z.eq_dec r 1) as [E|E]; [exact E|]. exfalso. destruct (prime_divisor r) as (q & Pq & Dq); [lia|].
    apply (A q); [|exact Dq]. apply H; [exact Pq|]. apply Z.divide_trans with r; assumption.
Qed.
Definition minimal (l u v d : Z) : Prop := (v | d) -> u ^ (d / v) mod l <> 1.
Lemma minimal_down l u v d d' : 1 < l -> 2 <= v -> 0 < d -> (d' | d) -> 0 < d' -> minimal l u v d -> minimal l u v d'.
Proof.
  intros L V P [m D] P' M [c C] E. assert (Ec : d' / v = c) by (rewrite C; apply Z.div_mul; lia). rewrite Ec in E.
  apply M; [exists (m * c); rewrite D, C; ring|]. assert (Em : d / v = c * m) by (rewrite D, C; rewrite Z.mul_assoc, Z.div_mul by lia; ring).
  rewrite Em. apply pow_one_mul; [exact L|nia|nia|exact E].
Qed.
Lemma lower_spec l u v : 1 < l -> 2 <= v -> forall d, d <> 0 -> 0 < d -> u ^ d mod l = 1 -> exists d', 0 < d' /\ (d' | d) /\ u ^ d' mod l = 1 /\ minimal l u v d' /\
  forall fuel, d < 2 ^ Z.of_nat fuel -> lower fuel l u v d = Ok d'.
Proof.
  intros L V d D. pattern d. apply size_ind; [|exact D]. clear d D. intros d D IH P E.
  destruct (Z.eq_dec (d mod v) 0) as [M|M].
  - destruct (div2 v d V D M) as (Ed & N & Sz). destruct (Z.eq_dec (u ^ (d / v) mod l) 1) as [T|T].
    + destruct (IH _ N Sz ltac:(nia) T) as (d' & A & B & C & F & G). exists d'. split; [exact A|]. split.
      { apply Z.divide_trans with (d / v); [exact B|]. exists v. exact Ed. }
      split; [exact C|]. split; [exact F|]. intros fuel H. destruct fuel as [|fuel]; [cbn in H; lia|]. cbn [lower].
      rewrite M, Z.eqb_refl, T. cbn [Z.eqb negb Pos.eqb]. apply G. rewrite pow_fuel in H. lia.
    + exists d. split; [exact P|]. split; [apply Z.divide_refl|]. split; [exact E|]. split; [intros _; exact T|].
      intros fuel H. destruct fuel as [|fuel]; [cbn in H; lia|]. cbn [lower]. rewrite M, Z.eqb_refl, (proj2 (Z.eqb_neq _ _) T). reflexivity.
  - exists d. split; [exact P|]. split; [apply Z.divide_refl|]. split; [exact E|]. split.
    { intros Dv. exfalso. apply M. apply Z.mod_divide; [lia|exact Dv]. }
    intros fuel H. destruct fuel as [|fuel]; [cbn in H; lia|]. cbn [lower]. rewrite (proj2 (Z.eqb_neq _ _) M). reflexivity.
Qed.
Lemma lower_all_spec l u : 1 < l -> forall V d, Forall prime V -> 0 < d -> u ^ d mod l = 1 -> exists d', 0 < d' /\ (d' | d) /\ u ^ d' mod l = 1 /\
  (forall v, In v V -> minimal l u v d') /\ forall fuel, d < 2 ^ Z.of_nat fuel -> lower_all fuel l u V d = Ok d'.
Proof.
  intros L. induction V as [|v V IH]; intros d PV P E; cbn [lower_all].
  { exists d. split; [exact P|]. split; [apply Z.divide_refl|]. split; [exact E|]. split; [intros v []|]. reflexivity. }
  inversion PV as [|? ? Pv PV']; subst. assert (V2 : 2 <= v) by (destruct Pv; lia).
  destruct (lower_spec l u v L V2 d ltac:(lia) P E) as (d1 & A1 & B1 & C1 & D1 & F1).
  destruct (IH d1 PV' A1 C1) as (d2 & A2 & B2 & C2 & D2 & F2).
  exists d2. split; [exact A2|]. split; [apply Z.divide_trans with d1; assumption|]. split; [exact C2|]. split.
  - intros w [<-|I]; [|apply D2; exact I]. apply minimal_down with d1; assumption.
  - intros fuel H. rewrite F1 by exact H. cbn [bind]. apply F2. apply Z.divide_pos_le in B1; lia.
Qed.
Lemma order_of l u d : 1 < l -> 0 < d -> u ^ d mod l = 1 -> (forall q, prime q -> minimal l u q d) ->
  forall k, 0 <= k -> (u ^ k mod l = 1 <-> (d | k)).
Proof.
  intros L P E M k K. split.
  - intros Ek. pose proof (pow_one_gcd l u k d L K ltac:(lia) Ek E) as G. pose proof (Z.gcd_divide_l k d) as D1.
    destruct (Z.gcd_divide_r k d) as [m D2]. pose proof (Z.gcd_nonneg k d) as N. set (g := Z.gcd k d) in *. clearbody g.
    assert (0 < g) by (destruct (Z.eq_dec g 0) as [G0|]; [rewrite G0 in D2|]; lia). assert (0 < m) by nia.
    destruct (Z.eq_dec m 1) as [->|M1]; [rewrite D2, Z.mul_1_l; exact D1|]. exfalso.
    destruct (prime_divisor m) as (q & Pq & [c Dq]); [lia|]. assert (2 <= q) by (destruct Pq; lia).
    apply (M q Pq); [exists (c * g); rewrite D2, Dq; ring|].
    assert (Eq : d / q = g * c) by (rewrite D2, Dq; replace (c * q * g) with (g * c * q) by ring; apply Z.div_mul; lia).
    rewrite Eq. apply pow_one_mul; [exact L|lia|nia|exact G].
  - intros [c ->]. rewrite Z.mul_comm. apply pow_one_mul; [exact L|lia|nia|exact E].
Qed.

(** ** Square parts *)
Lemma distinct_primes_divide : forall V d, Forall prime V -> NoDup V -> (forall v, In v V -> (v | d)) -> (zprod V | d).
Proof.
  induction V as [|v V IH]; intros d PV ND D; [apply Z.divide_1_l|]. inversion PV as [|? ? Pv PV']; inversion ND as [|? ? NI ND']; subst.
  destruct (D v (or_introl eq_refl)) as [m Em]. assert (H : (zprod V | m)).
  { apply IH; [exact PV'|exact ND'|]. intros w I. rewrite Forall_forall in PV'. pose proof (PV' w I) as Pw.
    assert (W : (w | m * v)) by (rewrite <- Em; apply D; right; exact I). apply prime_mult in W; [|exact Pw].
    destruct W as [W|W]; [exact W|]. apply prime_div_prime in W; [|exact Pw|exact Pv]. subst w. contradiction. }
  destruct H as [c H]. exists c. rewrite Em, H. cbn [zprod fold_right]. unfold zprod. ring.
Qed.
Lemma distinct_squarefree : forall V, Forall prime V -> NoDup V -> squarefree (zprod V).
Proof.
  intros V PV ND s [c H]. destruct (Z.eq_dec (s * s) 1) as [|N]; [assumption|exfalso].
  pose proof (zprod_pos V PV) as Z0. assert (S : s <> 0) by (intros ->; lia).
  destruct (prime_divisor (Z.abs s)) as (q & Pq & Dq); [nia|]. apply (proj1 (Z.divide_abs_r _ _)) in Dq. destruct Dq as [k Dq].
  assert (Q2 : (q * q | zprod V)) by (exists (c * k * k); rewrite H, Dq; ring).
  assert (I : In q V).
  { apply prime_div_zprod; [exact Pq|exact PV|]. apply Z.divide_trans with (q * q); [exists q; reflexivity|exact Q2]. }
  destruct (in_split _ _ I) as (a & b & ->). rewrite zprod_app in Q2. cbn [zprod fold_right] in Q2. fold (zprod b) in Q2.
  assert (Q1 : (q | zprod (a ++ b))).
  { rewrite zprod_app. destruct Q2 as [e Q2]. exists e. apply (Z.mul_reg_r _ _ q); [destruct Pq; lia|]. lia. }
  apply prime_div_zprod in Q1; [|exact Pq|].
  - apply NoDup_remove_2 in ND. contradiction.
  - rewrite Forall_app in *. destruct PV as [A B]. inversion B; subst. split; assumption.
Qed.
Lemma squares_out_spec : forall V D, Forall prime V -> D <> 0 -> exists s r, D = r * (s * s) /\ s <> 0 /\
  (forall v, In v V -> ~ (v * v | r)) /\ (forall q, prime q -> (q | s) -> In q V) /\
  forall fuel, Z.abs D < 2 ^ Z.of_nat fuel -> squares_out fuel V D = Ok r.
Proof.
  induction V as [|v V IH]; intros D PV N; cbn [squares_out].
  { exists 1, D. split; [ring|]. split; [lia|]. split; [intros v []|]. split; [|reflexivity]. intros q [P _] Dq. apply Z.divide_1_r_nonneg in Dq; lia. }
  inversion PV as [|? ? Pv PV']; subst. assert (V2 : 2 <= v) by (destruct Pv; lia).
  destruct (divide_out_spec (v * v) ltac:(nia) D N) as (e & r & E0 & E1 & E2 & E3).
  assert (Pe : 0 < v ^ e) by (apply Z.pow_pos_nonneg; lia). rewrite Z.pow_mul_l in E1.
  assert (R0 : r <> 0) by (intros ->; lia). destruct (IH r PV' R0) as (s & r' & F1 & F2 & F3 & F4 & F5).
  exists (s * v ^ e), r'. split; [rewrite E1, F1; ring|]. split; [nia|]. split; [|split].
  - intros w [<-|I]; [|apply F3; exact I]. intros H. apply E2. rewrite F1. apply Z.divide_mul_l. exact H.
  - intros q Pq Dq. apply prime_mult in Dq; [|exact Pq]. destruct Dq as [Dq|Dq]; [right; apply F4; assumption|left].
    symmetry. apply prime_power_prime with e; assumption.
  - intros fuel L. rewrite E3 by exact L. cbn [bind]. apply F5. assert (K : 1 <= v ^ e * v ^ e) by nia.
    assert (Z.abs r <= Z.abs D) by (rewrite E1, !Z.abs_mul, (Z.abs_eq (v ^ e)) by lia; generalize dependent (v ^ e * v ^ e); intros; nia). lia.
Qed.
Lemma squarefree_opp m : squarefree m -> squarefree (- m).
Proof. intros H s D. apply H. apply (proj1 (Z.divide_opp_r _ _)) in D. exact D. Qed.

(** ** C95 *)
(** [expand2] ends for every integer and what it prints adds up to the integer, in at most
    one piece for every nine bits. *)
Lemma C95_expand_stmt : forall n, exists s, pieces_value s = n /\ (n <> 0 -> Z.of_nat (length s) <= Z.log2 (Z.abs n) / 9 + 1) /\
  forall fuel, Z.log2 (Z.abs n) + 3 <= Z.of_nat fuel -> expand2 fuel n = Ok s.
Proof.
  intros n. destruct (expand2_loop_spec (Z.abs n + 1) n ltac:(lia)) as (s & V & W & E). exists s. split; [exact V|]. split.
  - intros N. specialize (W N). assert (Z.of_nat (length s) - 1 <= Z.log2 (Z.abs n) / 9); [|lia].
    apply Z.div_le_lower_bound; lia.
  - intros fuel F. exact (E fuel [] F).
Qed.

(** The list of verified primes contains primes only, whatever the oracle for `is_prime`
    answers above one, each of them once and all taken from the file; two is always taken. *)
Lemma C95_primes_stmt : forall is_prime bases fuel lines,
  (forall n, is_prime n = true -> 1 < n) -> (forall n, In n lines -> n <= 2 ^ Z.of_nat fuel) ->
  exists V, verify_primes fuel is_prime bases lines [] = Ok V /\ Forall prime V /\ NoDup V /\ incl V lines.
Proof.
  intros is_prime bases fuel lines O L. destruct (verify_primes_sound is_prime bases O fuel lines [] L (Forall_nil _) (NoDup_nil _)) as (V & E & A & B & _ & D).
  exists V. split; [exact E|]. split; [exact A|]. split; [exact B|]. intros n I. destruct (D n I) as [[]|H]; exact H.
Qed.

(** A prime of the file is taken when the primes below it already cover its predecessor and
    one of the bases generates its multiplicative group. *)
Lemma C95_complete_stmt : forall is_prime bases fuel before n after V,
  (forall m, is_prime m = true -> 1 < m) -> (forall m, In m (before ++ n :: after) -> m <= 2 ^ Z.of_nat fuel) ->
  verify_primes fuel is_prime bases before [] = Ok V -> prime n -> is_prime n = true ->
  n = 2 \/ ((forall q, prime q -> (q | n - 1) -> In q V) /\
            exists b, In b bases /\ b ^ (n - 1) mod n = 1 /\ forall k, 0 < k < n - 1 -> b ^ k mod n <> 1) ->
  exists W, verify_primes fuel is_prime bases (before ++ n :: after) [] = Ok W /\ In n W.
Proof.
  intros is_prime bases fuel before n after V O B E P T Q.
  destruct (verify_primes_sound is_prime bases O fuel before [] ltac:(intros m I; apply B, in_or_app; left; exact I) (Forall_nil _) (NoDup_nil _)) as (V' & E' & PV & ND & _).
  rewrite E in E'. injection E' as <-. rewrite verify_primes_app, E. cbn [bind].
  assert (S : verify_primes fuel is_prime bases (n :: after) V = verify_primes fuel is_prime bases after (add_new n V)).
  { cbn [verify_primes]. rewrite T. cbn [negb]. destruct (Z.eqb_spec n 2) as [E2|N2]; [reflexivity|].
    destruct Q as [Q|[Q (b & Ib & R1 & R2)]]; [contradiction|]. rewrite (base_loop_full fuel n V b); try assumption; [reflexivity| | |].
    - destruct P. lia.
    - specialize (B n ltac:(apply in_or_app; right; left; reflexivity)). lia.
    - split; assumption. }
  rewrite S. destruct (verify_primes_sound is_prime bases O fuel after (add_new n V)) as (W & EW & _ & _ & C & _).
  - intros m I. apply B, in_or_app. right. right. exact I.
  - apply Forall_forall. intros x X. apply add_new_in in X. destruct X as [->|X]; [exact P|]. rewrite Forall_forall in PV. apply PV, X.
  - apply add_new_nodup, ND.
  - exists W. split; [exact EW|]. apply C, add_new_in. left. reflexivity.
Qed.

(** A degree that is printed is the exact order of p modulo l, and it is printed exactly
    when l is prime, does not divide p and l - 1 factors over the verified primes. *)
Lemma C95_embedding_stmt : forall is_prime fuel p l V, Forall prime V -> (is_prime l = true <-> prime l) -> l <= 2 ^ Z.of_nat fuel ->
  exists r, embedding fuel is_prime p l V = Ok r /\
    (forall d, r = Some d -> 0 < d /\ forall k, 0 <= k -> (p ^ k mod l = 1 <-> (d | k))) /\
    (r <> None <-> prime l /\ Z.gcd l p = 1 /\ forall q, prime q -> (q | l - 1) -> In q V).
Proof.
  intros is_prime fuel p l V PV O F. unfold embedding. destruct (Z.eqb_spec (Z.gcd l p) 1) as [G|G]; cbn [andb].
  2: { exists None. split; [reflexivity|]. split; [discriminate|]. split; [congruence|]. intros (_ & H & _). contradiction. }
  destruct (is_prime l) eqn:T.
  2: { exists None. split; [reflexivity|]. split; [discriminate|]. split; [congruence|]. intros (H & _). apply O in H. discriminate H. }
  assert (P : prime l) by (apply O; reflexivity). assert (L : 1 < l) by (destruct P; assumption).
  destruct (divide_all_spec V (l - 1) PV ltac:(lia)) as (r & E & A1 & A2 & A3 & A4 & A5). rewrite E by lia. cbn [bind].
  pose proof (divide_all_one V (l - 1) r ltac:(lia) A1 A2 A3 A4 A5) as One.
  destruct (Z.eqb_spec r 1) as [R|R].
  2: { exists None. split; [reflexivity|]. split; [discriminate|]. split; [congruence|]. intros (_ & _ & H). apply One in H. contradiction. }
  assert (Fm : (p mod l) ^ (l - 1) mod l = 1).
  { rewrite pow_mod_idemp by lia. apply fermat; [exact P|]. intros D. assert (D' : (l | Z.gcd l p)) by (apply Z.gcd_greatest; [apply Z.divide_refl|exact D]).
    rewrite G in D'. apply Z.divide_1_r_nonneg in D'; lia. }
  destruct (lower_all_spec l (p mod l) L V (l - 1) PV ltac:(lia) Fm) as (d & D1 & D2 & D3 & D4 & D5). rewrite D5 by lia. cbn [bind].
  exists (Some d). split; [reflexivity|]. split.
  - intros d0 Ed. injection Ed as <-. split; [exact D1|]. intros k K. rewrite <- pow_mod_idemp by exact K.
    apply order_of; [exact L|exact D1|exact D3| |exact K]. intros q Pq Dq. apply D4; [|exact Dq].
    apply One; [exact R|exact Pq|]. apply Z.divide_trans with d; assumption.
  - split; [|discriminate]. intros _. split; [exact P|]. split; [exact G|]. apply One, R.
Qed.

(** The condition on the degree: no power of p below (l - 1)/100 is 1 modulo l. *)
Lemma C95_mov_stmt : forall is_prime fuel p l V d, Forall prime V -> (is_prime l = true <-> prime l) -> l <= 2 ^ Z.of_nat fuel ->
  embedding fuel is_prime p l V = Ok (Some d) ->
  (mov_safe l d = true <-> forall k, 0 < k -> 100 * k < l - 1 -> p ^ k mod l <> 1).
Proof.
  intros is_prime fuel p l V d PV O F E.
  destruct (C95_embedding_stmt is_prime fuel p l V PV O F) as (r & E' & A & B). rewrite E in E'. injection E' as <-.
  destruct (A d eq_refl) as (D & H). destruct (proj1 B ltac:(discriminate)) as (P & G & _).
  assert (L : 1 < l) by (destruct P; assumption).
  assert (Fm : p ^ (l - 1) mod l = 1).
  { apply fermat; [exact P|]. intros Q. assert (Q' : (l | Z.gcd l p)) by (apply Z.gcd_greatest; [apply Z.divide_refl|exact Q]).
    rewrite G in Q'. apply Z.divide_1_r_nonneg in Q'; lia. }
  destruct (proj1 (H (l - 1) ltac:(lia)) Fm) as [c C].
  unfold mov_safe. rewrite C, Z.div_mul by (clear - D; lia). rewrite Z.leb_le. split.
  - intros Hc k K K' Q. apply H in Q; [|clear - K; lia]. apply Z.divide_pos_le in Q; [|exact K]. clear - Hc K' Q D. nia.
  - intros W. destruct (Z.le_gt_cases c 100) as [?|Hc]; [assumption|exfalso]. apply (W d D); [clear - Hc D; nia|].
    apply H; [clear - D; lia|apply Z.divide_refl].
Qed.

(** The trace is the one of every multiple of l in the Hasse interval, once l is larger than
    the interval. *)
Lemma C95_trace_stmt : forall p l N, 0 < l -> (l | N) -> (p + 1 - N) * (p + 1 - N) <= 4 * p -> 16 * p < l * l -> verify_trace p l = p + 1 - N.
Proof.
  intros p l N L [h ->] H B. unfold verify_trace. assert (E : (2 * (p + 1) + l) / (2 * l) = h); [|rewrite E; ring].
  set (t := p + 1 - h * l) in *. assert (T : - l < 2 * t < l) by (clear - L H B; nia).
  symmetry. apply Z.div_unique with (2 * t + l); [lia|]. unfold t. ring.
Qed.

(** The printed cofactor divides the number and leaves nothing the verified primes divide;
    it is the whole number when they cover it. *)
Lemma C95_cofactor_stmt : forall V d fuel, Forall prime V -> 0 < d < 2 ^ Z.of_nat fuel ->
  exists f r, cofactor fuel V d [] = Ok f /\ d = fold_right Z.mul 1 f * r /\ incl f V /\ (forall v, In v V -> ~ (v | r)) /\
    ((forall q, prime q -> (q | d) -> In q V) -> r = 1).
Proof.
  assert (FO : forall v, 2 <= v -> forall d, d <> 0 -> exists e r, d = v ^ Z.of_nat e * r /\ ~ (v | r) /\
    forall fuel f, Z.abs d < 2 ^ Z.of_nat fuel -> factors_out fuel v d f = Ok (r, f ++ repeat v e)).
  { intros v V d D. pattern d. apply size_ind; [|exact D]. clear d D. intros d D IH.
    destruct (Z.eq_dec (d mod v) 0) as [M|M].
    - destruct (div2 v d V D M) as (E & N & L). destruct (IH _ N L) as (e & r & E1 & E2 & E3).
      exists (S e), r. rewrite Nat2Z.inj_succ, Z.pow_succ_r by lia. split.
      { rewrite E, E1 at 1. ring. }
      split; [exact E2|]. intros fuel f F. destruct fuel as [|fuel]; [cbn in F; lia|]. cbn [factors_out].
      rewrite M, Z.eqb_refl. rewrite E3 by (rewrite pow_fuel in F; lia). rewrite <- app_assoc. reflexivity.
    - exists O, d. cbn [Z.of_nat]. rewrite Z.pow_0_r. split; [ring|]. split.
      { intros Dv. apply M. apply Z.mod_divide; [lia|exact Dv]. }
      intros fuel f F. destruct fuel as [|fuel]; [cbn in F; lia|]. cbn [factors_out]. rewrite (proj2 (Z.eqb_neq _ _) M), app_nil_r. reflexivity. }
  assert (CF : forall V fuel d f0, Forall prime V -> d <> 0 -> Z.abs d < 2 ^ Z.of_nat fuel ->
    exists f r, cofactor fuel V d f0 = Ok (f0 ++ f) /\ d = zprod f * r /\ incl f V /\ (forall v, In v V -> ~ (v | r))).
  { induction V as [|v V IH]; intros fuel d f0 PV D B; cbn [cofactor].
    { exists [], d. rewrite app_nil_r. split; [reflexivity|]. split; [symmetry; apply Z.mul_1_l|]. split; [apply incl_refl|intros v []]. }
    inversion PV as [|? ? Pv PV']; subst. assert (V2 : 2 <= v) by (destruct Pv; lia).
    destruct (FO v V2 d D) as (e & r & E1 & E2 & E3). rewrite E3 by exact B. cbn [bind]. pose proof (part_pos v e V2) as Pp.
    assert (R0 : r <> 0) by (intros ->; lia).
    assert (Br : Z.abs r < 2 ^ Z.of_nat fuel).
    { assert (Z.abs r <= Z.abs d) by (rewrite E1, Z.abs_mul, (Z.abs_eq (v ^ _)) by lia; nia). lia. }
    destruct (IH fuel r (f0 ++ repeat v e) PV' R0 Br) as (f & r' & F1 & F2 & F3 & F4).
    exists (repeat v e ++ f), r'. rewrite app_assoc. split; [exact F1|]. split; [rewrite zprod_app, zprod_repeat, E1, F2; ring|]. split.
    - apply incl_app; [|apply incl_tl; exact F3]. intros x X. apply repeat_spec in X. left. congruence.
    - intros w [<-|I]; [|apply F4; exact I]. intros H. apply E2. rewrite F2. apply Z.divide_mul_r. exact H. }
  intros V d fuel PV B. destruct (CF V fuel d [] PV ltac:(lia) ltac:(lia)) as (f & r & F1 & F2 & F3 & F4).
  exists f, r. split; [exact F1|]. split; [exact F2|]. split; [exact F3|]. split; [exact F4|]. intros Q.
  assert (Pf : Forall prime f) by (apply Forall_forall; intros x X; rewrite Forall_forall in PV; apply PV, F3, X).
  pose proof (zprod_pos f Pf). assert (0 < r) by nia. destruct (Z.eq_dec r 1) as [E|E]; [exact E|]. exfalso.
  destruct (prime_divisor r) as (q & Pq & Dq); [lia|]. apply (F4 q); [|exact Dq]. apply Q; [exact Pq|]. rewrite F2. apply Z.divide_mul_r. exact Dq.
Qed.

(** A discriminant that is printed is the fundamental discriminant of the field of
    t^2 - 4p; it is printed exactly when the verified primes cover that number. *)
Lemma C95_discriminant_stmt : forall V p t fuel, Forall prime V -> NoDup V -> t * t < 4 * p < 2 ^ Z.of_nat fuel ->
  exists r, discriminant fuel p t V = Ok r /\
    (forall D, r = Some D -> D < 0 /\ (exists s, t * t - 4 * p = D * (s * s)) /\
       (D mod 4 = 1 /\ squarefree D \/ exists m, D = 4 * m /\ (m mod 4 = 2 \/ m mod 4 = 3) /\ squarefree m)) /\
    (r <> None <-> forall q, prime q -> (q | t * t - 4 * p) -> In q V).
Proof.
  intros V p t fuel PV ND B. unfold discriminant. set (D0 := t * t - 4 * p).
  assert (N0 : D0 < 0) by (unfold D0; lia).
  destruct (squares_out_spec V D0 PV ltac:(lia)) as (s & d & E & S0 & Sq & Sp & R). rewrite R by (unfold D0; nia). cbn [bind].
  assert (Nd : d < 0) by nia. set (W := filter (fun v => d mod v =? 0) V). fold (zprod W).
  assert (PW : Forall prime W) by (apply Forall_forall; intros x X; rewrite Forall_forall in PV; apply filter_In in X; apply PV, X).
  assert (NW : NoDup W) by (apply NoDup_filter, ND).
  assert (DW : forall v, In v W <-> In v V /\ (v | d)).
  { intros v. unfold W. rewrite filter_In. split; intros [I H]; (split; [exact I|]).
    - apply Z.eqb_eq in H. apply Z.mod_divide; [|exact H]. rewrite Forall_forall in PV. destruct (PV v I). lia.
    - apply Z.eqb_eq. apply Z.mod_divide; [|exact H]. rewrite Forall_forall in PV. destruct (PV v I). lia. }
  destruct (Z.eqb_spec (zprod W) (- d)) as [C|C]; cbn [negb].
  - assert (Sf : squarefree d) by (rewrite <- (Z.opp_involutive d); apply squarefree_opp; rewrite <- C; apply distinct_squarefree; assumption).
    assert (Cov : forall q, prime q -> (q | D0) -> In q V).
    { intros q Pq Dq. rewrite E in Dq. apply prime_mult in Dq; [|exact Pq]. destruct Dq as [Dq|Dq].
      - apply DW. apply prime_div_zprod; [exact Pq|exact PW|]. rewrite C. apply Z.divide_opp_r. exact Dq.
      - apply prime_mult in Dq; [|exact Pq]. destruct Dq as [Dq|Dq]; apply Sp; assumption. }
    assert (M0 : d mod 4 <> 0).
    { intros M. apply Z.mod_divide in M; [|lia]. specialize (Sf 2 M). lia. }
    assert (M1 : D0 mod 4 = 0 \/ D0 mod 4 = 1).
    { unfold D0. replace (t * t - 4 * p) with (t * t + (- p) * 4) by ring. rewrite Z_mod_plus_full, Zmult_mod.
      pose proof (Z.mod_pos_bound t 4 ltac:(lia)). assert (X : t mod 4 = 0 \/ t mod 4 = 1 \/ t mod 4 = 2 \/ t mod 4 = 3) by lia.
      destruct X as [->|[->|[->| ->]]]; cbn; auto. }
    pose proof (Z.mod_pos_bound d 4 ltac:(lia)) as Bd.
    destruct (Z.eqb_spec (d mod 4) 1) as [M|M]; cbn [negb].
    + eexists. split; [reflexivity|]. split; [|split; [intros _; exact Cov|discriminate]]. intros D HD. injection HD as <-.
      split; [exact Nd|]. split; [exists s; exact E|]. left. split; assumption.
    + eexists. split; [reflexivity|]. split; [|split; [intros _; exact Cov|discriminate]]. intros D HD. injection HD as <-.
      split; [lia|]. split.
      * assert (Ev : exists h, s = 2 * h).
        { pose proof (Z.div_mod s 2 ltac:(lia)) as Ms. pose proof (Z.mod_pos_bound s 2 ltac:(lia)). set (h := s / 2) in *. clearbody h.
          destruct (Z.eq_dec (s mod 2) 0) as [Z0|Z0]; [exists h; lia|]. exfalso. assert (Hs : s = 2 * h + 1) by lia.
          assert (D0 mod 4 = d mod 4); [|lia]. rewrite E. replace (d * (s * s)) with (d + (d * (h * h + h)) * 4) by (rewrite Hs; ring). apply Z_mod_plus_full. }
        destruct Ev as [h Ev]. exists h. rewrite E, Ev. ring.
      * right. exists d. split; [ring|]. split; [lia|exact Sf].
  - exists None. split; [reflexivity|]. split; [discriminate|]. split; [congruence|]. intros Q. exfalso. apply C.
    assert (Dv : (zprod W | - d)) by (apply distinct_primes_divide; [exact PW|exact NW|intros v I; apply Z.divide_opp_r; apply DW, I]).
    destruct Dv as [m Dv]. pose proof (zprod_pos W PW). assert (0 < m) by nia. destruct (Z.eq_dec m 1) as [M1|M1]; [rewrite Dv, M1; ring|]. exfalso.
    destruct (prime_divisor m) as (q & Pq & [c Dq]); [lia|].
    assert (Qd : (q | d)) by (exists (- (c * zprod W)); rewrite <- (Z.opp_involutive d), Dv, Dq; ring).
    assert (I : In q V) by (apply Q; [exact Pq|]; rewrite E; apply Z.divide_mul_l; exact Qd).
    apply (Sq q I). assert (Iw : In q W) by (apply DW; split; assumption).
    assert (Qz : (q | zprod W)).
    { destruct (in_split _ _ Iw) as (a & b & Ew). rewrite Ew, zprod_app. exists (zprod a * zprod b). cbn [zprod fold_right]. fold (zprod b). ring. }
    destruct Qz as [z Qz]. exists (- (c * z)). rewrite <- (Z.opp_involutive d), Dv, Dq, Qz. ring.
Qed.

(** The prime found for the twist is the largest prime factor of its order p + 1 + t. *)
Lemma C95_twist_stmt : forall V p t fuel, Forall prime V -> 0 < p + 1 + t < 2 ^ Z.of_nat fuel ->
  exists r, twist_prime fuel p t V = Ok r /\
    (forall v, r = Some v -> prime v /\ (v | p + 1 + t) /\ forall q, prime q -> (q | p + 1 + t) -> q <= v) /\
    (r <> None <-> 1 < p + 1 + t /\ forall q, prime q -> (q | p + 1 + t) -> In q V).
Proof.
  intros V p t fuel PV B. unfold twist_prime. set (n := p + 1 + t) in *.
  destruct (divide_all_spec V n PV ltac:(lia)) as (r & E & A1 & A2 & A3 & A4 & A5). rewrite E by lia. cbn [bind].
  pose proof (divide_all_one V n r ltac:(lia) A1 A2 A3 A4 A5) as One.
  destruct (Z.eqb_spec r 1) as [R|R].
  2: { exists None. split; [reflexivity|]. split; [discriminate|]. split; [congruence|]. intros (_ & H). apply One in H. contradiction. }
  assert (LG : forall V best, Forall prime V -> match best with Some w => prime w /\ (w | n) | None => True end ->
    match largest V n best with
    | Some v => prime v /\ (v | n) /\ (forall q, In q V -> (q | n) -> q <= v) /\ (forall w, best = Some w -> w <= v)
    | None => best = None /\ forall q, In q V -> ~ (q | n)
    end).
  { clear. induction V as [|v V IH]; intros best PV H; cbn [largest].
    { destruct best as [w|]; [|split; [reflexivity|intros q []]]. destruct H as [H1 H2]. split; [exact H1|]. split; [exact H2|]. split; [intros q []|].
      intros w' E. injection E as <-. lia. }
    inversion PV as [|? ? Pv PV']; subst. assert (V2 : v <> 0) by (destruct Pv; lia).
    set (b' := if n mod v =? 0 then _ else best).
    assert (Hb : match b' with Some w => prime w /\ (w | n) | None => True end).
    { unfold b'. destruct (Z.eqb_spec (n mod v) 0) as [M|M]; [|exact H]. apply Z.mod_divide in M; [|exact V2].
      destruct best as [w|]; [|split; assumption]. destruct (w <? v); [split; assumption|exact H]. }
    specialize (IH b' PV' Hb). destruct (largest V n b') as [x|].
    - destruct IH as (I1 & I2 & I3 & I4). split; [exact I1|]. split; [exact I2|].
      assert (Hv : ((v | n) -> v <= x) /\ (forall w, best = Some w -> w <= x)).
      { unfold b' in I4. destruct (Z.eqb_spec (n mod v) 0) as [M|M].
        - destruct best as [w|].
          + destruct (Z.ltb_spec w v) as [L|L].
            * specialize (I4 v eq_refl). split; [auto|]. intros w' Ew. injection Ew as <-. lia.
            * specialize (I4 w eq_refl). split; [lia|]. intros w' Ew. injection Ew as <-. lia.
          + specialize (I4 v eq_refl). split; [auto|discriminate].
        - split; [|exact I4]. intros D. exfalso. apply M. apply Z.mod_divide; assumption. }
      split; [|apply Hv]. intros q [<-|I]; [apply Hv|apply I3; exact I].
    - destruct IH as [I1 I2]. unfold b' in I1. destruct (Z.eqb_spec (n mod v) 0) as [M|M].
      + destruct best as [w|]; [destruct (w <? v)|]; discriminate I1.
      + split; [exact I1|]. intros q [<-|I]; [|apply I2; exact I]. intros D. apply M. apply Z.mod_divide; assumption. }
  specialize (LG V None PV I). exists (largest V n None). split; [reflexivity|].
  pose proof (proj1 One R) as Cov. destruct (largest V n None) as [v|].
  - destruct LG as (L1 & L2 & L3 & _). split.
    + intros v' Ev. injection Ev as <-. split; [exact L1|]. split; [exact L2|]. intros q Pq Dq. apply L3; [apply Cov; assumption|exact Dq].
    + split; [|discriminate]. intros _. split; [|exact Cov]. apply Z.divide_pos_le in L2; [|lia]. destruct L1. lia.
  - destruct LG as [_ L]. split; [discriminate|]. split; [congruence|]. intros [N _]. exfalso.
    destruct (prime_divisor n N) as (q & Pq & Dq). exact (L q (Cov q Pq Dq) Dq).
Qed.

(** The sum printed for 2^252 + 2^101 - 7; certificates found although the oracle calls nine
    a prime; a toy curve of order 86 over the field of 101 elements. *)
Example C95_ex :
  expand2 300 (2 ^ 252 + 2 ^ 101 - 7) = Ok [Power false 252; Power false 101; Number true 7] /\
  verify_primes 10 (fun n => 1 <? n) [2; 3; 5] [2; 3; 5; 7; 9; 11; 2; 29; 37; 43; 59] [] = Ok [2; 3; 5; 7; 11; 29; 37; 43; 59] /\
  verify_primes 10 (fun n => 1 <? n) [2; 3; 5] [2; 7; 29; 59] [] = Ok [2] /\
  verify_trace 101 43 = 16 /\ 16 * 101 < 43 * 43 /\ (101 + 1 - 86) * (101 + 1 - 86) <= 4 * 101 /\
  cofactor 10 [2; 43] (86 / 43) [] = Ok [2] /\
  embedding 10 (fun n => n =? 43) 101 43 [2; 3; 7] = Ok (Some 21) /\
  embedding 10 (fun n => n =? 43) 101 43 [2; 3] = Ok None /\
  discriminant 10 101 16 [2; 37] = Ok (Some (- 148)) /\ discriminant 10 101 16 [2] = Ok None /\
  twist_prime 10 101 16 [2; 59] = Ok (Some 59).
Proof. repeat split; try (vm_compute; reflexivity); discriminate. Qed.
