(** * Number theory: Fermat's little theorem and Pocklington's criterion *)

From Coq Require Import ZArith Znumtheory List Bool Lia Permutation.
From Verif Require Import FastMul.
Import ListNotations.
Open Scope Z_scope.

Lemma pow_mod_idemp a e n : 0 <= e -> ((a mod n) ^ e) mod n = (a ^ e) mod n.
Proof.
  intros He. pattern e. apply natlike_ind; [reflexivity| |exact He].
  intros x Hx IH. rewrite !Z.pow_succ_r by assumption.
  rewrite Zmult_mod, IH, Zmod_mod, <- Zmult_mod. reflexivity.
Qed.

(** ** Modular exponentiation by squaring (used to compute certificates) *)

Fixpoint powm_pos (a : Z) (e : positive) (n : Z) : Z :=
  match e with
  | xH => a mod n
  | xO e' => let b := powm_pos a e' n in (b * b) mod n
  | xI e' => let b := powm_pos a e' n in (b * b * a) mod n
  end.
Definition powm (a e n : Z) : Z :=
  match e with Zpos e' => powm_pos a e' n | _ => 1 mod n end.

Lemma powm_pos_ok a e n : powm_pos a e n = (a ^ Zpos e) mod n.
Proof.
  induction e as [e IH|e IH|]; cbn [powm_pos]; cbv zeta.
  - rewrite IH.
    replace (Zpos e~1) with (Zpos e + Zpos e + 1) by lia.
    rewrite !Z.pow_add_r, Z.pow_1_r by lia.
    set (X := a ^ Zpos e). rewrite <- (Zmult_mod_idemp_l (X mod n * (X mod n)) a).
    rewrite <- Zmult_mod. apply Zmult_mod_idemp_l.
  - rewrite IH. replace (Zpos e~0) with (Zpos e + Zpos e) by lia.
    rewrite Z.pow_add_r by lia. rewrite <- Zmult_mod. reflexivity.
  - rewrite Z.pow_1_r. reflexivity.
Qed.

Lemma powm_ok a e n : 0 <= e -> powm a e n = (a ^ e) mod n.
Proof.
  intros H. destruct e as [|e|e]; [reflexivity|apply powm_pos_ok|lia].
Qed.

(** ** Fermat's little theorem *)

Definition zprod (l : list Z) : Z := fold_right Z.mul 1 l.

Lemma zprod_perm l l' : Permutation l l' -> zprod l = zprod l'.
Proof. unfold zprod. induction 1; cbn; lia. Qed.

Lemma zprod_map_mul a l p :
  (zprod (map (fun x => (a * x) mod p) l)) mod p = (a ^ Z.of_nat (length l) * zprod l) mod p.
Proof.
  unfold zprod. induction l as [|x l IH]; [reflexivity|].
  cbn [map fold_right length]. rewrite Nat2Z.inj_succ, Z.pow_succ_r by lia.
  rewrite Zmult_mod, IH, Zmod_mod, <- Zmult_mod. f_equal. ring.
Qed.

Lemma zprod_rel_prime p l : prime p -> Forall (fun x => 0 < x < p) l -> ~ (p | zprod l).
Proof.
  intros Hp. unfold zprod. induction 1 as [|x l Hx F IH]; cbn [fold_right].
  - intros D. apply Z.divide_1_r_nonneg in D; [|destruct Hp; lia]. destruct Hp; lia.
  - intros D. apply prime_mult in D; [|assumption]. destruct D as [D|D]; [|tauto].
    apply Z.divide_pos_le in D; lia.
Qed.

Lemma fermat p a : prime p -> ~ (p | a) -> (a ^ (p - 1)) mod p = 1.
Proof.
  intros Hp Ha. assert (P2 : 2 <= p) by (destruct Hp; lia).
  set (l := map Z.of_nat (seq 1 (Z.to_nat (p - 1)))).
  assert (Hin : forall x, In x l <-> 0 < x < p).
  { intros x. unfold l. rewrite in_map_iff. split.
    - intros (y & <- & Hy). apply in_seq in Hy. lia.
    - intros Hx. exists (Z.to_nat x). split; [lia|]. apply in_seq. lia. }
  assert (ND : NoDup l).
  { apply FinFun.Injective_map_NoDup; [intros x y; lia|apply seq_NoDup]. }
  assert (Hlen : Z.of_nat (length l) = p - 1).
  { unfold l. rewrite map_length, seq_length. lia. }
  set (l' := map (fun x => (a * x) mod p) l).
  assert (Inj : forall x y, In x l -> In y l -> (a * x) mod p = (a * y) mod p -> x = y).
  { intros x y Hx Hy E. apply Hin in Hx. apply Hin in Hy.
    assert (D : (p | a * (x - y))).
    { apply Z.mod_divide; [lia|]. rewrite Z.mul_sub_distr_l, Zminus_mod, E, Z.sub_diag. reflexivity. }
    apply prime_mult in D; [|assumption]. destruct D as [D|[q D]]; [tauto|].
    assert (q = 0) by nia. subst. lia. }
  assert (ND' : NoDup l').
  { unfold l'. clear Hlen Hin. induction ND as [|x l0 Hn ND IH]; [constructor|].
    cbn [map]. constructor.
    - rewrite in_map_iff. intros (y & E & Hy). apply Hn.
      rewrite (Inj x y); [assumption|left; auto|right; auto|auto].
    - apply IH. intros; apply Inj; auto; right; auto. }
  assert (Inc : incl l' l).
  { intros z Hz. unfold l' in Hz. apply in_map_iff in Hz. destruct Hz as (x & <- & Hx).
    apply Hin. pose proof (Z.mod_pos_bound (a * x) p ltac:(lia)).
    assert ((a * x) mod p <> 0); [|lia].
    intros E. apply Z.mod_divide in E; [|lia]. apply prime_mult in E; [|assumption].
    destruct E as [E|E]; [tauto|]. apply Hin in Hx. apply Z.divide_pos_le in E; lia. }
  assert (Per : Permutation l' l).
  { apply NoDup_Permutation_bis; [assumption| |assumption].
    unfold l'. rewrite map_length. reflexivity. }
  pose proof (zprod_map_mul a l p) as E. fold l' in E.
  rewrite (zprod_perm _ _ Per), Hlen in E.
  assert (NP : ~ (p | zprod l)).
  { apply zprod_rel_prime; [assumption|]. apply Forall_forall. intros x Hx. now apply Hin. }
  assert (D : (p | (a ^ (p - 1) - 1) * zprod l)).
  { apply Z.mod_divide; [lia|]. rewrite Z.mul_sub_distr_r, Zminus_mod, <- E, Z.mul_1_l, Z.sub_diag.
    reflexivity. }
  apply prime_mult in D; [|assumption]. destruct D as [D|D]; [|tauto].
  destruct D as [q D]. symmetry. apply Zmod_unique with q; lia.
Qed.

(** ** Prime divisors *)

Lemma prime_divisor n : 1 < n -> exists r, prime r /\ (r | n).
Proof.
  intros H. assert (P : 0 <= n) by lia. revert H. pattern n. apply Z_lt_induction; [|exact P].
  intros x IH Hx. destruct (prime_dec x) as [Hp|Hp].
  - exists x. split; [assumption|apply Z.divide_refl].
  - destruct (not_prime_divide x Hx Hp) as (d & Hd & D).
    destruct (IH d) as (r & Hr & D'); [lia|lia|].
    exists r. split; [assumption|]. now apply Z.divide_trans with d.
Qed.

Lemma not_prime_small_divisor n : 1 < n -> ~ prime n ->
  exists r, prime r /\ (r | n) /\ r * r <= n.
Proof.
  intros H Hn. destruct (not_prime_divide n H Hn) as (d & Hd & [e E]).
  assert (He : 1 < e) by nia.
  assert (Hmin : exists m, 1 < m /\ (m | n) /\ m * m <= n).
  { destruct (Z.le_ge_cases d e).
    - exists d. repeat split; [lia|exists e; lia|nia].
    - exists e. repeat split; [lia|exists d; lia|nia]. }
  destruct Hmin as (m & H1 & H2 & H3).
  destruct (prime_divisor m H1) as (r & Hr & Dr).
  exists r. split; [assumption|]. split; [now apply Z.divide_trans with m|].
  assert (r <= m) by (apply Z.divide_pos_le; [lia|assumption]).
  assert (1 < r) by (destruct Hr; lia). nia.
Qed.

Lemma prime_div_zprod r l : prime r -> Forall prime l -> (r | zprod l) -> In r l.
Proof.
  intros Hr. unfold zprod. induction 1 as [|x l Hx F IH]; cbn [fold_right].
  - intros D. apply Z.divide_1_r_nonneg in D; destruct Hr; lia.
  - intros D. apply prime_mult in D; [|assumption]. destruct D as [D|D].
    + left. symmetry. now apply prime_div_prime.
    + right. auto.
Qed.

(** ** Trial division *)

Definition trial (n : Z) : bool :=
  (1 <? n) && (n <? 10000) &&
  forallb (fun k => let d := Z.of_nat k in (n <? d * d) || negb (n mod d =? 0)) (seq 2 98).

Lemma trial_prime n : trial n = true -> prime n.
Proof.
  unfold trial. rewrite !andb_true_iff, !Z.ltb_lt, forallb_forall. intros [[H1 H2] H3].
  destruct (prime_dec n) as [|Hn]; [assumption|exfalso].
  destruct (not_prime_small_divisor n H1 Hn) as (r & Hr & D & Hs).
  assert (R : 1 < r) by (destruct Hr; lia).
  assert (r < 100) by nia.
  specialize (H3 (Z.to_nat r)). rewrite in_seq in H3.
  rewrite Z2Nat.id in H3 by lia.
  assert (T := H3 ltac:(lia)). apply orb_true_iff in T. destruct T as [T|T].
  - apply Z.ltb_lt in T. lia.
  - apply negb_true_iff, Z.eqb_neq in T. apply T. apply Z.mod_divide; [lia|assumption].
Qed.

(** ** Exponents of one *)

Lemma pow_one_sub n b x y : 1 < n -> 0 <= y <= x ->
  (b ^ x) mod n = 1 -> (b ^ y) mod n = 1 -> (b ^ (x - y)) mod n = 1.
Proof.
  intros Hn H Hx Hy. replace x with ((x - y) + y) in Hx by lia.
  rewrite Z.pow_add_r, Zmult_mod, Hy, Z.mul_1_r, Zmod_mod in Hx by lia. exact Hx.
Qed.

Lemma pow_one_gcd_aux n b : 1 < n -> forall k x y, 0 <= x -> 0 <= y -> x + y <= k ->
  (b ^ x) mod n = 1 -> (b ^ y) mod n = 1 -> (b ^ Z.gcd x y) mod n = 1.
Proof.
  intros Hn k. destruct (Z.le_gt_cases 0 k) as [Hk|Hk]; [|intros; lia].
  pattern k. apply Z_lt_induction; [|exact Hk]. clear k Hk.
  intros k IH x y Hx Hy Hk Ex Ey.
  destruct (Z.eq_dec x 0) as [->|Nx]; [rewrite Z.gcd_0_l, Z.abs_eq by lia; assumption|].
  destruct (Z.eq_dec y 0) as [->|Ny]; [rewrite Z.gcd_0_r, Z.abs_eq by lia; assumption|].
  destruct (Z.le_ge_cases y x).
  - replace (Z.gcd x y) with (Z.gcd (x - y) y).
    + apply (IH (k - 1)); try lia. apply pow_one_sub; auto; lia.
    + rewrite (Z.gcd_comm x y), (Z.gcd_comm (x - y) y).
      replace x with (x - y + 1 * y) at 2 by lia. rewrite Z.gcd_add_mult_diag_r. reflexivity.
  - replace (Z.gcd x y) with (Z.gcd x (y - x)).
    + apply (IH (k - 1)); try lia. apply pow_one_sub; auto; lia.
    + replace y with (y - x + 1 * x) at 2 by lia. rewrite Z.gcd_add_mult_diag_r. reflexivity.
Qed.

Lemma pow_one_gcd n b x y : 1 < n -> 0 <= x -> 0 <= y ->
  (b ^ x) mod n = 1 -> (b ^ y) mod n = 1 -> (b ^ Z.gcd x y) mod n = 1.
Proof. intros. apply (pow_one_gcd_aux n b H (x + y)); auto; lia. Qed.

Lemma pow_one_mul n b x m : 1 < n -> 0 <= x -> 0 <= m ->
  (b ^ x) mod n = 1 -> (b ^ (x * m)) mod n = 1.
Proof.
  intros Hn Hx Hm E. rewrite Z.pow_mul_r by assumption.
  rewrite <- pow_mod_idemp, E, Z.pow_1_l by assumption. apply Z.mod_small. lia.
Qed.

(** ** Pocklington's criterion *)

Lemma pow_one_divisor n r b e : 1 < n -> 1 < r -> (r | n) -> (b ^ e) mod n = 1 -> (b ^ e) mod r = 1.
Proof.
  intros Hn Hr [q D] E. pose proof (Z.div_mod (b ^ e) n ltac:(lia)) as M. rewrite E in M.
  symmetry. apply Zmod_unique with (q * (b ^ e / n)); [lia|]. rewrite M at 1. rewrite D at 1. ring.
Qed.

Theorem pocklington n a fs :
  1 < n -> Forall prime fs -> (zprod fs | n - 1) -> n < zprod fs * zprod fs -> 0 < zprod fs ->
  (a ^ (n - 1)) mod n = 1 ->
  (forall q, In q fs -> Z.gcd ((a ^ ((n - 1) / q)) mod n - 1) n = 1) ->
  prime n.
Proof.
  intros Hn Fp [m Em] Hsq Hpos E1 Hq.
  destruct (prime_dec n) as [|Np]; [assumption|exfalso].
  destruct (not_prime_small_divisor n Hn Np) as (r & Hr & Dr & Hs).
  assert (R : 1 < r) by (destruct Hr; lia).
  set (F := zprod fs) in *.
  assert (Hm : 0 < m) by nia.
  set (b := a ^ m).
  assert (bF : (b ^ F) mod r = 1).
  { unfold b. rewrite <- Z.pow_mul_r by lia. rewrite <- Em.
    now apply pow_one_divisor with n. }
  assert (Nb : ~ (r | b)).
  { intros D. assert (D2 : (r | b ^ F)).
    { replace F with (Z.succ (F - 1)) by lia. rewrite Z.pow_succ_r by lia. now apply Z.divide_mul_l. }
    apply Z.mod_divide in D2; lia. }
  pose proof (fermat r b Hr Nb) as br.
  pose proof (pow_one_gcd r b F (r - 1) R ltac:(lia) ltac:(lia) bF br) as bg.
  set (g := Z.gcd F (r - 1)) in *.
  assert (Dg : (g | F)) by apply Z.gcd_divide_l.
  assert (Dg' : (g | r - 1)) by apply Z.gcd_divide_r.
  destruct Dg as [h Hh].
  assert (G : 0 < g).
  { assert (0 <= g) by apply Z.gcd_nonneg.
    destruct (Z.eq_dec g 0) as [g0|]; [|lia]. rewrite g0 in Hh. lia. }
  assert (Hh1 : h = 1).
  { assert (0 < h) by nia. destruct (Z.le_gt_cases h 1) as [|Hgt]; [lia|exfalso].
    destruct (prime_divisor h) as (q & Pq & [j Dq]); [assumption|].
    assert (Q : 1 < q) by (destruct Pq; lia).
    assert (IQ : In q fs).
    { apply prime_div_zprod; auto. fold F. exists (j * g). rewrite Hh, Dq. ring. }
    specialize (Hq q IQ).
    assert (j > 0) by (clear - Dq Hgt Q; nia).
    assert (Eq : (n - 1) / q = m * (g * j)).
    { rewrite Em, Hh, Dq. symmetry. apply Z.div_unique_exact; [lia|ring]. }
    assert (A1 : (a ^ ((n - 1) / q)) mod r = 1).
    { rewrite Eq, Z.pow_mul_r by (try apply Z.mul_nonneg_nonneg; lia). fold b. apply pow_one_mul; auto; lia. }
    assert (D1 : (r | (a ^ ((n - 1) / q)) mod n - 1)).
    { destruct Dr as [s Ds].
      pose proof (Z.div_mod (a ^ ((n - 1) / q)) n ltac:(lia)) as M1.
      pose proof (Z.div_mod (a ^ ((n - 1) / q)) r ltac:(lia)) as M2.
      rewrite A1 in M2.
      exists (a ^ ((n - 1) / q) / r - s * (a ^ ((n - 1) / q) / n)).
      set (X := a ^ ((n - 1) / q)) in *. clearbody X. rewrite Z.mul_sub_distr_r.
      replace (s * (X / n) * r) with (n * (X / n)) by (rewrite Ds at 1; ring). lia. }
    assert (D2 : (r | 1)).
    { rewrite <- Hq. apply Z.gcd_greatest; assumption. }
    apply Z.divide_1_r_nonneg in D2; lia. }
  assert (FG : F = g) by (rewrite Hh, Hh1; ring).
  assert (GR : g <= r - 1) by (apply Z.divide_pos_le; [lia|assumption]).
  clear - FG GR Hs Hsq G. nia.
Qed.

(** The boolean certificate check. *)
(** One exponentiation serves both conditions: n - 1 = R * q * m, q the large
    prime, m the product of the small primes [ms]. *)
Definition pock_check (pw : Z -> Z -> Z) (n a R q : Z) (ms : list Z) : bool :=
  let m := zprod ms in
  (1 <? n) && (0 <? R) && (1 <? q) && forallb (fun s => (1 <? s) && (m mod s =? 0)) ms &&
  (n - 1 =? R * m * q) && (n <? (q * m) * (q * m)) &&
  (let b := pw a R in
   let c := pw b m in
   (pw c q =? 1) && (Z.gcd (c - 1) n =? 1) &&
   match ms with
   | [] => true
   | _ => let d := pw b q in forallb (fun s => Z.gcd (pw d (m / s) - 1) n =? 1) ms
   end).

Lemma pow_mod_pow a x y n : 0 <= x -> 0 <= y -> ((a ^ x mod n) ^ y) mod n = a ^ (x * y) mod n.
Proof. intros Hx Hy. rewrite pow_mod_idemp by assumption. now rewrite Z.pow_mul_r. Qed.

Lemma zprod_pos ms : Forall (fun s => 1 < s) ms -> 0 < zprod ms.
Proof. induction 1; cbn [zprod fold_right]; [lia|]. fold (zprod l). nia. Qed.

Lemma pock_prime (pw : Z -> Z -> Z) n a R q ms :
  (forall x e, 0 <= e -> pw x e = (x ^ e) mod n) ->
  prime q -> Forall prime ms -> pock_check pw n a R q ms = true -> prime n.
Proof.
  intros Hpw Hq Hms. unfold pock_check. cbv zeta.
  rewrite !andb_true_iff, !Z.ltb_lt, !Z.eqb_eq, forallb_forall.
  intros ((((((H1 & HR) & Hq1) & Hs) & HF) & Hn) & (H5 & H6) & H7).
  assert (M : 0 < zprod ms).
  { apply zprod_pos. rewrite Forall_forall in *. intros s I. destruct (Hms s I); lia. }
  assert (Hs' : forall s, In s ms -> 1 < s /\ (s | zprod ms)).
  { intros s I. specialize (Hs s I). rewrite andb_true_iff, Z.ltb_lt, Z.eqb_eq in Hs.
    split; [tauto|]. apply Z.mod_divide; [lia|tauto]. }
  set (m := zprod ms) in *.
  rewrite (Hpw a R), (Hpw _ m) in H5, H6 by lia. rewrite (Hpw _ q) in H5 by lia.
  rewrite pow_mod_pow in H5 by lia. rewrite pow_mod_pow in H6 by lia.
  rewrite pow_mod_pow in H5 by (try apply Z.mul_nonneg_nonneg; lia).
  apply (pocklington n a (q :: ms)).
  - lia.
  - now constructor.
  - exists R. unfold zprod. cbn [fold_right]. fold (zprod ms). fold m. lia.
  - unfold zprod. cbn [fold_right]. fold (zprod ms). fold m. lia.
  - unfold zprod. cbn [fold_right]. fold (zprod ms). fold m. nia.
  - rewrite HF. replace (R * m * q) with (R * (m * q)) by ring. exact H5.
  - intros s [<-|I].
    + replace ((n - 1) / q) with (R * m) by (rewrite HF, Z.div_mul by lia; reflexivity).
      exact H6.
    + destruct ms as [|s' ms']; [destruct I|]. rewrite forallb_forall in H7.
      specialize (H7 s I). apply Z.eqb_eq in H7. destruct (Hs' s I) as [S1 [k Hk]].
      rewrite (Hpw a R) in H7 by lia. rewrite (Hpw (a ^ R mod n) q) in H7 by lia.
      rewrite (Hpw _ (m / s)) in H7 by (apply Z.div_pos; lia).
      assert (0 <= m / s) by (apply Z.div_pos; lia).
      rewrite (pow_mod_pow a R q) in H7 by lia.
      rewrite pow_mod_pow in H7 by (try apply Z.mul_nonneg_nonneg; lia).
      replace ((n - 1) / s) with (R * q * (m / s)); [exact H7|].
      rewrite HF, Hk, (Z.div_mul k) by lia.
      replace (R * (k * s) * q) with (R * q * k * s) by ring. now rewrite Z.div_mul by lia.
Qed.

(** ** Exponentiation with a cheap partial reduction

    The kernel computes with binary integers, so a division is much dearer than a
    product.  [rd] only has to preserve residues. *)

Section Powr.
Context (rd : Z -> Z) (n : Z) (Hrd : forall x, rd x mod n = x mod n).

Fixpoint powr_pos (a : Z) (e : positive) : Z :=
  match e with
  | xH => a
  | xO e' => let b := powr_pos a e' in rd (hexmul b b)
  | xI e' => let b := powr_pos a e' in rd (hexmul (rd (hexmul b b)) a)
  end.
Definition powr (a e : Z) : Z :=
  match e with Zpos e' => powr_pos (a mod n) e' mod n | _ => 1 mod n end.

Lemma powr_ok a e : 0 <= e -> powr a e = (a ^ e) mod n.
Proof using Hrd.
  intros He. destruct e as [|e|e]; [reflexivity| |lia]. cbn [powr].
  rewrite <- (pow_mod_idemp a) by lia.
  generalize (a mod n). clear a He. intros a.
  induction e as [e IH|e IH|]; cbn [powr_pos]; cbv zeta; rewrite ?hexmul_eq.
  - rewrite Hrd, <- (Zmult_mod_idemp_l (rd _) a), Hrd.
    rewrite (Zmult_mod (powr_pos _ _)), IH, <- Zmult_mod, Zmult_mod_idemp_l.
    replace (Zpos e~1) with (Zpos e + Zpos e + 1) by lia.
    now rewrite !Z.pow_add_r, Z.pow_1_r by lia.
  - rewrite Hrd, Zmult_mod, IH, <- Zmult_mod.
    replace (Zpos e~0) with (Zpos e + Zpos e) by lia. now rewrite Z.pow_add_r by lia.
  - now rewrite Z.pow_1_r.
Qed.
End Powr.

(** The low [k] bits and the rest. *)
Fixpoint split_pos (k : nat) (x : positive) : Z * Z :=
  match k with
  | O => (0, Zpos x)
  | S k => match x with
           | xH => (1, 0)
           | xO y => let (l, h) := split_pos k y in (Z.double l, h)
           | xI y => let (l, h) := split_pos k y in (Z.succ_double l, h)
           end
  end.
Lemma split_pos_ok k x : let (l, h) := split_pos k x in Zpos x = l + 2 ^ Z.of_nat k * h.
Proof.
  revert x. induction k as [|k IH]; intros x; cbn [split_pos]; [cbn; lia|].
  rewrite Nat2Z.inj_succ, Z.pow_succ_r by lia.
  destruct x as [y|y|].
  - specialize (IH y). destruct (split_pos k y) as [l h]. rewrite Z.succ_double_spec.
    replace (Zpos y~1) with (2 * Zpos y + 1) by lia. lia.
  - specialize (IH y). destruct (split_pos k y) as [l h]. rewrite Z.double_spec.
    replace (Zpos y~0) with (2 * Zpos y) by lia. lia.
  - lia.
Qed.

(** Folding modulo 2^k + c. *)
Definition fold_red (k : nat) (c x : Z) : Z :=
  match x with
  | Z0 => 0
  | Zpos y => let (l, h) := split_pos k y in l - hexmul h c
  | Zneg y => let (l, h) := split_pos k y in hexmul h c - l
  end.
Lemma fold_red_ok k c n x : n = 2 ^ Z.of_nat k + c -> n <> 0 -> fold_red k c x mod n = x mod n.
Proof.
  intros -> Hn. destruct x as [|y|y]; cbn [fold_red]; [reflexivity| |].
  - pose proof (split_pos_ok k y) as E. destruct (split_pos k y) as [l h]. rewrite hexmul_eq, E.
    replace (l - h * c) with (l + 2 ^ Z.of_nat k * h + (- h) * (2 ^ Z.of_nat k + c)) by ring.
    now apply Z.mod_add.
  - pose proof (split_pos_ok k y) as E. destruct (split_pos k y) as [l h].
    change (Zneg y) with (- Zpos y). rewrite hexmul_eq, E.
    replace (h * c - l) with (- (l + 2 ^ Z.of_nat k * h) + h * (2 ^ Z.of_nat k + c)) by ring.
    now apply Z.mod_add.
Qed.
Definition fold2 (k : nat) (c x : Z) : Z := fold_red k c (fold_red k c x).
Lemma fold2_ok k c n x : n = 2 ^ Z.of_nat k + c -> n <> 0 -> fold2 k c x mod n = x mod n.
Proof. intros E N. unfold fold2. now rewrite !(fold_red_ok k c n). Qed.

(** A guessed quotient, for a modulus of any shape. *)
Definition quo_red (k : nat) (mu n x : Z) : Z :=
  match x with
  | Zpos y => let (_, h) := split_pos k y in
              match hexmul h mu with
              | Zpos z => let (_, q) := split_pos k z in x - hexmul q n
              | _ => x
              end
  | _ => x
  end.
Lemma quo_red_ok k mu n x : n <> 0 -> quo_red k mu n x mod n = x mod n.
Proof.
  intros Hn. unfold quo_red. destruct x as [|y|y]; [reflexivity| |reflexivity].
  destruct (split_pos k y) as [l h]. destruct (hexmul h mu) as [|z|z]; [reflexivity| |reflexivity].
  destruct (split_pos k z) as [l' q]. rewrite hexmul_eq.
  replace (Zpos y - q * n) with (Zpos y + (- q) * n) by ring. now apply Z.mod_add.
Qed.
