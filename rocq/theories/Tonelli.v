(** * Square roots modulo an arbitrary prime *)

From Coq Require Import ZArith Znumtheory List Bool Lia Setoid.
From Verif Require Import Machine MachineFacts NumTheory ScriptModel.
Import ListNotations.
Open Scope Z_scope.

(** ** A monic polynomial of degree n has at most n roots *)
Definition peval (cs : list Z) (x : Z) : Z := fold_right (fun c r => c + x * r) 0 cs.
Lemma monic_add a : forall l1 l2, length l1 = length l2 ->
  exists es, length es = length l1 /\ forall x, peval (es ++ [1]) x = peval (l1 ++ [1]) x + a * peval l2 x.
Proof.
  induction l1 as [|c l1 IH]; intros [|d l2] E; try discriminate E.
  - exists []. split; [reflexivity|]. intros x. unfold peval. cbn [app fold_right]. ring.
  - injection E as E. destruct (IH l2 E) as (es & Le & V). exists (c + a * d :: es). split; [cbn [length]; rewrite Le; reflexivity|].
    intros x. specialize (V x). unfold peval in *. cbn [app fold_right]. rewrite V. ring.
Qed.
Lemma monic_div a : forall cs c, exists ds, length ds = length cs /\
  forall x, peval ((c :: cs) ++ [1]) x - peval ((c :: cs) ++ [1]) a = (x - a) * peval (ds ++ [1]) x.
Proof.
  induction cs as [|c' cs IH]; intros c.
  - exists []. split; [reflexivity|]. intros x. unfold peval. cbn [app fold_right]. ring.
  - destruct (IH c') as (ds & Ld & V). destruct (monic_add a (c' :: cs) (ds ++ [1])) as (es & Le & W).
    + rewrite app_length, Ld. cbn [length]. lia.
    + exists es. split; [exact Le|]. intros x. specialize (V x). rewrite W. unfold peval in *. cbn [app fold_right] in *.
      set (T := fun y => c' + y * fold_right (fun c r => c + y * r) 0 (cs ++ [1])). fold (T x) in V |- *. fold (T a) in V |- *.
      replace (c + x * T x - (c + a * T a)) with ((x - a) * T x + a * (T x - T a)) by ring. rewrite V. ring.
Qed.
Lemma root_bound q : prime q -> forall n cs, length cs = n -> forall xs, NoDup xs -> Forall (fun x => 0 <= x < q) xs ->
  Forall (fun x => (q | peval (cs ++ [1]) x)) xs -> (length xs <= n)%nat.
Proof.
  intros P. induction n as [|n IH]; intros cs Lc xs Nd Rg Rt.
  - destruct cs; [|discriminate Lc]. destruct xs as [|x xs]; [cbn; lia|]. exfalso. inversion Rt as [|? ? D _]; subst.
    unfold peval in D. cbn [app fold_right] in D. replace (1 + x * 0) with 1 in D by ring. apply Z.divide_1_r in D.
    destruct P as [P _]. lia.
  - destruct cs as [|c cs]; [discriminate Lc|]. injection Lc as Lc. destruct xs as [|a xs]; [cbn; lia|]. cbn [length].
    inversion Nd as [|? ? Na Nd']; subst. inversion Rg as [|? ? Ra Rg']; subst. inversion Rt as [|? ? Ta Rt']; subst.
    destruct (monic_div a cs c) as (ds & Ld & V). apply le_n_S. apply (IH ds Ld xs Nd' Rg').
    apply Forall_forall. intros x Hx. rewrite Forall_forall in Rg', Rt'. specialize (Rg' x Hx). specialize (Rt' x Hx). specialize (V x).
    assert (D : (q | (x - a) * peval (ds ++ [1]) x)) by (rewrite <- V; apply Z.divide_sub_r; assumption).
    apply prime_mult in D; [|exact P]. destruct D as [D|D]; [exfalso|exact D].
    destruct D as (k & Ek). assert (k = 0) by nia. subst k. apply Na. replace a with x by lia. exact Hx.
Qed.
Lemma peval_zeros x : forall n, peval (repeat 0 n ++ [1]) x = x ^ Z.of_nat n.
Proof.
  induction n as [|n IH]; [unfold peval; cbn [repeat app fold_right]; change (x ^ Z.of_nat 0) with 1; ring|]. rewrite Nat2Z.inj_succ, Z.pow_succ_r by lia. rewrite <- IH.
  unfold peval. cbn [repeat app fold_right]. ring.
Qed.

(** ** Euler's criterion, one half *)
Section Prime.
Context (q : Z) (P : prime q) (Oq : Z.odd q = true).
Let h := (q - 1) / 2.
Lemma q_gt : 2 < q.
Proof. destruct P as [A _]. destruct (Z.eq_dec q 2) as [E|E]; [rewrite E in Oq; discriminate Oq|lia]. Qed.
Lemma q_half : q = 2 * h + 1.
Proof.
  pose proof q_gt as G. apply Z.odd_spec in Oq. destruct Oq as (m & Em). unfold h. rewrite Em at 2. replace (2 * m + 1 - 1) with (m * 2) by ring.
  rewrite Z.div_mul by lia. exact Em.
Qed.
Lemma not_div x : 0 < x < q -> ~ (q | x).
Proof. intros H (k & E). assert (k = 0 \/ 1 <= k \/ k <= -1) by lia. nia. Qed.
Lemma cancel a x y : ~ (q | a) -> (a * x) mod q = (a * y) mod q -> x mod q = y mod q.
Proof.
  intros N E. pose proof q_gt as G. assert (D : (q | a * (x - y))).
  { apply Z.mod_divide; [lia|]. rewrite Z.mul_sub_distr_l, Zminus_mod, E, Z.sub_diag. apply Z.mod_0_l. lia. }
  apply prime_mult in D; [|exact P]. destruct D as [D|D]; [contradiction|]. destruct D as (c & Ec).
  replace x with (y + c * q) by lia. apply Z.mod_add. lia.
Qed.
Lemma square_pm x y : (x * x) mod q = (y * y) mod q -> x mod q = y mod q \/ x mod q = (- y) mod q.
Proof.
  intros E. pose proof q_gt as G. assert (D : (q | (x - y) * (x + y))).
  { apply Z.mod_divide; [lia|]. replace ((x - y) * (x + y)) with (x * x - y * y) by ring. rewrite Zminus_mod, E, Z.sub_diag. apply Z.mod_0_l. lia. }
  apply prime_mult in D; [|exact P]. destruct D as [(c & Ec)|(c & Ec)].
  - left. replace x with (y + c * q) by lia. apply Z.mod_add. lia.
  - right. replace x with (- y + c * q) by lia. apply Z.mod_add. lia.
Qed.
Lemma root_one x : (x * x) mod q = 1 -> x mod q = 1 \/ x mod q = q - 1.
Proof.
  intros E. pose proof q_gt as G. destruct (square_pm x 1) as [H|H].
  - rewrite E, Z.mod_1_l by lia. reflexivity.
  - left. rewrite H. apply Z.mod_1_l. lia.
  - right. rewrite H. rewrite Z.mod_opp_l_nz; rewrite ?Z.mod_1_l; lia.
Qed.
Lemma h_pos : 1 <= h.
Proof. pose proof q_gt. pose proof q_half. lia. Qed.
Lemma euler_pm x : ~ (q | x) -> x ^ h mod q = 1 \/ x ^ h mod q = q - 1.
Proof.
  intros N. apply root_one. rewrite <- Z.pow_add_r by (pose proof h_pos; lia). replace (h + h) with (q - 1) by (pose proof q_half; lia).
  apply fermat; assumption.
Qed.
Lemma nonresidue : exists z, 0 < z < q /\ z ^ h mod q = q - 1.
Proof.
  pose proof q_gt as G. pose proof q_half as Eh. pose proof h_pos as Ph.
  set (xs := map Z.of_nat (seq 1 (Z.to_nat (q - 1)))).
  assert (Rg : forall x, In x xs <-> 0 < x < q).
  { intros x. unfold xs. rewrite in_map_iff. split.
    - intros (n & <- & Hn). apply in_seq in Hn. lia.
    - intros Hx. exists (Z.to_nat x). split; [lia|]. apply in_seq. lia. }
  destruct (Forall_Exists_dec (fun x => x ^ h mod q = 1) (fun x => Z.eq_dec _ _) xs) as [A|A].
  - exfalso. assert (B : (length xs <= Z.to_nat h)%nat).
    { apply (root_bound q P (Z.to_nat h) (-1 :: repeat 0 (Z.to_nat h - 1))).
      - cbn [length]. rewrite repeat_length. lia.
      - apply FinFun.Injective_map_NoDup; [intros a b; lia|apply seq_NoDup].
      - apply Forall_forall. intros x Hx. apply Rg in Hx. lia.
      - apply Forall_forall. intros x Hx. rewrite Forall_forall in A. specialize (A x Hx).
        unfold peval. cbn [app fold_right]. fold (peval (repeat 0 (Z.to_nat h - 1) ++ [1]) x). rewrite peval_zeros.
        rewrite <- Z.pow_succ_r by lia. replace (Z.succ (Z.of_nat (Z.to_nat h - 1))) with h by lia.
        apply Z.mod_divide; [lia|]. replace (-1 + x ^ h) with (x ^ h - 1) by ring. rewrite Zminus_mod, A, Z.mod_1_l, Z.sub_diag by lia. apply Z.mod_0_l. lia. }
    unfold xs in B. rewrite map_length, seq_length in B. lia.
  - apply Exists_exists in A. destruct A as (z & Hz & Nz). apply Rg in Hz. exists z. split; [exact Hz|].
    destruct (euler_pm z (not_div z Hz)) as [E|E]; [contradiction|exact E].
Qed.
Lemma square_euler x a : ~ (q | a) -> (x * x) mod q = a mod q -> a ^ h mod q = 1.
Proof.
  intros N E. pose proof q_half as Eh. pose proof h_pos as Ph. pose proof q_gt as G. rewrite <- pow_mod_idemp, <- E, pow_mod_idemp by lia.
  replace (x * x) with (x ^ 2) by ring. rewrite <- Z.pow_mul_r by lia. replace (2 * h) with (q - 1) by lia. apply fermat; [exact P|].
  intros (c & ->). apply N. apply Z.mod_divide; [lia|]. rewrite <- E. replace (c * q * (c * q)) with ((c * c * q) * q) by ring. apply Z.mod_mul. lia.
Qed.
Lemma legendre_val x : py_legendre x q = Ok (if x ^ h mod q =? q - 1 then -1 else x ^ h mod q).
Proof.
  pose proof q_gt as G. pose proof h_pos as Ph. unfold py_legendre, ppow. fold h. rewrite (proj2 (Z.eqb_neq q 0)), (proj2 (Z.ltb_ge h 0)) by lia.
  cbn [orb]. rewrite bind_ok. destruct (x ^ h mod q =? q - 1); reflexivity.
Qed.

(** ** The loops *)
Lemma odd_loop_spec : forall f n s, 0 < n < 2 ^ Z.of_nat f -> 0 <= s ->
  exists m e, 0 <= e /\ Z.odd m = true /\ 0 < m /\ n = m * 2 ^ e /\ forall g, (f <= g)%nat -> py_odd_loop g n s = Ok (m, s + e).
Proof.
  induction f as [|f IH]; intros n s Hn Hs; [change (2 ^ Z.of_nat 0) with 1 in Hn; lia|].
  rewrite Nat2Z.inj_succ, Z.pow_succ_r in Hn by lia. destruct (Z.even n) eqn:E.
  - pose proof E as E'. apply Z.even_spec in E'. destruct E' as (k & ->). destruct (IH k (s + 1) ltac:(lia) ltac:(lia)) as (m & e & He & Om & Pm & Ek & Hg).
    exists m, (e + 1). split; [lia|]. split; [exact Om|]. split; [exact Pm|]. split; [rewrite Ek, Z.pow_add_r by lia; change (2 ^ 1) with 2; ring|].
    intros g Lg. destruct g as [|g]; [lia|]. cbn [py_odd_loop]. rewrite Zmod_odd, <- Z.negb_even, E. cbn [negb]. change (0 =? 0) with true. cbv iota.
    rewrite (Z.mul_comm 2 k), Z.div_mul by lia. rewrite Hg by lia. do 2 f_equal. lia.
  - exists n, 0. split; [lia|]. split; [rewrite <- Z.negb_even, E; reflexivity|]. split; [lia|]. split; [ring|].
    intros g Lg. destruct g as [|g]; [lia|]. cbn [py_odd_loop]. rewrite Zmod_odd, <- Z.negb_even, E. cbn [negb]. change (1 =? 0) with false. cbv iota.
    rewrite Z.add_0_r. reflexivity.
Qed.
Lemma nonres_loop_spec z0 : z0 ^ h mod q = q - 1 -> forall n z, z0 = z + Z.of_nat n ->
  exists y, y ^ h mod q = q - 1 /\ forall g, (n < g)%nat -> py_nonres_loop g z q = Ok y.
Proof.
  intros N. pose proof q_gt as G. assert (St : forall z g, py_nonres_loop (S g) z q = if z ^ h mod q =? q - 1 then Ok z else py_nonres_loop g (z + 1) q).
  { intros z g. cbn [py_nonres_loop]. rewrite legendre_val, bind_ok. pose proof (Z.mod_pos_bound (z ^ h) q ltac:(lia)).
    destruct (z ^ h mod q =? q - 1); [reflexivity|]. rewrite (proj2 (Z.eqb_neq (z ^ h mod q) (-1))) by lia. reflexivity. }
  induction n as [|n IH]; intros z E.
  - assert (z = z0) by lia. subst z. exists z0. split; [exact N|]. intros g Hg. destruct g as [|g]; [lia|].
    rewrite St, N, Z.eqb_refl. reflexivity.
  - destruct (IH (z + 1) ltac:(lia)) as (y & Hy & Hg). destruct (Z.eqb_spec (z ^ h mod q) (q - 1)) as [D|D].
    + exists z. split; [exact D|]. intros g Lg. destruct g as [|g]; [lia|]. rewrite St, D, Z.eqb_refl. reflexivity.
    + exists y. split; [exact Hy|]. intros g Lg. destruct g as [|g]; [lia|]. rewrite St, (proj2 (Z.eqb_neq _ _) D). apply Hg. lia.
Qed.
(** The inner loop finds the least i with t^(2^i) = 1. *)
Lemma order_loop_spec t : forall n prev i, 1 <= i -> t ^ (2 ^ (i + Z.of_nat n - 1)) mod q = 1 -> (1 <= n)%nat ->
  t ^ (2 ^ (i - 1)) mod q <> 1 ->
  exists j, py_order_loop n t q prev i (2 ^ i) = Ok j /\ i <= j < i + Z.of_nat n /\ t ^ (2 ^ j) mod q = 1 /\ t ^ (2 ^ (j - 1)) mod q <> 1.
Proof.
  pose proof q_gt as G. induction n as [|n IH]; intros prev i Hi E Hn N; [lia|]. cbn [py_order_loop]. unfold ppow.
  rewrite (proj2 (Z.eqb_neq q 0)), (proj2 (Z.ltb_ge (2 ^ i) 0)) by (pose proof (Z.pow_nonneg 2 i); lia). cbn [orb]. rewrite bind_ok.
  destruct (Z.eqb_spec (t ^ 2 ^ i mod q) 1) as [D|D].
  - exists i. split; [reflexivity|]. split; [lia|]. split; [exact D|exact N].
  - destruct n as [|n].
    + exfalso. apply D. replace (i + Z.of_nat 1 - 1) with i in E by lia. exact E.
    + rewrite Nat2Z.inj_succ in E. destruct (IH i (i + 1)) as (j & Ej & Bj & Tj).
      * lia.
      * replace (i + 1 + Z.of_nat (S n) - 1) with (i + Z.succ (Z.of_nat (S n)) - 1) by lia. exact E.
      * lia.
      * replace (i + 1 - 1) with i by lia. exact D.
      * exists j. split; [replace (2 ^ i * 2) with (2 ^ (i + 1)) by (rewrite Z.pow_add_r by lia; reflexivity); exact Ej|]. split; [lia|exact Tj].
Qed.
Lemma pow2_split t n : 1 <= n -> t ^ (2 ^ n) = t ^ (2 ^ (n - 1)) * t ^ (2 ^ (n - 1)).
Proof.
  intros Hn. rewrite <- Z.pow_add_r by (apply Z.pow_nonneg; lia). f_equal. replace n with (1 + (n - 1)) at 1 by ring. rewrite Z.pow_add_r by lia.
  change (2 ^ 1) with 2. ring.
Qed.
Lemma sqrt_loop_spec a : forall f m x t c, (Z.to_nat m <= f)%nat -> 1 <= m -> 0 <= t < q -> 0 <= x < q ->
  (x * x) mod q = (a * t) mod q -> c ^ (2 ^ (m - 1)) mod q = q - 1 -> t ^ (2 ^ (m - 1)) mod q = 1 ->
  exists y, 0 <= y < q /\ (y * y) mod q = a mod q /\ forall g, (f < g)%nat -> py_sqrt_loop g q x t c m = Ok y.
Proof.
  pose proof q_gt as G. induction f as [|f IH]; intros m x t c Hf Hm Ht Hx Ex Ec Et; [clear - Hf Hm; lia|].
  destruct (Z.eq_dec t 1) as [->|Nt].
  - exists x. split; [exact Hx|]. split; [rewrite Ex, Z.mul_1_r; reflexivity|]. intros g Hg. destruct g as [|g]; [lia|]. reflexivity.
  - assert (M : 2 <= m).
    { destruct (Z.eq_dec m 1) as [->|]; [|clear - Hm n; lia]. change (2 ^ (1 - 1)) with 1 in Et. rewrite Z.pow_1_r, Z.mod_small in Et by lia. contradiction. }
    destruct (order_loop_spec t (Z.to_nat (m - 1)) 0 1) as (i & Ei & Bi & Ti & Ni).
    + clear - M; lia.
    + rewrite (Z.add_comm 1), Z2Nat.id by (clear - M; lia). rewrite Z.add_simpl_r. exact Et.
    + clear - M; lia.
    + change (2 ^ (1 - 1)) with 1. rewrite Z.pow_1_r, Z.mod_small by lia. exact Nt.
    + rewrite Z2Nat.id in Bi by (clear - M; lia). set (b := c ^ (2 ^ (m - i - 1)) mod q).
      assert (Pe : forall n, 0 <= 2 ^ n) by (intros n; apply Z.pow_nonneg; lia).
      assert (Bb : b ^ (2 ^ i) mod q = q - 1).
      { unfold b. rewrite pow_mod_idemp by apply Pe. rewrite <- Z.pow_mul_r by apply Pe. rewrite <- Z.pow_add_r by lia.
        replace (m - i - 1 + i) with (m - 1) by ring. exact Ec. }
      assert (Tm : t ^ (2 ^ (i - 1)) mod q = q - 1).
      { destruct (root_one (t ^ (2 ^ (i - 1)))) as [D|D]; [rewrite <- pow2_split by lia; exact Ti|contradiction|exact D]. }
      assert (B2 : (b * b) ^ (2 ^ (i - 1)) = b ^ (2 ^ i)) by (rewrite Z.pow_mul_l, <- pow2_split by lia; reflexivity).
      destruct (IH i ((x * b) mod q) ((t * b * b) mod q) ((b * b) mod q)) as (y & By & Ey & Hy).
      * clear - Hf Bi; lia.
      * clear - Bi; lia.
      * apply Z.mod_pos_bound. lia.
      * apply Z.mod_pos_bound. lia.
      * rewrite <- Zmult_mod, Zmult_mod_idemp_r. replace (x * b * (x * b)) with (x * x * (b * b)) by ring.
        rewrite Zmult_mod, Ex, <- Zmult_mod. f_equal. ring.
      * rewrite pow_mod_idemp by apply Pe. rewrite B2. exact Bb.
      * rewrite pow_mod_idemp by apply Pe. rewrite <- Z.mul_assoc, Z.pow_mul_l, B2, Zmult_mod, Tm, Bb.
        replace ((q - 1) * (q - 1)) with (1 + (q - 2) * q) by ring. rewrite Z.mod_add by lia. apply Z.mod_1_l. lia.
      * exists y. split; [exact By|]. split; [exact Ey|]. intros g Hg. destruct g as [|g]; [clear - Hg; lia|]. cbn [py_sqrt_loop].
        rewrite (proj2 (Z.eqb_neq t 1) Nt). cbn [negb]. change 2 with (2 ^ 1) at 1. rewrite Ei, bind_ok.
        rewrite (proj2 (Z.leb_le 0 (m - i - 1))) by lia. cbn [rassert]. rewrite bind_ok. unfold ppow, pmod.
        rewrite (proj2 (Z.eqb_neq q 0)) by lia. rewrite (proj2 (Z.ltb_ge (2 ^ (m - i - 1)) 0)) by apply Pe. cbn [orb].
        rewrite !bind_ok. fold b. apply Hy. clear - Hg; lia.
Qed.

(** ** The whole function *)
Lemma pair_roots a y : ~ (q | a) -> 0 <= y < q -> (y * y) mod q = a mod q ->
  NoDup [y; q - y] /\ forall x, In x [y; q - y] <-> 0 <= x < q /\ (x * x) mod q = a mod q.
Proof.
  intros N Hy Ey. pose proof q_gt as G. pose proof q_half as Eh.
  assert (Y : y <> 0).
  { intros ->. apply N. apply Z.mod_divide; [lia|]. rewrite <- Ey. reflexivity. }
  split.
  - constructor; [|constructor; [intros []|constructor]]. intros [E|[]]. lia.
  - intros x. split.
    + intros [<-|[<-|[]]]; [split; assumption|]. split; [lia|]. rewrite <- Ey. replace ((q - y) * (q - y)) with (y * y + (q - 2 * y) * q) by ring. apply Z.mod_add. lia.
    + intros (Hx & Ex). destruct (square_pm x y) as [E|E]; [congruence| |].
      * left. rewrite !Z.mod_small in E by lia. lia.
      * right. left. rewrite Z.mod_opp_l_nz in E; rewrite ?(Z.mod_small y), ?(Z.mod_small x) in *; lia.
Qed.
Lemma prime_mod_sqrt_odd a z0 : 0 < z0 -> z0 ^ h mod q = q - 1 ->
  exists l, (forall fuel, (Z.to_nat (Z.log2 q + z0) < fuel)%nat -> prime_mod_sqrt fuel a q = Ok l) /\ NoDup l /\
    forall x, In x l <-> 0 <= x < q /\ (x * x) mod q = a mod q.
Proof.
  intros Pz Nz. pose proof q_gt as G. pose proof q_half as Eh. pose proof h_pos as Ph.
  assert (Lq : 0 <= Z.log2 q) by apply Z.log2_nonneg.
  assert (Am : forall x, (x * x) mod q = a mod q <-> (x * x) mod q = (a mod q) mod q) by (intros x; rewrite Z.mod_mod by lia; reflexivity).
  assert (Ba : 0 <= a mod q < q) by (apply Z.mod_pos_bound; lia).
  assert (Red : exists l, (forall fuel, (Z.to_nat (Z.log2 q + z0) < fuel)%nat -> prime_mod_sqrt fuel a q = Ok l) /\ NoDup l /\
    forall x, In x l <-> 0 <= x < q /\ (x * x) mod q = (a mod q) mod q).
  2:{ destruct Red as (l & A & B & C). exists l. split; [exact A|]. split; [exact B|]. intros x. rewrite C, Am. reflexivity. }
  assert (St : forall fuel, prime_mod_sqrt fuel a q = prime_mod_sqrt fuel (a mod q) q).
  { intros fuel. unfold prime_mod_sqrt, pmod. rewrite (proj2 (Z.eqb_neq q 0)) by lia. rewrite !bind_ok, Z.mod_mod by lia. reflexivity. }
  clear Am. revert St Ba. generalize (a mod q). intros b St Hb.
  assert (Red : exists l, (forall fuel, (Z.to_nat (Z.log2 q + z0) < fuel)%nat -> prime_mod_sqrt fuel b q = Ok l) /\ NoDup l /\
    forall x, In x l <-> 0 <= x < q /\ (x * x) mod q = b mod q).
  2:{ destruct Red as (l & A & B). exists l. split; [|exact B]. intros fuel Hf. rewrite St. apply A. exact Hf. }
  clear St a. destruct (Z.eq_dec b 0) as [->|Nb].
  - exists [0]. split; [|split].
    + intros fuel _. unfold prime_mod_sqrt, pmod. rewrite (proj2 (Z.eqb_neq q 0)) by lia. rewrite bind_ok, Z.mod_0_l by lia. reflexivity.
    + constructor; [intros []|constructor].
    + intros x. rewrite Z.mod_0_l by lia. split.
      * intros [<-|[]]. split; [lia|]. apply Z.mod_0_l. lia.
      * intros (Hx & Ex). left. apply Z.mod_divide in Ex; [|lia]. apply prime_mult in Ex; [|exact P].
        destruct (Z.eq_dec x 0) as [->|]; [reflexivity|]. exfalso. apply (not_div x); [lia|]. destruct Ex; assumption.
  - assert (N : ~ (q | b)) by (apply not_div; lia).
    assert (Front : forall fuel k, prime_mod_sqrt fuel b q = k <->
      (if negb ((if b ^ h mod q =? q - 1 then -1 else b ^ h mod q) =? 1) then Ok []
       else if q mod 4 =? 3 then x <- ppow b ((q + 1) / 4) q ;; Ok [x; q - x]
       else '(m, s) <- py_odd_loop fuel (q - 1) 0 ;; z <- py_nonres_loop fuel 1 q ;; c <- ppow z m q ;; x <- ppow b ((m + 1) / 2) q ;;
            t <- ppow b m q ;; x <- py_sqrt_loop fuel q x t c s ;; Ok [x; q - x]) = k).
    { intros fuel k. unfold prime_mod_sqrt, pmod. rewrite (proj2 (Z.eqb_neq q 0)) by lia. rewrite bind_ok, Z.mod_small by lia.
      rewrite (proj2 (Z.eqb_neq b 0) Nb), (proj2 (Z.eqb_neq q 2)), legendre_val, bind_ok by lia. reflexivity. }
    destruct (euler_pm b N) as [E|E].
    2:{ exists []. split; [|split].
      - intros fuel _. apply Front. rewrite E, Z.eqb_refl. reflexivity.
      - constructor.
      - intros x. split; [intros []|]. intros (_ & Ex). exfalso. rewrite (square_euler x b N Ex) in E. lia. }
    assert (Ppow : forall y e, 0 <= e -> ppow y e q = Ok (y ^ e mod q)).
    { intros y e He. unfold ppow. rewrite (proj2 (Z.eqb_neq q 0)), (proj2 (Z.ltb_ge e 0)) by lia. reflexivity. }
    assert (N1 : (1 =? q - 1) = false) by (apply Z.eqb_neq; lia).
    destruct (Z.eqb_spec (q mod 4) 3) as [M|M].
    + set (y := b ^ ((q + 1) / 4) mod q). assert (By : 0 <= y < q) by (apply Z.mod_pos_bound; lia).
      pose proof (Z.div_mod q 4 ltac:(lia)) as D4. rewrite M in D4.
      assert (D1 : (q + 1) / 4 = q / 4 + 1) by (rewrite D4 at 1; replace (4 * (q / 4) + 3 + 1) with ((q / 4 + 1) * 4) by ring; apply Z.div_mul; lia).
      assert (Q4 : 0 <= q / 4) by (apply Z.div_pos; lia).
      assert (Ey : (y * y) mod q = b mod q).
      { unfold y. rewrite <- Zmult_mod, <- Z.pow_add_r by (clear - D1 Q4; lia). replace ((q + 1) / 4 + (q + 1) / 4) with (1 + h) by (clear - D1 D4 Eh; lia).
        rewrite Z.pow_add_r, Z.pow_1_r, Zmult_mod, E, Z.mul_1_r by lia. apply Z.mod_mod. lia. }
      exists [y; q - y]. split; [|exact (pair_roots b y N By Ey)].
      intros fuel _. apply Front. rewrite E, N1. cbn [negb Z.eqb Pos.eqb]. rewrite Ppow, bind_ok by (clear - D1 Q4; lia). reflexivity.
    + destruct (odd_loop_spec (Z.to_nat (Z.log2 q + 1)) (q - 1) 0) as (m & s & Hs & Om & Pm & Em & Hodd).
      { rewrite Z2Nat.id by lia. pose proof (Z.log2_spec q ltac:(lia)) as [_ L2]. unfold Z.succ in L2. lia. }
      { lia. }
      assert (S1 : 1 <= s).
      { destruct (Z.eq_dec s 0) as [->|]; [|lia]. change (2 ^ 0) with 1 in Em. rewrite Z.mul_1_r in Em. rewrite <- Em, Eh in Om.
        replace (2 * h + 1 - 1) with (2 * h) in Om by ring. rewrite Z.odd_mul in Om. discriminate Om. }
      assert (Hh : m * 2 ^ (s - 1) = h).
      { replace s with (1 + (s - 1)) in Em by ring. rewrite Z.pow_add_r in Em by lia. change (2 ^ 1) with 2 in Em. lia. }
      assert (Sl : s <= Z.log2 q).
      { rewrite <- (Z.log2_pow2 s) by exact Hs. apply Z.log2_le_mono. assert (0 < 2 ^ s) by (apply Z.pow_pos_nonneg; lia). clear - Em Pm H; nia. }
      destruct (nonres_loop_spec z0 Nz (Z.to_nat (z0 - 1)) 1) as (z & Ez & Hz); [lia|].
      assert (P2 : 0 <= 2 ^ (s - 1)) by (apply Z.pow_nonneg; lia).
      assert (Dm : 0 <= (m + 1) / 2) by (apply Z.div_pos; lia).
      assert (Dm2 : (m + 1) / 2 + (m + 1) / 2 = 1 + m).
      { apply Z.odd_spec in Om. destruct Om as (k & ->). replace (2 * k + 1 + 1) with ((k + 1) * 2) by ring. rewrite Z.div_mul by lia. ring. }
      assert (R : exists y, 0 <= y < q /\ (y * y) mod q = b mod q /\
        forall g, (Z.to_nat s < g)%nat -> py_sqrt_loop g q (b ^ ((m + 1) / 2) mod q) (b ^ m mod q) (z ^ m mod q) s = Ok y).
      { apply sqrt_loop_spec.
        - apply Nat.le_refl.
        - exact S1.
        - apply Z.mod_pos_bound. clear - G; lia.
        - apply Z.mod_pos_bound. clear - G; lia.
        - rewrite <- Zmult_mod, <- Z.pow_add_r by exact Dm. rewrite Dm2, Z.pow_add_r, Z.pow_1_r by (clear - Pm; lia). rewrite Zmult_mod_idemp_r. reflexivity.
        - rewrite pow_mod_idemp by exact P2. rewrite <- Z.pow_mul_r, Hh by (try exact P2; clear - Pm; lia). exact Ez.
        - rewrite pow_mod_idemp by exact P2. rewrite <- Z.pow_mul_r, Hh by (try exact P2; clear - Pm; lia). exact E. }
      destruct R as (y & By & Ey & Hy). exists [y; q - y]. split; [|exact (pair_roots b y N By Ey)].
      intros fuel Hf. apply Front. rewrite E, N1. cbn [negb Z.eqb Pos.eqb].
      rewrite Hodd by (clear - Hf Lq Pz; lia). rewrite bind_ok. cbv iota beta. rewrite Hz by (clear - Hf Lq Pz; lia). rewrite bind_ok, !Ppow, !bind_ok by (try exact Dm; clear - Pm; lia).
      rewrite Z.add_0_l, Hy, bind_ok by (clear - Hf Sl Pz Lq; lia). reflexivity.
Qed.
End Prime.

Lemma prime_odd q : prime q -> q = 2 \/ Z.odd q = true.
Proof.
  intros P. destruct (Z.odd q) eqn:O; [right; reflexivity|left]. assert (E : Z.even q = true) by (rewrite <- Z.negb_odd, O; reflexivity).
  apply Z.even_spec in E. destruct E as (k & E). assert (D : (2 | q)) by (exists k; lia). apply prime_divisors in D; [|exact P].
  destruct P as [P _]. lia.
Qed.
Lemma prime_mod_sqrt_two a : exists l, (forall fuel, prime_mod_sqrt fuel a 2 = Ok l) /\ NoDup l /\
    forall x, In x l <-> 0 <= x < 2 /\ (x * x) mod 2 = a mod 2.
Proof.
  assert (B : a mod 2 = 0 \/ a mod 2 = 1) by (pose proof (Z.mod_pos_bound a 2); lia).
  exists [a mod 2]. split; [|split].
  - intros fuel. unfold prime_mod_sqrt, pmod. change (2 =? 0) with false. cbv iota. rewrite bind_ok. destruct B as [-> | ->]; reflexivity.
  - constructor; [intros []|constructor].
  - intros x. split.
    + intros [<-|[]]. destruct B as [-> | ->]; split; [lia|reflexivity|lia|reflexivity].
    + intros (Hx & Ex). left. assert (x = 0 \/ x = 1) as [-> | ->] by lia; rewrite <- Ex; reflexivity.
Qed.
