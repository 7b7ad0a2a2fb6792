(** * The Python scripts

    Statement forms; PropScript.v restates each of them and closes it with the
    lemma of the same name.                                                  *)

From Coq Require Import ZArith Znumtheory List Bool Lia.
From Verif Require Import Machine FieldModel Spec MachineFacts NumTheory Primes FieldLimb FieldMul FieldOps FieldBytes Fp FieldF FieldInv ToolsModel ToolsStmt FieldStmt ScriptModel Tonelli.
Import ListNotations.
Open Scope Z_scope.

Lemma mod2_even x : (x mod 2 =? 0) = Z.even x.
Proof. rewrite Zmod_odd, <- Z.negb_even. destruct (Z.even x); reflexivity. Qed.
Lemma shr1 h : Z.shiftr (2 * h) 1 = h.
Proof. rewrite Z.shiftr_div_pow2 by lia. change (2 ^ 1) with 2. rewrite Z.mul_comm. apply Z.div_mul. lia. Qed.
Lemma shl1 x : Z.shiftl x 1 = 2 * x.
Proof. rewrite Z.shiftl_mul_pow2 by lia. change (2 ^ 1) with 2. ring. Qed.

(** ** C88 *)
Definition extras (q x u v r s k : Z) : Prop :=
  (v = 0 -> Z.even r = true) /\ r <= 2 ^ k /\ s <= 2 ^ k /\ (0 < x -> u * v * 2 ^ k <= q * x /\ 2 ^ k <= 2 * (q * x)).
Lemma almost_loop_spec q x : Z.odd q = true -> 0 < q -> forall f u v r s k, invariant q x u v r s k -> extras q x u v r s k ->
  u * v < 2 ^ Z.of_nat f ->
  exists r' k', (forall g, (f < g)%nat -> almost_loop g u v r s k = Ok (r', k')) /\ 0 <= r' < 2 * q /\ Z.even r' = true /\ 0 <= k' /\
    (q | r' * x + Z.gcd q x * 2 ^ k') /\ q <= Z.gcd q x * 2 ^ k' /\ (0 < x -> 2 ^ k' <= 2 * (q * x)).
Proof.
  intros Oq Pq. induction f as [|f IH]; intros u v r s k (Hu & Hv & Hr & Hs & Hk & Eq & Eg & D1 & D2) (X1 & X2 & X3 & X4) Lt.
  1: assert (V : v = 0) by (change (2 ^ Z.of_nat 0) with 1 in Lt; nia). 2: destruct (Z.eq_dec v 0) as [V|V].
  1,2: subst v; exists r, k; (split; [intros g Hg; destruct g as [|g]; [lia|]; reflexivity|]); (split; [exact Hr|]); (split; [exact (X1 eq_refl)|]);
    (split; [exact Hk|]); rewrite Z.gcd_0_r, Z.abs_eq in Eg by lia; rewrite <- Eg; (split; [exact D1|]); (split; [nia|]); intros P; apply X4; exact P.
  assert (Pv : 0 < v) by lia. rewrite Nat2Z.inj_succ, Z.pow_succ_r in Lt by lia.
  assert (K2 : 2 ^ (k + 1) = 2 * 2 ^ k) by (rewrite Z.pow_add_r by lia; change (2 ^ 1) with 2; ring).
  assert (Gd : (Z.gcd u v | q)) by (rewrite Eg; apply Z.gcd_divide_l).
  assert (Br : r < q) by nia. assert (Pk : 0 < 2 ^ k) by (apply Z.pow_pos_nonneg; lia).
  assert (Step : forall u' v' r' s', invariant q x u' v' r' s' (k + 1) -> (v' = 0 -> Z.even r' = true) -> r' <= 2 * 2 ^ k -> s' <= 2 * 2 ^ k ->
    2 * (u' * v') <= u * v ->
    (forall g, almost_loop (S g) u v r s k = almost_loop g u' v' r' s' (k + 1)) ->
    exists r' k', (forall g, (S f < g)%nat -> almost_loop g u v r s k = Ok (r', k')) /\ 0 <= r' < 2 * q /\ Z.even r' = true /\ 0 <= k' /\
    (q | r' * x + Z.gcd q x * 2 ^ k') /\ q <= Z.gcd q x * 2 ^ k' /\ (0 < x -> 2 ^ k' <= 2 * (q * x))).
  { intros u' v' r' s' I E1 E2 E3 E4 E5. assert (X4' : 0 < x -> u' * v' * 2 ^ (k + 1) <= q * x /\ 2 ^ (k + 1) <= 2 * (q * x)).
    { intros P. destruct (X4 P) as [A B]. rewrite K2. split.
      - apply Z.le_trans with (u * v * 2 ^ k); [nia|exact A].
      - assert (1 <= u * v) by nia. nia. }
    assert (Xs : extras q x u' v' r' s' (k + 1)).
    { split; [exact E1|]. rewrite K2. split; [exact E2|]. split; [exact E3|]. rewrite <- K2. exact X4'. }
    destruct (IH u' v' r' s' (k + 1) I Xs ltac:(lia)) as (r0 & k0 & A & B). exists r0, k0. split; [|exact B].
    intros g Hg. destruct g as [|g]; [lia|]. rewrite E5. apply A. lia. }
  destruct (Z.even u) eqn:Eu.
  - pose proof (gcd_even u v q Oq Gd Eu) as Ov. apply Z.even_spec in Eu. destruct Eu as (h & Eh). subst u.
    apply (Step h v r (2 * s)); [|lia|lia|lia|lia|].
    + split; [lia|]. split; [exact Hv|]. split; [exact Hr|]. split; [lia|]. split; [lia|]. split; [lia|]. split; [rewrite <- Eg; symmetry; apply gcd_half; exact Ov|].
      rewrite K2. split; [replace (r * x + h * (2 * 2 ^ k)) with (r * x + 2 * h * 2 ^ k) by ring; exact D1|].
      replace (2 * s * x - v * (2 * 2 ^ k)) with (2 * (s * x - v * 2 ^ k)) by ring. apply Z.divide_mul_r. exact D2.
    + intros g. cbn [almost_loop]. rewrite (proj2 (Z.ltb_lt 0 v) Pv), mod2_even, Z.even_mul, shr1, shl1. reflexivity.
  - assert (Ou : Z.odd u = true) by (rewrite <- Z.negb_even, Eu; reflexivity). destruct (Z.even v) eqn:Ev.
    + apply Z.even_spec in Ev. destruct Ev as (h & Eh). subst v. apply (Step u h (2 * r) s); [|lia|lia|lia|lia|].
      * split; [lia|]. split; [lia|]. split; [nia|]. split; [lia|]. split; [lia|]. split; [lia|].
        split; [rewrite <- Eg, (Z.gcd_comm u (2 * h)), (Z.gcd_comm u h); symmetry; apply gcd_half; exact Ou|].
        rewrite K2. split; [replace (2 * r * x + u * (2 * 2 ^ k)) with (2 * (r * x + u * 2 ^ k)) by ring; apply Z.divide_mul_r; exact D1|].
        replace (s * x - h * (2 * 2 ^ k)) with (s * x - 2 * h * 2 ^ k) by ring. exact D2.
      * intros g. cbn [almost_loop]. rewrite (proj2 (Z.ltb_lt 0 _) Pv), !mod2_even, Eu, Z.even_mul, shr1, shl1. reflexivity.
    + assert (Ov : Z.odd v = true) by (rewrite <- Z.negb_even, Ev; reflexivity).
      destruct (Z.ltb_spec v u) as [Luv|Luv].
      * assert (Hh : exists h, u - v = 2 * h) by (apply Z.even_spec; rewrite Z.even_sub, Eu, Ev; reflexivity). destruct Hh as (h & Eh).
        apply (Step h v (r + s) (2 * s)); [|lia|lia|lia|nia|].
        -- assert (Us : 2 * h * s + v * (r + s) = q) by nia.
           split; [lia|]. split; [exact Hv|]. split; [nia|]. split; [lia|]. split; [lia|]. split; [lia|].
           split; [rewrite <- Eg; transitivity (Z.gcd (2 * h) v); [symmetry; apply gcd_half; exact Ov|];
             rewrite <- Eh; apply gcd_sub_l|].
           rewrite K2. split.
           ++ replace ((r + s) * x + h * (2 * 2 ^ k)) with (r * x + u * 2 ^ k + (s * x - v * 2 ^ k)) by (replace (h * (2 * 2 ^ k)) with (2 * h * 2 ^ k) by ring; rewrite <- Eh; ring).
              apply Z.divide_add_r; assumption.
           ++ replace (2 * s * x - v * (2 * 2 ^ k)) with (2 * (s * x - v * 2 ^ k)) by ring. apply Z.divide_mul_r. exact D2.
        -- intros g. cbn [almost_loop]. rewrite (proj2 (Z.ltb_lt 0 v) Pv), !mod2_even, Eu, Ev, (proj2 (Z.ltb_lt v u) Luv), Eh, shr1, shl1. reflexivity.
      * assert (Hh : exists h, v - u = 2 * h) by (apply Z.even_spec; rewrite Z.even_sub, Eu, Ev; reflexivity). destruct Hh as (h & Eh).
        apply (Step u h (2 * r) (r + s)); [|intros _; rewrite Z.even_mul; reflexivity|lia|lia|nia|].
        -- split; [lia|]. split; [lia|]. split; [nia|]. split; [lia|]. split; [lia|]. split; [nia|].
           split; [rewrite <- Eg; transitivity (Z.gcd (2 * h) u); [rewrite gcd_half by exact Ou; apply Z.gcd_comm|];
             rewrite <- Eh, (Z.gcd_comm u v); apply gcd_sub_l|].
           rewrite K2. split.
           ++ replace (2 * r * x + u * (2 * 2 ^ k)) with (2 * (r * x + u * 2 ^ k)) by ring. apply Z.divide_mul_r. exact D1.
           ++ replace ((r + s) * x - h * (2 * 2 ^ k)) with (r * x + u * 2 ^ k + (s * x - v * 2 ^ k)) by (replace (h * (2 * 2 ^ k)) with (2 * h * 2 ^ k) by ring; rewrite <- Eh; ring).
              apply Z.divide_add_r; assumption.
        -- intros g. cbn [almost_loop]. rewrite (proj2 (Z.ltb_lt 0 v) Pv), !mod2_even, Eu, Ev, (proj2 (Z.ltb_ge v u) Luv), Eh, shr1, shl1. reflexivity.
Qed.
(** For every odd modulus: the almost inverse d of x with its exponent k, which lies between
    the length of the modulus and the length of the product. *)
Lemma C88_almost_stmt : forall q x, 0 < q -> Z.odd q = true -> 0 <= x ->
  exists d k, 0 < d <= q /\ 0 <= k /\ (d * x) mod q = (Z.gcd q x * 2 ^ k) mod q /\
    q <= Z.gcd q x * 2 ^ k /\ (0 < x -> 2 ^ k <= 2 * (q * x)) /\
    forall fuel, Z.log2 q + Z.log2 x + 3 <= Z.of_nat fuel -> almost_mont_inv fuel x q = Ok (d, k).
Proof.
  intros q x Pq Oq Hx. pose proof (Z.log2_nonneg x) as Nx. pose proof (Z.log2_nonneg q) as Nq.
  assert (Lx : q * x < 2 ^ Z.of_nat (Z.to_nat (Z.log2 q + Z.log2 x + 2))).
  { rewrite Z2Nat.id by lia. replace (Z.log2 q + Z.log2 x + 2) with (Z.succ (Z.log2 q) + Z.succ (Z.log2 x)) by lia. rewrite Z.pow_add_r by lia.
    assert (Q : q < 2 ^ Z.succ (Z.log2 q)) by (apply Z.log2_spec; lia). assert (B : x < 2 ^ Z.succ (Z.log2 x)).
    { destruct (Z.eq_dec x 0) as [->|]; [vm_compute; reflexivity|]. apply Z.log2_spec. lia. }
    nia. }
  destruct (almost_loop_spec q x Oq Pq (Z.to_nat (Z.log2 q + Z.log2 x + 2)) q x 0 1 0) with (3 := Lx) as (r & k & E & Br & Er & Nk & D & Bl & Bu).
  - split; [lia|]. split; [exact Hx|]. split; [lia|]. split; [lia|]. split; [lia|]. split; [lia|]. split; [reflexivity|].
    change (2 ^ 0) with 1. split; [exists 1; ring|exists 0; ring].
  - change (2 ^ 0) with 1. split; [reflexivity|]. split; [lia|]. split; [lia|]. intros P. nia.
  - assert (Ne : r <> q) by (intros ->; rewrite <- Z.negb_odd, Oq in Er; discriminate Er).
    exists (if q <? r then q - (r - q) else q - r), k. split; [destruct (Z.ltb_spec q r); lia|]. split; [exact Nk|]. split.
    + destruct D as (c & Ec). assert (Nz : q <> 0) by lia. destruct (q <? r).
      * replace ((q - (r - q)) * x) with (Z.gcd q x * 2 ^ k + (2 * x - c) * q) by lia. apply Z.mod_add. exact Nz.
      * replace ((q - r) * x) with (Z.gcd q x * 2 ^ k + (x - c) * q) by lia. apply Z.mod_add. exact Nz.
    + split; [exact Bl|]. split; [exact Bu|]. intros fuel Hf. unfold almost_mont_inv. rewrite E by lia. rewrite bind_ok.
      destruct (q <? r); reflexivity.
Qed.
(** The halving loop divides by 2^(k-253). *)
Lemma phase2_loop_spec q : 0 < q -> Z.odd q = true -> forall n r, 0 < r <= q ->
  exists y, py_phase2_loop n q r = Ok y /\ 0 < y <= q /\ (2 ^ Z.of_nat n * y) mod q = r mod q.
Proof.
  intros Pq Oq. induction n as [|n IH]; intros r Hr.
  - exists r. split; [reflexivity|]. split; [exact Hr|]. change (2 ^ Z.of_nat 0) with 1. rewrite Z.mul_1_l. reflexivity.
  - cbn [py_phase2_loop]. rewrite mod2_even. rewrite Nat2Z.inj_succ, Z.pow_succ_r by lia. destruct (Z.even r) eqn:E.
    + apply Z.even_spec in E. destruct E as (h & ->). rewrite shr1. unfold pmod. rewrite (proj2 (Z.eqb_neq q 0)) by lia. rewrite bind_ok.
      rewrite Z.mod_small by lia. destruct (IH h ltac:(lia)) as (y & E & By & V). exists y. split; [exact E|]. split; [exact By|].
      rewrite <- Z.mul_assoc, Zmult_mod, V, <- Zmult_mod. reflexivity.
    + assert (H : exists h, r + q = 2 * h).
      { apply Z.even_spec. rewrite Z.even_add, E, <- Z.negb_odd, Oq. reflexivity. }
      destruct H as (h & Eh). rewrite Eh, shr1. destruct (IH h ltac:(lia)) as (y & Ey & By & V). exists y. split; [exact Ey|]. split; [exact By|].
      rewrite <- Z.mul_assoc, Zmult_mod, V, <- Zmult_mod, <- Eh. replace (r + q) with (r + 1 * q) by ring. apply Z.mod_add. lia.
Qed.
Lemma C88_phase2_stmt : forall q r k, 0 < q -> Z.odd q = true -> 0 < r <= q ->
  exists y, py_phase2 q r k = Ok y /\ 0 < y <= q /\ (2 ^ Z.max 0 (k - 253) * y) mod q = r mod q.
Proof.
  intros q r k Pq Oq Hr. destruct (phase2_loop_spec q Pq Oq (Z.to_nat (k - 253)) r Hr) as (y & E & B & V).
  exists y. split; [exact E|]. split; [exact B|]. rewrite <- V. do 3 f_equal. lia.
Qed.
Lemma odd_pow_cancel q n a b : 0 < q -> Z.odd q = true -> 0 <= n -> (2 ^ n * a) mod q = (2 ^ n * b) mod q -> a mod q = b mod q.
Proof.
  intros Pq Oq Hn E. assert (D : (q | 2 ^ n * (a - b))).
  { apply Z.mod_divide; [lia|]. rewrite Z.mul_sub_distr_l, Zminus_mod, E, Z.sub_diag. apply Z.mod_0_l. lia. }
  apply Gauss in D.
  - destruct D as (c & Ec). replace a with (b + c * q) by lia. apply Z.mod_add. lia.
  - apply Zpow_facts.rel_prime_Zpower_r; [exact Hn|]. apply rel_prime_sym, prime_rel_prime; [exact prime_2|]. intros (h & Eh).
    rewrite Eh, Z.odd_mul, andb_false_r in Oq. discriminate Oq.
Qed.
(** Both together, for every odd modulus above 2^252 and every unit: the inverse times
    2^253. *)
Lemma C88_inverse_stmt : forall q x, 2 ^ 252 < q -> Z.odd q = true -> 0 < x -> Z.gcd q x = 1 ->
  exists ainv k y, 253 <= k /\ 0 < y < q /\ (y * x) mod q = 2 ^ 253 mod q /\
  forall fuel, Z.log2 q + Z.log2 x + 3 <= Z.of_nat fuel ->
    py_kalinski fuel x q = Ok (py_limbs ainv, ainv, k, py_limbs q, py_limbs y, y).
Proof.
  intros q x Hq Oq Hx G. assert (Pq : 1 < q) by (apply Z.lt_trans with (2 := Hq); reflexivity).
  destruct (C88_almost_stmt q x ltac:(lia) Oq ltac:(lia)) as (d & k & Bd & Nk & V & Bl & _ & E). rewrite G, Z.mul_1_l in *.
  assert (Hk : 253 <= k).
  { assert (L : 2 ^ 252 < 2 ^ k) by (apply Z.lt_le_trans with q; assumption). apply Z.pow_lt_mono_r_iff in L; lia. }
  destruct (C88_phase2_stmt q d k ltac:(lia) Oq Bd) as (y & Ey & By & Vy). rewrite Z.max_r in Vy by lia.
  assert (K : (y * x) mod q = 2 ^ 253 mod q).
  { apply (odd_pow_cancel q (k - 253)); [lia|exact Oq|lia|]. rewrite Z.mul_assoc, Zmult_mod, Vy, <- Zmult_mod, V.
    rewrite <- Z.pow_add_r by lia. do 2 f_equal. lia. }
  exists d, k, y. split; [exact Hk|]. split.
  - split; [apply By|]. destruct (Z.eq_dec y q) as [->|N]; [|lia]. exfalso. rewrite Z.mul_comm, Z.mod_mul in K by lia.
    assert (Z1 : (2 ^ 253 * 1) mod q = (2 ^ 253 * 0) mod q) by (rewrite Z.mul_1_r, Z.mul_0_r, <- K; reflexivity).
    apply odd_pow_cancel in Z1; [|lia|exact Oq|lia]. rewrite Z.mod_1_l, Z.mod_0_l in Z1 by lia. discriminate Z1.
  - split; [exact K|]. intros fuel Hf. unfold py_kalinski. rewrite E by exact Hf. rewrite bind_ok, Ey, bind_ok. reflexivity.
Qed.
(** The modulus in the script is the field modulus; the last line it prints is not the
    inverse. *)
Lemma C88_modulus_stmt : py_p = p.
Proof. reflexivity. Qed.
Lemma C88_ainv_refuted_stmt : exists x k ainv y, 0 < x < py_p /\
  (forall fuel, 503 <= Z.of_nat fuel -> py_kalinski fuel x py_p = Ok (py_limbs ainv, ainv, k, py_limbs py_p, py_limbs y, y)) /\
  (y * x) mod py_p <> 1.
Proof.
  destruct (C88_inverse_stmt py_p py_a) as (ainv & k & y & _ & _ & V & E); [reflexivity|reflexivity|reflexivity|vm_compute; reflexivity|].
  exists py_a, k, ainv, y. split; [split; reflexivity|]. split.
  - intros fuel Hf. apply E. change (Z.log2 py_p) with 252. change (Z.log2 py_a) with 248. lia.
  - rewrite V. vm_compute. discriminate.
Qed.
(** The printed arrays are the limbs of the field element with that value. *)
Lemma C88_limbs_stmt : forall a, flimbs a -> py_limbs (fval a) = [f0 a; f1 a; f2 a; f3 a; f4 a].
Proof.
  intros a A. pose proof (fval_nonneg a A) as [N _]. transitivity (to_scalar_base_52 (fval a)).
  - unfold to_scalar_base_52. change 4503599627370496 with (2 ^ 52). reflexivity.
  - apply (proj1 (C85_limbs_elements_stmt (fval a) N)); [exact A|reflexivity].
Qed.

(** *** The field inversion of the crate runs the same loop *)
Lemma phase1_sim ck : forall fuel u v r s k r' k', flimbs u -> flimbs v -> 0 <= k -> k + Z.of_nat fuel < 2 ^ 64 ->
  almost_loop fuel (fval u) (fval v) r s k = Ok (r', k') ->
  fe_phase1_loop fuel ck u v (enc (toF r)) (enc (toF s)) k = Ok (enc (toF r'), k').
Proof.
  induction fuel as [|fuel IH]; intros u v r s k r' k' Lu Lv Hk Hk64 H; [discriminate H|].
  cbn [fe_phase1_loop almost_loop] in H |- *. rewrite fe_gt_ok by auto using flimbs_zero. rewrite fval_zero, !fe_is_even_ok.
  rewrite !mod2_even, !shl1 in H. pose proof (fval_nonneg _ Lu) as Nu. pose proof (fval_nonneg _ Lv) as Nv.
  destruct (0 <? fval v); [|injection H as -> ->; reflexivity].
  assert (D : forall x, fe_mul ck (enc (toF x)) fe_two = Ok (enc (toF (2 * x)))).
  { intros x. change fe_two with (enc (toF 2)). rewrite fe_mul_F, Z.mul_comm, toF_mul. reflexivity. }
  assert (Sh : forall x, flimbs x -> flimbs (fe_half_without_mod x) /\ fval (fe_half_without_mod x) = Z.shiftr (fval x) 1).
  { intros x Lx. destruct (fe_half_without_mod_ok x Lx) as [A B]. split; [exact A|]. rewrite B, Z.shiftr_div_pow2 by lia. reflexivity. }
  assert (K : uadd ck W64 k 1 = Ok (k + 1)) by (apply uadd_ok; unfold W64; lia).
  assert (K' : k + 1 + Z.of_nat fuel < 2 ^ 64) by lia.
  cbv zeta. destruct (Z.even (fval u)).
  - rewrite D, bind_ok, K, bind_ok. destruct (Sh u Lu) as [A B]. apply IH; [exact A|exact Lv|lia|exact K'|]. rewrite B. exact H.
  - destruct (Z.even (fval v)).
    + rewrite D, bind_ok, K, bind_ok. destruct (Sh v Lv) as [A B]. apply IH; [exact Lu|exact A|lia|exact K'|]. rewrite B. exact H.
    + rewrite fe_gt_ok by assumption. destruct (Z.ltb_spec (fval v) (fval u)) as [Huv|Huv].
      * destruct (fe_sub_gen ck u v Lu Lv) as (d & -> & Ld & Vd); [rewrite p_num; lia|].
        destruct (Z.ltb_spec (fval u) (fval v)) in Vd; [lia|].
        rewrite bind_ok, fe_add_F, bind_ok, <- toF_add, D, bind_ok, K, bind_ok. destruct (Sh d Ld) as [A B].
        apply IH; [exact A|exact Lv|lia|exact K'|]. rewrite B, Vd. exact H.
      * rewrite fe_ge_ok by assumption. rewrite (proj2 (Z.leb_le (fval u) (fval v)) Huv).
        destruct (fe_sub_gen ck v u Lv Lu) as (d & -> & Ld & Vd); [rewrite p_num; lia|].
        destruct (Z.ltb_spec (fval v) (fval u)) in Vd; [lia|].
        rewrite bind_ok, fe_add_F, bind_ok, <- toF_add, D, bind_ok, K, bind_ok. destruct (Sh d Ld) as [A B].
        apply IH; [exact Lu|exact A|lia|exact K'|]. rewrite B, Vd. exact H.
Qed.
Lemma Ok_pair {A B} (a a' : A) (b b' : B) : Ok (a, b) = Ok (a', b') -> a = a' /\ b = b'.
Proof. intros H. injection H as -> ->. split; reflexivity. Qed.
Lemma phase1_of_loop ck a r k d : floadable a -> fval a <> 0 -> almost_loop loop_fuel p (fval a) 0 1 0 = Ok (r, k) ->
  r mod p = p - d -> 0 < d < p -> exists e, fcanon e /\ fval e = d /\ fe_phase1 ck a = Ok (e, k).
Proof.
  intros [A1 A2] Nz El Hr Hd.
  destruct (fe_sub_gen ck FIELD_L (enc (toF r)) flimbs_FIELD_L (enc_limbs _)) as (e & Ee & Le & Ve).
  { rewrite fval_FIELD_L, fval_enc, Fval_toF. clear - Hr Hd. lia. }
  rewrite fval_FIELD_L, fval_enc, Fval_toF, Hr in Ve. rewrite (proj2 (Z.ltb_ge p (p - d))) in Ve by (clear - Hd; lia).
  assert (Ve' : fval e = d) by (clear - Ve; lia). assert (Ce : fval e < p) by (clear - Ve' Hd; lia).
  assert (Hp : p < p - d -> False) by (clear - Hd; lia).
  exists e. split; [split; [exact Le|exact Ce]|]. split; [exact Ve'|].
  rewrite <- fval_FIELD_L in El at 1.
  apply (phase1_sim ck) in El; [|exact flimbs_FIELD_L|exact A1|apply Z.le_refl|reflexivity].
  unfold fe_phase1. assert (Ne : fe_eqb a fe_zero = false).
  { rewrite fe_eqb_ok by (auto using fcanon_loadable, fcanon_zero; now split). apply Z.eqb_neq. rewrite fval_zero. exact Nz. }
  rewrite Ne. cbn [negb rassert]. rewrite bind_ok. cbv zeta.
  change (FE 671914833335277 3916664325105025 1367801 0 17592186044416) with FIELD_L.
  rewrite <- enc_zero, <- enc_one. change 0%F with (toF 0) at 1. change 1%F with (toF 1). rewrite El, bind_ok.
  rewrite fe_gt_ok by auto using flimbs_FIELD_L with fe. rewrite fval_FIELD_L, fval_enc, Fval_toF, Hr.
  destruct (Z.ltb_spec p (p - d)) as [Q|Q]; [exfalso; apply Hp; exact Q|]. rewrite bind_ok, Ee, bind_ok. reflexivity.
Qed.
Lemma almost_result fuel x q d k : almost_mont_inv fuel x q = Ok (d, k) ->
  exists r, almost_loop fuel q x 0 1 0 = Ok (r, k) /\ q - (if q <? r then r - q else r) = d.
Proof.
  unfold almost_mont_inv. generalize (almost_loop fuel q x 0 1 0). intros [[r k0]| |] E; [|discriminate E|discriminate E].
  rewrite bind_ok in E. cbv zeta in E. apply Ok_pair in E. destruct E as [Hd ->]. exists r. split; [reflexivity|exact Hd].
Qed.
Lemma log2_p : Z.log2 p = 252.
Proof. reflexivity. Qed.
Lemma fuel_600 : Z.of_nat loop_fuel = 600.
Proof. reflexivity. Qed.
Lemma odd_p : Z.odd p = true.
Proof. reflexivity. Qed.
Lemma pos_p : 0 < p.
Proof. reflexivity. Qed.
(** [phase1] inside the inversion of field elements returns the numbers of the script. *)
Lemma C88_agree_stmt : forall ck a, floadable a -> fval a mod p <> 0 ->
  exists d k, fcanon d /\ fe_phase1 ck a = Ok (d, k) /\
  forall fuel, 510 <= Z.of_nat fuel -> almost_mont_inv fuel (fval a) py_p = Ok (fval d, k).
Proof.
  intros ck a [A1 A2] N. pose proof (fval_nonneg _ A1) as NN.
  assert (Nz : fval a <> 0) by (intros E; apply N; rewrite E; reflexivity).
  assert (G : Z.gcd p (fval a) = 1).
  { apply Zgcd_1_rel_prime, prime_rel_prime; [exact prime_p|]. intros D. apply N. apply Z.mod_divide; [discriminate|exact D]. }
  destruct (C88_almost_stmt p (fval a) pos_p odd_p ltac:(lia)) as (d & k & Bd & Nk & V & Bl & _ & E). rewrite G, Z.mul_1_l in *.
  assert (Lg : Z.log2 (fval a) < 256) by (apply Z.log2_lt_pow2; lia). rewrite log2_p in E.
  assert (Nd : d <> p).
  { intros ->. rewrite Z.mul_comm, Z.mod_mul in V by discriminate.
    assert (X : (2 ^ k * 1) mod p = (2 ^ k * 0) mod p) by (rewrite Z.mul_1_r, Z.mul_0_r; symmetry; exact V).
    apply odd_pow_cancel in X; [|exact pos_p|exact odd_p|exact Nk]. rewrite Z.mod_1_l, Z.mod_0_l in X by (pose proof p_pos; lia). discriminate X. }
  assert (H : exists r, almost_loop loop_fuel p (fval a) 0 1 0 = Ok (r, k) /\ r mod p = p - d).
  { assert (Hl : 252 + Z.log2 (fval a) + 3 <= Z.of_nat loop_fuel) by (rewrite fuel_600; clear - Lg; lia).
    destruct (almost_result _ _ _ _ _ (E _ Hl)) as (r & Er & Hd). exists r. split; [exact Er|]. clear - Hd Bd Nd. subst d. destruct (Z.ltb_spec p r) as [L|L].
    - replace r with (r - p + 1 * p) at 1 by ring. rewrite Z.mod_add by discriminate. rewrite Z.mod_small by lia. lia.
    - rewrite Z.mod_small by lia. lia. }
  destruct H as (r & El & Hr).
  destruct (phase1_of_loop ck a r k d (conj A1 A2) Nz El Hr) as (e & Ce & Ve & Ef); [clear - Bd Nd; lia|].
  exists e, k. split; [exact Ce|]. split; [exact Ef|]. clear El.
  intros fuel Hf. rewrite C88_modulus_stmt, E by (clear - Hf Lg; lia). rewrite Ve. reflexivity.
Qed.

(** Concrete runs: modulo 15 (not prime), a unit and a non-unit; the script's own input is a unit. *)
Lemma C88_ex : almost_mont_inv 20 7 15 = Ok (7, 6) /\ (7 * 7) mod 15 = 2 ^ 6 mod 15 /\
  almost_mont_inv 20 6 15 = Ok (13, 4) /\ Z.gcd 15 6 = 3 /\ (13 * 6) mod 15 = (3 * 2 ^ 4) mod 15 /\
  Z.gcd py_p py_a = 1 /\ Z.log2 py_p + Z.log2 py_a + 3 = 503.
Proof. vm_compute. repeat split. Qed.

(** ** C89 *)
(** For every prime q and every integer a, a square or not: the list returned has
    no repetition and holds exactly the square roots of a modulo q. *)
Lemma C89_sqrt_stmt : forall q a, prime q ->
  exists l, (forall fuel, q + Z.log2 q < Z.of_nat fuel -> prime_mod_sqrt fuel a q = Ok l) /\ NoDup l /\
    forall x, In x l <-> 0 <= x < q /\ (x * x) mod q = a mod q.
Proof.
  intros q a P. destruct (prime_odd q P) as [-> | O].
  - destruct (prime_mod_sqrt_two a) as (l & A & B). exists l. split; [|exact B]. intros fuel _. apply A.
  - destruct (nonresidue q P O) as (z & Hz & Ez). destruct (prime_mod_sqrt_odd q P O a z) as (l & A & B); [lia|exact Ez|].
    exists l. split; [|exact B]. intros fuel Hf. apply A. pose proof (Z.log2_nonneg q). lia.
Qed.
(** The number of loop rounds is bounded by the logarithm of the modulus and the least
    non-residue. *)
Lemma C89_rounds_stmt : forall q a z, prime q -> 0 < z -> z ^ ((q - 1) / 2) mod q = q - 1 -> q <> 2 ->
  forall fuel, Z.log2 q + z < Z.of_nat fuel -> exists l, prime_mod_sqrt fuel a q = Ok l /\
    forall x, In x l <-> 0 <= x < q /\ (x * x) mod q = a mod q.
Proof.
  intros q a z P Hz Ez N fuel Hf. destruct (prime_odd q P) as [|O]; [contradiction|].
  destruct (prime_mod_sqrt_odd q P O a z) as (l & A & _ & B); [exact Hz|exact Ez|]. exists l. split; [|exact B].
  apply A. pose proof (Z.log2_nonneg q). lia.
Qed.
(** The modulus of the script is the field modulus, for which 2 is a non-residue. *)
Lemma two_nonresidue : 2 ^ ((p - 1) / 2) mod p = p - 1.
Proof. rewrite <- (pwp_ok 2 ((p - 1) / 2)); [vm_compute; reflexivity|vm_compute; discriminate]. Qed.
Lemma C89_field_stmt : py_l = p /\ forall a fuel, 254 < Z.of_nat fuel -> exists l, prime_mod_sqrt fuel a py_l = Ok l /\
    forall x, In x l <-> 0 <= x < py_l /\ (x * x) mod py_l = a mod py_l.
Proof.
  split; [reflexivity|]. intros a fuel Hf. change py_l with p. apply (C89_rounds_stmt p a 2).
  - exact prime_p.
  - reflexivity.
  - exact two_nonresidue.
  - discriminate.
  - rewrite log2_p. exact Hf.
Qed.
(** [mod_sqrt] of the crate agrees with it: a root it returns is in the list, and it returns
    none when the list is empty. *)
Lemma C89_agree_stmt : forall ck a sign fuel, fcanon a -> 254 < Z.of_nat fuel -> exists o l,
  fe_mod_sqrt ck a sign = Ok o /\ prime_mod_sqrt fuel (fval a) py_l = Ok l /\
  match o with Some r => fcanon r /\ In (fval r) l | None => l = [] end.
Proof.
  intros ck a sign fuel A Hf. destruct C89_field_stmt as [_ F]. destruct (F (fval a) fuel Hf) as (l & El & Hl). change py_l with p in *.
  destruct (C08_mod_sqrt_stmt ck a sign A) as [S N]. destruct l as [|x l].
  - exists None, []. split; [|split; [exact El|reflexivity]]. apply N. intros (y & Ey). pose proof p_pos as Pp.
    apply (proj2 (Hl (y mod p))). split; [apply Z.mod_pos_bound; exact pos_p|]. rewrite <- Zmult_mod. exact Ey.
  - destruct S as (r & Er & Cr & Vr).
    + exists x. apply (proj1 (Hl x)). left. reflexivity.
    + exists (Some r), (x :: l). split; [exact Er|]. split; [exact El|]. split; [exact Cr|]. apply Hl. destruct Cr as [Lr Br].
      split; [pose proof (fval_nonneg r Lr); lia|]. rewrite Vr. symmetry. apply Z.mod_small. destruct A as [La Ba]. pose proof (fval_nonneg a La). lia.
Qed.
(** For a composite modulus the answer can be wrong: 2 squares to 4 modulo 15. *)
Lemma C89_composite_refuted_stmt : exists a n x, 1 < n /\ 0 <= x < n /\ (x * x) mod n = a mod n /\
  forall fuel, prime_mod_sqrt fuel a n = Ok [].
Proof. exists 4, 15, 2. split; [lia|]. split; [lia|]. split; [reflexivity|]. intros fuel. reflexivity. Qed.
(** Small primes of both classes, and the call at the end of the script. *)
Lemma C89_ex : prime 17 /\ prime_mod_sqrt 25 2 17 = Ok [6; 11] /\ prime_mod_sqrt 25 3 17 = Ok [] /\
  prime 23 /\ prime_mod_sqrt 30 (-5) 23 = Ok [8; 15] /\
  forall fuel, 254 < Z.of_nat fuel -> exists l, prime_mod_sqrt fuel py_y py_l = Ok l /\ In 212143902466533654648692468339010321013769000075938027931554420146734895990 l.
Proof.
  split; [apply trial_prime; vm_compute; reflexivity|]. split; [vm_compute; reflexivity|]. split; [vm_compute; reflexivity|].
  split; [apply trial_prime; vm_compute; reflexivity|]. split; [vm_compute; reflexivity|].
  intros fuel Hf. destruct C89_field_stmt as [_ F]. destruct (F py_y fuel Hf) as (l & El & Hl). exists l. split; [exact El|]. apply Hl.
  split; [vm_compute; split; [discriminate|reflexivity]|vm_compute; reflexivity].
Qed.
