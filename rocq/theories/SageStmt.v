(** * C96: the general programs of sage_codes *)

From Coq Require Import ZArith Znumtheory Zpow_facts List Bool Field Field_theory Lia.
From Verif Require Import Machine MachineFacts NumTheory Spec Primes Fp FieldInv ScriptModel Tonelli SageModel.
Import ListNotations.
Open Scope Z_scope.

(** ** Greatest common divisors *)
Lemma egcd_depth : forall k a b, 0 <= a < 2 ^ Z.of_nat k ->
  exists g x y, (forall fuel, (2 * k < fuel)%nat -> egcd fuel a b = Ok (g, x, y)) /\ a * x + b * y = g /\
    g = (if a =? 0 then b else Z.gcd a b).
Proof.
  induction k as [|k IH]; intros a b H.
  { change (2 ^ Z.of_nat 0) with 1 in H. assert (a = 0) by lia. subst a. exists b, 0, 1. split; [|split; [ring|reflexivity]].
    intros [|fuel] F; [lia|]. reflexivity. }
  rewrite Nat2Z.inj_succ, Z.pow_succ_r in H by lia.
  destruct (Z.eq_dec a 0) as [->|A0].
  { exists b, 0, 1. split; [|split; [ring|reflexivity]]. intros [|fuel] F; [lia|]. reflexivity. }
  set (c := b mod a). set (q1 := b / a). assert (Bc : 0 <= c < a) by (apply Z.mod_pos_bound; lia).
  assert (Gm : Z.gcd c a = Z.gcd a b) by (unfold c; rewrite Z.gcd_mod by exact A0; reflexivity).
  assert (Eb : b = a * q1 + c) by (apply Z.div_mod; exact A0).
  rewrite (proj2 (Z.eqb_neq a 0) A0).
  destruct (Z.eq_dec c 0) as [C0|C0].
  { exists a, (1 - q1 * 0), 0. split; [|split; [ring|]].
    - intros [|[|fuel]] F; [lia|lia|]. cbn [egcd]. rewrite (proj2 (Z.eqb_neq a 0) A0). fold c q1. rewrite C0. reflexivity.
    - rewrite <- Gm, C0, Z.gcd_0_l. lia. }
  set (e := a mod c). set (q2 := a / c). assert (Be : 0 <= e < c) by (apply Z.mod_pos_bound; lia).
  assert (Ge : Z.gcd e c = Z.gcd c a) by (unfold e; rewrite Z.gcd_mod by exact C0; reflexivity).
  assert (Ea : a = c * q2 + e) by (apply Z.div_mod; exact C0).
  assert (He : 0 <= e < 2 ^ Z.of_nat k).
  { assert (1 <= q2) by (clear - Ea Bc Be; clearbody c e q2; nia). clear - Ea Bc Be H H0. clearbody c e q2. nia. }
  destruct (IH e c He) as (g & u & v & E & B & G).
  exists g, (u - q1 * (v - q2 * u)), (v - q2 * u). split; [|split].
  - intros [|[|fuel]] F; [lia|lia|]. cbn [egcd]. rewrite (proj2 (Z.eqb_neq a 0) A0). fold c q1. rewrite (proj2 (Z.eqb_neq c 0) C0). fold e q2.
    rewrite E by lia. reflexivity.
  - rewrite <- B. rewrite Eb, Ea. ring.
  - rewrite G. destruct (Z.eqb_spec e 0) as [E0|E0]; [|rewrite Ge; exact Gm]. rewrite <- Gm, <- Ge, E0, Z.gcd_0_l. lia.
Qed.
Lemma egcd_opp : forall fuel a b, egcd fuel (- a) (- b) = '(g, x, y) <- egcd fuel a b ;; Ok (- g, x, y).
Proof.
  induction fuel as [|fuel IH]; intros a b; [reflexivity|]. cbn [egcd]. destruct (Z.eqb_spec a 0) as [->|A0].
  - reflexivity.
  - rewrite (proj2 (Z.eqb_neq (- a) 0)) by lia. rewrite Z.mod_opp_opp, Z.div_opp_opp by exact A0. rewrite IH.
    destruct (egcd fuel (b mod a) a) as [[[g y] x]| |]; reflexivity.
Qed.
Lemma log2_bound a : Z.abs a < 2 ^ Z.of_nat (Z.to_nat (Z.log2 (Z.abs a) + 1)).
Proof.
  pose proof (Z.log2_nonneg (Z.abs a)). rewrite Z2Nat.id by lia. destruct (Z.eq_dec a 0) as [->|N]; [reflexivity|].
  apply Z.log2_spec. lia.
Qed.

(** ** Square roots *)
Section Sqrt.
Context (q : Z) (P : prime q) (Oq : Z.odd q = true).
Let h := (q - 1) / 2.
Lemma sq_pow2 t n : 0 <= n -> (t ^ 2 mod q) ^ (2 ^ n) mod q = t ^ (2 ^ (n + 1)) mod q.
Proof.
  intros N. rewrite pow_mod_idemp by (apply Z.pow_nonneg; lia). rewrite <- Z.pow_mul_r by (try apply Z.pow_nonneg; lia).
  f_equal. f_equal. rewrite Z.pow_add_r by lia. ring.
Qed.
Lemma sage_order_spec : forall n t prev i, 0 <= t < q -> 2 < q -> exists m, sage_order_loop n t q prev i = Ok m /\
  (n = O -> m = prev) /\ ((1 <= n)%nat -> i <= m < i + Z.of_nat n /\
    (t ^ (2 ^ (Z.of_nat n - 1)) mod q = 1 -> t ^ (2 ^ (m - i)) mod q = 1 /\ (m = i \/ t ^ (2 ^ (m - i - 1)) mod q <> 1))).
Proof.
  induction n as [|n IH]; intros t prev i T Q; cbn [sage_order_loop].
  { exists prev. split; [reflexivity|]. split; [reflexivity|lia]. }
  destruct (Z.eqb_spec t 1) as [->|T1].
  { exists i. split; [reflexivity|]. split; [discriminate|]. intros _. split; [lia|]. intros _. split; [|left; reflexivity].
    rewrite Z.sub_diag. rewrite Z.pow_1_l by (apply Z.pow_nonneg; lia). apply Z.mod_1_l. lia. }
  unfold ppow. rewrite (proj2 (Z.eqb_neq q 0)) by lia. cbn [orb]. change (2 <? 0) with false. cbv iota. cbn [bind].
  destruct (IH (t ^ 2 mod q) i (i + 1)) as (m & E & N0 & N1); [apply Z.mod_pos_bound; lia|exact Q|].
  exists m. split; [exact E|]. split; [discriminate|]. intros _. destruct n as [|n].
  - rewrite (N0 eq_refl). split; [lia|]. intros H. exfalso. change (2 ^ (Z.of_nat 1 - 1)) with 1 in H. rewrite Z.pow_1_r, Z.mod_small in H by lia. contradiction.
  - destruct (N1 ltac:(lia)) as [M1 M2]. split; [lia|]. intros H.
    rewrite sq_pow2 in M2 by lia. replace (Z.of_nat (S n) - 1 + 1) with (Z.of_nat (S (S n)) - 1) in M2 by lia. specialize (M2 H).
    rewrite sq_pow2 in M2 by lia. replace (m - (i + 1) + 1) with (m - i) in M2 by lia. destruct M2 as [M2 M3]. split; [exact M2|].
    right. destruct M3 as [M3|M3].
    + rewrite M3. replace (i + 1 - i - 1) with 0 by ring. change (2 ^ 0) with 1. rewrite Z.pow_1_r, Z.mod_small by lia. exact T1.
    + destruct (Z.eq_dec m (i + 1)) as [Em|Em].
      * rewrite Em. replace (i + 1 - i - 1) with 0 by ring. change (2 ^ 0) with 1. rewrite Z.pow_1_r, Z.mod_small by lia. exact T1.
      * rewrite sq_pow2 in M3 by lia. replace (m - (i + 1) - 1 + 1) with (m - i - 1) in M3 by lia. exact M3.
Qed.
Lemma sage_loop_spec a : forall f r x b g, (Z.to_nat r <= f)%nat -> 1 <= r -> 0 <= b < q -> 0 <= x < q ->
  exists y, 0 <= y < q /\ (x = 0 -> y = 0) /\
    ((x * x) mod q = (a * b) mod q -> g ^ (2 ^ (r - 1)) mod q = q - 1 -> b ^ (2 ^ (r - 1)) mod q = 1 -> (y * y) mod q = a mod q) /\
    forall fuel, (f < fuel)%nat -> sage_sqrt_loop fuel q x b g r = Ok y.
Proof.
  pose proof (q_gt q P Oq) as G. induction f as [|f IH]; intros r x b g Hf Hr Hb Hx; [exfalso; clear - Hf Hr; lia|].
  destruct (sage_order_spec (Z.to_nat r) b 0 0 Hb G) as (m & Em & _ & M). specialize (M ltac:(clear - Hr; lia)). rewrite Z2Nat.id in M by (clear - Hr; lia).
  destruct M as [Bm M]. rewrite Z.sub_0_r in M.
  destruct (Z.eq_dec m 0) as [M0|M0].
  { exists x. split; [exact Hx|]. split; [auto|]. split.
    - intros Ex _ Eb. destruct (M Eb) as [M1 _]. rewrite M0 in M1. change (2 ^ 0) with 1 in M1. rewrite Z.pow_1_r, Z.mod_small in M1 by exact Hb.
      rewrite Ex, M1, Z.mul_1_r. reflexivity.
    - intros [|fuel] F; [exfalso; clear - F; lia|]. cbn [sage_sqrt_loop]. rewrite Em, M0. reflexivity. }
  assert (Bd : forall z, 0 <= z mod q < q) by (intros z; apply Z.mod_pos_bound; clear - G; lia).
  assert (F1 : (Z.to_nat m <= f)%nat) by (clear - Bm Hf; lia). assert (F2 : 1 <= m) by (clear - Bm M0; lia). assert (F3 : 0 <= r - m - 1) by (clear - Bm; lia).
  assert (Q0 : q <> 0) by (clear - G; lia). assert (Q1 : 1 < q) by (clear - G; lia).
  set (gs := g ^ (2 ^ (r - m - 1)) mod q). set (g' := (gs * gs) mod q).
  destruct (IH m ((x * gs) mod q) ((b * g') mod q) g' F1 F2 (Bd _) (Bd _)) as (y & By & Zy & Sy & Hy).
  exists y. split; [exact By|]. split; [|split].
  - intros ->. apply Zy. apply Z.mod_0_l. exact Q0.
  - intros Ex Eg Eb. destruct (M Eb) as [M1 M2]. destruct M2 as [M2|M2]; [contradiction|].
    assert (Pe : forall n, 0 <= 2 ^ n) by (intros n; apply Z.pow_nonneg; discriminate).
    assert (Gs : gs ^ (2 ^ m) mod q = q - 1).
    { unfold gs. rewrite pow_mod_idemp by apply Pe. rewrite <- Z.pow_mul_r by apply Pe. rewrite <- Z.pow_add_r by (clear - F2 F3; lia).
      replace (r - m - 1 + m) with (r - 1) by ring. exact Eg. }
    assert (Gp : g' ^ (2 ^ (m - 1)) mod q = q - 1).
    { unfold g'. rewrite pow_mod_idemp by apply Pe. rewrite Z.pow_mul_l, <- (pow2_split q) by exact F2. exact Gs. }
    assert (Bt : b ^ (2 ^ (m - 1)) mod q = q - 1).
    { rewrite Z.sub_0_r in M2 || idtac. destruct (root_one q P Oq (b ^ (2 ^ (m - 1)))) as [D|D]; [rewrite <- (pow2_split q) by exact F2; exact M1|contradiction|exact D]. }
    apply Sy; [|exact Gp|].
    + rewrite <- Zmult_mod. rewrite Zmult_mod_idemp_r. unfold g'. replace (a * (b * ((gs * gs) mod q))) with (a * b * ((gs * gs) mod q)) by ring.
      rewrite Zmult_mod_idemp_r. replace (x * gs * (x * gs)) with (x * x * (gs * gs)) by ring. rewrite Zmult_mod, Ex, <- Zmult_mod. reflexivity.
    + rewrite pow_mod_idemp by apply Pe. rewrite Z.pow_mul_l, Zmult_mod, Bt, Gp.
      replace ((q - 1) * (q - 1)) with (1 + (q - 2) * q) by ring. rewrite Z.mod_add by exact Q0. apply Z.mod_1_l. exact Q1.
  - intros [|fuel] F; [exfalso; clear - F; lia|]. cbn [sage_sqrt_loop]. rewrite Em. cbn [bind]. rewrite (proj2 (Z.eqb_neq m 0) M0). unfold ppow, pmod.
    rewrite (proj2 (Z.eqb_neq q 0) Q0). rewrite (proj2 (Z.ltb_ge (2 ^ (r - m - 1)) 0)) by (apply Z.pow_nonneg; discriminate). cbn [orb].
    rewrite !bind_ok. fold gs. fold g'. apply Hy. clear - F; lia.
Qed.
End Sqrt.

(** ** Fields *)
Section Fields.
Context {K : Type} (z e : K) (add mul sub : K -> K -> K) (opp : K -> K) (div : K -> K -> K) (inv : K -> K).
Context (Hf : field_theory z e add mul sub opp div inv eq).
Let o := FOps K z e add mul sub opp div inv.
Add Field Kfield : Hf.
Local Notation "0" := z.
Local Notation "1" := e.
Local Infix "+" := add.
Local Infix "*" := mul.
Local Infix "-" := sub.
Local Infix "/" := div.
Local Notation "- x" := (opp x).
Local Ltac un := unfold edwards_point, mont_point, mont_level, shortw_level, edwards_level, edwards_elliptic, mont_elliptic, shortw_elliptic,
  edwards_A, edwards_B, mont_a, mont_b, montladder, sqr, cube, k27, k9, k4, k3, k2, o in *; cbn [fst snd f0 f1 fadd fmul fsub fdiv fopp finv] in *.
Lemma k_mul_nz x y : x <> 0 -> y <> 0 -> x * y <> 0.
Proof. intros X Y H. apply Y. transitivity ((1 / x) * (x * y)); [field; exact X|]. rewrite H. ring. Qed.
Lemma k_div_nz x y : x <> 0 -> y <> 0 -> x / y <> 0.
Proof. intros X Y H. apply X. transitivity (x / y * y); [field; exact Y|]. rewrite H. ring. Qed.
Lemma k_one_nz : 1 <> 0.
Proof. exact (F_1_neq_0 Hf). Qed.
Lemma k_sub_nz x y : x <> y <-> x - y <> 0.
Proof.
  split; intros N H; apply N.
  - transitivity (x - y + y); [ring|]. rewrite H. ring.
  - rewrite H. ring.
Qed.
Lemma ed_mont d x y : 1 - d <> 0 -> x <> 0 -> 1 - y <> 0 -> edwards_level o d x y = 0 ->
  mont_level o (edwards_A o d) (edwards_B o d) (fst (edwards_point o x y)) (snd (edwards_point o x y)) = 0.
Proof.
  intros D X Y H. transitivity (- (k4 o * (1 + y) / (x * x * (1 - d) * ((1 - y) * (1 - y) * (1 - y)))) * edwards_level o d x y).
  - un. field. repeat split; assumption.
  - rewrite H. ring.
Qed.
Lemma ed_elliptic d : 1 - d <> 0 -> mont_elliptic o (edwards_A o d) (edwards_B o d) * ((1 - d) * (1 - d) * (1 - d) * (1 - d)) =
  k4 o * (k4 o * k4 o) * edwards_elliptic o d.
Proof. intros D. un. field. exact D. Qed.
Lemma three_nz : k3 o <> 0 -> 1 + (1 + 1) <> 0.
Proof. intros T E. apply T. un. rewrite <- E. ring. Qed.
Lemma k27_nz : k3 o <> 0 -> k27 o <> 0.
Proof. intros T. unfold k27, k9. repeat apply k_mul_nz; exact T. Qed.
Local Ltac nz T := match goal with
  | |- _ /\ _ => split; nz T
  | |- _ <> _ => first [assumption | exact (three_nz T) | let E := fresh in intros E; apply (k27_nz T); un; rewrite <- E; ring]
  end.
Lemma mont_w A B x y : k3 o <> 0 -> B <> 0 ->
  shortw_level o (mont_a o A B) (mont_b o A B) (fst (mont_point o A B x y)) (snd (mont_point o A B x y)) * (B * B * B) = mont_level o A B x y.
Proof. intros T N. pose proof T as T'. un. field. nz T'. Qed.
Lemma mont_w_elliptic A B : k3 o <> 0 -> B <> 0 ->
  shortw_elliptic o (mont_a o A B) (mont_b o A B) * (B * B * B * B * B * B * B) = - mont_elliptic o A B.
Proof. intros T N. un. field. nz T. Qed.
Lemma mont_ladder A B : k3 o <> 0 -> B <> 0 -> montladder o (mont_a o A B) (mont_b o A B).
Proof. intros T N. exists (A / (k3 o * B)), (1 / B). un. split; field; nz T. Qed.
Lemma mont_point_inj A B x y x' y' : k3 o <> 0 -> B <> 0 -> mont_point o A B x y = mont_point o A B x' y' -> x = x' /\ y = y'.
Proof.
  intros T N H. unfold mont_point in H. injection H as H1 H2. change (1 + 1 + 1) with (k3 o) in *.
  assert (T' : k3 o <> 0) by exact T. set (c := A / k3 o) in *. clearbody c. split.
  - transitivity ((x + c) / B * B - c); [field; exact N|]. rewrite H1. field. exact N.
  - transitivity (y / B * B); [field; exact N|]. rewrite H2. field. exact N.
Qed.
Lemma ed_point_inj d x y x' y' : k2 o <> 0 -> 1 - d <> 0 -> x <> 0 -> 1 - y <> 0 -> x' <> 0 -> 1 - y' <> 0 -> edwards_level o d x y = 0 ->
  edwards_point o x y = edwards_point o x' y' -> x = x' /\ y = y'.
Proof.
  intros T D X Y X' Y' L H. unfold edwards_point in H. injection H as H1 H2.
  assert (Ey : y = y').
  { assert (E : k2 o * (y - y') = 0).
    { transitivity ((1 - y) * (1 - y') * ((1 + y) / (1 - y) - (1 + y') / (1 - y'))); [un; field; split; assumption|]. rewrite H1. ring. }
    transitivity (1 / k2 o * (k2 o * (y - y')) + y'); [field; exact T|]. rewrite E. ring. }
  split; [|exact Ey]. subst y'. assert (U : 1 + y <> 0).
  { intros U. apply (k_mul_nz (x * x) (1 - d)); [apply k_mul_nz; exact X|exact D|].
    assert (Ym : y = opp e) by (transitivity (1 + y - 1); [ring|]; rewrite U; ring). rewrite Ym in L. un. rewrite <- L. ring. }
  assert (V : (1 + y) / (1 - y) <> 0) by (apply k_div_nz; assumption).
  set (u := (1 + y) / (1 - y)) in *. clearbody u.
  assert (E : u * (x' - x) = 0).
  { transitivity (x * x' * (u / x - u / x')); [field; split; assumption|]. rewrite H2. ring. }
  transitivity (x' - 1 / u * (u * (x' - x))); [field; exact V|]. rewrite E. ring.
Qed.
Lemma k_mul_zl x : 0 * x = 0.
Proof. ring. Qed.
Lemma k_mul_self x y : x * (y - y) = 0.
Proof. ring. Qed.
Lemma k_four : k2 o * k2 o = k4 o.
Proof. un. ring. Qed.
Lemma k_mul_cancel x y : y <> 0 -> x * y = 0 -> x = 0.
Proof. intros N H. transitivity (x * y * (1 / y)); [field; exact N|]. rewrite H. ring. Qed.
Lemma k_opp_z : - 0 = 0.
Proof. ring. Qed.
Lemma k_opp_inj x : 0 = - x -> x = 0.
Proof. intros H. transitivity (- - x); [ring|]. rewrite <- H. ring. Qed.
End Fields.

Lemma sage_sqrt_main q a : prime q -> Z.odd q = true -> exists y, 0 <= y < q /\
  (a mod q = 0 \/ a ^ ((q - 1) / 2) mod q = 1 -> (y * y) mod q = a mod q) /\
  forall fuel, q + Z.log2 q < Z.of_nat fuel -> sage_sqrt fuel a q = Ok y.
Proof.
  intros P O. pose proof (q_gt q P O) as G. pose proof (q_half q P O) as Eh. pose proof (h_pos q P O) as Ph. cbv zeta in Eh, Ph.
  destruct (nonresidue q P O) as (z0 & Bz & Ez). set (h := (q - 1) / 2) in *.
  assert (Z1 : z0 <> 1).
  { intros ->. rewrite Z.pow_1_l, Z.mod_1_l in Ez by (clear - G Ph; clearbody h; lia). clear - Ez G. lia. }
  destruct (nonres_loop_spec q P O z0 Ez (Z.to_nat (z0 - 2)) 2 ltac:(clear - Z1 Bz; lia)) as (n & En & Hn). fold h in En. clearbody h.
  pose proof (Z.log2_spec q ltac:(clear - G; lia)) as [_ L2]. pose proof (Z.log2_nonneg q) as L0. unfold Z.succ in L2.
  destruct (odd_loop_spec q (Z.to_nat (Z.log2 q + 1)) (q - 1) 0) as (m & e & He & Om & Pm & Em & Hodd).
  { rewrite Z2Nat.id by (clear - L0; lia). clear - L2 G. lia. }
  { apply Z.le_refl. }
  assert (E1 : 1 <= e).
  { destruct (Z.eq_dec e 0) as [E0|E0]; [|clear - He E0; lia]. exfalso. rewrite E0, Z.mul_1_r in Em. rewrite <- Em in Om.
    rewrite Z.odd_sub, O in Om. discriminate Om. }
  assert (Hh : m * 2 ^ (e - 1) = h).
  { assert (2 ^ e = 2 * 2 ^ (e - 1)) by (rewrite <- Z.pow_succ_r by (clear - E1; lia); f_equal; clear - E1; lia). clear - H Em Eh. nia. }
  assert (M2 : exists c, m = 2 * c + 1 /\ (m + 1) / 2 = c + 1).
  { apply Z.odd_spec in Om. destruct Om as (c & Ec). exists c. split; [exact Ec|]. rewrite Ec. replace (2 * c + 1 + 1) with ((c + 1) * 2) by ring. apply Z.div_mul. discriminate. }
  destruct M2 as (c & Ec & Hc). assert (Pc : 0 <= c) by (clear - Ec Pm; lia).
  assert (Bd : forall z, 0 <= z mod q < q) by (intros z; apply Z.mod_pos_bound; clear - G; lia).
  assert (P2 : 0 <= 2 ^ (e - 1)) by (apply Z.pow_nonneg; discriminate).
  assert (E2 : (Z.to_nat e <= Z.to_nat (Z.log2 q + 1))%nat).
  { assert (P3 : 0 < 2 ^ e) by (apply Z.pow_pos_nonneg; [reflexivity|exact He]).
    assert (2 ^ e <= q - 1) by (clear - Em Pm P3; nia).
    assert (e < Z.log2 q + 1); [|clear - H0; lia]. apply (Z.pow_lt_mono_r_iff 2); [reflexivity|clear - L0; lia|clear - H L2; lia]. }
  destruct (sage_loop_spec q P O a (Z.to_nat (Z.log2 q + 1)) e (a ^ (c + 1) mod q) (a ^ m mod q) (n ^ m mod q) E2 E1 (Bd _) (Bd _)) as (y & By & Zy & Sy & Hy).
  exists y. split; [exact By|]. split.
  - intros [A0|A1].
    + rewrite Zy; [rewrite A0; apply Z.mod_0_l; clear - G; lia|]. rewrite <- pow_mod_idemp by (clear - Pc; lia). rewrite A0, Z.pow_0_l by (clear - Pc; lia). apply Z.mod_0_l. clear - G; lia.
    + apply Sy.
      * rewrite <- Zmult_mod, <- Z.pow_add_r by (clear - Pc; lia). rewrite Zmult_mod_idemp_r. replace (c + 1 + (c + 1)) with (Z.succ m) by (clear - Ec; lia).
        rewrite Z.pow_succ_r by (clear - Pm; lia). reflexivity.
      * rewrite pow_mod_idemp by exact P2. rewrite <- Z.pow_mul_r, Hh by (try exact P2; clear - Pm; lia). exact En.
      * rewrite pow_mod_idemp by exact P2. rewrite <- Z.pow_mul_r, Hh by (try exact P2; clear - Pm; lia). exact A1.
  - intros fuel F. unfold sage_sqrt. rewrite Hodd by (clear - F L0 G; lia). rewrite bind_ok. cbv iota beta. rewrite Hn by (clear - F L0 Bz; lia). rewrite bind_ok.
    unfold ppow. rewrite (proj2 (Z.eqb_neq q 0)) by (clear - G; lia). rewrite Hc. rewrite (proj2 (Z.ltb_ge (c + 1) 0)), (proj2 (Z.ltb_ge m 0)) by (clear - Pc Pm; lia). cbn [orb]. rewrite !bind_ok.
    rewrite Z.add_0_l. apply Hy. clear - F L0 G; lia.
Qed.
Lemma euler_square q a : prime q -> Z.odd q = true -> a ^ ((q - 1) / 2) mod q = 1 -> exists y, (y * y) mod q = a mod q.
Proof. intros P O E. destruct (sage_sqrt_main q a P O) as (y & _ & S & _). exists y. apply S. right. exact E. Qed.

Lemma cong_mod q : 0 < q -> forall u v, u mod q = v mod q <-> (q | u - v).
Proof.
  intros Q u v. split; [intros H; apply Zmod_divide; [lia|]; rewrite Zminus_mod, H, Z.sub_diag; apply Z.mod_0_l; lia|].
  intros [c Hc]. replace u with (v + c * q) by lia. apply Z_mod_plus_full.
Qed.
Lemma mod_shift q : 0 < q -> forall u, exists c, u mod q = u + c * q.
Proof. intros Q u. exists (- (u / q)). rewrite Z.mod_eq by lia. ring. Qed.
Lemma one_shift q u : 0 < q -> u mod q = 1 -> exists c, u = 1 + c * q.
Proof. intros Q H. exists (u / q). pose proof (Z.div_mod u q ltac:(lia)). lia. Qed.

(** ** C96 *)
(** [egcd] ends for all integers and returns Bezout coefficients; what it calls the greatest
    common divisor carries the sign of its first argument. *)
Lemma C96_egcd_stmt : forall a b, exists g x y,
  (forall fuel, 2 * Z.log2 (Z.abs a) + 3 <= Z.of_nat fuel -> egcd fuel a b = Ok (g, x, y)) /\ a * x + b * y = g /\
  (0 < a -> g = Z.gcd a b) /\ (a < 0 -> g = - Z.gcd a b) /\ (a = 0 -> g = b).
Proof.
  intros a b. pose proof (log2_bound a) as B. pose proof (Z.log2_nonneg (Z.abs a)) as L0. set (k := Z.to_nat (Z.log2 (Z.abs a) + 1)) in *.
  assert (Ek : Z.of_nat k = Z.log2 (Z.abs a) + 1) by (unfold k; lia). clearbody k.
  destruct (Z.lt_ge_cases a 0) as [N|N].
  - rewrite Z.abs_neq in * by lia. destruct (egcd_depth k (- a) (- b)) as (g & x & y & E & C & G); [lia|].
    exists (- g), x, y. split; [|split; [lia|split; [lia|split; [|lia]]]].
    + intros fuel F. rewrite <- (Z.opp_involutive a), <- (Z.opp_involutive b), egcd_opp, E by lia. reflexivity.
    + intros _. rewrite (proj2 (Z.eqb_neq (- a) 0)) in G by lia. rewrite G, Z.gcd_opp_l, Z.gcd_opp_r. reflexivity.
  - rewrite Z.abs_eq in * by lia. destruct (egcd_depth k a b) as (g & x & y & E & C & G); [lia|].
    exists g, x, y. split; [|split; [exact C|split; [|split; [lia|]]]].
    + intros fuel F. apply E. lia.
    + intros P. rewrite (proj2 (Z.eqb_neq a 0)) in G by lia. exact G.
    + intros ->. exact G.
Qed.
(** [modinv] inverts every nonnegative unit, raises for every other nonnegative number and
    raises for every negative number. *)
Lemma C96_modinv_stmt : forall a m fuel, 0 < m -> 2 * Z.log2 (Z.abs a) + 3 <= Z.of_nat fuel ->
  (0 <= a -> Z.gcd a m = 1 -> exists x, modinv fuel a m = Ok x /\ 0 <= x < m /\ (a * x) mod m = 1 mod m) /\
  (0 <= a -> Z.gcd a m <> 1 -> modinv fuel a m = Panic) /\
  (a < 0 -> modinv fuel a m = Panic).
Proof.
  intros a m fuel M F. destruct (C96_egcd_stmt a m) as (g & x & y & E & B & G1 & G2 & G3). unfold modinv. rewrite E by exact F. cbn [bind].
  pose proof (Z.gcd_nonneg a m) as Gn.
  assert (Gz : a = 0 -> Z.gcd a m = m) by (intros ->; rewrite Z.gcd_0_l; lia).
  split; [|split].
  - intros A H. assert (g = 1) by (destruct (Z.eq_dec a 0) as [Z0|Z0]; [rewrite (G3 Z0); rewrite (Gz Z0) in H; exact H|rewrite G1 by lia; exact H]).
    rewrite (proj2 (Z.eqb_eq g 1)) by assumption. cbn [negb]. unfold pmod. rewrite (proj2 (Z.eqb_neq m 0)) by lia.
    exists (x mod m). split; [reflexivity|]. split; [apply Z.mod_pos_bound; exact M|]. rewrite Zmult_mod_idemp_r.
    replace (a * x) with (1 + (- y) * m) by lia. apply Z_mod_plus_full.
  - intros A H. assert (g <> 1) by (destruct (Z.eq_dec a 0) as [Z0|Z0]; [rewrite (G3 Z0); rewrite (Gz Z0) in H; exact H|rewrite G1 by lia; exact H]).
    rewrite (proj2 (Z.eqb_neq g 1)) by assumption. reflexivity.
  - intros A. assert (g <> 1) by (rewrite G2 by exact A; lia). rewrite (proj2 (Z.eqb_neq g 1)) by assumption. reflexivity.
Qed.
(** Not every number with an inverse is inverted. *)
Lemma C96_modinv_refuted_stmt : exists a m x, 1 < m /\ (a * x) mod m = 1 /\ forall fuel, 3 <= Z.of_nat fuel -> modinv fuel a m = Panic.
Proof. exists (-1), 5, 4. split; [lia|]. split; [reflexivity|]. intros fuel F. apply (C96_modinv_stmt (-1) 5 fuel); [lia|exact F|lia]. Qed.

(** The visible part of `modular_sqrt` ends for every odd prime and every number, and the
    result is a root exactly when there is one. *)
Lemma C96_sqrt_stmt : forall q a, prime q -> Z.odd q = true -> exists y, 0 <= y < q /\
  ((y * y) mod q = a mod q <-> exists x, (x * x) mod q = a mod q) /\
  forall fuel, q + Z.log2 q < Z.of_nat fuel -> sage_sqrt fuel a q = Ok y.
Proof.
  intros q a P O. destruct (sage_sqrt_main q a P O) as (y & By & S & R). exists y. split; [exact By|]. split; [|exact R].
  split; [intros H; exists y; exact H|]. intros (x & Hx). apply S. destruct (Z.eq_dec (a mod q) 0) as [A0|A0]; [left; exact A0|right].
  apply (square_euler q P O x); [|exact Hx]. pose proof (q_gt q P O). intros D. apply A0. apply Z.mod_divide; [lia|exact D].
Qed.

(** The session that turns a Montgomery curve into a Weierstrass curve: with b_m = 1 the
    square it computes is the right-hand side of the Montgomery equation. *)
Lemma C96_weierstrass_stmt : forall q a x fuel, prime q -> 3 < q -> 20 <= Z.of_nat fuel ->
  exists aw bw xw y2, sage_weierstrass fuel q a 1 x = Ok (aw, bw, xw, y2) /\
    (3 * aw) mod q = (3 - a ^ 2) mod q /\ (27 * bw) mod q = (2 * a ^ 3 - 9 * a) mod q /\ (3 * xw) mod q = (3 * x + a) mod q /\
    y2 mod q = (x ^ 3 + a * x ^ 2 + x) mod q.
Proof.
  intros q a x fuel P Q F. unfold sage_weierstrass. change (3 * 1 ^ 2) with 3. change (27 * 1 ^ 3) with 27.
  assert (G3 : Z.gcd 3 q = 1).
  { apply Zgcd_1_rel_prime. apply rel_prime_sym. apply prime_rel_prime; [exact P|]. intros D. apply Z.divide_pos_le in D; lia. }
  assert (G27 : Z.gcd 27 q = 1).
  { apply Zgcd_1_rel_prime. apply Zgcd_1_rel_prime in G3. change 27 with (3 ^ 3). apply rel_prime_sym. apply rel_prime_Zpower_r; [lia|]. apply rel_prime_sym. exact G3. }
  destruct (proj1 (C96_modinv_stmt 3 q fuel ltac:(lia) ltac:(cbn; lia)) ltac:(lia) G3) as (i & E3 & Bi & I3).
  destruct (proj1 (C96_modinv_stmt 27 q fuel ltac:(lia) ltac:(cbn; lia)) ltac:(lia) G27) as (j & E27 & Bj & I27).
  rewrite Z.mod_1_l in I3, I27 by lia.
  rewrite E3, E27. cbn [bind]. unfold pmod. rewrite (proj2 (Z.eqb_neq q 0)) by (clear - Q; lia). rewrite !bind_ok.
  set (aw := ((3 - a ^ 2) * i) mod q). set (bw := ((2 * a ^ 3 - 9 * a) * j) mod q). set (xw := (x + a * i) mod q).
  exists aw, bw, xw, ((xw ^ 3 + aw * xw + bw) mod q). split; [reflexivity|].
  pose proof (cong_mod q ltac:(clear - Q; lia)) as C. pose proof (mod_shift q ltac:(clear - Q; lia)) as R.
  pose proof (one_shift q (3 * i) ltac:(clear - Q; lia) I3) as D3. pose proof (one_shift q (27 * j) ltac:(clear - Q; lia) I27) as D27.
  destruct D3 as [c3 D3]. destruct D27 as [c27 D27].
  destruct (R ((3 - a ^ 2) * i)) as [ca Ea]. fold aw in Ea. destruct (R ((2 * a ^ 3 - 9 * a) * j)) as [cb Eb]. fold bw in Eb.
  destruct (R (x + a * i)) as [cx Ex]. fold xw in Ex. clearbody aw bw xw.
  assert (A3 : (q | 3 * aw - (3 - a ^ 2))).
  { exists ((3 - a ^ 2) * c3 + 3 * ca). rewrite Ea. transitivity ((3 - a ^ 2) * (3 * i) + 3 * ca * q - (3 - a ^ 2)); [ring|]. rewrite D3. ring. }
  assert (B27 : (q | 27 * bw - (2 * a ^ 3 - 9 * a))).
  { exists ((2 * a ^ 3 - 9 * a) * c27 + 27 * cb). rewrite Eb. transitivity ((2 * a ^ 3 - 9 * a) * (27 * j) + 27 * cb * q - (2 * a ^ 3 - 9 * a)); [ring|]. rewrite D27. ring. }
  assert (X3 : (q | 3 * xw - (3 * x + a))).
  { exists (a * c3 + 3 * cx). rewrite Ex. transitivity (3 * x + a * (3 * i) + 3 * cx * q - (3 * x + a)); [ring|]. rewrite D3. ring. }
  split; [apply C; exact A3|]. split; [apply C; exact B27|]. split; [apply C; exact X3|].
  rewrite Z.mod_mod by (clear - Q; lia). apply C.
  assert (D : (q | 27 * (xw ^ 3 + aw * xw + bw - (x ^ 3 + a * x ^ 2 + x)))).
  { destruct A3 as [k1 K1]. destruct B27 as [k2' K2]. destruct X3 as [k3' K3].
    assert (H1 : 3 * aw = 3 - a ^ 2 + k1 * q) by (rewrite <- K1; ring). assert (H2 : 27 * bw = 2 * a ^ 3 - 9 * a + k2' * q) by (rewrite <- K2; ring). assert (H3 : 3 * xw = 3 * x + a + k3' * q) by (rewrite <- K3; ring).
    exists (k3' * ((3 * xw) ^ 2 + 3 * xw * (3 * x + a) + (3 * x + a) ^ 2) + 3 * (k1 * (3 * xw) + (3 - a ^ 2) * k3') + k2').
    transitivity ((3 * xw) ^ 3 + 3 * (3 * aw) * (3 * xw) + 27 * bw - 27 * (x ^ 3 + a * x ^ 2 + x)); [ring|].
    rewrite H1, H2. set (t := 3 * xw) in *. clearbody t. rewrite H3. ring. }
  apply Gauss with 27; [exact D|]. apply rel_prime_sym. apply Zgcd_1_rel_prime. exact G27.
Qed.
(** With another b_m it ignores the coefficient: a point of the Montgomery curve whose
    abscissa is sent to one that belongs to no point. *)
Lemma C96_weierstrass_refuted_stmt : exists q a b x v, prime q /\ 3 < q /\ (b * v ^ 2) mod q = (x ^ 3 + a * x ^ 2 + x) mod q /\
  (b * (a ^ 2 - 4)) mod q <> 0 /\
  exists aw bw xw y2, sage_weierstrass 20 q a b x = Ok (aw, bw, xw, y2) /\ forall y, (y ^ 2) mod q <> y2.
Proof.
  exists 5, 1, 2, 1, 2. split; [apply trial_prime; vm_compute; reflexivity|]. split; [lia|]. split; [reflexivity|]. split; [discriminate|].
  exists 1, 3, 3, 3. split; [vm_compute; reflexivity|]. intros y. rewrite <- pow_mod_idemp by lia.
  pose proof (Z.mod_pos_bound y 5 ltac:(lia)). set (r := y mod 5) in *. clearbody r.
  assert (C : r = 0 \/ r = 1 \/ r = 2 \/ r = 3 \/ r = 4) by lia. destruct C as [->|[->|[->|[->| ->]]]]; discriminate.
Qed.

(** What the search for the coefficient skips: candidates for which A^2 - 4 is a square and
    A + 2 is a nonzero square. *)
Lemma C96_derivation_stmt : forall is_square q i, prime q -> Z.odd q = true ->
  (forall x, is_square x = true <-> exists y, (y * y) mod q = x mod q) ->
  exists b, derivation_skips is_square q (get_A i) = Ok b /\
    (b = true <-> (exists y, (y * y) mod q = ((get_A i) ^ 2 - 4) mod q) /\ (get_A i + 2) mod q <> 0 /\ exists y, (y * y) mod q = (get_A i + 2) mod q).
Proof.
  intros is_square q i P O S. pose proof (q_gt q P O) as G. unfold derivation_skips. set (A := get_A i). clearbody A.
  rewrite (legendre_val q P O). cbn [bind]. eexists. split; [reflexivity|].
  assert (E : (if (A + 2) ^ ((q - 1) / 2) mod q =? q - 1 then -1 else (A + 2) ^ ((q - 1) / 2) mod q) = 1 <->
    (A + 2) mod q <> 0 /\ exists y, (y * y) mod q = (A + 2) mod q).
  { pose proof (h_pos q P O) as Ph. cbv zeta in Ph. destruct (Z.eq_dec ((A + 2) mod q) 0) as [Z0|Z0].
    - split; [|intros [H _]; contradiction]. rewrite <- pow_mod_idemp, Z0, Z.pow_0_l, Z.mod_0_l by lia. rewrite (proj2 (Z.eqb_neq 0 (q - 1))) by lia. lia.
    - assert (ND : ~ (q | A + 2)) by (intros D; apply Z0, Z.mod_divide; [lia|exact D]). split.
      + intros H. split; [exact Z0|]. destruct (euler_pm q P O (A + 2) ND) as [R|R]; [apply euler_square; assumption|]. rewrite R, Z.eqb_refl in H. discriminate H.
      + intros [_ (x & Hx)]. rewrite (square_euler q P O x (A + 2) ND Hx). rewrite (proj2 (Z.eqb_neq 1 (q - 1))) by lia. reflexivity. }
  rewrite andb_true_iff, S, Z.eqb_eq, E. tauto.
Qed.
(** The condition lets coefficients through for which A^2 - 4 is a square, which the comment
    above it excludes: A = 30 over the field of the crate. *)
Lemma C96_derivation_refuted_stmt : exists i, (exists y, (y * y) mod p = ((get_A i) ^ 2 - 4) mod p /\ y mod p <> 0) /\
  forall is_square, (forall x, is_square x = true <-> exists y, (y * y) mod p = x mod p) -> derivation_skips is_square p (get_A i) = Ok false.
Proof.
  exists 7. split.
  - exists 363204469376036078437315056760577879623619298497994170969385695002045664840. split; [vm_compute; reflexivity|vm_compute; discriminate].
  - intros is_square S. assert (O : Z.odd p = true) by reflexivity. destruct (C96_derivation_stmt is_square p 7 prime_p O S) as (b & E & B).
    rewrite E. destruct b; [exfalso|reflexivity]. destruct (proj1 B eq_refl) as (_ & N & (y & Hy)).
    change (get_A 7 + 2) with 32 in *. apply toF_eq in Hy. rewrite toF_mul in Hy.
    apply FI_nonsq. exists (toF 4 * (1 + FI) / toF y)%F.
    assert (Ny : toF y <> 0%F).
    { intros E0. rewrite E0 in Hy. assert (Z0 : toF 32 = 0%F) by (rewrite <- Hy; ring). revert Z0. change (0%F) with (toF 0). rewrite toF_eq. vm_compute. discriminate. }
    assert (E32 : (toF 4 * (1 + FI) * (toF 4 * (1 + FI)) = FI * toF 32)%F).
    { transitivity (toF 4 * toF 4 * (1 + (1 + 1) * FI + FI * FI))%F; [ring|]. rewrite FI_sq.
      transitivity ((toF 4 * toF 4 * (1 + 1)) * FI)%F; [ring|]. assert (E2 : (toF 4 * toF 4 * (1 + 1) = toF 32)%F) by (apply Feq; vm_compute; reflexivity). rewrite E2. ring. }
    rewrite <- Hy in E32. transitivity ((toF 4 * (1 + FI) * (toF 4 * (1 + FI))) / (toF y * toF y))%F; [field; exact Ny|]. rewrite E32. field. exact Ny.
Qed.

(** The conversions of the verifier over every field in which two and three are not zero:
    a point of an Edwards curve goes to a point of its Montgomery curve, different points to
    different points, and the Montgomery curve is not singular. *)
Lemma C96_edwards_stmt : forall (K : Type) (o : fops K), is_field o -> k2 o <> f0 o ->
  (forall d x y, d <> f1 o -> x <> f0 o -> y <> f1 o -> edwards_level o d x y = f0 o ->
    mont_level o (edwards_A o d) (edwards_B o d) (fst (edwards_point o x y)) (snd (edwards_point o x y)) = f0 o) /\
  (forall d x y x' y', d <> f1 o -> x <> f0 o -> y <> f1 o -> x' <> f0 o -> y' <> f1 o ->
    edwards_level o d x y = f0 o -> edwards_level o d x' y' = f0 o -> edwards_point o x y = edwards_point o x' y' -> x = x' /\ y = y') /\
  (forall d, edwards_elliptic o d <> f0 o <-> d <> f0 o /\ d <> f1 o) /\
  (forall d, edwards_elliptic o d <> f0 o -> edwards_B o d <> f0 o /\ mont_elliptic o (edwards_A o d) (edwards_B o d) <> f0 o).
Proof.
  intros K [z e add mul sub opp div inv] Hf T. unfold is_field in Hf. cbn [f0 f1 fadd fmul fsub fopp fdiv finv] in *. set (o := FOps K z e add mul sub opp div inv) in *.
  assert (Sy : forall a b : K, a <> b -> b <> a) by (intros a b H E; apply H; symmetry; exact E).
  assert (Sub : forall a, a <> e -> sub e a <> z) by (intros a H; apply (proj1 (k_sub_nz z e add mul sub opp div inv Hf e a)); apply Sy; exact H).
  assert (El : forall d, edwards_elliptic o d <> z <-> d <> z /\ d <> e).
  { intros d. unfold edwards_elliptic. change (fmul o d (fsub o (f1 o) d)) with (mul d (sub e d)). split.
    - intros H. split; intros E; apply H; rewrite E.
      + exact (k_mul_zl z e add mul sub opp div inv Hf _).
      + exact (k_mul_self z e add mul sub opp div inv Hf _ _).
    - intros [D0 D1]. apply (k_mul_nz z e add mul sub opp div inv Hf); [exact D0|apply Sub; exact D1]. }
  assert (F4 : k4 o <> z).
  { intros E. apply (k_mul_nz z e add mul sub opp div inv Hf _ _ T T). rewrite <- E. exact (k_four z e add mul sub opp div inv Hf). }
  split; [|split; [|split]].
  - intros d x y D X Y. apply (ed_mont z e add mul sub opp div inv Hf); [apply Sub; exact D|exact X|apply Sub; exact Y].
  - intros d x y x' y' D X Y X' Y' L _. apply (ed_point_inj z e add mul sub opp div inv Hf d); try assumption; apply Sub; assumption.
  - exact El.
  - intros d H. destruct (proj1 (El d) H) as [D0 D1]. split.
    + apply (k_div_nz z e add mul sub opp div inv Hf); [exact F4|apply Sub; exact D1].
    + intros E. pose proof (ed_elliptic z e add mul sub opp div inv Hf d (Sub d D1)) as Q. fold o in Q. rewrite E in Q.
      rewrite (k_mul_zl z e add mul sub opp div inv Hf) in Q. symmetry in Q. revert Q.
      apply (k_mul_nz z e add mul sub opp div inv Hf); [|exact H]. repeat apply (k_mul_nz z e add mul sub opp div inv Hf); exact F4.
Qed.
(** A Montgomery curve and its short Weierstrass curve: the same points, different points to
    different points, singular together. *)
Lemma C96_montgomery_stmt : forall (K : Type) (o : fops K), is_field o -> k3 o <> f0 o -> forall A B, B <> f0 o ->
  (forall x y, shortw_level o (mont_a o A B) (mont_b o A B) (fst (mont_point o A B x y)) (snd (mont_point o A B x y)) = f0 o <-> mont_level o A B x y = f0 o) /\
  (forall x y x' y', mont_point o A B x y = mont_point o A B x' y' -> x = x' /\ y = y') /\
  (shortw_elliptic o (mont_a o A B) (mont_b o A B) <> f0 o <-> mont_elliptic o A B <> f0 o).
Proof.
  intros K [z e add mul sub opp div inv] Hf T A B N. unfold is_field in Hf. cbn [f0 f1 fadd fmul fsub fopp fdiv finv] in *. set (o := FOps K z e add mul sub opp div inv) in *.
  split; [|split].
  - intros x y. pose proof (mont_w z e add mul sub opp div inv Hf A B x y T N) as Q. fold o in Q. rewrite <- Q. split; intros H.
    + rewrite H. apply (k_mul_zl z e add mul sub opp div inv Hf).
    + apply (k_mul_cancel z e add mul sub opp div inv Hf) in H; [exact H|]. repeat apply (k_mul_nz z e add mul sub opp div inv Hf); exact N.
  - intros x y x' y' H. exact (mont_point_inj z e add mul sub opp div inv Hf A B x y x' y' T N H).
  - pose proof (mont_w_elliptic z e add mul sub opp div inv Hf A B T N) as Q. fold o in Q. split; intros H E; apply H.
    + apply (k_mul_cancel z e add mul sub opp div inv Hf _ (mul (mul (mul (mul (mul (mul B B) B) B) B) B) B)).
      * repeat apply (k_mul_nz z e add mul sub opp div inv Hf); exact N.
      * rewrite Q, E. exact (k_opp_z z e add mul sub opp div inv Hf).
    + rewrite E, (k_mul_zl z e add mul sub opp div inv Hf) in Q. apply (k_opp_inj z e add mul sub opp div inv Hf). rewrite <- Q. reflexivity.
Qed.
(** The ladder condition holds for every Montgomery curve. *)
Lemma C96_ladder_stmt : forall (K : Type) (o : fops K), is_field o -> k3 o <> f0 o -> forall A B, B <> f0 o -> montladder o (mont_a o A B) (mont_b o A B).
Proof.
  intros K [z e add mul sub opp div inv] Hf T A B N. exact (mont_ladder z e add mul sub opp div inv Hf A B T N).
Qed.

Lemma C96_ex :
  egcd 12 240 46 = Ok (2, -9, 47) /\ modinv 7 10 7 = Ok 5 /\ modinv 9 6 9 = Panic /\
  prime 17 /\ Z.odd 17 = true /\ sage_sqrt 30 2 17 = Ok 6 /\
  (* What the two sessions print (104-115). *)
  (let q := 2 ^ 255 - 19 in let y := 14781619447589544791020593568409986887264606134616475288964881837755586237401 in
   sage_weierstrass 20 q 486662 1 9 = Ok (19298681539552699237261830834781317975544997444273427339909597334573241639236,
     55751746669818908907645289078257140818241103727901012315294400837956729358436,
     19298681539552699237261830834781317975544997444273427339909597334652188435546, (y * y) mod q)) /\
  prime p /\ 3 < p /\
  sage_weierstrass 20 p 346598 1 17 = Ok (2412335192444087404657728854347664746952372119793302535333983646055108025796,
    1340186218024493002587627141304258192751317844329612519629993998710484804961,
    2412335192444087404657728854347664746952372119793302535333983646095151532546, 100171752) /\
  (* A field, an Edwards curve and a point as the conversions ask for. *)
  (let o := FOps F (toF 0) (toF 1) Fp.fadd Fp.fmul Fp.fsub Fp.fopp Fp.fdiv Fp.finv in
   let d := toF 4824670384888174809315457708695329493904744239586605070667967292190302833993 in
   is_field o /\ k2 o <> f0 o /\ k3 o <> f0 o /\ edwards_elliptic o d <> f0 o /\ d <> f1 o /\
   toF 2 <> f0 o /\ toF 3 <> f1 o /\ edwards_level o d (toF 2) (toF 3) = f0 o).
Proof.
  split; [vm_compute; reflexivity|]. split; [vm_compute; reflexivity|]. split; [vm_compute; reflexivity|].
  split; [apply trial_prime; vm_compute; reflexivity|]. split; [reflexivity|]. split; [vm_compute; reflexivity|].
  split; [vm_compute; reflexivity|]. split; [exact prime_p|]. split; [reflexivity|]. split; [vm_compute; reflexivity|].
  intros o d. split; [exact F_field_theory|].
  assert (N : forall a b, Fval a <> Fval b -> a <> b) by (intros a b H E; apply H; rewrite E; reflexivity).
  split; [apply N; vm_compute; discriminate|]. split; [apply N; vm_compute; discriminate|]. split; [apply N; vm_compute; discriminate|].
  split; [apply N; vm_compute; discriminate|]. split; [apply N; vm_compute; discriminate|]. split; [apply N; vm_compute; discriminate|].
  apply Feq. vm_compute. reflexivity.
Qed.
