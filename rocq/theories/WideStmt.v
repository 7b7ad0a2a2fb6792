(** * Products and powers of operands that are not reduced, stated on integers *)

From Coq Require Import ZArith Znumtheory List Bool Lia.
From Verif Require Import Machine FieldModel ScalarModel Spec MachineFacts FieldLimb FieldMul FieldOps FieldBytes
  NumTheory Primes Fp FieldF FieldInv ScalarLimb ScalarOps ScalarBits FieldStmt ScalarStmt WideMul WidthStmt.
Import ListNotations.
Open Scope Z_scope.

(** ** C99 *)
(** Any five limbs of 52 bits, on both sides. *)
Lemma C99_field_mul_stmt : forall ck a b, flimbs a -> flimbs b ->
  returns_field (fe_mul ck a b) (fval a * fval b).
Proof. exact fe_mul_any. Qed.
Lemma C99_field_square_stmt : forall ck a, flimbs a -> returns_field (fe_square ck a) (fval a * fval a).
Proof. exact fe_square_any. Qed.
Lemma INV2_limbs : flimbs INVERSE_MOD_TWO.
Proof. rewrite flimbs_lim; cbn; unfold lim; lia. Qed.
Lemma C99_field_half_stmt : forall ck a, flimbs a ->
  exists r, fe_half ck a = Ok r /\ fcanon r /\ (fval r + fval r) mod p = fval a mod p.
Proof.
  intros ck a A. unfold fe_half. destruct (fe_mul_any ck a _ A INV2_limbs) as (r & E & C & V).
  exists r. split; [exact E|]. split; [exact C|]. rewrite V.
  rewrite <- Zplus_mod. replace (fval a * fval INVERSE_MOD_TWO + fval a * fval INVERSE_MOD_TWO)
    with (fval a * (2 * fval INVERSE_MOD_TWO)) by ring.
  rewrite Zmult_mod. replace ((2 * fval INVERSE_MOD_TWO) mod p) with 1 by (vm_compute; reflexivity).
  rewrite Z.mul_1_r. apply Zmod_mod.
Qed.

Lemma fe_pow_base n ck a b x e : fe_mul ck a a = fe_mul ck b b -> fe_mul ck x a = fe_mul ck x b ->
  fe_pow_loop n ck a x e = fe_pow_loop n ck b x e.
Proof.
  intros S M. destruct n as [|n]; [reflexivity|]. cbn [fe_pow_loop].
  destruct (is_gt (fe_cmp e fe_zero)); [|reflexivity].
  destruct (fe_is_even e).
  - cbv zeta. rewrite S. reflexivity.
  - rewrite S, M. reflexivity.
Qed.
Lemma fe_mul_reduced ck x a b : flimbs x -> flimbs a -> flimbs b -> fval a mod p = fval b mod p ->
  fe_mul ck x a = fe_mul ck x b.
Proof.
  intros X A B E. destruct (fe_mul_any ck x a X A) as (r & -> & C & V).
  destruct (fe_mul_any ck x b X B) as (s & -> & D & W). f_equal. apply fval_inj; [apply C|apply D|].
  rewrite V, W, Zmult_mod, E, <- Zmult_mod. reflexivity.
Qed.
Lemma fe_sq_reduced ck a b : flimbs a -> flimbs b -> fval a mod p = fval b mod p ->
  fe_mul ck a a = fe_mul ck b b.
Proof.
  intros A B E. destruct (fe_mul_any ck a a A A) as (r & -> & C & V).
  destruct (fe_mul_any ck b b B B) as (s & -> & D & W). f_equal. apply fval_inj; [apply C|apply D|].
  rewrite V, W, Zmult_mod, E, <- Zmult_mod. reflexivity.
Qed.
Lemma pow_mod_eq x y n m : 0 <= n -> x mod m = y mod m -> (x ^ n) mod m = (y ^ n) mod m.
Proof.
  intros N E. revert n N. apply natlike_ind; [reflexivity|].
  intros n N IH. rewrite !Z.pow_succ_r by exact N. rewrite Zmult_mod, E, IH, <- Zmult_mod. reflexivity.
Qed.
Lemma C99_field_pow_stmt : forall ck a e, flimbs a -> flimbs e ->
  returns_field (fe_pow ck a e) (fval a ^ fval e).
Proof.
  intros ck a e A E. set (b := enc (toF (fval a))).
  assert (B : fcanon b) by apply enc_c.
  assert (V : fval a mod p = fval b mod p).
  { unfold b. rewrite fval_enc. rewrite Fval_toF. symmetry. apply Zmod_mod. }
  assert (B1 : flimbs b) by apply B.
  assert (H : fe_pow ck a e = fe_pow ck b e).
  { unfold fe_pow. apply fe_pow_base; [apply fe_sq_reduced; assumption|].
    apply fe_mul_reduced; [apply fcanon_one|assumption|assumption|exact V]. }
  rewrite H. destruct (C06_pow_stmt ck b e (fcanon_loadable _ B) E) as (r & E1 & C1 & V1).
  exists r. split; [exact E1|]. split; [exact C1|]. rewrite V1.
  apply pow_mod_eq; [apply fval_nonneg; exact E|]. symmetry. exact V.
Qed.
(** Montgomery multiplication keeps 52-bit limbs and the congruence. *)
Lemma C99_field_montgomery_stmt : forall ck a b, flimbs a -> flimbs b ->
  exists r, fe_montgomery_mul ck a b = Ok r /\ flimbs r /\
    (fval r * 2 ^ 260) mod p = (fval a * fval b) mod p.
Proof.
  intros ck a b A B. destruct (fe_montgomery_mul_any ck a b A B) as (r & k & E & C & V).
  exists r. split; [exact E|]. split; [exact C|]. rewrite V. apply Z_mod_plus_full.
Qed.
(** But its result need not be reduced. *)
Lemma C99_field_reduced_refuted_stmt : exists a r, flimbs a /\
  (forall ck, fe_montgomery_mul ck a a = Ok r) /\ p <= fval r.
Proof.
  exists (FE 4503599627370495 4503599627370495 4503599627370495 4503599627370495 4503599627370495).
  eexists. split; [rewrite flimbs_lim; cbn; unfold lim; lia|].
  split; [intros []; vm_compute; reflexivity|]. vm_compute. discriminate.
Qed.
(** Limbs of 64 bits are too much: a panic with overflow checks, a wrong product without. *)
Lemma C99_field_limbs_refuted_stmt : exists a r,
  0 <= f0 a < 2 ^ 64 /\ f1 a = 0 /\ f2 a = 0 /\ f3 a = 0 /\ 0 <= f4 a < 2 ^ 64 /\
  fe_mul true a a = Panic /\ fe_mul false a a = Ok r /\ fval r mod p <> (fval a * fval a) mod p.
Proof.
  exists (FE 18446744073709551615 0 0 0 18446744073709551615). eexists.
  split; [cbn; lia|]. split; [reflexivity|]. split; [reflexivity|]. split; [reflexivity|].
  split; [cbn; lia|]. split; [vm_compute; reflexivity|]. split; [vm_compute; reflexivity|].
  vm_compute. discriminate.
Qed.

Lemma C99_scalar_mul_stmt : forall ck a b, slimbs a -> slimbs b ->
  returns_scalar (sc_mul ck a b) (sval a * sval b).
Proof. exact sc_mul_any. Qed.
Lemma C99_scalar_square_stmt : forall ck a, slimbs a -> returns_scalar (sc_square ck a) (sval a * sval a).
Proof. exact sc_square_any. Qed.
Lemma sc_pow_base n ck a b x e : sc_square ck a = sc_square ck b -> sc_mul ck x a = sc_mul ck x b ->
  sc_pow_loop n ck a x e = sc_pow_loop n ck b x e.
Proof.
  intros S M. destruct n as [|n]; [reflexivity|]. cbn [sc_pow_loop].
  destruct (is_gt (sc_cmp e sc_zero)); [|reflexivity].
  destruct (sc_is_even e).
  - cbv zeta. rewrite S. reflexivity.
  - rewrite S, M. reflexivity.
Qed.
(** The base of a power may be any 52-bit limbs, the exponent has to be reduced. *)
Lemma C99_scalar_pow_stmt : forall ck a e, slimbs a -> scanon e ->
  returns_scalar (sc_pow ck a e) (sval a ^ sval e).
Proof.
  intros ck a e A E.
  destruct (sc_mul_any ck sc_one a) as (b & Eb & B & Vb); [apply C17_ex || (rewrite slimbs_lim; cbn; unfold lim; lia)|exact A|].
  assert (V : sval a mod L = sval b mod L).
  { rewrite Vb. replace (sval sc_one) with 1 by reflexivity. rewrite Z.mul_1_l, Zmod_mod. reflexivity. }
  assert (B1 : slimbs b) by apply B.
  assert (H : sc_pow ck a e = sc_pow ck b e).
  { unfold sc_pow. apply sc_pow_base.
    - destruct (sc_square_any ck a A) as (r & -> & C & W). destruct (sc_square_any ck b B1) as (s & -> & D & X).
      f_equal. apply sval_inj; [apply C|apply D|]. rewrite W, X, Zmult_mod, V, <- Zmult_mod. reflexivity.
    - rewrite Eb. symmetry. destruct (sc_mul_any ck sc_one b) as (s & -> & D & X);
        [rewrite slimbs_lim; cbn; unfold lim; lia|exact B1|].
      f_equal. apply sval_inj; [apply D|apply B|]. rewrite X. replace (sval sc_one) with 1 by reflexivity.
      rewrite Z.mul_1_l, <- V. rewrite Vb. replace (sval sc_one) with 1 by reflexivity. rewrite Z.mul_1_l. reflexivity. }
  rewrite H. destruct (C20_pow_stmt ck b e B E) as (r & E1 & C1 & V1).
  exists r. split; [exact E1|]. split; [exact C1|]. rewrite V1.
  apply pow_mod_eq; [apply sval_nonneg; apply E|]. symmetry. exact V.
Qed.
(** 2 to the power 2L + 1 is 8, but comes out as 2: the halving of the odd branch takes 2L to 0. *)
Lemma C99_scalar_exponent_refuted_stmt : exists a e r, scanon a /\ sval a = 2 /\ slimbs e /\ sval e = 2 * L + 1 /\
  sval e < 2 ^ 256 /\ (forall ck, sc_pow ck a e = Ok r) /\ sval r = 2 /\ (sval a ^ sval e) mod L = 8.
Proof.
  exists (SC 2 0 0 0 0), (SC 2259354304614599 2727089395625302 1428878 0 4398046511104), (SC 2 0 0 0 0).
  split; [split; [rewrite slimbs_lim; cbn; unfold lim; lia|reflexivity]|]. split; [reflexivity|].
  split; [rewrite slimbs_lim; cbn; unfold lim; lia|]. split; [reflexivity|]. split; [reflexivity|].
  split; [intros []; vm_compute; reflexivity|]. split; [reflexivity|].
  replace (sval (SC 2259354304614599 2727089395625302 1428878 0 4398046511104)) with ((L - 1) * 2 + 3) by (vm_compute; reflexivity).
  replace (sval (SC 2 0 0 0 0)) with 2 by reflexivity.
  rewrite Z.pow_add_r by (vm_compute; discriminate). rewrite Z.pow_mul_r by (vm_compute; discriminate).
  assert (F : (2 ^ (L - 1)) mod L = 1).
  { apply fermat; [exact prime_L|]. intros D. apply Z.divide_pos_le in D; [|reflexivity].
    apply Zle_not_lt in D. apply D. reflexivity. }
  revert F. generalize (2 ^ (L - 1)). intros x F.
  rewrite Z.mul_mod by discriminate. rewrite (Z.pow_2_r x), (Z.mul_mod x x), F by discriminate. reflexivity.
Qed.
Lemma C99_scalar_montgomery_stmt : forall ck a b, slimbs a -> slimbs b ->
  exists r, sc_montgomery_mul ck a b = Ok r /\ slimbs r /\
    (sval r * 2 ^ 260) mod L = (sval a * sval b) mod L.
Proof.
  intros ck a b A B. destruct (sc_montgomery_mul_any ck a b A B) as (r & k & E & C & V).
  exists r. split; [exact E|]. split; [exact C|]. rewrite V. apply Z_mod_plus_full.
Qed.
Lemma C99_ex : let a := FE 4503599627370495 4503599627370495 4503599627370495 4503599627370495 4503599627370495 in
  let b := SC 4503599627370495 4503599627370495 4503599627370495 4503599627370495 4503599627370495 in
  flimbs a /\ fval a = 2 ^ 260 - 1 /\ p < fval a /\ slimbs b /\ sval b = 2 ^ 260 - 1 /\ L < sval b /\ scanon sc_minus_one.
Proof.
  cbv zeta. split; [rewrite flimbs_lim; cbn; unfold lim; lia|]. split; [reflexivity|]. split; [reflexivity|].
  split; [rewrite slimbs_lim; cbn; unfold lim; lia|]. split; [reflexivity|]. split; [reflexivity|]. apply C17_ex.
Qed.

(** ** C100 *)
(** Below 64 the result is the residue modulo 2^min(k, 8). *)
Lemma C100_mod_stmt : forall ck a k, slimbs a -> 0 <= k < 64 ->
  sc_mod_2_pow_k ck a k = Ok (sval a mod 2 ^ Z.min k 8).
Proof.
  intros ck a k A K. destruct (Z.le_gt_cases k 8) as [H|H].
  { rewrite Z.min_l by exact H. apply sc_mod_2_pow_k_ok; [lia|exact A]. }
  rewrite Z.min_r by lia. destruct (Z.lt_ge_cases k 52) as [J|J].
  { apply sc_mod_2_pow_k_trunc; [lia|exact A]. }
  assert (P1 : 2 ^ 52 <= 2 ^ k) by (apply Z.pow_le_mono_r; lia).
  assert (P2 : 2 ^ k < 2 ^ 64) by (apply Z.pow_lt_mono_r; lia).
  assert (U : ushl ck 64 W64 1 k = Ok (2 ^ k)).
  { unfold ushl. rewrite (proj2 (Z.ltb_lt k 64)) by (clear - K; lia).
    rewrite shl64 by (clear - K; lia). rewrite Z.mul_1_l, Z.mod_small; [reflexivity|].
    clear - P1 P2. lia. }
  unfold sc_mod_2_pow_k. rewrite U, bind_ok.
  rewrite usub_ok by (clear - P1; lia). rewrite bind_ok, land_mask_mod by (clear - K; lia).
  rewrite cast8. f_equal. assert (S0 : 0 <= s0 a < 2 ^ 52) by apply A.
  rewrite (Z.mod_small (s0 a)) by (clear - S0 P1; lia).
  change 256 with (2 ^ 8). rewrite sval_mod_pow by (clear; lia). reflexivity.
Qed.
(** From 64 on: a panic with overflow checks; without, the width counts modulo 64. *)
Lemma C100_mod_wide_stmt : forall a k, slimbs a -> 64 <= k <= 255 ->
  sc_mod_2_pow_k true a k = Panic /\ sc_mod_2_pow_k false a k = Ok (sval a mod 2 ^ Z.min (k mod 64) 8).
Proof.
  intros a k A K. split.
  - unfold sc_mod_2_pow_k, ushl. destruct (Z.ltb_spec k 64); [exfalso; clear - H K; lia|reflexivity].
  - rewrite <- (C100_mod_stmt false a (k mod 64) A) by (apply Z.mod_pos_bound; reflexivity).
    unfold sc_mod_2_pow_k, ushl. destruct (Z.ltb_spec k 64); [exfalso; clear - H K; lia|].
    destruct (Z.ltb_spec (k mod 64) 64) as [H1|H1]; [reflexivity|].
    exfalso. pose proof (Z.mod_pos_bound k 64 eq_refl). clear - H0 H1. lia.
Qed.

Definition wide_ok (w r : Z) : bool :=
  match mods8 true w r, mods8 false w r with
  | a, b =>
    if w =? 0 then match a, b with Panic, Ok x => x =? -1 | _, _ => false end
    else if w =? 7 then
      match a with
      | Ok x => (r mod 128 <? 64) && (x =? r mod 128)
      | Panic => negb (r mod 128 <? 64)
      | NoFuel => false
      end
    else if w <? 8 then true
    else if w mod 8 =? 0 then
      match a, b with Panic, Ok x => x =? as_i8 (r - 1) | _, _ => false end
    else match a, b with
         | Panic, Ok x => x =? (if as_i8 r <? 2 ^ (w mod 8 - 1) then as_i8 r else as_i8 r - 2 ^ (w mod 8))
         | _, _ => false
         end
  end.
Definition upto (n : nat) : list Z := map Z.of_nat (seq 0 n).
Lemma in_upto n x : 0 <= x < Z.of_nat n -> In x (upto n).
Proof.
  intros H. unfold upto. apply in_map_iff. exists (Z.to_nat x). split; [apply Z2Nat.id; lia|].
  apply in_seq. lia.
Qed.
Lemma wide_all : forallb (fun w => forallb (wide_ok w) (upto 256)) (upto 32) = true.
Proof. vm_compute. reflexivity. Qed.
Lemma wide_at w x : 0 <= w < 32 -> wide_ok w (x mod 256) = true.
Proof.
  intros W. pose proof wide_all as H. rewrite forallb_forall in H.
  specialize (H w (in_upto 32 w W)). cbv beta in H. rewrite forallb_forall in H. apply H.
  apply in_upto. apply Z.mod_pos_bound. reflexivity.
Qed.
Lemma as_i8_signed x : signed_residue 8 x (as_i8 x).
Proof.
  unfold signed_residue, as_i8. change (2 ^ 8) with 256. change (2 ^ (8 - 1)) with 128.
  pose proof (Z.mod_pos_bound (x + 128) 256 eq_refl) as B. split; [|lia].
  replace (x - ((x + 128) mod 256 - 128)) with ((x + 128) - (x + 128) mod 256) by ring.
  rewrite Zminus_mod_idemp_r, Z.sub_diag. reflexivity.
Qed.
Lemma signed_mod x y r : x mod 256 = y mod 256 -> signed_residue 8 x r -> signed_residue 8 y r.
Proof.
  intros E [H B]. split; [|exact B]. change (2 ^ 8) with 256 in *. rewrite <- H.
  rewrite Zminus_mod, <- E, <- Zminus_mod. reflexivity.
Qed.
(** Width 0: the documented panic happens with overflow checks only. *)
Lemma C100_mods_zero_stmt : forall a, slimbs a ->
  sc_mods_2_pow_k true a 0 = Panic /\ sc_mods_2_pow_k false a 0 = Ok (-1).
Proof.
  intros a A. rewrite !sc_mods_mods8 by (assumption || lia).
  pose proof (wide_at 0 (sval a) ltac:(lia)) as H. unfold wide_ok in H. change (0 =? 0) with true in H. cbv iota in H.
  destruct (mods8 true 0 (sval a mod 256)); try discriminate H.
  destruct (mods8 false 0 (sval a mod 256)); try discriminate H.
  apply Z.eqb_eq in H. subst. split; reflexivity.
Qed.
(** Width 7 with overflow checks: right for the nonnegative digits, a panic for the negative ones. *)
Lemma C100_mods_seven_stmt : forall a, slimbs a ->
  (sval a mod 128 < 64 -> sc_mods_2_pow_k true a 7 = Ok (sval a mod 128)) /\
  (64 <= sval a mod 128 -> sc_mods_2_pow_k true a 7 = Panic).
Proof.
  intros a A. rewrite !sc_mods_mods8 by (assumption || lia).
  pose proof (wide_at 7 (sval a) ltac:(lia)) as H. unfold wide_ok in H.
  change (7 =? 0) with false in H. change (7 =? 7) with true in H. cbv iota in H.
  rewrite <- (Zmod_div_mod 128 256 (sval a)) in H; [|reflexivity|reflexivity|exists 2; reflexivity].
  destruct (mods8 true 7 (sval a mod 256)) as [x| |]; [| |discriminate H].
  - apply andb_prop in H. destruct H as [H1 H2]. apply Z.ltb_lt in H1. apply Z.eqb_eq in H2. subst x.
    split; [reflexivity|]. intros H3. exfalso. apply Zle_not_lt in H3. exact (H3 H1).
  - apply negb_true_iff, Z.ltb_ge in H. split; [|reflexivity]. intros H3. exfalso. apply Zle_not_lt in H. exact (H H3).
Qed.
(** From width 8 on there is always a panic with overflow checks. *)
Lemma C100_mods_checked_stmt : forall a w, slimbs a -> 8 <= w <= 255 -> sc_mods_2_pow_k true a w = Panic.
Proof.
  intros a w A W. destruct (Z.lt_ge_cases w 32) as [H|H].
  - rewrite sc_mods_mods8 by (assumption || lia).
    pose proof (wide_at w (sval a) ltac:(lia)) as Q. unfold wide_ok in Q.
    rewrite (proj2 (Z.eqb_neq w 0)), (proj2 (Z.eqb_neq w 7)), (proj2 (Z.ltb_ge w 8)) in Q by lia.
    destruct (w mod 8 =? 0); destruct (mods8 true w (sval a mod 256)); (reflexivity || discriminate Q).
  - unfold sc_mods_2_pow_k. rewrite (proj2 (Z.ltb_ge w 32)) by lia. reflexivity.
Qed.
(** From width 32 on the assertion fails in both builds. *)
Lemma C100_mods_assert_stmt : forall ck a w, 32 <= w <= 255 -> sc_mods_2_pow_k ck a w = Panic.
Proof.
  intros ck a w W. unfold sc_mods_2_pow_k. rewrite (proj2 (Z.ltb_ge w 32)) by lia. reflexivity.
Qed.
(** Widths 8, 16 and 24 without overflow checks: the signed residue of the predecessor. *)
Lemma C100_mods_eight_stmt : forall a w, slimbs a -> w = 8 \/ w = 16 \/ w = 24 ->
  exists r, sc_mods_2_pow_k false a w = Ok r /\ signed_residue 8 (sval a - 1) r.
Proof.
  intros a w A W. assert (R : 8 <= w < 32 /\ w mod 8 = 0) by (destruct W as [->|[->| ->]]; split; (lia || reflexivity)).
  rewrite sc_mods_mods8 by (assumption || lia).
  pose proof (wide_at w (sval a) ltac:(lia)) as Q. unfold wide_ok in Q.
  rewrite (proj2 (Z.eqb_neq w 0)), (proj2 (Z.eqb_neq w 7)), (proj2 (Z.ltb_ge w 8)) in Q by lia.
  rewrite (proj2 R) in Q. change (0 =? 0) with true in Q. cbv iota in Q.
  destruct (mods8 true w (sval a mod 256)); try discriminate Q.
  destruct (mods8 false w (sval a mod 256)) as [r| |]; try discriminate Q.
  apply Z.eqb_eq in Q. subst r. eexists. split; [reflexivity|].
  apply (signed_mod (sval a mod 256 - 1)); [apply Zminus_mod_idemp_l|apply as_i8_signed].
Qed.
(** The other widths below 32 without overflow checks: the signed residue modulo 256, lowered by
    2^(w mod 8) when it is at least 2^(w mod 8 - 1). *)
Lemma C100_mods_wide_stmt : forall a w, slimbs a -> 9 <= w <= 31 -> w mod 8 <> 0 ->
  exists m, signed_residue 8 (sval a) m /\
    (m < 2 ^ (w mod 8 - 1) -> sc_mods_2_pow_k false a w = Ok m) /\
    (2 ^ (w mod 8 - 1) <= m -> sc_mods_2_pow_k false a w = Ok (m - 2 ^ (w mod 8))).
Proof.
  intros a w A W N. exists (as_i8 (sval a mod 256)).
  split; [apply (signed_mod (sval a mod 256)); [apply Zmod_mod|apply as_i8_signed]|].
  rewrite sc_mods_mods8 by (assumption || lia).
  pose proof (wide_at w (sval a) ltac:(lia)) as Q. unfold wide_ok in Q.
  rewrite (proj2 (Z.eqb_neq w 0)), (proj2 (Z.eqb_neq w 7)), (proj2 (Z.ltb_ge w 8)), (proj2 (Z.eqb_neq _ _) N) in Q by lia.
  destruct (mods8 true w (sval a mod 256)); try discriminate Q.
  destruct (mods8 false w (sval a mod 256)) as [r| |]; try discriminate Q.
  apply Z.eqb_eq in Q. subst r.
  split; intros H; destruct (Z.ltb_spec (as_i8 (sval a mod 256)) (2 ^ (w mod 8 - 1))) as [J|J]; try reflexivity;
    exfalso; [apply Zle_not_lt in J; exact (J H)|apply Zle_not_lt in H; exact (H J)].
Qed.
(** The documentation of `mod_2_pow_k` promises a panic above 32 bits. *)
Lemma C100_doc_refuted_stmt : exists a k, scanon a /\ 32 < k <= 255 /\
  forall ck, sc_mod_2_pow_k ck a k = Ok 5.
Proof.
  exists (SC 5 0 0 0 0), 33. split; [split; [rewrite slimbs_lim; cbn; unfold lim; lia|reflexivity]|].
  split; [lia|]. intros []; reflexivity.
Qed.
Lemma C100_ex : slimbs sc_minus_one /\ sc_mod_2_pow_k false sc_minus_one 70 = Ok 34 /\
  sc_mods_2_pow_k false sc_minus_one 8 = Ok 97 /\ sc_mods_2_pow_k false sc_minus_one 9 = Ok 96 /\ 9 mod 8 <> 0.
Proof. split; [apply C17_ex|]. vm_compute. repeat split; discriminate. Qed.
