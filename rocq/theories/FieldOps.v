(** * Multiplication, comparison, halving and byte encoding of field elements *)

From Coq Require Import ZArith Znumtheory List Bool Lia.
From Verif Require Import Machine FieldModel Spec MachineFacts FieldLimb FieldMul.
Import ListNotations.
Open Scope Z_scope.

Lemma fval_nonneg a : flimbs a -> 0 <= fval a < 2 ^ 260.
Proof. rewrite flimbs_lim, fval_num. unfold lim. intros. lia. Qed.

Lemma fcanon_loadable a : fcanon a -> floadable a.
Proof. intros [H1 H2]. split; auto. rewrite p_num in H2. lia. Qed.

Lemma canon_mod r x k : fcanon r -> fval r = x + k * p -> fval r = x mod p.
Proof.
  intros [H1 H2] E. apply fval_nonneg in H1.
  apply Zmod_unique with (- k); [lia|]. lia.
Qed.

(** 2^260 is invertible modulo p. *)
Definition Rinv : Z := Eval vm_compute in
  (Z.iter 260 (fun x => if Z.even x then x / 2 else (x + p) / 2) 1).
Lemma Rinv_ok : 2 ^ 260 * Rinv = 1 + (2 ^ 260 * Rinv / p) * p.
Proof. vm_compute. reflexivity. Qed.

Lemma cancel_R x k : x * 2 ^ 260 = k * p -> exists m, x = m * p.
Proof.
  intros H. pose proof Rinv_ok as E.
  exists (k * Rinv - x * (2 ^ 260 * Rinv / p)).
  set (q := 2 ^ 260 * Rinv / p) in *. clearbody q.
  assert (x * 2 ^ 260 * Rinv = k * p * Rinv) by (rewrite H; reflexivity).
  assert (x * (2 ^ 260 * Rinv) = x * (1 + q * p)) by (rewrite E; reflexivity).
  nia.
Qed.

Lemma RR_val : fval RR_FIELD = 2 ^ 260 * 2 ^ 260 - (2 ^ 520 / p) * p.
Proof. vm_compute. reflexivity. Qed.
Lemma RR_canon : fcanon RR_FIELD.
Proof. split; [rewrite flimbs_lim; cbn; unfold lim; lia|vm_compute; reflexivity]. Qed.

Lemma mul_bound x y : 0 <= x < 2 ^ 256 -> 0 <= y < 2 ^ 256 -> x * y < 2 ^ 260 * p.
Proof.
  intros. apply Z.lt_le_trans with (2 ^ 256 * 2 ^ 256).
  - nia.
  - rewrite p_num. vm_compute. discriminate.
Qed.

Lemma second_reduce ck prod x k : fcanon prod -> fval prod * 2 ^ 260 = x + k * p ->
  exists r, (w' <- fe_mul_internal ck prod RR_FIELD ;; fe_montgomery_reduce ck w') = Ok r /\
    fcanon r /\ fval r = x mod p.
Proof.
  intros C E. pose proof (fcanon_loadable _ C) as [F1 F2]. pose proof (fval_nonneg _ F1).
  destruct RR_canon as [R1 R2]. pose proof (fval_nonneg _ R1).
  destruct (fe_mul_internal_ok ck prod RR_FIELD F1 R1) as (t & -> & Wt & Vt).
  rewrite bind_ok.
  destruct (fe_montgomery_reduce_ok ck t Wt) as (r & k2 & -> & Cr & Vr).
  { rewrite Vt. apply mul_bound; [lia|]. rewrite p_num in R2. lia. }
  exists r. split; [reflexivity|]. split; [assumption|].
  rewrite Vt, RR_val in Vr.
  set (m := 2 ^ 520 / p) in *. clearbody m.
  destruct (cancel_R (fval r - x) (k * 2 ^ 260 - fval prod * m + k2)) as (j & Hj).
  { rewrite Z.mul_sub_distr_r, Vr.
    replace (fval prod * (2 ^ 260 * 2 ^ 260 - m * p)) with
      (fval prod * 2 ^ 260 * 2 ^ 260 - fval prod * m * p) by ring.
    rewrite E. ring. }
  apply canon_mod with j; auto. lia.
Qed.

(** The product of any two field elements whose integer product stays below
    2^260 * p; in particular any two values loaded from 32 bytes. *)
Lemma fe_mul_gen ck a b : flimbs a -> flimbs b -> fval a * fval b < 2 ^ 260 * p ->
  exists r, fe_mul ck a b = Ok r /\ fcanon r /\ fval r = (fval a * fval b) mod p.
Proof.
  intros A B H. unfold fe_mul.
  destruct (fe_mul_internal_ok ck a b A B) as (t & -> & Wt & Vt). rewrite bind_ok.
  destruct (fe_montgomery_reduce_ok ck t Wt) as (r & k & -> & Cr & Vr); [lia|].
  rewrite bind_ok. rewrite Vt in Vr.
  exact (second_reduce ck r _ k Cr Vr).
Qed.

Lemma fe_mul_ok ck a b : floadable a -> floadable b ->
  exists r, fe_mul ck a b = Ok r /\ fcanon r /\ fval r = (fval a * fval b) mod p.
Proof.
  intros [A1 A2] [B1 B2]. apply fe_mul_gen; auto.
  apply fval_nonneg in A1. apply fval_nonneg in B1. apply mul_bound; lia.
Qed.

Lemma fe_square_ok ck a : floadable a ->
  exists r, fe_square ck a = Ok r /\ fcanon r /\ fval r = (fval a * fval a) mod p.
Proof.
  intros [A1 A2]. unfold fe_square.
  destruct (fe_square_internal_ok ck a A1) as (t & -> & Wt & Vt). rewrite bind_ok.
  apply fval_nonneg in A1.
  destruct (fe_montgomery_reduce_ok ck t Wt) as (r & k & -> & Cr & Vr).
  { rewrite Vt. apply mul_bound; lia. }
  rewrite bind_ok. rewrite Vt in Vr.
  exact (second_reduce ck r _ k Cr Vr).
Qed.

(** Montgomery multiplication (used by the inversion). *)
Lemma fe_montgomery_mul_ok ck a b : flimbs a -> flimbs b -> fval a * fval b < 2 ^ 260 * p ->
  exists r k, fe_montgomery_mul ck a b = Ok r /\ fcanon r /\
    fval r * 2 ^ 260 = fval a * fval b + k * p.
Proof.
  intros A B H. unfold fe_montgomery_mul.
  destruct (fe_mul_internal_ok ck a b A B) as (t & -> & Wt & Vt). rewrite bind_ok.
  destruct (fe_montgomery_reduce_ok ck t Wt) as (r & k & E & Cr & Vr); [lia|].
  exists r, k. rewrite Vt in Vr. auto.
Qed.

Lemma fe_to_montgomery_ok ck a : floadable a ->
  exists r, fe_to_montgomery ck a = Ok r /\ fcanon r /\ fval r = (fval a * 2 ^ 260) mod p.
Proof.
  intros [A1 A2]. pose proof (fval_nonneg _ A1). destruct RR_canon as [R1 R2].
  pose proof (fval_nonneg _ R1).
  destruct (fe_montgomery_mul_ok ck a RR_FIELD A1 R1) as (r & k & E & C & V).
  { apply mul_bound; [lia|]. rewrite p_num in R2. lia. }
  exists r. split; [exact E|]. split; [assumption|].
  rewrite RR_val in V.
  destruct (cancel_R (fval r - fval a * 2 ^ 260) (k - fval a * (2 ^ 520 / p))) as (j & Hj).
  { rewrite Z.mul_sub_distr_r, V. ring. }
  apply canon_mod with j; auto. lia.
Qed.

Lemma fe_from_montgomery_ok ck a : flimbs a ->
  exists r k, fe_from_montgomery ck a = Ok r /\ fcanon r /\ fval r * 2 ^ 260 = fval a + k * p.
Proof.
  intros A. pose proof (fval_nonneg _ A) as N. destruct a as [a0 a1 a2 a3 a4].
  unfold fe_from_montgomery.
  destruct (fe_montgomery_reduce_ok ck (WD a0 a1 a2 a3 a4 0 0 0 0)) as (r & k & E & C & V).
  - rewrite flimbs_lim in A. unfold wide_ok, col, lim in *. clear N.
    cbn [w0 w1 w2 w3 w4 w5 w6 w7 w8 f0 f1 f2 f3 f4] in *. repeat split; lia.
  - change (wval (WD a0 a1 a2 a3 a4 0 0 0 0)) with
      (fval (FE a0 a1 a2 a3 a4) + 0 * 2 ^ 260 + 0 * 2 ^ 312 + 0 * 2 ^ 364 + 0 * 2 ^ 416).
    rewrite p_num. lia.
  - exists r, k. split; [exact E|]. split; [exact C|]. rewrite V.
    change (wval (WD a0 a1 a2 a3 a4 0 0 0 0)) with
      (fval (FE a0 a1 a2 a3 a4) + 0 * 2 ^ 260 + 0 * 2 ^ 312 + 0 * 2 ^ 364 + 0 * 2 ^ 416). ring.
Qed.

(** Addition, subtraction, negation on reduced elements. *)
Lemma fe_add_ok ck a b : fcanon a -> fcanon b ->
  exists r, fe_add ck a b = Ok r /\ fcanon r /\ fval r = (fval a + fval b) mod p.
Proof.
  intros [A1 A2] [B1 B2]. pose proof (fval_nonneg _ A1). pose proof (fval_nonneg _ B1).
  destruct (fe_add_gen ck a b A1 B1) as (r & E & Lr & V); [rewrite p_num in *; lia|].
  exists r. split; [exact E|].
  destruct (Z.ltb_spec (fval a + fval b) p) in V.
  - rewrite V, Z.mod_small by lia. split; [split; [assumption|lia]|lia].
  - rewrite V. split; [split; [assumption|lia]|]. apply Zmod_unique with 1; lia.
Qed.

Lemma fe_sub_ok ck a b : fcanon a -> fcanon b ->
  exists r, fe_sub ck a b = Ok r /\ fcanon r /\ fval r = (fval a - fval b) mod p.
Proof.
  intros [A1 A2] [B1 B2]. pose proof (fval_nonneg _ A1). pose proof (fval_nonneg _ B1).
  destruct (fe_sub_gen ck a b A1 B1) as (r & E & Lr & V); [lia|].
  exists r. split; [exact E|].
  destruct (Z.ltb_spec (fval a) (fval b)) in V.
  - rewrite V. split; [split; [assumption|lia]|]. apply Zmod_unique with (-1); lia.
  - rewrite V, Z.mod_small by lia. split; [split; [assumption|lia]|lia].
Qed.

Lemma fcanon_zero : fcanon fe_zero. Proof. vm_compute. intuition discriminate. Qed.
Lemma fcanon_one : fcanon fe_one. Proof. vm_compute. intuition discriminate. Qed.

Lemma fe_neg_ok ck a : fcanon a ->
  exists r, fe_neg ck a = Ok r /\ fcanon r /\ fval r = (- fval a) mod p.
Proof.
  intros A. destruct (fe_sub_ok ck fe_zero a fcanon_zero A) as (r & E & C & V).
  exists r. auto.
Qed.

Lemma fe_half_ok ck a : floadable a ->
  exists r, fe_half ck a = Ok r /\ fcanon r /\ (2 * fval r) mod p = fval a mod p.
Proof.
  intros A. assert (I : fcanon INVERSE_MOD_TWO) by (vm_compute; intuition discriminate).
  destruct (fe_mul_ok ck a INVERSE_MOD_TWO A (fcanon_loadable _ I)) as (r & E & C & V).
  exists r. split; [exact E|]. split; [exact C|]. rewrite V.
  rewrite Zmult_mod_idemp_r.
  replace (2 * (fval a * fval INVERSE_MOD_TWO)) with (fval a + fval a * p).
  - apply Z_mod_plus_full.
  - replace p with (2 * fval INVERSE_MOD_TWO - 1) by reflexivity. ring.
Qed.

(** Comparison. *)
Lemma fe_cmp_ok a b : flimbs a -> flimbs b -> fe_cmp a b = (fval a ?= fval b).
Proof.
  rewrite !flimbs_lim, !fval_num. unfold lim, fe_cmp.
  intros (? & ? & ? & ? & ?) (? & ? & ? & ? & ?). symmetry.
  repeat match goal with |- context [?x <? ?y] => destruct (Z.ltb_spec x y) end;
  rewrite ?Z.compare_gt_iff, ?Z.compare_lt_iff, ?Z.compare_eq_iff; lia.
Qed.

Lemma fe_gt_ok a b : flimbs a -> flimbs b -> is_gt (fe_cmp a b) = (fval b <? fval a).
Proof.
  intros. rewrite fe_cmp_ok by assumption. unfold is_gt, Z.ltb. rewrite (Z.compare_antisym (fval a)).
  destruct (fval a ?= fval b); reflexivity.
Qed.
Lemma fe_ge_ok a b : flimbs a -> flimbs b -> is_ge (fe_cmp a b) = (fval b <=? fval a).
Proof.
  intros. rewrite fe_cmp_ok by assumption. unfold is_ge, Z.leb. rewrite (Z.compare_antisym (fval a)).
  destruct (fval a ?= fval b); reflexivity.
Qed.
Lemma fe_le_ok a b : flimbs a -> flimbs b -> is_le (fe_cmp a b) = (fval a <=? fval b).
Proof.
  intros. rewrite fe_cmp_ok by assumption. unfold is_le, Z.leb.
  destruct (fval a ?= fval b); reflexivity.
Qed.
Lemma fe_lt_ok a b : flimbs a -> flimbs b -> is_lt (fe_cmp a b) = (fval a <? fval b).
Proof.
  intros. rewrite fe_cmp_ok by assumption. unfold is_lt, Z.ltb.
  destruct (fval a ?= fval b); reflexivity.
Qed.

Lemma flimbs_zero : flimbs fe_zero. Proof. apply fcanon_zero. Qed.
Lemma fval_zero : fval fe_zero = 0. Proof. reflexivity. Qed.
Lemma fval_one : fval fe_one = 1. Proof. reflexivity. Qed.

Lemma fe_is_positive_ok a : flimbs a -> fe_is_positive a = (fval a <=? (p - 1) / 2).
Proof.
  intros A. unfold fe_is_positive.
  assert (P : flimbs POS_RANGE) by (vm_compute; intuition discriminate).
  rewrite fe_ge_ok, fe_le_ok by auto using flimbs_zero.
  change (fval POS_RANGE) with ((p - 1) / 2). rewrite fval_zero.
  pose proof (fval_nonneg _ A). replace (0 <=? fval a) with true by (symmetry; apply Z.leb_le; lia).
  cbn [andb]. destruct (fval a <=? (p - 1) / 2); reflexivity.
Qed.

Lemma fe_is_even_ok a : fe_is_even a = Z.even (fval a).
Proof.
  unfold fe_is_even. rewrite land1, fval_num.
  rewrite !Z.even_add, !Z.even_mul. cbn [Z.even].

  rewrite !orb_true_r. rewrite Zmod_even. destruct (Z.even (f0 a)); reflexivity.
Qed.

(** Halving without reduction: a right shift by one. *)
Lemma half_limb x c : lim x -> c = 0 \/ c = 1 ->
  Z.lor x (shl W64 c 52) = x + c * 4503599627370496.
Proof.
  intros Hx Hc. rewrite shl64 by lia.
  rewrite Z.mod_small by (change (2 ^ 52) with 4503599627370496; lia).
  apply lor_add_low; [lia|exact Hx].
Qed.

Lemma fe_half_without_mod_ok a : flimbs a ->
  flimbs (fe_half_without_mod a) /\ fval (fe_half_without_mod a) = fval a / 2.
Proof.
  destruct a as [a0 a1 a2 a3 a4]. rewrite !flimbs_lim. cbn [f0 f1 f2 f3 f4].
  intros (A0 & A1 & A2 & A3 & A4). unfold fe_half_without_mod. cbn [f0 f1 f2 f3 f4].
  rewrite Z.lor_0_r, !land1.
  assert (S1 : forall x, shr x 1 = x / 2) by (intros; apply shr_div; lia).
  set (x3 := Z.lor a3 _). assert (E3 : x3 = a3 + (a4 mod 2) * 4503599627370496)
    by (apply half_limb; [assumption|lia]). clearbody x3.
  set (x2 := Z.lor a2 _). assert (E2 : x2 = a2 + (x3 mod 2) * 4503599627370496)
    by (apply half_limb; [assumption|lia]). clearbody x2.
  set (x1 := Z.lor a1 _). assert (E1 : x1 = a1 + (x2 mod 2) * 4503599627370496)
    by (apply half_limb; [assumption|lia]). clearbody x1.
  set (x0 := Z.lor a0 _). assert (E0 : x0 = a0 + (x1 mod 2) * 4503599627370496)
    by (apply half_limb; [assumption|lia]). clearbody x0.
  rewrite !fval_num, !S1. cbn [f0 f1 f2 f3 f4]. unfold lim in *.
  pose proof (Z.div_mod a4 2 ltac:(lia)). pose proof (Z.mod_pos_bound a4 2 ltac:(lia)).
  pose proof (Z.div_mod x3 2 ltac:(lia)). pose proof (Z.mod_pos_bound x3 2 ltac:(lia)).
  pose proof (Z.div_mod x2 2 ltac:(lia)). pose proof (Z.mod_pos_bound x2 2 ltac:(lia)).
  pose proof (Z.div_mod x1 2 ltac:(lia)). pose proof (Z.mod_pos_bound x1 2 ltac:(lia)).
  pose proof (Z.div_mod x0 2 ltac:(lia)). pose proof (Z.mod_pos_bound x0 2 ltac:(lia)).
  generalize dependent (a4 / 2). generalize dependent (a4 mod 2).
  generalize dependent (x3 / 2). generalize dependent (x3 mod 2).
  generalize dependent (x2 / 2). generalize dependent (x2 mod 2).
  generalize dependent (x1 / 2). generalize dependent (x1 mod 2).
  generalize dependent (x0 / 2). generalize dependent (x0 mod 2).
  intros. split; [lia|].
  match goal with |- ?l = ?r / 2 => apply Z.div_unique_pos with (r - 2 * l); lia end.
Qed.
