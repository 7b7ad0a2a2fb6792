(** * Arithmetic, order, bytes and conversions of scalars *)

From Coq Require Import ZArith Znumtheory List Bool Lia.
From Verif Require Import Machine FieldModel ScalarModel Spec MachineFacts FieldLimb FieldMul
  FieldOps FieldBytes ScalarLimb.
Import ListNotations.
Open Scope Z_scope.

Lemma sval_nonneg a : slimbs a -> 0 <= sval a < 2 ^ 260.
Proof. rewrite slimbs_lim, sval_num. unfold lim. intros. lia. Qed.

Lemma scanon_loadable a : scanon a -> sloadable a.
Proof. intros [H1 H2]. split; auto. rewrite L_num in H2. lia. Qed.

Lemma scanon_mod r x k : scanon r -> sval r = x + k * L -> sval r = x mod L.
Proof.
  intros [H1 H2] E. apply sval_nonneg in H1.
  apply Zmod_unique with (- k); [lia|]. lia.
Qed.

(** 2^260 is invertible modulo L. *)
Definition SRinv : Z := Eval vm_compute in
  (Z.iter 260 (fun x => if Z.even x then x / 2 else (x + L) / 2) 1).
Lemma SRinv_ok : 2 ^ 260 * SRinv = 1 + (2 ^ 260 * SRinv / L) * L.
Proof. vm_compute. reflexivity. Qed.

Lemma cancel_SR x k : x * 2 ^ 260 = k * L -> exists m, x = m * L.
Proof.
  intros H. pose proof SRinv_ok as E.
  exists (k * SRinv - x * (2 ^ 260 * SRinv / L)).
  set (q := 2 ^ 260 * SRinv / L) in *. clearbody q.
  assert (x * 2 ^ 260 * SRinv = k * L * SRinv) by (rewrite H; reflexivity).
  assert (x * (2 ^ 260 * SRinv) = x * (1 + q * L)) by (rewrite E; reflexivity).
  nia.
Qed.

Lemma SRR_val : sval SC_RR = 2 ^ 260 * 2 ^ 260 - (2 ^ 520 / L) * L.
Proof. vm_compute. reflexivity. Qed.
Lemma SRR_canon : scanon SC_RR.
Proof. split; [rewrite slimbs_lim; cbn; unfold lim; lia|vm_compute; reflexivity]. Qed.

Lemma smul_bound x y : 0 <= x < 2 ^ 260 -> 0 <= y < L -> x * y < 2 ^ 260 * L.
Proof. intros. rewrite L_num in *. nia. Qed.

Lemma sc_second_reduce ck prod x k : scanon prod -> sval prod * 2 ^ 260 = x + k * L ->
  exists r, (w' <- sc_mul_internal ck prod SC_RR ;; sc_montgomery_reduce ck w') = Ok r /\
    scanon r /\ sval r = x mod L.
Proof.
  intros C E. pose proof (scanon_loadable _ C) as [F1 F2]. pose proof (sval_nonneg _ F1).
  destruct SRR_canon as [R1 R2]. pose proof (sval_nonneg _ R1).
  destruct (sc_mul_internal_ok ck prod SC_RR F1 R1) as (t & -> & Wt & Vt).
  rewrite bind_ok.
  destruct (sc_montgomery_reduce_ok ck t Wt) as (r & k2 & -> & Cr & Vr).
  { rewrite Vt. apply smul_bound; lia. }
  exists r. split; [reflexivity|]. split; [assumption|].
  rewrite Vt, SRR_val in Vr.
  set (m := 2 ^ 520 / L) in *. clearbody m.
  destruct (cancel_SR (sval r - x) (k * 2 ^ 260 - sval prod * m + k2)) as (j & Hj).
  { rewrite Z.mul_sub_distr_r, Vr.
    replace (sval prod * (2 ^ 260 * 2 ^ 260 - m * L)) with
      (sval prod * 2 ^ 260 * 2 ^ 260 - sval prod * m * L) by ring.
    rewrite E. ring. }
  apply scanon_mod with j; auto. lia.
Qed.

Lemma sc_mul_gen ck a b : slimbs a -> slimbs b -> sval a * sval b < 2 ^ 260 * L ->
  exists r, sc_mul ck a b = Ok r /\ scanon r /\ sval r = (sval a * sval b) mod L.
Proof.
  intros A B H. unfold sc_mul.
  destruct (sc_mul_internal_ok ck a b A B) as (t & -> & Wt & Vt). rewrite bind_ok.
  destruct (sc_montgomery_reduce_ok ck t Wt) as (r & k & -> & Cr & Vr); [lia|].
  rewrite bind_ok. rewrite Vt in Vr.
  exact (sc_second_reduce ck r _ k Cr Vr).
Qed.

Lemma sc_mul_ok ck a b : slimbs a -> scanon b ->
  exists r, sc_mul ck a b = Ok r /\ scanon r /\ sval r = (sval a * sval b) mod L.
Proof.
  intros A1 [B1 B2]. apply sc_mul_gen; auto.
  apply sval_nonneg in A1. apply sval_nonneg in B1. apply smul_bound; lia.
Qed.

Lemma sc_square_ok ck a : scanon a ->
  exists r, sc_square ck a = Ok r /\ scanon r /\ sval r = (sval a * sval a) mod L.
Proof.
  intros [A1 A2]. unfold sc_square.
  destruct (sc_square_internal_ok ck a A1) as (t & -> & Wt & Vt). rewrite bind_ok.
  apply sval_nonneg in A1.
  destruct (sc_montgomery_reduce_ok ck t Wt) as (r & k & -> & Cr & Vr).
  { rewrite Vt. apply smul_bound; lia. }
  rewrite bind_ok. rewrite Vt in Vr.
  exact (sc_second_reduce ck r _ k Cr Vr).
Qed.

(** Montgomery multiplication (used by the inversion). *)
Lemma sc_montgomery_mul_ok ck a b : slimbs a -> slimbs b -> sval a * sval b < 2 ^ 260 * L ->
  exists r k, sc_montgomery_mul ck a b = Ok r /\ scanon r /\
    sval r * 2 ^ 260 = sval a * sval b + k * L.
Proof.
  intros A B H. unfold sc_montgomery_mul.
  destruct (sc_mul_internal_ok ck a b A B) as (t & -> & Wt & Vt). rewrite bind_ok.
  destruct (sc_montgomery_reduce_ok ck t Wt) as (r & k & E & Cr & Vr); [lia|].
  exists r, k. rewrite Vt in Vr. auto.
Qed.

Lemma sc_to_montgomery_ok ck a : slimbs a ->
  exists r, sc_to_montgomery ck a = Ok r /\ scanon r /\ sval r = (sval a * 2 ^ 260) mod L.
Proof.
  intros A1. pose proof (sval_nonneg _ A1). destruct SRR_canon as [R1 R2].
  pose proof (sval_nonneg _ R1).
  destruct (sc_montgomery_mul_ok ck a SC_RR A1 R1) as (r & k & E & C & V).
  { apply smul_bound; lia. }
  exists r. split; [exact E|]. split; [assumption|].
  rewrite SRR_val in V.
  destruct (cancel_SR (sval r - sval a * 2 ^ 260) (k - sval a * (2 ^ 520 / L))) as (j & Hj).
  { rewrite Z.mul_sub_distr_r, V. ring. }
  apply scanon_mod with j; auto. lia.
Qed.

Lemma sc_from_montgomery_ok ck a : slimbs a ->
  exists r k, sc_from_montgomery ck a = Ok r /\ scanon r /\ sval r * 2 ^ 260 = sval a + k * L.
Proof.
  intros A. pose proof (sval_nonneg _ A) as N. destruct a as [a0 a1 a2 a3 a4].
  unfold sc_from_montgomery.
  destruct (sc_montgomery_reduce_ok ck (WD a0 a1 a2 a3 a4 0 0 0 0)) as (r & k & E & C & V).
  - rewrite slimbs_lim in A. unfold wide_ok, col, lim in *. clear N.
    cbn [w0 w1 w2 w3 w4 w5 w6 w7 w8 s0 s1 s2 s3 s4] in *. repeat split; lia.
  - change (wval (WD a0 a1 a2 a3 a4 0 0 0 0)) with
      (sval (SC a0 a1 a2 a3 a4) + 0 * 2 ^ 260 + 0 * 2 ^ 312 + 0 * 2 ^ 364 + 0 * 2 ^ 416).
    rewrite L_num. lia.
  - exists r, k. split; [exact E|]. split; [exact C|]. rewrite V.
    change (wval (WD a0 a1 a2 a3 a4 0 0 0 0)) with
      (sval (SC a0 a1 a2 a3 a4) + 0 * 2 ^ 260 + 0 * 2 ^ 312 + 0 * 2 ^ 364 + 0 * 2 ^ 416). ring.
Qed.

(** Addition, subtraction, negation on reduced elements. *)
Lemma sc_add_ok ck a b : scanon a -> scanon b ->
  exists r, sc_add ck a b = Ok r /\ scanon r /\ sval r = (sval a + sval b) mod L.
Proof.
  intros [A1 A2] [B1 B2]. pose proof (sval_nonneg _ A1). pose proof (sval_nonneg _ B1).
  destruct (sc_add_gen ck a b A1 B1) as (r & E & Lr & V); [rewrite L_num in *; lia|].
  exists r. split; [exact E|].
  destruct (Z.ltb_spec (sval a + sval b) L) in V.
  - rewrite V, Z.mod_small by lia. split; [split; [assumption|lia]|lia].
  - rewrite V. split; [split; [assumption|lia]|]. apply Zmod_unique with 1; lia.
Qed.

Lemma sc_sub_ok ck a b : scanon a -> scanon b ->
  exists r, sc_sub ck a b = Ok r /\ scanon r /\ sval r = (sval a - sval b) mod L.
Proof.
  intros [A1 A2] [B1 B2]. pose proof (sval_nonneg _ A1). pose proof (sval_nonneg _ B1).
  destruct (sc_sub_gen ck a b A1 B1) as (r & E & Lr & V); [lia|].
  exists r. split; [exact E|].
  destruct (Z.ltb_spec (sval a) (sval b)) in V.
  - rewrite V. split; [split; [assumption|lia]|]. apply Zmod_unique with (-1); lia.
  - rewrite V, Z.mod_small by lia. split; [split; [assumption|lia]|lia].
Qed.

Lemma scanon_zero : scanon sc_zero. Proof. vm_compute. intuition discriminate. Qed.

Lemma scanon_one : scanon sc_one. Proof. vm_compute. intuition discriminate. Qed.

Lemma sc_neg_ok ck a : scanon a ->
  exists r, sc_neg ck a = Ok r /\ scanon r /\ sval r = (- sval a) mod L.
Proof.
  intros A. destruct (sc_sub_ok ck sc_zero a scanon_zero A) as (r & E & C & V).
  exists r. auto.
Qed.

Lemma sc_half_ok ck a : slimbs a ->
  exists r, sc_half ck a = Ok r /\ scanon r /\ (2 * sval r) mod L = sval a mod L.
Proof.
  intros A. assert (I : scanon SCALAR_INVERSE_MOD_TWO) by (vm_compute; intuition discriminate).
  destruct (sc_mul_ok ck a SCALAR_INVERSE_MOD_TWO A I) as (r & E & C & V).
  exists r. split; [exact E|]. split; [exact C|]. rewrite V.
  rewrite Zmult_mod_idemp_r.
  replace (2 * (sval a * sval SCALAR_INVERSE_MOD_TWO)) with (sval a + sval a * L).
  - apply Z_mod_plus_full.
  - replace L with (2 * sval SCALAR_INVERSE_MOD_TWO - 1) by reflexivity. ring.
Qed.

(** Comparison. *)
Lemma sc_cmp_ok a b : slimbs a -> slimbs b -> sc_cmp a b = (sval a ?= sval b).
Proof.
  rewrite !slimbs_lim, !sval_num. unfold lim, sc_cmp.
  intros (? & ? & ? & ? & ?) (? & ? & ? & ? & ?). symmetry.
  repeat match goal with |- context [?x <? ?y] => destruct (Z.ltb_spec x y) end;
  rewrite ?Z.compare_gt_iff, ?Z.compare_lt_iff, ?Z.compare_eq_iff; lia.
Qed.

Lemma sc_gt_ok a b : slimbs a -> slimbs b -> is_gt (sc_cmp a b) = (sval b <? sval a).
Proof.
  intros. rewrite sc_cmp_ok by assumption. unfold is_gt, Z.ltb. rewrite (Z.compare_antisym (sval a)).
  destruct (sval a ?= sval b); reflexivity.
Qed.

Lemma sc_ge_ok a b : slimbs a -> slimbs b -> is_ge (sc_cmp a b) = (sval b <=? sval a).
Proof.
  intros. rewrite sc_cmp_ok by assumption. unfold is_ge, Z.leb. rewrite (Z.compare_antisym (sval a)).
  destruct (sval a ?= sval b); reflexivity.
Qed.

Lemma sc_le_ok a b : slimbs a -> slimbs b -> is_le (sc_cmp a b) = (sval a <=? sval b).
Proof.
  intros. rewrite sc_cmp_ok by assumption. unfold is_le, Z.leb.
  destruct (sval a ?= sval b); reflexivity.
Qed.

Lemma sc_lt_ok a b : slimbs a -> slimbs b -> is_lt (sc_cmp a b) = (sval a <? sval b).
Proof.
  intros. rewrite sc_cmp_ok by assumption. unfold is_lt, Z.ltb.
  destruct (sval a ?= sval b); reflexivity.
Qed.

Lemma slimbs_zero : slimbs sc_zero. Proof. apply scanon_zero. Qed.

Lemma sval_zero : sval sc_zero = 0. Proof. reflexivity. Qed.

Lemma sval_one : sval sc_one = 1. Proof. reflexivity. Qed.

Lemma sc_is_even_ok a : sc_is_even a = Z.even (sval a).
Proof.
  unfold sc_is_even. rewrite land1, sval_num.
  rewrite !Z.even_add, !Z.even_mul. cbn [Z.even].

  rewrite !orb_true_r. rewrite Zmod_even. destruct (Z.even (s0 a)); reflexivity.
Qed.

Lemma sc_half_without_mod_ok a : slimbs a ->
  slimbs (sc_half_without_mod a) /\ sval (sc_half_without_mod a) = sval a / 2.
Proof.
  destruct a as [a0 a1 a2 a3 a4]. rewrite !slimbs_lim. cbn [s0 s1 s2 s3 s4].
  intros (A0 & A1 & A2 & A3 & A4). unfold sc_half_without_mod. cbn [s0 s1 s2 s3 s4].
  rewrite Z.lor_0_r, !land1.
  assert (S1 : forall x, shr x 1 = x / 2) by (intros; apply shr_div; lia).
  set (x3 := Z.lor a3 _). assert (E3 : x3 = a3 + (a4 mod 2) * 4503599627370496)
    by (apply half_limb; [assumption|lia]). clearbody x3.
  set (x2 := Z.lor a2 _). assert (E2 : x2 = a2 + (x3 mod 2) * 4503599627370496)
    by (apply half_limb; [assumption|lia]). clearbody x2.
  set (x1 := Z.lor a1 _). assert (E1 : x1 = a1 + (x2 mod 2) * 4503599627370496)
    by (apply half_limb; [assumption|lia]). clearbody x1.
  set (x0 := Z.lor a0 _). assert (E0 : x0 = a0 + (x1 mod 2) * 4503599627370496)
    by (apply half_limb; [assumption|lia]). clearbody x0.
  rewrite !sval_num, !S1. cbn [s0 s1 s2 s3 s4]. unfold lim in *.
  pose proof (Z.div_mod a4 2 ltac:(lia)). pose proof (Z.mod_pos_bound a4 2 ltac:(lia)).
  pose proof (Z.div_mod x3 2 ltac:(lia)). pose proof (Z.mod_pos_bound x3 2 ltac:(lia)).
  pose proof (Z.div_mod x2 2 ltac:(lia)). pose proof (Z.mod_pos_bound x2 2 ltac:(lia)).
  pose proof (Z.div_mod x1 2 ltac:(lia)). pose proof (Z.mod_pos_bound x1 2 ltac:(lia)).
  pose proof (Z.div_mod x0 2 ltac:(lia)). pose proof (Z.mod_pos_bound x0 2 ltac:(lia)).
  generalize dependent (a4 / 2). generalize dependent (a4 mod 2).
  generalize dependent (x3 / 2). generalize dependent (x3 mod 2).
  generalize dependent (x2 / 2). generalize dependent (x2 mod 2).
  generalize dependent (x1 / 2). generalize dependent (x1 mod 2).
  generalize dependent (x0 / 2). generalize dependent (x0 mod 2).
  intros. split; [lia|].
  match goal with |- ?l = ?r / 2 => apply Z.div_unique_pos with (r - 2 * l); lia end.
Qed.

Lemma sval_inj a b : slimbs a -> slimbs b -> sval a = sval b -> a = b.
Proof.
  rewrite !slimbs_lim, !sval_num. unfold lim. destruct a as [a0 a1 a2 a3 a4], b as [b0 b1 b2 b3 b4]; cbn [s0 s1 s2 s3 s4].
  intros (? & ? & ? & ? & ?) (? & ? & ? & ? & ?) E. f_equal; lia.
Qed.

Lemma sc_to_bytes_bytes a : is_bytes 32 (sc_to_bytes a).
Proof.
  split; [reflexivity|]. unfold sc_to_bytes.
  repeat (apply Forall_cons; [rewrite cast8; apply Z.mod_pos_bound; lia|]). apply Forall_nil.
Qed.

(** Values that need at most 260 bits: the encoding keeps the low 256. *)
Lemma sc_to_bytes_gen a : slimbs a -> le_value (sc_to_bytes a) = sval a mod 2 ^ 256.
Proof.
  destruct a as [a0 a1 a2 a3 a4]. rewrite slimbs_lim, sval_num. cbn [s0 s1 s2 s3 s4].
  intros (A0 & A1 & A2 & A3 & A4). unfold sc_to_bytes. cbn [s0 s1 s2 s3 s4].
  pose proof (proj2 (byte6 a0 A0)) as N0. pose proof (proj2 (byte6 a2 A2)) as N2.
  rewrite (shr_div a0 48), (shr_div a2 48) by discriminate. change (2 ^ 48) with 281474976710656.
  rewrite !nibble_byte by assumption.
  rewrite !shr_div by discriminate.
  change (2 ^ 0) with 1. rewrite !Z.div_1_r.
  rewrite !cast8. cbn [le_value].
  change (2 ^ 4) with 16. change (2 ^ 8) with 256. change (2 ^ 12) with 4096.
  change (2 ^ 16) with 65536. change (2 ^ 20) with 1048576. change (2 ^ 24) with 16777216.
  change (2 ^ 28) with 268435456. change (2 ^ 32) with 4294967296. change (2 ^ 36) with 68719476736.
  change (2 ^ 40) with 1099511627776. change (2 ^ 44) with 17592186044416.
  change (2 ^ 256) with 115792089237316195423570985008687907853269984665640564039457584007913129639936.
  apply Zmod_unique with (a4 / 281474976710656).
  - match goal with |- 0 <= ?e < _ => assert (B : is_bytes 32 (sc_to_bytes (SC a0 a1 a2 a3 a4))) by apply sc_to_bytes_bytes end.
    apply le_value_bound in B.
    unfold sc_to_bytes in B. cbn [s0 s1 s2 s3 s4] in B.
    rewrite (shr_div a0 48), (shr_div a2 48) in B by discriminate. change (2 ^ 48) with 281474976710656 in B.
    rewrite !nibble_byte in B by assumption.
    rewrite !shr_div in B by discriminate.
    change (2 ^ 0) with 1 in B. rewrite !Z.div_1_r in B.
    rewrite !cast8 in B. cbn [le_value] in B. exact B.
  - destruct (byte6 a0 A0) as [E0 _]. destruct (byte6 a2 A2) as [E2 _].
    destruct (byte6 a4 A4) as [E4 _].
    pose proof (nib_bytes a1 A1) as E1. pose proof (nib_bytes a3 A3) as E3.
    rewrite E0 at 1. rewrite E1 at 1. rewrite E2 at 1. rewrite E3 at 1. rewrite E4 at 1.
    clear. ring.
Qed.

Lemma sc_to_bytes_ok a : sloadable a -> le_value (sc_to_bytes a) = sval a.
Proof.
  intros [A1 A2]. rewrite sc_to_bytes_gen by assumption.
  apply Z.mod_small. apply sval_nonneg in A1. lia.
Qed.

Lemma sc_eqb_gen a b : slimbs a -> slimbs b ->
  sc_eqb a b = (sval a mod 2 ^ 256 =? sval b mod 2 ^ 256).
Proof.
  intros A B. unfold sc_eqb. apply eq_iff_eq_true. rewrite bytes_eqb_spec, Z.eqb_eq.
  rewrite <- !sc_to_bytes_gen by assumption. split; [congruence|].
  destruct (sc_to_bytes_bytes a) as [La Fa]. destruct (sc_to_bytes_bytes b) as [Lb Fb].
  intros E. apply le_value_inj; auto.
Qed.

Lemma sc_eqb_ok a b : sloadable a -> sloadable b -> sc_eqb a b = (sval a =? sval b).
Proof.
  intros [A1 A2] [B1 B2]. rewrite sc_eqb_gen by assumption.
  apply sval_nonneg in A1. apply sval_nonneg in B1.
  rewrite !Z.mod_small by lia. reflexivity.
Qed.

Lemma sc_eqb_eq a b : sloadable a -> sloadable b -> (sc_eqb a b = true <-> a = b).
Proof.
  intros A B. rewrite sc_eqb_ok by assumption. rewrite Z.eqb_eq.
  split; [|congruence]. apply sval_inj; [apply A|apply B].
Qed.

(** Conversions from unsigned integers. *)
Lemma sc_from_u32_ok x : 0 <= x < 2 ^ 32 -> scanon (sc_from_u32 x) /\ sval (sc_from_u32 x) = x.
Proof.
  intros H. unfold scanon. rewrite slimbs_lim, sval_num, L_num. cbn [sc_from_u32 s0 s1 s2 s3 s4].
  unfold lim. lia.
Qed.

Lemma sc_from_u64_ok x : 0 <= x < 2 ^ 64 -> scanon (sc_from_u64 x) /\ sval (sc_from_u64 x) = x.
Proof.
  intros H. unfold scanon. rewrite slimbs_lim, sval_num, L_num. unfold sc_from_u64.
  cbn [s0 s1 s2 s3 s4]. unfold lim, mask52. rewrite land52, shr52. lia.
Qed.

Lemma sc_from_u128_ok x : 0 <= x < 2 ^ 128 -> scanon (sc_from_u128 x) /\ sval (sc_from_u128 x) = x.
Proof.
  intros H. unfold scanon. rewrite slimbs_lim, sval_num, L_num. unfold sc_from_u128.
  cbn [s0 s1 s2 s3 s4]. unfold lim, mask52. rewrite !cast64, !land52, shr52.
  rewrite shr_div by lia.
  change (2 ^ 104) with (4503599627370496 * 4503599627370496).
  rewrite <- Z.div_div by lia. lia.
Qed.

Lemma slimb_pow_ok ck e : 0 <= e < 260 ->
  exists r, (if e <=? 51 then
    x <- ushl ck 64 W64 1 e ;; Ok (SC x 0 0 0 0)
  else if e <=? 103 then
    e <- usub ck W64 e 52 ;; x <- ushl ck 64 W64 1 e ;; Ok (SC 0 x 0 0 0)
  else if e <=? 155 then
    e <- usub ck W64 e 104 ;; x <- ushl ck 64 W64 1 e ;; Ok (SC 0 0 x 0 0)
  else if e <=? 207 then
    e <- usub ck W64 e 156 ;; x <- ushl ck 64 W64 1 e ;; Ok (SC 0 0 0 x 0)
  else
    e <- usub ck W64 e 208 ;; x <- ushl ck 64 W64 1 e ;; Ok (SC 0 0 0 0 x)) = Ok r /\
   slimbs r /\ sval r = 2 ^ e.
Proof.
  intros H.
  assert (Z0 : lim 0) by (unfold lim; lia).
  destruct (Z.leb_spec e 51).
  { rewrite ushl_small by lia. rewrite bind_ok. eexists. split; [reflexivity|].
    split; [rewrite slimbs_lim; cbn [s0 s1 s2 s3 s4]; repeat split; try apply lim_pow2; lia|].
    rewrite sval_num. cbn [s0 s1 s2 s3 s4]. lia. }
  destruct (Z.leb_spec e 103).
  { rewrite usub_ok by lia. rewrite bind_ok, ushl_small by lia. rewrite bind_ok.
    eexists. split; [reflexivity|].
    split; [rewrite slimbs_lim; cbn [s0 s1 s2 s3 s4]; repeat split; try apply lim_pow2; lia|].
    rewrite sval_num. cbn [s0 s1 s2 s3 s4]. replace e with (e - 52 + 52) at 2 by lia.
    rewrite Z.pow_add_r by lia. change (2 ^ 52) with 4503599627370496. ring. }
  destruct (Z.leb_spec e 155).
  { rewrite usub_ok by lia. rewrite bind_ok, ushl_small by lia. rewrite bind_ok.
    eexists. split; [reflexivity|].
    split; [rewrite slimbs_lim; cbn [s0 s1 s2 s3 s4]; repeat split; try apply lim_pow2; lia|].
    rewrite sval_num. cbn [s0 s1 s2 s3 s4]. replace e with (e - 104 + 104) at 2 by lia.
    rewrite Z.pow_add_r by lia. change (2 ^ 104) with 20282409603651670423947251286016. ring. }
  destruct (Z.leb_spec e 207).
  { rewrite usub_ok by lia. rewrite bind_ok, ushl_small by lia. rewrite bind_ok.
    eexists. split; [reflexivity|].
    split; [rewrite slimbs_lim; cbn [s0 s1 s2 s3 s4]; repeat split; try apply lim_pow2; lia|].
    rewrite sval_num. cbn [s0 s1 s2 s3 s4]. replace e with (e - 156 + 156) at 2 by lia.
    rewrite Z.pow_add_r by lia.
    change (2 ^ 156) with 91343852333181432387730302044767688728495783936. ring. }
  { rewrite usub_ok by lia. rewrite bind_ok, ushl_small by lia. rewrite bind_ok.
    eexists. split; [reflexivity|].
    split; [rewrite slimbs_lim; cbn [s0 s1 s2 s3 s4]; repeat split; try apply lim_pow2; lia|].
    rewrite sval_num. cbn [s0 s1 s2 s3 s4]. replace e with (e - 208 + 208) at 2 by lia.
    rewrite Z.pow_add_r by lia.
    change (2 ^ 208) with 411376139330301510538742295639337626245683966408394965837152256. ring. }
Qed.

Lemma sc_two_pow_k_ok ck e : 0 <= e < 250 ->
  exists r, sc_two_pow_k ck e = Ok r /\ scanon r /\ sval r = 2 ^ e.
Proof.
  intros H. unfold sc_two_pow_k.
  rewrite rassert_true by (apply Z.ltb_lt; lia). rewrite bind_ok.
  destruct (slimb_pow_ok ck e) as (r & -> & A & B); [lia|].
  exists r. repeat split; auto; try apply A. rewrite B.
  apply Z.le_lt_trans with (2 ^ 249); [apply Z.pow_le_mono_r; lia|reflexivity].
Qed.

Lemma sc_two_pow_k_panic ck e : 250 <= e -> sc_two_pow_k ck e = Panic.
Proof.
  intros H. unfold sc_two_pow_k.
  replace (e <? 250) with false by (symmetry; apply Z.ltb_ge; lia). reflexivity.
Qed.

