(** * Facts about the machine operations *)

From Coq Require Import ZArith List Bool Lia.
From Verif Require Import Machine.
Import ListNotations.
Open Scope Z_scope.

Ltac Zify.zify_post_hook ::= Z.to_euclidean_division_equations.

Lemma bind_ok {A B} (a : A) (f : A -> res B) : bind (Ok a) f = f a.
Proof. reflexivity. Qed.

Lemma uadd_ok ck M a b : a + b < M -> uadd ck M a b = Ok (a + b).
Proof. intros H. unfold uadd. apply Z.ltb_lt in H. now rewrite H. Qed.
Lemma usub_ok ck M a b : b <= a -> usub ck M a b = Ok (a - b).
Proof. intros H. unfold usub. apply Z.leb_le in H. now rewrite H. Qed.
Lemma umul_ok ck M a b : a * b < M -> umul ck M a b = Ok (a * b).
Proof. intros H. unfold umul. apply Z.ltb_lt in H. now rewrite H. Qed.

Lemma land_mask_mod n x : 0 <= n -> Z.land x (2 ^ n - 1) = x mod 2 ^ n.
Proof.
  intros H. rewrite <- Z.land_ones by assumption. f_equal.
  rewrite Z.ones_equiv. lia.
Qed.

Lemma cast8 x : cast W8 x = x mod 256.
Proof. exact (land_mask_mod 8 x ltac:(lia)). Qed.
Lemma cast64 x : cast W64 x = x mod 18446744073709551616.
Proof. exact (land_mask_mod 64 x ltac:(lia)). Qed.
Lemma cast128 x : cast W128 x = x mod 340282366920938463463374607431768211456.
Proof. exact (land_mask_mod 128 x ltac:(lia)). Qed.
Lemma land52 x : Z.land x 4503599627370495 = x mod 4503599627370496.
Proof. exact (land_mask_mod 52 x ltac:(lia)). Qed.

Lemma shr_div x k : 0 <= k -> shr x k = x / 2 ^ k.
Proof. intros. unfold shr. now apply Z.shiftr_div_pow2. Qed.
Lemma shr52 x : shr x 52 = x / 4503599627370496.
Proof. exact (shr_div x 52 ltac:(lia)). Qed.
Lemma shr63 x : shr x 63 = x / 9223372036854775808.
Proof. exact (shr_div x 63 ltac:(lia)). Qed.

Lemma shl64 x k : 0 <= k -> shl W64 x k = (x * 2 ^ k) mod 18446744073709551616.
Proof. intros. unfold shl. rewrite cast64, Z.shiftl_mul_pow2; auto. Qed.

(** Disjoint [lor] is addition. *)
Lemma lor_add_low n x y : 0 <= n -> 0 <= x < 2 ^ n ->
  Z.lor x (y * 2 ^ n) = x + y * 2 ^ n.
Proof.
  intros Hn Hx.
  assert (E : Z.land x (y * 2 ^ n) = 0).
  { apply Z.bits_inj'. intros i Hi. rewrite Z.land_spec, Z.bits_0.
    destruct (Z.ltb_spec i n).
    - rewrite Z.mul_pow2_bits_low by lia. apply andb_false_r.
    - assert (Z.testbit x i = false).
      { destruct (Z.eq_dec x 0) as [->|]; [apply Z.bits_0|].
        apply Z.bits_above_log2; [lia|].
        apply Z.log2_lt_pow2; [lia|].
        apply Z.lt_le_trans with (2 ^ n); [lia|]. apply Z.pow_le_mono_r; lia. }
      rewrite H0. reflexivity. }
  rewrite Z.add_nocarry_lxor by assumption. now rewrite Z.lxor_lor.
Qed.

(** Ranges of the boolean tests. *)
Lemma land1 x : Z.land x 1 = x mod 2.
Proof. exact (land_mask_mod 1 x ltac:(lia)). Qed.

Lemma bytes_eqb_spec a b : bytes_eqb a b = true <-> a = b.
Proof.
  revert b; induction a as [|x a IH]; destruct b as [|y b]; simpl; split; intros H;
    try discriminate; try reflexivity; try congruence.
  - apply andb_true_iff in H. destruct H as [H1 H2].
    apply Z.eqb_eq in H1. apply IH in H2. congruence.
  - injection H as -> ->. rewrite Z.eqb_refl. simpl. now apply IH.
Qed.

Lemma bytes_eqb_refl a : bytes_eqb a a = true.
Proof. now apply bytes_eqb_spec. Qed.

Lemma rassert_true b : b = true -> rassert b = Ok tt.
Proof. now intros ->. Qed.
