(** * Byte encoding, equality and integer conversions of field elements *)

From Coq Require Import ZArith Znumtheory List Bool Lia.
From Verif Require Import Machine FieldModel Spec MachineFacts FieldLimb FieldMul FieldOps.
Import ListNotations.
Open Scope Z_scope.

Lemma fval_inj a b : flimbs a -> flimbs b -> fval a = fval b -> a = b.
Proof.
  rewrite !flimbs_lim, !fval_num. unfold lim. destruct a as [a0 a1 a2 a3 a4], b as [b0 b1 b2 b3 b4]; cbn [f0 f1 f2 f3 f4].
  intros (? & ? & ? & ? & ?) (? & ? & ? & ? & ?) E. f_equal; lia.
Qed.

Lemma le_value_bound n b : is_bytes n b -> 0 <= le_value b < 256 ^ Z.of_nat n.
Proof.
  intros [<- F]. induction F as [|x b Hx F IH]; [cbn; lia|].
  cbn [le_value length]. rewrite Nat2Z.inj_succ, Z.pow_succ_r by lia. lia.
Qed.

Lemma le_value_inj a : forall b, length a = length b ->
  Forall (fun x => 0 <= x < 256) a -> Forall (fun x => 0 <= x < 256) b ->
  le_value a = le_value b -> a = b.
Proof.
  induction a as [|x a IH]; destruct b as [|y b]; cbn [length le_value]; intros Hl Fa Fb E;
    try discriminate; auto.
  inversion Fa; inversion Fb; subst.
  assert (x = y) by lia. subst. f_equal. apply IH; auto; lia.
Qed.

Lemma bytes32 b : is_bytes 32 b ->
  exists b0 b1 b2 b3 b4 b5 b6 b7 b8 b9 b10 b11 b12 b13 b14 b15 b16 b17 b18 b19 b20 b21 b22 b23
    b24 b25 b26 b27 b28 b29 b30 b31,
  b = [b0; b1; b2; b3; b4; b5; b6; b7; b8; b9; b10; b11; b12; b13; b14; b15; b16; b17; b18; b19;
       b20; b21; b22; b23; b24; b25; b26; b27; b28; b29; b30; b31] /\
  Forall (fun x => 0 <= x < 256) b.
Proof.
  intros [Hl F].
  do 32 (destruct b as [|? b]; [discriminate|]). destruct b; [|discriminate].
  do 32 eexists. split; [reflexivity|exact F].
Qed.

Lemma lor_shl8 acc x k : 0 <= k <= 56 -> 0 <= acc < 2 ^ k -> 0 <= x < 256 ->
  Z.lor acc (shl W64 x k) = acc + x * 2 ^ k.
Proof.
  intros Hk Ha Hx. rewrite shl64 by lia. rewrite Z.mod_small.
  - apply lor_add_low; lia.
  - split; [apply Z.mul_nonneg_nonneg; lia|].
    apply Z.lt_le_trans with (256 * 2 ^ k); [apply Z.mul_lt_mono_pos_r; lia|].
    apply Z.le_trans with (256 * 2 ^ 56); [|lia].
    apply Z.mul_le_mono_nonneg_l; [lia|]. apply Z.pow_le_mono_r; lia.
Qed.

Lemma load8_ok b o : (forall i, 0 <= byte b i < 256) ->
  load8 b o = byte b (o + 0) + 256 * byte b (o + 1) + 65536 * byte b (o + 2)
   + 16777216 * byte b (o + 3) + 4294967296 * byte b (o + 4) + 1099511627776 * byte b (o + 5)
   + 281474976710656 * byte b (o + 6) + 72057594037927936 * byte b (o + 7).
Proof.
  intros H. unfold load8.
  pose proof (H (o + 0)%nat). pose proof (H (o + 1)%nat). pose proof (H (o + 2)%nat).
  pose proof (H (o + 3)%nat). pose proof (H (o + 4)%nat). pose proof (H (o + 5)%nat).
  pose proof (H (o + 6)%nat). pose proof (H (o + 7)%nat). clear H.
  rewrite (lor_shl8 _ (byte b (o + 1))) by lia.
  rewrite (lor_shl8 _ (byte b (o + 2))) by lia.
  rewrite (lor_shl8 _ (byte b (o + 3))) by lia.
  rewrite (lor_shl8 _ (byte b (o + 4))) by lia.
  rewrite (lor_shl8 _ (byte b (o + 5))) by lia.
  rewrite (lor_shl8 _ (byte b (o + 6))) by lia.
  rewrite (lor_shl8 _ (byte b (o + 7))) by lia.
  lia.
Qed.

Lemma byte_range n b i : is_bytes n b -> 0 <= byte b i < 256.
Proof.
  intros [_ F]. unfold byte. destruct (nth_in_or_default i b 0) as [I| ->]; [|lia].
  rewrite Forall_forall in F. now apply F.
Qed.

Lemma fe_from_bytes_ok b : is_bytes 32 b ->
  floadable (fe_from_bytes b) /\ fval (fe_from_bytes b) = le_value b.
Proof.
  intros Hb. pose proof (fun i => byte_range 32 b i Hb) as HB.
  unfold fe_from_bytes, mask52. rewrite !load8_ok by exact HB. clear HB.
  pose proof (le_value_bound _ _ Hb) as Bnd.
  destruct (bytes32 b Hb) as (b0 & b1 & b2 & b3 & b4 & b5 & b6 & b7 & b8 & b9 & b10 & b11 & b12 &
    b13 & b14 & b15 & b16 & b17 & b18 & b19 & b20 & b21 & b22 & b23 & b24 & b25 & b26 & b27 &
    b28 & b29 & b30 & b31 & -> & F). clear Hb.
  repeat (apply Forall_cons_iff in F; destruct F as [? F]). clear F.
  cbn [byte nth Nat.add].
  rewrite !land52, !shr_div by lia.
  change (2 ^ 4) with 16. change (2 ^ 8) with 256. change (2 ^ 16) with 65536.
  assert (E0 : (b0 + 256 * b1 + 65536 * b2 + 16777216 * b3 + 4294967296 * b4 + 1099511627776 * b5
   + 281474976710656 * b6 + 72057594037927936 * b7) mod 4503599627370496 =
   b0 + 256 * b1 + 65536 * b2 + 16777216 * b3 + 4294967296 * b4 + 1099511627776 * b5
   + 281474976710656 * (b6 mod 16)) by (symmetry; apply Zmod_unique with (b6 / 16 + 16 * b7); lia).
  assert (E1 : ((b6 + 256 * b7 + 65536 * b8 + 16777216 * b9 + 4294967296 * b10 + 1099511627776 * b11
   + 281474976710656 * b12 + 72057594037927936 * b13) / 16) mod 4503599627370496 =
   b6 / 16 + 16 * b7 + 4096 * b8 + 1048576 * b9 + 268435456 * b10 + 68719476736 * b11
   + 17592186044416 * b12).
  { symmetry. apply Zmod_unique with b13; [lia|].
    symmetry. apply Z.div_unique_pos with (b6 mod 16); lia. }
  assert (E2 : ((b12 + 256 * b13 + 65536 * b14 + 16777216 * b15 + 4294967296 * b16 + 1099511627776 * b17
   + 281474976710656 * b18 + 72057594037927936 * b19) / 256) mod 4503599627370496 =
   b13 + 256 * b14 + 65536 * b15 + 16777216 * b16 + 4294967296 * b17 + 1099511627776 * b18
   + 281474976710656 * (b19 mod 16)).
  { symmetry. apply Zmod_unique with (b19 / 16); [lia|].
    symmetry. apply Z.div_unique_pos with b12; lia. }
  assert (E3 : ((b19 + 256 * b20 + 65536 * b21 + 16777216 * b22 + 4294967296 * b23 + 1099511627776 * b24
   + 281474976710656 * b25 + 72057594037927936 * b26) / 16) mod 4503599627370496 =
   b19 / 16 + 16 * b20 + 4096 * b21 + 1048576 * b22 + 268435456 * b23 + 68719476736 * b24
   + 17592186044416 * b25).
  { symmetry. apply Zmod_unique with b26; [lia|].
    symmetry. apply Z.div_unique_pos with (b19 mod 16); lia. }
  assert (E4 : ((b24 + 256 * b25 + 65536 * b26 + 16777216 * b27 + 4294967296 * b28 + 1099511627776 * b29
   + 281474976710656 * b30 + 72057594037927936 * b31) / 65536) mod 4503599627370496 =
   b26 + 256 * b27 + 65536 * b28 + 16777216 * b29 + 4294967296 * b30 + 1099511627776 * b31).
  { symmetry. apply Zmod_unique with 0; [lia|].
    symmetry. apply Z.div_unique_pos with (b24 + 256 * b25); lia. }
  rewrite E0, E1, E2, E3, E4. clear E0 E1 E2 E3 E4.
  assert (V : forall x y, fval x = y -> 0 <= y < 256 ^ Z.of_nat 32 -> flimbs x ->
     floadable x /\ fval x = y).
  { intros x y <- By Lx. split; [|reflexivity]. split; [assumption|]. apply By. }
  apply V; [|exact Bnd|].
  - rewrite fval_num. cbn [f0 f1 f2 f3 f4 le_value]. clear Bnd V.
    pose proof (Z.div_mod b6 16 ltac:(lia)). pose proof (Z.div_mod b19 16 ltac:(lia)).
    generalize dependent (b6 / 16). generalize dependent (b6 mod 16).
    generalize dependent (b19 / 16). generalize dependent (b19 mod 16). intros. subst. ring.
  - rewrite flimbs_lim. cbn [f0 f1 f2 f3 f4]. unfold lim. clear Bnd V.
    pose proof (Z.div_mod b6 16 ltac:(lia)). pose proof (Z.div_mod b19 16 ltac:(lia)).
    pose proof (Z.mod_pos_bound b6 16 ltac:(lia)). pose proof (Z.mod_pos_bound b19 16 ltac:(lia)).
    generalize dependent (b6 / 16). generalize dependent (b6 mod 16).
    generalize dependent (b19 / 16). generalize dependent (b19 mod 16). intros.
    repeat split; lia.
Qed.

Lemma fe_to_bytes_bytes a : is_bytes 32 (fe_to_bytes a).
Proof.
  split; [reflexivity|]. unfold fe_to_bytes.
  repeat (apply Forall_cons; [rewrite cast8; apply Z.mod_pos_bound; lia|]). apply Forall_nil.
Qed.

Lemma nibble_byte x y : 0 <= x < 16 -> 0 <= y < 4503599627370496 ->
  cast W8 (Z.lor x (shl W64 y 4)) = x + 16 * (y mod 16).
Proof.
  intros. rewrite shl64 by lia. change (2 ^ 4) with 16.
  rewrite Z.mod_small by lia.
  change 16 with (2 ^ 4) at 1. rewrite lor_add_low by lia. change (2 ^ 4) with 16.
  rewrite cast8. symmetry. apply Zmod_unique with (y / 16); lia.
Qed.

Lemma byte6 x : lim x -> x = x mod 256 + 256 * ((x / 256) mod 256) + 65536 * ((x / 65536) mod 256)
   + 16777216 * ((x / 16777216) mod 256) + 4294967296 * ((x / 4294967296) mod 256)
   + 1099511627776 * ((x / 1099511627776) mod 256) + 281474976710656 * (x / 281474976710656) /\
   0 <= x / 281474976710656 < 16.
Proof. unfold lim. intros H.
  replace (x / 65536) with (x / 256 / 256) by (rewrite Z.div_div by lia; reflexivity).
  replace (x / 16777216) with (x / 256 / 256 / 256) by (rewrite !Z.div_div by lia; reflexivity).
  replace (x / 4294967296) with (x / 256 / 256 / 256 / 256) by (rewrite !Z.div_div by lia; reflexivity).
  replace (x / 1099511627776) with (x / 256 / 256 / 256 / 256 / 256) by (rewrite !Z.div_div by lia; reflexivity).
  replace (x / 281474976710656) with (x / 256 / 256 / 256 / 256 / 256 / 256) by (rewrite !Z.div_div by lia; reflexivity).
  pose proof (Z.div_mod x 256 ltac:(lia)). set (x1 := x / 256) in *.
  pose proof (Z.mod_pos_bound x 256 ltac:(lia)). clearbody x1.
  pose proof (Z.div_mod x1 256 ltac:(lia)). set (x2 := x1 / 256) in *.
  pose proof (Z.mod_pos_bound x1 256 ltac:(lia)). clearbody x2.
  pose proof (Z.div_mod x2 256 ltac:(lia)). set (x3 := x2 / 256) in *.
  pose proof (Z.mod_pos_bound x2 256 ltac:(lia)). clearbody x3.
  pose proof (Z.div_mod x3 256 ltac:(lia)). set (x4 := x3 / 256) in *.
  pose proof (Z.mod_pos_bound x3 256 ltac:(lia)). clearbody x4.
  pose proof (Z.div_mod x4 256 ltac:(lia)). set (x5 := x4 / 256) in *.
  pose proof (Z.mod_pos_bound x4 256 ltac:(lia)). clearbody x5.
  pose proof (Z.div_mod x5 256 ltac:(lia)). set (x6 := x5 / 256) in *.
  pose proof (Z.mod_pos_bound x5 256 ltac:(lia)). clearbody x6.
  generalize dependent (x mod 256). generalize dependent (x1 mod 256). generalize dependent (x2 mod 256).
  generalize dependent (x3 mod 256). generalize dependent (x4 mod 256). generalize dependent (x5 mod 256).
  intros. lia.
Qed.

Lemma nib_bytes x : lim x -> x = x mod 16 + 16 * ((x / 16) mod 256) + 4096 * ((x / 4096) mod 256)
  + 1048576 * ((x / 1048576) mod 256) + 268435456 * ((x / 268435456) mod 256)
  + 68719476736 * ((x / 68719476736) mod 256) + 17592186044416 * ((x / 17592186044416) mod 256).
Proof. unfold lim. intros H.
  replace (x / 4096) with (x / 16 / 256) by (rewrite Z.div_div by lia; reflexivity).
  replace (x / 1048576) with (x / 16 / 256 / 256) by (rewrite !Z.div_div by lia; reflexivity).
  replace (x / 268435456) with (x / 16 / 256 / 256 / 256) by (rewrite !Z.div_div by lia; reflexivity).
  replace (x / 68719476736) with (x / 16 / 256 / 256 / 256 / 256) by (rewrite !Z.div_div by lia; reflexivity).
  replace (x / 17592186044416) with (x / 16 / 256 / 256 / 256 / 256 / 256) by (rewrite !Z.div_div by lia; reflexivity).
  pose proof (Z.div_mod x 16 ltac:(lia)). set (x1 := x / 16) in *.
  pose proof (Z.mod_pos_bound x 16 ltac:(lia)). clearbody x1.
  pose proof (Z.div_mod x1 256 ltac:(lia)). set (x2 := x1 / 256) in *.
  pose proof (Z.mod_pos_bound x1 256 ltac:(lia)). clearbody x2.
  pose proof (Z.div_mod x2 256 ltac:(lia)). set (x3 := x2 / 256) in *.
  pose proof (Z.mod_pos_bound x2 256 ltac:(lia)). clearbody x3.
  pose proof (Z.div_mod x3 256 ltac:(lia)). set (x4 := x3 / 256) in *.
  pose proof (Z.mod_pos_bound x3 256 ltac:(lia)). clearbody x4.
  pose proof (Z.div_mod x4 256 ltac:(lia)). set (x5 := x4 / 256) in *.
  pose proof (Z.mod_pos_bound x4 256 ltac:(lia)). clearbody x5.
  pose proof (Z.div_mod x5 256 ltac:(lia)). set (x6 := x5 / 256) in *.
  pose proof (Z.mod_pos_bound x5 256 ltac:(lia)). clearbody x6.
  assert (0 <= x6 < 256).
  { generalize dependent (x mod 16). generalize dependent (x1 mod 256). generalize dependent (x2 mod 256).
  generalize dependent (x3 mod 256). generalize dependent (x4 mod 256). generalize dependent (x5 mod 256). intros. lia. }
  rewrite (Z.mod_small x6) by assumption.
  generalize dependent (x mod 16). generalize dependent (x1 mod 256). generalize dependent (x2 mod 256).
  generalize dependent (x3 mod 256). generalize dependent (x4 mod 256). generalize dependent (x5 mod 256).
  intros. lia.
Qed.

(** Values that need at most 260 bits: the encoding keeps the low 256. *)
Lemma fe_to_bytes_gen a : flimbs a -> le_value (fe_to_bytes a) = fval a mod 2 ^ 256.
Proof.
  destruct a as [a0 a1 a2 a3 a4]. rewrite flimbs_lim, fval_num. cbn [f0 f1 f2 f3 f4].
  intros (A0 & A1 & A2 & A3 & A4). unfold fe_to_bytes. cbn [f0 f1 f2 f3 f4].
  pose proof (proj2 (byte6 a0 A0)) as N0. pose proof (proj2 (byte6 a2 A2)) as N2.
  rewrite (shr_div a0 48), (shr_div a2 48) by discriminate. change (2 ^ 48) with 281474976710656.
  rewrite !nibble_byte by assumption.
  rewrite !shr_div by discriminate.
  change (2 ^ 0) with 1. rewrite !Z.div_1_r.
  rewrite !cast8. cbn [le_value].
  change (2 ^ 4) with 16. change (2 ^ 8) with 256. change (2 ^ 12) with 4096.
  change (2 ^ 16) with 65536. change (2 ^ 20) with 1048576. change (2 ^ 24) with 16777216.
  change (2 ^ 28) with 268435456. change (2 ^ 32) with 4294967296. change (2 ^ 36) with 68719476736.
  change (2 ^ 40) with 1099511627776. change (2 ^ 44) with 17592186044416.
  change (2 ^ 256) with 115792089237316195423570985008687907853269984665640564039457584007913129639936.
  apply Zmod_unique with (a4 / 281474976710656).
  - match goal with |- 0 <= ?e < _ => assert (B : is_bytes 32 (fe_to_bytes (FE a0 a1 a2 a3 a4))) by apply fe_to_bytes_bytes end.
    apply le_value_bound in B.
    unfold fe_to_bytes in B. cbn [f0 f1 f2 f3 f4] in B.
    rewrite (shr_div a0 48), (shr_div a2 48) in B by discriminate. change (2 ^ 48) with 281474976710656 in B.
    rewrite !nibble_byte in B by assumption.
    rewrite !shr_div in B by discriminate.
    change (2 ^ 0) with 1 in B. rewrite !Z.div_1_r in B.
    rewrite !cast8 in B. cbn [le_value] in B. exact B.
  - destruct (byte6 a0 A0) as [E0 _]. destruct (byte6 a2 A2) as [E2 _].
    destruct (byte6 a4 A4) as [E4 _].
    pose proof (nib_bytes a1 A1) as E1. pose proof (nib_bytes a3 A3) as E3.
    rewrite E0 at 1. rewrite E1 at 1. rewrite E2 at 1. rewrite E3 at 1. rewrite E4 at 1.
    clear. ring.
Qed.

Lemma fe_to_bytes_ok a : floadable a -> le_value (fe_to_bytes a) = fval a.
Proof.
  intros [A1 A2]. rewrite fe_to_bytes_gen by assumption.
  apply Z.mod_small. apply fval_nonneg in A1. lia.
Qed.

Lemma fe_from_to_bytes a : floadable a -> fe_from_bytes (fe_to_bytes a) = a.
Proof.
  intros A. destruct (fe_from_bytes_ok _ (fe_to_bytes_bytes a)) as [[B _] E].
  apply fval_inj; [assumption|apply A|]. rewrite E. now apply fe_to_bytes_ok.
Qed.

Lemma fe_to_from_bytes b : is_bytes 32 b -> fe_to_bytes (fe_from_bytes b) = b.
Proof.
  intros B. destruct (fe_from_bytes_ok b B) as [A E].
  destruct B as [Hl F]. destruct (fe_to_bytes_bytes (fe_from_bytes b)) as [Hl' F'].
  apply le_value_inj; [congruence|assumption|assumption|].
  rewrite fe_to_bytes_ok by assumption. exact E.
Qed.

Lemma fe_eqb_gen a b : flimbs a -> flimbs b ->
  fe_eqb a b = (fval a mod 2 ^ 256 =? fval b mod 2 ^ 256).
Proof.
  intros A B. unfold fe_eqb. apply eq_iff_eq_true. rewrite bytes_eqb_spec, Z.eqb_eq.
  rewrite <- !fe_to_bytes_gen by assumption. split; [congruence|].
  destruct (fe_to_bytes_bytes a) as [La Fa]. destruct (fe_to_bytes_bytes b) as [Lb Fb].
  intros E. apply le_value_inj; auto.
Qed.

Lemma fe_eqb_ok a b : floadable a -> floadable b -> fe_eqb a b = (fval a =? fval b).
Proof.
  intros [A1 A2] [B1 B2]. rewrite fe_eqb_gen by assumption.
  apply fval_nonneg in A1. apply fval_nonneg in B1.
  rewrite !Z.mod_small by lia. reflexivity.
Qed.

Lemma fe_eqb_eq a b : floadable a -> floadable b -> (fe_eqb a b = true <-> a = b).
Proof.
  intros A B. rewrite fe_eqb_ok by assumption. rewrite Z.eqb_eq.
  split; [|congruence]. apply fval_inj; [apply A|apply B].
Qed.

(** Conversions from unsigned integers. *)
Lemma fe_from_u32_ok x : 0 <= x < 2 ^ 32 -> fcanon (fe_from_u32 x) /\ fval (fe_from_u32 x) = x.
Proof.
  intros H. unfold fcanon. rewrite flimbs_lim, fval_num, p_num. cbn [fe_from_u32 f0 f1 f2 f3 f4].
  unfold lim. lia.
Qed.
Lemma fe_from_u64_ok x : 0 <= x < 2 ^ 64 -> fcanon (fe_from_u64 x) /\ fval (fe_from_u64 x) = x.
Proof.
  intros H. unfold fcanon. rewrite flimbs_lim, fval_num, p_num. unfold fe_from_u64.
  cbn [f0 f1 f2 f3 f4]. unfold lim, mask52. rewrite land52, shr52. lia.
Qed.
Lemma fe_from_u128_ok x : 0 <= x < 2 ^ 128 -> fcanon (fe_from_u128 x) /\ fval (fe_from_u128 x) = x.
Proof.
  intros H. unfold fcanon. rewrite flimbs_lim, fval_num, p_num. unfold fe_from_u128.
  cbn [f0 f1 f2 f3 f4]. unfold lim, mask52. rewrite !cast64, !land52, shr52.
  rewrite shr_div by lia.
  change (2 ^ 104) with (4503599627370496 * 4503599627370496).
  rewrite <- Z.div_div by lia. lia.
Qed.

(** Powers of two. *)
Lemma ushl_small ck k : 0 <= k < 52 -> ushl ck 64 W64 1 k = Ok (2 ^ k).
Proof.
  intros H. unfold ushl. replace (k <? 64) with true by (symmetry; apply Z.ltb_lt; lia).
  rewrite shl64 by lia. rewrite Z.mul_1_l, Z.mod_small; [reflexivity|].
  split; [apply Z.pow_nonneg; lia|].
  apply Z.lt_trans with (2 ^ 52); [apply Z.pow_lt_mono_r; lia|reflexivity].
Qed.

Lemma lim_pow2 k : 0 <= k < 52 -> lim (2 ^ k).
Proof.
  intros H. split; [apply Z.pow_nonneg; lia|].
  change 4503599627370496 with (2 ^ 52). apply Z.pow_lt_mono_r; lia.
Qed.

Lemma limb_pow_ok ck e : 0 <= e < 260 ->
  exists r, (if e <=? 51 then
    x <- ushl ck 64 W64 1 e ;; Ok (FE x 0 0 0 0)
  else if e <=? 103 then
    e <- usub ck W64 e 52 ;; x <- ushl ck 64 W64 1 e ;; Ok (FE 0 x 0 0 0)
  else if e <=? 155 then
    e <- usub ck W64 e 104 ;; x <- ushl ck 64 W64 1 e ;; Ok (FE 0 0 x 0 0)
  else if e <=? 207 then
    e <- usub ck W64 e 156 ;; x <- ushl ck 64 W64 1 e ;; Ok (FE 0 0 0 x 0)
  else
    e <- usub ck W64 e 208 ;; x <- ushl ck 64 W64 1 e ;; Ok (FE 0 0 0 0 x)) = Ok r /\
   flimbs r /\ fval r = 2 ^ e.
Proof.
  intros H.
  assert (Z0 : lim 0) by (unfold lim; lia).
  destruct (Z.leb_spec e 51).
  { rewrite ushl_small by lia. rewrite bind_ok. eexists. split; [reflexivity|].
    split; [rewrite flimbs_lim; cbn [f0 f1 f2 f3 f4]; repeat split; try apply lim_pow2; lia|].
    rewrite fval_num. cbn [f0 f1 f2 f3 f4]. lia. }
  destruct (Z.leb_spec e 103).
  { rewrite usub_ok by lia. rewrite bind_ok, ushl_small by lia. rewrite bind_ok.
    eexists. split; [reflexivity|].
    split; [rewrite flimbs_lim; cbn [f0 f1 f2 f3 f4]; repeat split; try apply lim_pow2; lia|].
    rewrite fval_num. cbn [f0 f1 f2 f3 f4]. replace e with (e - 52 + 52) at 2 by lia.
    rewrite Z.pow_add_r by lia. change (2 ^ 52) with 4503599627370496. ring. }
  destruct (Z.leb_spec e 155).
  { rewrite usub_ok by lia. rewrite bind_ok, ushl_small by lia. rewrite bind_ok.
    eexists. split; [reflexivity|].
    split; [rewrite flimbs_lim; cbn [f0 f1 f2 f3 f4]; repeat split; try apply lim_pow2; lia|].
    rewrite fval_num. cbn [f0 f1 f2 f3 f4]. replace e with (e - 104 + 104) at 2 by lia.
    rewrite Z.pow_add_r by lia. change (2 ^ 104) with 20282409603651670423947251286016. ring. }
  destruct (Z.leb_spec e 207).
  { rewrite usub_ok by lia. rewrite bind_ok, ushl_small by lia. rewrite bind_ok.
    eexists. split; [reflexivity|].
    split; [rewrite flimbs_lim; cbn [f0 f1 f2 f3 f4]; repeat split; try apply lim_pow2; lia|].
    rewrite fval_num. cbn [f0 f1 f2 f3 f4]. replace e with (e - 156 + 156) at 2 by lia.
    rewrite Z.pow_add_r by lia.
    change (2 ^ 156) with 91343852333181432387730302044767688728495783936. ring. }
  { rewrite usub_ok by lia. rewrite bind_ok, ushl_small by lia. rewrite bind_ok.
    eexists. split; [reflexivity|].
    split; [rewrite flimbs_lim; cbn [f0 f1 f2 f3 f4]; repeat split; try apply lim_pow2; lia|].
    rewrite fval_num. cbn [f0 f1 f2 f3 f4]. replace e with (e - 208 + 208) at 2 by lia.
    rewrite Z.pow_add_r by lia.
    change (2 ^ 208) with 411376139330301510538742295639337626245683966408394965837152256. ring. }
Qed.

Lemma fe_inner_two_pow_k_ok ck e : 0 <= e < 260 ->
  exists r, fe_inner_two_pow_k ck e = Ok r /\ flimbs r /\ fval r = 2 ^ e.
Proof.
  intros H. unfold fe_inner_two_pow_k.
  rewrite rassert_true by (apply Z.ltb_lt; lia). rewrite bind_ok. now apply limb_pow_ok.
Qed.

Lemma fe_two_pow_k_ok ck e : 0 <= e < 253 ->
  exists r, fe_two_pow_k ck e = Ok r /\ fcanon r /\ fval r = 2 ^ e.
Proof.
  intros H. unfold fe_two_pow_k.
  rewrite rassert_true by (apply Z.ltb_lt; lia). rewrite bind_ok.
  destruct (limb_pow_ok ck e) as (r & -> & A & B); [lia|].
  exists r. repeat split; auto; try apply A. rewrite B.
  apply Z.le_lt_trans with (2 ^ 252); [apply Z.pow_le_mono_r; lia|reflexivity].
Qed.

Lemma fe_two_pow_k_panic ck e : 253 <= e -> fe_two_pow_k ck e = Panic.
Proof.
  intros H. unfold fe_two_pow_k.
  replace (e <? 253) with false by (symmetry; apply Z.ltb_ge; lia). reflexivity.
Qed.
