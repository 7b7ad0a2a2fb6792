(** * The parameter translator

    Statement forms; PropTools.v restates each of them and closes it with the
    lemma of the same name.                                                  *)

From Coq Require Import ZArith Znumtheory Zpow_facts List Bool Lia.
From Verif Require Import Machine FieldModel ScalarModel Spec MachineFacts NumTheory Primes ToolsModel.
Import ListNotations.
Open Scope Z_scope.

(** ** C85 *)
Definition digit_sum (b : Z) (l : list Z) : Z := fold_right (fun d r => d + b * r) 0 l.
Lemma push_digits_spec b n : 0 < b -> forall x, 0 <= x ->
  length (push_digits n b x) = n /\ Forall (fun d => 0 <= d < b) (push_digits n b x) /\
  digit_sum b (push_digits n b x) = x mod b ^ Z.of_nat n.
Proof.
  intros Hb. induction n as [|n IH]; intros x Hx; cbn [push_digits].
  - split; [reflexivity|]. split; [constructor|]. change (b ^ Z.of_nat 0) with 1. rewrite Z.mod_1_r. reflexivity.
  - destruct (IH (x / b)) as (E & F & S); [apply Z.div_pos; lia|]. split; [cbn [length]; rewrite E; reflexivity|].
    split; [constructor; [apply Z.mod_pos_bound; exact Hb|exact F]|]. unfold digit_sum in S |- *. cbn [fold_right]. rewrite S.
    rewrite Nat2Z.inj_succ, Z.pow_succ_r by lia. rewrite Z.rem_mul_r; [reflexivity|lia|apply Z.pow_pos_nonneg; lia].
Qed.
Lemma sum_52 l : length l = 5%nat -> from_scalar_base_52 l = digit_sum (2 ^ 52) l.
Proof.
  intros E. destruct l as [|a [|b [|c [|d [|e [|f l]]]]]]; try discriminate. clear E. unfold from_scalar_base_52, digit_sum.
  cbn [fold_left seq fold_right nth]. change 4503599627370496 with (2 ^ 52).
  change ((2 ^ 52) ^ Z.of_nat 0) with 1. change ((2 ^ 52) ^ Z.of_nat 1) with (2 ^ 52). change ((2 ^ 52) ^ Z.of_nat 2) with (2 ^ 104).
  change ((2 ^ 52) ^ Z.of_nat 3) with (2 ^ 156). change ((2 ^ 52) ^ Z.of_nat 4) with (2 ^ 208). lia.
Qed.
Lemma sum_51 l : length l = 5%nat -> from_field_elem_base_51 l = digit_sum (2 ^ 51) l.
Proof.
  intros E. destruct l as [|a [|b [|c [|d [|e [|f l]]]]]]; try discriminate. clear E. unfold from_field_elem_base_51, digit_sum.
  cbn [fold_left seq fold_right nth]. change 2251799813685248 with (2 ^ 51).
  change ((2 ^ 51) ^ Z.of_nat 0) with 1. change ((2 ^ 51) ^ Z.of_nat 1) with (2 ^ 51). change ((2 ^ 51) ^ Z.of_nat 2) with (2 ^ 102).
  change ((2 ^ 51) ^ Z.of_nat 3) with (2 ^ 153). change ((2 ^ 51) ^ Z.of_nat 4) with (2 ^ 204). lia.
Qed.
(** The arrays hold the low 260 (255) bits of the number, as digits; below that bound the
    translation back gives the number. *)
Lemma C85_limbs_stmt : forall x, 0 <= x ->
  Forall (fun d => 0 <= d < 2 ^ 52) (to_scalar_base_52 x) /\ from_scalar_base_52 (to_scalar_base_52 x) = x mod 2 ^ 260 /\
  Forall (fun d => 0 <= d < 2 ^ 51) (to_field_elem_51 x) /\ from_field_elem_base_51 (to_field_elem_51 x) = x mod 2 ^ 255.
Proof.
  intros x Hx. destruct (push_digits_spec (2 ^ 52) 5 ltac:(lia) x Hx) as (E & F & S).
  destruct (push_digits_spec (2 ^ 51) 5 ltac:(lia) x Hx) as (E' & F' & S').
  split; [exact F|]. split; [|split; [exact F'|]].
  - rewrite sum_52 by exact E. exact S.
  - rewrite sum_51 by exact E'. exact S'.
Qed.
(** The base 2^52 arrays are the limbs of the crate's elements and scalars of that value. *)
Lemma C85_limbs_elements_stmt : forall x, 0 <= x ->
  (forall a, flimbs a -> fval a = x -> to_scalar_base_52 x = [f0 a; f1 a; f2 a; f3 a; f4 a]) /\
  (forall a, slimbs a -> sval a = x -> to_scalar_base_52 x = [s0 a; s1 a; s2 a; s3 a; s4 a]).
Proof.
  intros x Hx.
  assert (G : forall x0 x1 x2 x3 x4, 0 <= x0 < 2 ^ 52 -> 0 <= x1 < 2 ^ 52 -> 0 <= x2 < 2 ^ 52 -> 0 <= x3 < 2 ^ 52 -> 0 <= x4 < 2 ^ 52 ->
    val5 x0 x1 x2 x3 x4 = x -> to_scalar_base_52 x = [x0; x1; x2; x3; x4]).
  { intros x0 x1 x2 x3 x4 H0 H1 H2 H3 H4 <-. clear Hx. unfold to_scalar_base_52. change 4503599627370496 with (2 ^ 52). cbn [push_digits].
    assert (D : forall a q, 0 <= a < 2 ^ 52 -> (a + 2 ^ 52 * q) mod 2 ^ 52 = a /\ (a + 2 ^ 52 * q) / 2 ^ 52 = q).
    { intros a q Ha. rewrite (Z.mul_comm (2 ^ 52) q). rewrite Z.mod_add, Z.div_add, Z.mod_small, Z.div_small by lia. split; lia. }
    replace (val5 x0 x1 x2 x3 x4) with (x0 + 2 ^ 52 * (x1 + 2 ^ 52 * (x2 + 2 ^ 52 * (x3 + 2 ^ 52 * (x4 + 2 ^ 52 * 0))))) by (unfold val5; lia).
    rewrite (proj1 (D x0 _ H0)), (proj2 (D x0 _ H0)), (proj1 (D x1 _ H1)), (proj2 (D x1 _ H1)), (proj1 (D x2 _ H2)), (proj2 (D x2 _ H2)),
      (proj1 (D x3 _ H3)), (proj2 (D x3 _ H3)), (proj1 (D x4 _ H4)). reflexivity. }
  split; intros a (H0 & H1 & H2 & H3 & H4) E; apply G; assumption.
Qed.
(** [to_field_elem_51] announces the representation of the crate's field elements; it is not. *)
Lemma C85_elem51_refuted_stmt : exists a, fcanon a /\ to_field_elem_51 (fval a) <> [f0 a; f1 a; f2 a; f3 a; f4 a].
Proof.
  exists (FE 0 1 0 0 0). split; [split; [unfold flimbs; cbn; lia|reflexivity]|]. vm_compute. discriminate.
Qed.
(** Numbers too large for the array are cut off without notice. *)
Lemma C85_overflow_refuted_stmt : exists x, 0 <= x /\ from_scalar_base_52 (to_scalar_base_52 x) <> x.
Proof. exists (2 ^ 260). split; [lia|]. vm_compute. discriminate. Qed.
Lemma bits_bound x : 0 < x -> 2 ^ (bits x - 1) <= x < 2 ^ bits x /\ 0 < bits x.
Proof.
  intros Hx. unfold bits. destruct (Z.eqb_spec x 0) as [->|_]; [lia|]. pose proof (Z.log2_nonneg x) as N. pose proof (Z.log2_spec x Hx) as (A & B).
  replace (Z.log2 x + 1 - 1) with (Z.log2 x) by lia. rewrite Z.add_1_r. lia.
Qed.
(** Bytes: the number comes back, for every size, and no shorter string stands for it. *)
Lemma C85_bytes_stmt : forall x, 0 <= x -> num_from_bytes_le (hex_bytes_le x) = x /\ Forall (fun b => 0 <= b < 256) (hex_bytes_le x) /\
  forall l, Forall (fun b => 0 <= b < 256) l -> l <> [] -> num_from_bytes_le l = x -> (length (hex_bytes_le x) <= length l)%nat.
Proof.
  intros x Hx. unfold hex_bytes_le, to_bytes_le. destruct (Z.eqb_spec x 0) as [->|N].
  - split; [reflexivity|]. split; [constructor; [lia|constructor]|]. intros l _ Hl _. destruct l; [elim (Hl eq_refl)|cbn [length]; lia].
  - assert (G : forall f y, 0 <= y < 2 ^ Z.of_nat f -> num_from_bytes_le (to_bytes_le_loop f y) = y /\
      Forall (fun b => 0 <= b < 256) (to_bytes_le_loop f y) /\
      forall l, Forall (fun b => 0 <= b < 256) l -> num_from_bytes_le l = y -> (length (to_bytes_le_loop f y) <= length l)%nat).
    { induction f as [|f IH]; intros y Hy; cbn [to_bytes_le_loop].
      - change (2 ^ Z.of_nat 0) with 1 in Hy. split; [cbn; lia|]. split; [constructor|]. intros l _ _. cbn [length]. lia.
      - rewrite Nat2Z.inj_succ, Z.pow_succ_r in Hy by lia.
        destruct (Z.eqb_spec y 0) as [->|Ny]; [split; [reflexivity|]; split; [constructor|]; intros; cbn [length]; lia|].
        destruct (IH (y / 256)) as (E & F & M).
        { split; [apply Z.div_pos; lia|]. apply Z.div_lt_upper_bound; lia. }
        split; [cbn [num_from_bytes_le]; rewrite E; pose proof (Z.div_mod y 256); lia|].
        split; [constructor; [apply Z.mod_pos_bound; lia|exact F]|]. intros l Fl El. destruct l as [|b l]; [cbn in El; lia|].
        cbn [num_from_bytes_le] in El. inversion Fl as [|? ? Hb Fl']; subst. cbn [length]. apply le_n_S. apply M; [exact Fl'|].
        rewrite (Z.mul_comm 256), Z.div_add, Z.div_small by lia. reflexivity. }
    destruct (G (Z.to_nat (bits x)) x) as (E & F & M).
    { pose proof (bits_bound x ltac:(lia)) as (B & P). rewrite Z2Nat.id by lia. lia. }
    split; [exact E|]. split; [exact F|]. intros l Fl _ El. exact (M l Fl El).
Qed.
Lemma C85_main_stmt : tools_main =
  ([s0 SCALAR_INVERSE_MOD_TWO; s1 SCALAR_INVERSE_MOD_TWO; s2 SCALAR_INVERSE_MOD_TWO; s3 SCALAR_INVERSE_MOD_TWO; s4 SCALAR_INVERSE_MOD_TWO],
   [0; 0; 0; 0; 2 ^ 40]).
Proof. vm_compute. reflexivity. Qed.
(** [Montgomery::new] accepts exactly the odd moduli. *)
Lemma C85_new_stmt : forall m, 0 <= m ->
  (Z.even m = true <-> montgomery_new m = None) /\
  (bits m < 2 ^ 31 -> forall M, montgomery_new m = Some M ->
     m_m M = m /\ 2 ^ (m_n M - 1) <= m < 2 ^ m_n M /\ 0 < m_n M /\ m_rrm M = 2 ^ (2 * m_n M) mod m).
Proof.
  intros m Hm. unfold montgomery_new. assert (S : (m <? 0) = false) by (apply Z.ltb_ge; exact Hm). rewrite S. cbn [orb].
  destruct (Z.even m) eqn:E; [split; [split; reflexivity|discriminate]|]. split; [split; discriminate|].
  intros B M K. injection K as <-. cbn [m_m m_n m_rrm].
  assert (Pm : 0 < m) by (destruct (Z.eq_dec m 0) as [->|]; [discriminate E|lia]). pose proof (bits_bound m Pm) as (R & P).
  assert (I : as_i32 (bits m) = bits m) by (unfold as_i32; rewrite Z.mod_small by lia; lia). rewrite I.
  split; [reflexivity|]. split; [exact R|]. split; [exact P|]. rewrite Z.shiftl_1_l. f_equal. f_equal. lia.
Qed.
Lemma reduce_loop_spec m n : forall a, exists c, 0 <= c < 2 ^ Z.of_nat n /\ 2 ^ Z.of_nat n * reduce_loop n m a = a + m * c \/ Z.even m = true.
Proof.
  destruct (Z.even m) eqn:E; [intros a; exists 0; right; reflexivity|].
  assert (O : exists h, m = 2 * h + 1) by (apply Z.odd_spec; rewrite <- Z.negb_even, E; reflexivity). destruct O as (h & Oh).
  induction n as [|n IH]; intros a; cbn [reduce_loop].
  - exists 0. left. change (2 ^ Z.of_nat 0) with 1. lia.
  - destruct (IH (Z.shiftr (if negb (Z.even a) then a + m else a) 1)) as (c & [(Hc & Ec)|K]); [|discriminate K].
    rewrite Nat2Z.inj_succ, Z.pow_succ_r by lia. rewrite <- Z.mul_assoc, Ec. rewrite Z.shiftr_div_pow2 by lia. change (2 ^ 1) with 2.
    destruct (Z.even a) eqn:Ea; cbn [negb].
    + apply Z.even_spec in Ea. destruct Ea as (q & ->). exists (2 * c). left. split; [lia|].
      rewrite (Z.mul_comm 2 q), Z.div_mul by lia. lia.
    + assert (Oa : exists q, a = 2 * q + 1) by (apply Z.odd_spec; rewrite <- Z.negb_even, Ea; reflexivity). destruct Oa as (q & ->).
      exists (2 * c + 1). left. split; [lia|]. replace (2 * q + 1 + m) with ((q + h + 1) * 2) by lia. rewrite Z.div_mul by lia. lia.
Qed.
Definition good_modulus (m : Z) : Prop := 0 < m /\ Z.even m = false /\ bits m < 2 ^ 31.
Lemma reduce_spec m M a : good_modulus m -> montgomery_new m = Some M -> 0 <= a ->
  exists r, reduce M a = Ok r /\ 0 <= r /\ (r * 2 ^ m_n M) mod m = a mod m /\ (a < m * 2 ^ m_n M -> r < m).
Proof.
  intros (Pm & Em & Bm) HM Ha. destruct (proj2 (C85_new_stmt m ltac:(lia)) Bm M HM) as (E & R & P & _). unfold reduce. rewrite E.
  destruct (reduce_loop_spec m (Z.to_nat (m_n M)) a) as (c & [(Hc & Ec)|K]); [|rewrite Em in K; discriminate K].
  rewrite Z2Nat.id in Hc, Ec by lia. set (x := reduce_loop (Z.to_nat (m_n M)) m a) in *. set (T := 2 ^ m_n M) in *.
  assert (PT : 0 < T) by (apply Z.pow_pos_nonneg; lia).
  assert (Nx : 0 <= x) by nia.
  assert (Cg : forall y k, y = x + k * m -> (y * T) mod m = a mod m).
  { intros y k ->. replace ((x + k * m) * T) with (a + (c + k * T) * m) by nia. apply Z.mod_add. lia. }
  destruct (Z.leb_spec m x) as [H|H].
  - exists (x - m). unfold bsub. rewrite (proj2 (Z.leb_le m x) H). split; [reflexivity|]. split; [lia|]. split; [apply (Cg _ (-1)); lia|].
    intros Lt. nia.
  - exists x. split; [reflexivity|]. split; [exact Nx|]. split; [apply (Cg _ 0); lia|]. intros _. exact H.
Qed.
(** [reduce] divides by 2^n modulo m, for moduli of any size, and reduces fully below m 2^n. *)
Lemma C85_reduce_stmt : forall m M a, 0 < m -> bits m < 2 ^ 31 -> montgomery_new m = Some M -> 0 <= a ->
  exists r, reduce M a = Ok r /\ 0 <= r /\ (r * 2 ^ m_n M) mod m = a mod m /\ (a < m * 2 ^ m_n M -> r < m).
Proof.
  intros m M a Pm Bm HM Ha. apply (reduce_spec m); [|exact HM|exact Ha]. split; [exact Pm|]. split; [|exact Bm].
  destruct (Z.even m) eqn:E; [|reflexivity]. apply (proj1 (C85_new_stmt m ltac:(lia))) in E. rewrite E in HM. discriminate HM.
Qed.
Lemma cancel_two m n x y : Z.even m = false -> 0 < m -> 0 <= n -> (x * 2 ^ n) mod m = (y * 2 ^ n) mod m -> x mod m = y mod m.
Proof.
  intros E Pm Hn H.
  assert (R : rel_prime m (2 ^ n)).
  { apply rel_prime_Zpower_r; [exact Hn|]. apply rel_prime_sym. apply prime_rel_prime; [exact prime_2|].
    intros (k & K). rewrite K, Z.even_mul, orb_true_r in E. discriminate E. }
  assert (D : (m | 2 ^ n * (x - y))).
  { apply Z.mod_divide; [lia|]. replace (2 ^ n * (x - y)) with (x * 2 ^ n - y * 2 ^ n) by ring. rewrite Zminus_mod, H, Z.sub_diag. reflexivity. }
  apply Gauss in D; [|exact R]. destruct D as (k & Ek). replace x with (y + k * m) by lia. apply Z.mod_add. lia.
Qed.
(** [reduction]: on numbers of at most as many bits as the modulus the Montgomery forms are
    x 2^n mod m and the "recovered" numbers are the residues; even moduli panic. *)
Lemma C85_reduction_stmt : forall m x1 x2, 0 <= m -> bits m < 2 ^ 31 -> 0 <= x1 < 2 ^ bits m -> 0 <= x2 < 2 ^ bits m ->
  (Z.even m = true -> reduction m x1 x2 = Panic) /\
  (Z.even m = false -> exists t1 t2, reduction m x1 x2 =
     Ok [2; bits m; 2 ^ bits m; m; t1; t2; x1 * 2 ^ bits m mod m; x2 * 2 ^ bits m mod m; x1; x1 mod m; x2; x2 mod m; x1 ^ x2 mod m]).
Proof.
  intros m x1 x2 Hm Bm H1 H2. split; intros Em.
  - unfold reduction. rewrite (proj1 (proj1 (C85_new_stmt m Hm)) Em). reflexivity.
  - assert (Pm : 0 < m) by (destruct (Z.eq_dec m 0) as [->|]; [discriminate Em|lia]).
    assert (Gm : good_modulus m) by (split; [exact Pm|split; [exact Em|exact Bm]]).
    destruct (montgomery_new m) as [M|] eqn:HM; [|apply (proj1 (C85_new_stmt m Hm)) in HM; rewrite Em in HM; discriminate HM].
    destruct (proj2 (C85_new_stmt m Hm) Bm M HM) as (E & R & P & Err).
    assert (Enb : m_base M = 2 /\ m_n M = bits m).
    { unfold montgomery_new in HM. destruct ((m <? 0) || Z.even m); [discriminate HM|]. injection HM as <-. cbn [m_base m_n].
      split; [reflexivity|]. unfold as_i32. pose proof (bits_bound m Pm) as (_ & PB). rewrite Z.mod_small by lia. lia. }
    destruct Enb as (Eb & En). rewrite En in *. set (T := 2 ^ bits m) in *. assert (PT : 0 < T) by (apply Z.pow_pos_nonneg; lia).
    assert (T2 : 2 ^ (2 * bits m) = T * T) by (unfold T; rewrite <- Z.pow_add_r by lia; f_equal; lia).
    pose proof (Z.mod_pos_bound (2 ^ (2 * bits m)) m Pm) as Rb. rewrite <- Err in Rb.
    assert (F : forall x, 0 <= x < T -> reduce M (x * m_rrm M) = Ok (x * T mod m) /\ reduce M (x * T mod m) = Ok (x mod m)).
    { intros x Hx. destruct (reduce_spec m M (x * m_rrm M) Gm HM ltac:(nia)) as (r & Er & Nr & Cr & Lr). rewrite En in Cr, Lr. fold T in Cr, Lr.
      assert (X : r = x * T mod m).
      { rewrite <- (Z.mod_small r m) by (split; [exact Nr|apply Lr; nia]). apply (cancel_two m (bits m)); [exact Em|exact Pm|lia|]. fold T. rewrite Cr.
        rewrite Err, T2, Z.mul_mod_idemp_r by lia. f_equal. ring. }
      split; [rewrite Er, X; reflexivity|]. pose proof (Z.mod_pos_bound (x * T) m Pm) as Xb.
      destruct (reduce_spec m M (x * T mod m) Gm HM ltac:(lia)) as (r' & Er' & Nr' & Cr' & Lr'). rewrite En in Cr', Lr'. fold T in Cr', Lr'.
      rewrite Er'. apply f_equal. assert (mT : m <= m * T) by (apply Z.le_mul_diag_r; lia). rewrite <- (Z.mod_small r' m) by (split; [exact Nr'|apply Lr'; lia]).
      apply (cancel_two m (bits m)); [exact Em|exact Pm|lia|]. fold T. rewrite Cr', Z.mod_mod by lia. reflexivity. }
    exists (x1 * m_rrm M), (x2 * m_rrm M). unfold reduction. rewrite HM. cbn [unwrap]. rewrite bind_ok.
    rewrite (proj1 (F x1 H1)), bind_ok, (proj1 (F x2 H2)), bind_ok, En. rewrite (proj2 (Z.ltb_ge (bits m) 0)) by lia. rewrite bind_ok.
    rewrite (proj2 (F x1 H1)), bind_ok, (proj2 (F x2 H2)), bind_ok, Eb, E, Z.shiftl_1_l. reflexivity.
Qed.
(** The conversion of the length to 32 bits: moduli of 2^31 to 2^32 - 1 bits get a negative
    length and the program panics; there are such moduli. *)
Lemma C85_long_modulus_stmt :
  (forall m x1 x2, 0 <= m -> 2 ^ 31 <= bits m < 2 ^ 32 -> reduction m x1 x2 = Panic) /\
  (exists m, 0 < m /\ Z.even m = false /\ bits m = 2 ^ 31).
Proof.
  split.
  - intros m x1 x2 Hm B. unfold reduction, montgomery_new. rewrite (proj2 (Z.ltb_ge m 0) Hm). cbn [orb].
    destruct (Z.even m); [reflexivity|]. cbn [unwrap]. rewrite bind_ok. cbn [m_n m_rrm m_m m_base].
    assert (N : as_i32 (bits m) <? 0 = true).
    { apply Z.ltb_lt. unfold as_i32. clear - B. change (2 ^ 31) with 2147483648 in *. change (2 ^ 32) with 4294967296 in *. lia. }
    rewrite N. unfold reduce, bsub. cbn [m_n m_m].
    destruct (Z.leb_spec m (reduce_loop (Z.to_nat (as_i32 (bits m))) m (x1 * (Z.shiftl 1 (bits m * 2) mod m)))) as [H|H].
    all: rewrite bind_ok.
    all: destruct (Z.leb_spec m (reduce_loop (Z.to_nat (as_i32 (bits m))) m (x2 * (Z.shiftl 1 (bits m * 2) mod m)))) as [H'|H'].
    all: rewrite bind_ok; reflexivity.
  - assert (G : forall n, 0 < n -> 0 < 2 ^ n + 1 /\ Z.even (2 ^ n + 1) = false /\ bits (2 ^ n + 1) = n + 1).
    { intros n Hn. assert (T : 1 < 2 ^ n) by (apply Z.pow_gt_1; lia). split; [lia|]. split.
      - rewrite Z.even_add, (Z.even_pow 2 n Hn). reflexivity.
      - unfold bits. destruct (Z.eqb_spec (2 ^ n + 1) 0) as [E|_]; [lia|]. f_equal. apply Z.log2_unique; [lia|].
        rewrite Z.pow_succ_r by lia. lia. }
    assert (S : exists n, 0 < n /\ n + 1 = 2 ^ 31) by (exists 2147483647; split; reflexivity).
    destruct S as (n & Hn & <-). exists (2 ^ n + 1). exact (G n Hn).
Qed.
(** What is printed as recovered need not be the original. *)
Lemma C85_recovered_refuted_stmt : exists m x1 x2 l, 0 <= x1 < 2 ^ bits m /\ reduction m x1 x2 = Ok l /\ nth 8 l 0 <> nth 9 l 0.
Proof.
  exists 5, 6, 1. eexists. split; [cbn; lia|]. split; [vm_compute; reflexivity|]. vm_compute. discriminate.
Qed.
Lemma gcd_even u v q : Z.odd q = true -> (Z.gcd u v | q) -> Z.even u = true -> Z.odd v = true.
Proof.
  intros Oq D Eu. destruct (Z.odd v) eqn:O; [reflexivity|]. exfalso.
  assert (Ev : (2 | v)) by (apply Z.mod_divide; [lia|]; rewrite Zmod_odd, O; reflexivity).
  assert (E2 : (2 | u)) by (apply Z.mod_divide; [lia|]; rewrite Zmod_odd, <- Z.negb_even, Eu; reflexivity).
  assert (K : (2 | q)) by (apply (Z.divide_trans _ (Z.gcd u v)); [apply Z.gcd_greatest; assumption|exact D]).
  apply Z.mod_divide in K; [|lia]. rewrite Zmod_odd, Oq in K. discriminate K.
Qed.
Lemma gcd_sub_l u v : Z.gcd (u - v) v = Z.gcd u v.
Proof. rewrite (Z.gcd_comm (u - v) v), (Z.gcd_comm u v). replace (u - v) with (u + (-1) * v) by ring. apply Z.gcd_add_mult_diag_r. Qed.
Lemma gcd_half a b : Z.odd b = true -> Z.gcd (2 * a) b = Z.gcd a b.
Proof.
  intros O. apply Z.gcd_unique; [apply Z.gcd_nonneg|..].
  - apply Z.divide_mul_r. apply Z.gcd_divide_l.
  - apply Z.gcd_divide_r.
  - intros q D1 D2. apply Z.gcd_greatest; [|exact D2]. apply (Gauss _ 2); [exact D1|]. apply rel_prime_sym.
    apply prime_rel_prime; [exact prime_2|]. intros K. assert (J : (2 | b)) by (apply (Z.divide_trans _ q); assumption).
    apply Z.mod_divide in J; [|lia]. rewrite Zmod_odd, O in J. discriminate J.
Qed.
Definition invariant (q x u v r s k : Z) : Prop :=
  1 <= u /\ 0 <= v /\ 0 <= r < 2 * q /\ 1 <= s /\ 0 <= k /\ u * s + v * r = q /\ Z.gcd u v = Z.gcd q x /\
  (q | r * x + u * 2 ^ k) /\ (q | s * x - v * 2 ^ k).
Lemma phase1_loop_spec q x : Z.odd q = true -> 0 < q -> forall f u v r s k, invariant q x u v r s k -> u * v < 2 ^ Z.of_nat f ->
  forall g, (f < g)%nat -> exists r' k', phase1_loop g u v r s = Ok r' /\ 0 <= r' < 2 * q /\ 0 <= k' /\ (q | r' * x + Z.gcd q x * 2 ^ k').
Proof.
  intros Oq Pq. induction f as [|f IH]; intros u v r s k (Hu & Hv & Hr & Hs & Hk & Eq & Eg & D1 & D2) Lt g Hg.
  - change (2 ^ Z.of_nat 0) with 1 in Lt. assert (V : v = 0) by nia. subst v. destruct g as [|g]; [lia|].
    cbn [phase1_loop]. change (0 <? 0) with false. cbn iota. exists r, k. split; [reflexivity|]. split; [exact Hr|]. split; [exact Hk|].
    rewrite <- Eg, Z.gcd_0_r, Z.abs_eq by lia. exact D1.
  - destruct g as [|g]; [lia|]. cbn [phase1_loop]. destruct (Z.ltb_spec 0 v) as [Pv|Nv].
    2:{ assert (V : v = 0) by lia. subst v. exists r, k. split; [reflexivity|]. split; [exact Hr|]. split; [exact Hk|].
        rewrite <- Eg, Z.gcd_0_r, Z.abs_eq by lia. exact D1. }
    rewrite Nat2Z.inj_succ, Z.pow_succ_r in Lt by lia. assert (Gg : (f < g)%nat) by lia.
    assert (K2 : 2 ^ (k + 1) = 2 * 2 ^ k) by (rewrite Z.pow_add_r by lia; change (2 ^ 1) with 2; ring).
    assert (Gd : (Z.gcd u v | q)) by (rewrite Eg; apply Z.gcd_divide_l).
    assert (Br : r < q) by nia.
    destruct (Z.even u) eqn:Eu.
    + pose proof (gcd_even u v q Oq Gd Eu) as Ov. apply Z.even_spec in Eu. destruct Eu as (h & Eh). subst u.
      rewrite (Z.mul_comm 2 h), Z.div_mul by lia. apply (IH h v r (s * 2) (k + 1)); [|nia|exact Gg].
      split; [lia|]. split; [exact Hv|]. split; [exact Hr|]. split; [lia|]. split; [lia|]. split; [lia|]. split; [rewrite <- Eg; symmetry; apply gcd_half; exact Ov|].
      rewrite K2. split; [replace (r * x + h * (2 * 2 ^ k)) with (r * x + 2 * h * 2 ^ k) by ring; exact D1|].
      replace (s * 2 * x - v * (2 * 2 ^ k)) with (2 * (s * x - v * 2 ^ k)) by ring. apply Z.divide_mul_r. exact D2.
    + assert (Ou : Z.odd u = true) by (rewrite <- Z.negb_even, Eu; reflexivity). destruct (Z.even v) eqn:Ev.
      * apply Z.even_spec in Ev. destruct Ev as (h & Eh). subst v. rewrite (Z.mul_comm 2 h), Z.div_mul by lia.
        apply (IH u h (r * 2) s (k + 1)); [|nia|exact Gg].
        split; [lia|]. split; [lia|]. split; [nia|]. split; [lia|]. split; [lia|]. split; [lia|].
        split; [rewrite <- Eg, (Z.gcd_comm u (2 * h)), (Z.gcd_comm u h); symmetry; apply gcd_half; exact Ou|].
        rewrite K2. split; [replace (r * 2 * x + u * (2 * 2 ^ k)) with (2 * (r * x + u * 2 ^ k)) by ring; apply Z.divide_mul_r; exact D1|].
        replace (s * x - h * (2 * 2 ^ k)) with (s * x - 2 * h * 2 ^ k) by ring. exact D2.
      * assert (Ov : Z.odd v = true) by (rewrite <- Z.negb_even, Ev; reflexivity).
        destruct (Z.ltb_spec v u) as [Luv|Luv].
        -- unfold bsub. rewrite (proj2 (Z.leb_le v u)) by lia. rewrite bind_ok.
           assert (Hh : exists h, u - v = 2 * h) by (apply Z.even_spec; rewrite Z.even_sub, Eu, Ev; reflexivity). destruct Hh as (h & Eh).
           rewrite Eh, (Z.mul_comm 2 h), Z.div_mul by lia. apply (IH h v (r + s) (s * 2) (k + 1)); [|nia|exact Gg].
           assert (Us : 2 * h * s + v * (r + s) = q) by nia.
           split; [lia|]. split; [exact Hv|]. split; [nia|]. split; [lia|]. split; [lia|]. split; [lia|].
           split; [rewrite <- Eg; transitivity (Z.gcd (2 * h) v); [symmetry; apply gcd_half; exact Ov|];
             rewrite <- Eh; apply gcd_sub_l|].
           rewrite K2. split.
           ++ replace ((r + s) * x + h * (2 * 2 ^ k)) with (r * x + u * 2 ^ k + (s * x - v * 2 ^ k)) by (replace (h * (2 * 2 ^ k)) with (2 * h * 2 ^ k) by ring; rewrite <- Eh; ring).
              apply Z.divide_add_r; assumption.
           ++ replace (s * 2 * x - v * (2 * 2 ^ k)) with (2 * (s * x - v * 2 ^ k)) by ring. apply Z.divide_mul_r. exact D2.
        -- rewrite (proj2 (Z.leb_le u v) Luv). unfold bsub. rewrite (proj2 (Z.leb_le u v) Luv). rewrite bind_ok.
           assert (Hh : exists h, v - u = 2 * h) by (apply Z.even_spec; rewrite Z.even_sub, Eu, Ev; reflexivity). destruct Hh as (h & Eh).
           rewrite Eh, (Z.mul_comm 2 h), Z.div_mul by lia. apply (IH u h (r * 2) (r + s) (k + 1)); [|nia|exact Gg].
           split; [lia|]. split; [lia|]. split; [nia|]. split; [lia|]. split; [lia|]. split; [nia|].
           split; [rewrite <- Eg; transitivity (Z.gcd (2 * h) u); [rewrite gcd_half by exact Ou; apply Z.gcd_comm|];
             rewrite <- Eh, (Z.gcd_comm u v); apply gcd_sub_l|].
           rewrite K2. split.
           ++ replace (r * 2 * x + u * (2 * 2 ^ k)) with (2 * (r * x + u * 2 ^ k)) by ring. apply Z.divide_mul_r. exact D1.
           ++ replace ((r + s) * x - h * (2 * 2 ^ k)) with (r * x + u * 2 ^ k + (s * x - v * 2 ^ k)) by (replace (h * (2 * 2 ^ k)) with (2 * h * 2 ^ k) by ring; rewrite <- Eh; ring).
              apply Z.divide_add_r; assumption.
Qed.
(** [phase1] ends within 255 + log2 x iterations on every input, never panics, and returns an
    almost inverse d: d x is the greatest common divisor times a power of two. *)
Lemma C85_phase1_stmt : forall x, 0 <= x -> exists d k, 0 < d <= phase1_p /\ 0 <= k /\
  (d * x) mod phase1_p = (Z.gcd phase1_p x * 2 ^ k) mod phase1_p /\
  forall fuel, 255 + Z.log2 x <= Z.of_nat fuel -> phase1 fuel x = Ok d.
Proof.
  intros x Hx. pose proof (Z.log2_nonneg x) as Nl.
  assert (Lx : phase1_p * x < 2 ^ Z.of_nat (Z.to_nat (254 + Z.log2 x))).
  { rewrite Z2Nat.id by lia. replace (254 + Z.log2 x) with (253 + Z.succ (Z.log2 x)) by lia. rewrite Z.pow_add_r by lia.
    assert (Q : 0 < phase1_p < 2 ^ 253) by (split; vm_compute; reflexivity). assert (B : x < 2 ^ Z.succ (Z.log2 x)).
    { destruct (Z.eq_dec x 0) as [->|]; [vm_compute; reflexivity|]. apply Z.log2_spec. lia. }
    set (a := 2 ^ 253) in *. set (b := 2 ^ Z.succ (Z.log2 x)) in *. clearbody a b. generalize dependent phase1_p. intros q Q. nia. }
  assert (I : invariant phase1_p x phase1_p x 0 1 0).
  { assert (Q : 0 < phase1_p) by reflexivity. unfold invariant. generalize dependent phase1_p. intros q Q.
    split; [lia|]. split; [exact Hx|]. split; [lia|]. split; [lia|]. split; [lia|]. split; [lia|]. split; [reflexivity|].
    change (2 ^ 0) with 1. split; [exists 1; ring|exists 0; ring]. }
  assert (Oq : Z.odd phase1_p = true) by reflexivity. assert (Pq : 0 < phase1_p) by reflexivity.
  pose proof (phase1_loop_spec phase1_p x Oq Pq (Z.to_nat (254 + Z.log2 x)) _ _ _ _ _ I Lx) as H.
  assert (U : forall fuel, 255 + Z.log2 x <= Z.of_nat fuel -> (Z.to_nat (254 + Z.log2 x) < fuel)%nat) by (intros; lia).
  destruct (H (S (Z.to_nat (254 + Z.log2 x))) ltac:(lia)) as (r & k & Er & Br & Nk & D).
  assert (Mono : forall f g u v r s y, phase1_loop f u v r s = Ok y -> (f <= g)%nat -> phase1_loop g u v r s = Ok y).
  { clear. induction f as [|f IH]; intros g u v r s y E Hg; [discriminate E|]. destruct g as [|g]; [lia|]. cbn [phase1_loop] in E |- *.
    assert (Hg' : (f <= g)%nat) by lia. destruct (0 <? v); [|exact E].
    destruct (Z.even u), (Z.even v), (v <? u), (u <=? v); unfold bsub in *;
      try destruct (v <=? u); try destruct (u <=? v); cbn [bind] in *; try discriminate E; try (apply IH; assumption). }
  set (q := phase1_p) in *.
  exists (if q <=? r then q - (r - q) else q - r), k. split; [destruct (Z.leb_spec q r); lia|]. split; [exact Nk|]. split.
  - destruct D as (c & Ec). assert (Nq : q <> 0) by lia. destruct (q <=? r).
    + replace ((q - (r - q)) * x) with (Z.gcd q x * 2 ^ k + (2 * x - c) * q) by lia. apply Z.mod_add. exact Nq.
    + replace ((q - r) * x) with (Z.gcd q x * 2 ^ k + (x - c) * q) by lia. apply Z.mod_add. exact Nq.
  - intros fuel Hf. unfold phase1. fold q. rewrite (Mono _ fuel _ _ _ _ _ Er) by (specialize (U fuel Hf); lia). rewrite bind_ok.
    unfold bsub. destruct (Z.leb_spec q r) as [G|G]; rewrite bind_ok.
    + rewrite (proj2 (Z.leb_le (r - q) q)) by lia. reflexivity.
    + rewrite (proj2 (Z.leb_le r q)) by lia. reflexivity.
Qed.
(** Its modulus is not the field modulus; it is divisible by 5, so not every element below it
    gets an inverse. *)
Lemma C85_phase1_modulus_stmt : phase1_p <> p /\ (5 | phase1_p).
Proof. split; [discriminate|]. apply Z.mod_divide; [discriminate|reflexivity]. Qed.
Lemma C85_phase1_inverse_refuted_stmt : exists x, 0 < x < phase1_p /\
  forall fuel d k, 0 <= k -> phase1 fuel x = Ok d -> (d * x) mod phase1_p <> 2 ^ k mod phase1_p.
Proof.
  exists 5. split; [split; reflexivity|]. intros fuel d k Hk _ K.
  assert (N : phase1_p <> 0) by discriminate. destruct C85_phase1_modulus_stmt as (_ & c & Ec).
  assert (D : (5 | 2 ^ k)).
  { apply Z.mod_divide; [discriminate|]. rewrite (Z.div_mod (2 ^ k) phase1_p N), <- K, (Z.mod_eq _ _ N).
    set (y := d * 5 / phase1_p). set (z := 2 ^ k / phase1_p). rewrite Ec. replace (c * 5 * z + (d * 5 - c * 5 * y)) with ((c * z + d - c * y) * 5) by ring.
    apply Z.mod_mul. discriminate. }
  apply (prime_power_prime 5 2 k) in D; [discriminate D|exact Hk|apply trial_prime; vm_compute; reflexivity|exact prime_2].
Qed.
(** Positional numerals: [c] is a character for the digit [d] in base [b]; a text denotes the
    number whose digits it lists, the highest first. *)
Definition digit_char (b c d : Z) : Prop :=
  0 <= d < b /\ ((d < 10 /\ c = 48 + d) \/ (10 <= d < 36 /\ (c = 97 + (d - 10) \/ c = 65 + (d - 10)))).
Inductive numeral (b : Z) : list Z -> Z -> Prop :=
| numeral_one c d : digit_char b c d -> numeral b [c] d
| numeral_more s x c d : numeral b s x -> digit_char b c d -> numeral b (s ++ [c]) (x * b + d).

Lemma digit_of_spec b c d : 2 <= b <= 36 -> (digit_char b c d <-> digit_of c = d /\ d < b).
Proof.
  intros B. unfold digit_char, digit_of.
  destruct (Z.leb_spec 48 c), (Z.leb_spec c 57), (Z.leb_spec 97 c), (Z.leb_spec c 122), (Z.leb_spec 65 c), (Z.leb_spec c 90); cbn [andb]; split; intros; lia.
Qed.
Lemma parse_loop_app b s c : forall acc, parse_loop b acc (s ++ [c]) = (x <- parse_loop b acc s ;; if digit_of c <? b then Ok (x * b + digit_of c) else Panic).
Proof.
  induction s as [|e s IH]; intros acc; cbn [app parse_loop bind]; [reflexivity|].
  destruct (digit_of e <? b); [apply IH|reflexivity].
Qed.
Lemma parse_app b s c : s <> [] -> parse b (s ++ [c]) = (x <- parse b s ;; if digit_of c <? b then Ok (x * b + digit_of c) else Panic).
Proof.
  intros N. unfold parse. destruct ((2 <=? b) && (b <=? 36)); [|reflexivity].
  destruct s as [|e s]; [contradiction|]. cbn [app]. exact (parse_loop_app b (e :: s) c 0).
Qed.
Lemma parse_one b c : 2 <= b <= 36 -> parse b [c] = if digit_of c <? b then Ok (digit_of c) else Panic.
Proof.
  intros B. unfold parse. rewrite (proj2 (Z.leb_le 2 b)), (proj2 (Z.leb_le b 36)) by lia. cbn [andb parse_loop].
  destruct (digit_of c <? b); reflexivity.
Qed.
Lemma numeral_nonempty b s x : numeral b s x -> s <> [].
Proof. intros [c d _|s' x' c d _ _]; [discriminate|]. destruct s'; discriminate. Qed.
Lemma parse_total b s : parse b s = Panic \/ exists x, parse b s = Ok x.
Proof.
  unfold parse. destruct ((2 <=? b) && (b <=? 36)); [|left; reflexivity]. destruct s as [|c s]; [left; reflexivity|].
  generalize (c :: s), 0. clear. induction l as [|c s IH]; intros acc; cbn [parse_loop]; [right; exists acc; reflexivity|].
  destruct (digit_of c <? b); [apply IH|left; reflexivity].
Qed.
Lemma parse_spec b : 2 <= b <= 36 -> forall s x, parse b s = Ok x <-> numeral b s x.
Proof.
  intros B s x. split.
  - revert x. induction s as [|c s IH] using rev_ind; intros x E.
    + unfold parse in E. destruct ((2 <=? b) && (b <=? 36)); discriminate E.
    + destruct s as [|e s'].
      * cbn [app] in *. rewrite (parse_one b c B) in E. destruct (Z.ltb_spec (digit_of c) b) as [L|L]; [|discriminate E].
        injection E as <-. apply numeral_one. apply (digit_of_spec b c _ B). split; [reflexivity|exact L].
      * set (s := e :: s') in *. rewrite parse_app in E by discriminate. destruct (parse b s) as [y| |]; [|discriminate E..].
        cbn [bind] in E. destruct (Z.ltb_spec (digit_of c) b) as [L|L]; [|discriminate E].
        injection E as <-. apply numeral_more; [apply IH; reflexivity|]. apply (digit_of_spec b c _ B). split; [reflexivity|exact L].
  - induction 1 as [c d D|s x c d N IH D]; apply (digit_of_spec b c d B) in D; destruct D as [<- L].
    + rewrite (parse_one b c B), (proj2 (Z.ltb_lt _ _) L). reflexivity.
    + rewrite parse_app by exact (numeral_nonempty b s x N). rewrite IH. cbn [bind]. rewrite (proj2 (Z.ltb_lt _ _) L). reflexivity.
Qed.
Lemma numeral_bound b s x : 2 <= b -> numeral b s x -> 0 <= x < b ^ Z.of_nat (length s).
Proof.
  intros B. induction 1 as [c d [D _]|s x c d N IH [D _]].
  - cbn [length]. change (Z.of_nat 1) with 1. rewrite Z.pow_1_r. exact D.
  - rewrite app_length, Nat2Z.inj_add. cbn [length]. change (Z.of_nat 1) with 1. rewrite Z.pow_add_r, Z.pow_1_r by lia. nia.
Qed.
Lemma show_loop_spec : forall f x out, show_loop f x out = show_loop f x [] ++ out.
Proof.
  induction f as [|f IH]; intros x out; cbn [show_loop]; [reflexivity|]. destruct (x =? 0); [reflexivity|].
  rewrite (IH _ (48 + x mod 10 :: out)), (IH _ [48 + x mod 10]), <- app_assoc. reflexivity.
Qed.
Lemma show_loop_numeral : forall f x, 0 < x < 2 ^ Z.of_nat f ->
  numeral 10 (show_loop f x []) x /\ 10 ^ (Z.of_nat (length (show_loop f x [])) - 1) <= x.
Proof.
  induction f as [|f IH]; intros x X; [cbn in X; lia|].
  cbn [show_loop]. rewrite (proj2 (Z.eqb_neq x 0)) by lia. rewrite show_loop_spec.
  rewrite Nat2Z.inj_succ, Z.pow_succ_r in X by lia.
  pose proof (Z.div_mod x 10 ltac:(discriminate)) as E. pose proof (Z.mod_pos_bound x 10 ltac:(reflexivity)) as M.
  assert (D : digit_char 10 (48 + x mod 10) (x mod 10)) by (unfold digit_char; lia).
  destruct (Z.eq_dec (x / 10) 0) as [Q|Q].
  - assert (Z0 : show_loop f 0 [] = []) by (destruct f; reflexivity).
    rewrite Q, Z0. cbn [app length]. rewrite Q in E. replace (10 * 0 + x mod 10) with (x mod 10) in E by ring.
    split; [|cbn; lia]. rewrite E at 2. apply numeral_one. exact D.
  - assert (0 < x / 10 < 2 ^ Z.of_nat f) as X' by (pose proof (Z.div_pos x 10); split; [lia|apply Z.div_lt_upper_bound; lia]).
    destruct (IH (x / 10) X') as [N L]. split.
    + rewrite E at 3. rewrite (Z.mul_comm 10). apply numeral_more; assumption.
    + pose proof (numeral_nonempty _ _ _ N) as Ne.
      rewrite app_length. cbn [length]. set (n := length (show_loop f (x / 10) [])) in *.
      assert (1 <= Z.of_nat n) by (destruct (show_loop f (x / 10) []); [contradiction|unfold n; cbn [length]; lia]).
      replace (Z.of_nat (n + 1) - 1) with (Z.succ (Z.of_nat n - 1)) by lia. rewrite Z.pow_succ_r by lia. lia.
Qed.
Lemma show_spec x : 0 <= x -> numeral 10 (show x) x /\ (forall out, numeral 10 out x -> (length (show x) <= length out)%nat).
Proof.
  intros X. unfold show. destruct (Z.eqb_spec x 0) as [->|N].
  - split; [apply numeral_one; unfold digit_char; lia|]. intros out O. apply numeral_nonempty in O. destruct out; [contradiction|cbn [length]; lia].
  - destruct (bits_bound x ltac:(lia)) as [H1 H2].
    destruct (show_loop_numeral (Z.to_nat (bits x)) x) as [S L]; [rewrite Z2Nat.id by lia; lia|].
    split; [exact S|]. intros out O. apply numeral_bound in O; [|lia].
    assert (Z.of_nat (length (show_loop (Z.to_nat (bits x)) x [])) - 1 < Z.of_nat (length out)); [|lia].
    apply (Z.pow_lt_mono_r_iff 10); lia.
Qed.

(** Numbers are read from text as positional numerals, for every base from 2 to 36, and
    everything that is not a numeral of the base panics. *)
Lemma C85_text_stmt : forall b s, 2 <= b <= 36 ->
  (forall x, numeral b s x -> parse b s = Ok x) /\ ((forall x, ~ numeral b s x) -> parse b s = Panic).
Proof.
  intros b s B. split.
  - intros x. apply (parse_spec b B).
  - intros N. destruct (parse_total b s) as [E|[x E]]; [exact E|]. apply (parse_spec b B) in E. elim (N x E).
Qed.
(** [from_radix_to_radix_10] prints the shortest decimal numeral of the same number. *)
Lemma C85_radix_stmt : forall b s x, 2 <= b <= 36 -> numeral b s x ->
  exists out, from_radix_to_radix_10 s b = Ok out /\ numeral 10 out x /\ forall out', numeral 10 out' x -> (length out <= length out')%nat.
Proof.
  intros b s x B N. exists (show x). unfold from_radix_to_radix_10. rewrite (proj2 (parse_spec b B s x) N). cbn [bind].
  split; [reflexivity|]. apply show_spec. exact (proj1 (numeral_bound b s x (proj1 B) N)).
Qed.
(** Decimal text to bytes and back to decimal text. *)
Lemma C85_bytes_text_stmt : forall s x, numeral 10 s x ->
  exists l, hex_bytes_le_str s = Ok l /\ numeral 10 (num_from_bytes_le_str l) x.
Proof.
  intros s x N. assert (B : 2 <= 10 <= 36) by lia. exists (hex_bytes_le x). unfold hex_bytes_le_str. rewrite (proj2 (parse_spec 10 B s x) N). cbn [bind].
  split; [reflexivity|]. unfold num_from_bytes_le_str. pose proof (proj1 (numeral_bound 10 s x (proj1 B) N)) as P.
  destruct (C85_bytes_stmt x P) as (E & _). rewrite E. apply show_spec. exact P.
Qed.
(** [EdwardsPoint::new] turns the decimal values of four coordinates into their limbs, each in
    its place. *)
Lemma C85_point_stmt : forall X Y Z T sx sy sz st, flimbs X -> flimbs Y -> flimbs Z -> flimbs T ->
  numeral 10 sx (fval X) -> numeral 10 sy (fval Y) -> numeral 10 sz (fval Z) -> numeral 10 st (fval T) ->
  let limbs a := [f0 a; f1 a; f2 a; f3 a; f4 a] in
  tools_point_str sx sy sz st = Ok (limbs X, limbs Y, limbs Z, limbs T) /\
  tools_point (fval X) (fval Y) (fval Z) (fval T) = (limbs X, limbs Y, limbs Z, limbs T).
Proof.
  intros X Y Z T sx sy sz st HX HY HZ HT NX NY NZ NT limbs. assert (B : 2 <= 10 <= 36) by lia.
  assert (G : forall a s, flimbs a -> numeral 10 s (fval a) -> to_scalar_base_52_str s = Ok (limbs a) /\ to_scalar_base_52 (fval a) = limbs a).
  { intros a s Ha N. unfold to_scalar_base_52_str. rewrite (proj2 (parse_spec 10 B s _) N). cbn [bind].
    pose proof (proj1 (numeral_bound 10 s _ (proj1 B) N)) as P.
    rewrite (proj1 (C85_limbs_elements_stmt _ P) a Ha eq_refl). split; reflexivity. }
  unfold tools_point_str, tools_point.
  destruct (G X sx HX NX) as [-> ->], (G Y sy HY NY) as [-> ->], (G Z sz HZ NZ) as [-> ->], (G T st HT NT) as [-> ->].
  split; reflexivity.
Qed.
Lemma C85_ex : montgomery_new 15 = Some (MG 2 15 1 4) /\ bits 15 = 4 /\ reduce (MG 2 15 1 4) 7 = Ok 7 /\
  reduction 13 9 5 = Ok [2; 4; 16; 13; 81; 45; 1; 2; 9; 9; 5; 5; 3] /\ hex_bytes_le 65536 = [0; 0; 1] /\
  to_scalar_base_52 (2 ^ 53 + 7) = [7; 2; 0; 0; 0] /\
  numeral 16 [49; 97; 70] 431 /\ from_radix_to_radix_10 [49; 97; 70] 16 = Ok [52; 51; 49] /\ parse 16 [49; 103] = Panic /\
  numeral 10 [49] (fval (FE 1 0 0 0 0)) /\ flimbs (FE 1 0 0 0 0).
Proof.
  split; [reflexivity|]. split; [reflexivity|]. split; [reflexivity|]. split; [reflexivity|]. split; [reflexivity|]. split; [reflexivity|].
  assert (H : 2 <= 16 <= 36) by lia. assert (H' : 2 <= 10 <= 36) by lia.
  split; [apply (parse_spec 16 H); reflexivity|]. split; [reflexivity|]. split; [reflexivity|].
  split; [apply (parse_spec 10 H'); reflexivity|]. unfold flimbs; cbn; lia.
Qed.
