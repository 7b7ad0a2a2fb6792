(** * The scalar properties, stated on integers

    Statement forms of the results of the scalar files; PropScalar.v restates
    each of them.                                                            *)

From Coq Require Import ZArith Znumtheory List Bool Lia.
From Verif Require Import Machine FieldModel ScalarModel Spec MachineFacts FieldOps FieldBytes
  ScalarLimb ScalarOps ScalarBits ScalarNaf.
Import ListNotations.
Open Scope Z_scope.

Lemma scanon_check a : (0 <=? s0 a) && (s0 a <? 2 ^ 52) && (0 <=? s1 a) && (s1 a <? 2 ^ 52) &&
   (0 <=? s2 a) && (s2 a <? 2 ^ 52) && (0 <=? s3 a) && (s3 a <? 2 ^ 52) &&
   (0 <=? s4 a) && (s4 a <? 2 ^ 52) && (sval a <? L) = true -> scanon a.
Proof.
  rewrite !andb_true_iff, !Z.ltb_lt, !Z.leb_le. unfold scanon, slimbs. intuition.
Qed.

(** ** C17 *)
Lemma C17_add_stmt : forall ck a b, scanon a -> scanon b ->
  returns_scalar (sc_add ck a b) (sval a + sval b).
Proof. exact sc_add_ok. Qed.
Lemma C17_sub_stmt : forall ck a b, scanon a -> scanon b ->
  returns_scalar (sc_sub ck a b) (sval a - sval b).
Proof. exact sc_sub_ok. Qed.
Lemma C17_neg_stmt : forall ck a, scanon a -> returns_scalar (sc_neg ck a) (- sval a).
Proof. exact sc_neg_ok. Qed.
Lemma C17_ex : scanon sc_minus_one /\ scanon SC_RR /\
  sc_add true sc_minus_one sc_minus_one
  = Ok (SC 1129677152307297 1363544697812651 714439 0 2199023255552) /\
  sc_sub false sc_zero sc_one = Ok sc_minus_one /\ sc_neg true sc_zero = Ok sc_zero.
Proof.
  split; [apply scanon_check; reflexivity|]. split; [apply scanon_check; reflexivity|].
  vm_compute. auto.
Qed.

(** ** C18 *)
Lemma C18_mul_stmt : forall ck a b, slimbs a -> scanon b ->
  returns_scalar (sc_mul ck a b) (sval a * sval b).
Proof. exact sc_mul_ok. Qed.
Lemma C18_square_stmt : forall ck a, scanon a -> returns_scalar (sc_square ck a) (sval a * sval a).
Proof. exact sc_square_ok. Qed.
Lemma C18_ex : slimbs sc_minus_one /\ scanon sc_minus_one /\
  sc_mul true sc_minus_one sc_minus_one = Ok sc_one /\ sc_square false sc_minus_one = Ok sc_one.
Proof.
  assert (scanon sc_minus_one) by (apply scanon_check; reflexivity).
  split; [apply H|]. split; [assumption|]. vm_compute. auto.
Qed.

(** ** C19 *)
Lemma C19_half_stmt : forall ck a, slimbs a ->
  exists r, sc_half ck a = Ok r /\ scanon r /\ (sval r + sval r) mod L = sval a mod L.
Proof.
  intros ck a A. destruct (sc_half_ok ck a A) as (r & E & C & V). exists r.
  split; [assumption|]. split; [assumption|]. now replace (sval r + sval r) with (2 * sval r) by lia.
Qed.
Lemma C19_half_without_mod_stmt : forall a, slimbs a ->
  slimbs (sc_half_without_mod a) /\ sval (sc_half_without_mod a) = sval a / 2.
Proof. exact sc_half_without_mod_ok. Qed.
Lemma C19_shr_stmt : forall a k, slimbs a -> 0 <= k ->
  slimbs (sc_shr a k) /\ sval (sc_shr a k) = sval a / 2 ^ k.
Proof. exact sc_shr_ok. Qed.
Lemma C19_ex : slimbs sc_minus_one /\ sc_shr sc_minus_one 249 = sc_one /\
  sc_half true sc_one = Ok SCALAR_INVERSE_MOD_TWO /\
  sc_half_without_mod (SC 6 0 0 0 1) = SC 3 0 0 2251799813685248 0.
Proof. split; [apply C18_ex|]. vm_compute. auto. Qed.

(** ** C20 *)
Lemma C20_pow_stmt : forall ck a e, scanon a -> scanon e ->
  returns_scalar (sc_pow ck a e) (sval a ^ sval e).
Proof. exact sc_pow_ok. Qed.
Lemma C20_ex : scanon sc_minus_one /\ scanon SC_RR /\
  sc_pow true (SC 3 0 0 0 0) (SC 5 0 0 0 0) = Ok (SC 243 0 0 0 0).
Proof. split; [apply C17_ex|]. split; [apply C17_ex|]. vm_compute. reflexivity. Qed.

(** ** C21 *)
Lemma C21_from_bytes_stmt : forall b, is_bytes 32 b ->
  (le_value b < L -> exists r, sc_from_bytes b = Ok r /\ scanon r /\ sval r = le_value b /\ sc_to_bytes r = b) /\
  (L <= le_value b -> sc_from_bytes b = Panic).
Proof.
  intros b B. pose proof (sc_from_bytes_ok b B) as H. destruct (Z.ltb_spec (le_value b) L).
  - split; [|lia]. intros _. destruct H as (r & E & C & V). exists r.
    split; [assumption|]. split; [assumption|]. split; [assumption|]. now apply sc_to_from_bytes.
  - split; [lia|]. intros _. exact H.
Qed.
Lemma C21_to_bytes_stmt : forall a, scanon a ->
  is_bytes 32 (sc_to_bytes a) /\ le_value (sc_to_bytes a) = sval a /\ sc_from_bytes (sc_to_bytes a) = Ok a.
Proof.
  intros a A. split; [apply sc_to_bytes_bytes|].
  split; [apply sc_to_bytes_ok; now apply scanon_loadable|now apply sc_from_to_bytes].
Qed.
Lemma C21_ex : is_bytes 32 (sc_to_bytes sc_minus_one) /\ le_value (sc_to_bytes sc_minus_one) < L /\
  is_bytes 32 (sc_to_bytes SC_L) /\ L <= le_value (sc_to_bytes SC_L) /\ scanon sc_minus_one.
Proof.
  split; [apply sc_to_bytes_bytes|]. split; [reflexivity|]. split; [apply sc_to_bytes_bytes|].
  split; [vm_compute; discriminate|apply C17_ex].
Qed.

(** ** C22 *)
Lemma C22_into_bits_stmt : forall a, sloadable a ->
  length (sc_into_bits a) = 256%nat /\
  (forall i, nth i (sc_into_bits a) 0 = Z.b2z (Z.testbit (sval a) (Z.of_nat i))).
Proof. intros a A. split; [apply sc_into_bits_length|]. intros i. now apply sc_into_bits_ok. Qed.
Lemma C22_ex : sloadable sc_minus_one /\ nth 249 (sc_into_bits sc_minus_one) 0 = 1 /\
  nth 0 (sc_into_bits sc_minus_one) 0 = 0.
Proof. split; [apply scanon_loadable, C17_ex|]. vm_compute. auto. Qed.

(** ** C23 *)
Lemma nth_repeat0 n j : nth j (repeat 0 n) 0 = 0.
Proof.
  destruct (nth_in_or_default j (repeat 0 n) 0) as [H|H]; [|exact H]. now apply repeat_spec in H.
Qed.
Lemma nth_pad256 ds i : nth i (pad256 ds) 0 = nth i ds 0.
Proof.
  unfold pad256. destruct (Nat.lt_ge_cases i (length ds)) as [H|H].
  - now apply app_nth1.
  - rewrite app_nth2 by assumption. rewrite nth_repeat0. symmetry. now apply nth_overflow.
Qed.
Lemma recoding_spec w k ds : (length ds <= 250)%nat -> recoding w k ds -> signed_recoding w k (pad256 ds).
Proof.
  intros Hl (V & D & N). split; [|split; [|split; [|split]]].
  - unfold pad256. rewrite app_length, repeat_length. lia.
  - unfold pad256. rewrite digits_value_app, digits_value_zeros, V. lia.
  - apply Forall_app. split.
    + eapply Forall_impl; [|exact D]. cbn beta. intros d [[Z|O] R]; [now left|right; split; [assumption|lia]].
    + apply Forall_forall. intros x H. apply repeat_spec in H. now left.
  - intros i j. rewrite !nth_pad256. apply N.
  - intros i Hi. rewrite nth_pad256. apply nth_overflow. lia.
Qed.
Lemma C23_naf_stmt : forall ck k, scanon k ->
  exists ds, sc_compute_NAF ck k = Ok ds /\ signed_recoding 2 (sval k) ds.
Proof.
  intros ck k K. destruct (sc_compute_NAF_ok ck k K) as (ds & E & Hl & R).
  exists (pad256 ds). split; [assumption|now apply recoding_spec].
Qed.
Lemma C23_ex : scanon (SC 7 0 0 0 0) /\ sc_compute_NAF true (SC 7 0 0 0 0) = Ok (-1 :: 0 :: 0 :: 1 :: repeat 0 252).
Proof. split; [apply scanon_check; reflexivity|]. vm_compute. reflexivity. Qed.

(** ** C24 *)
Lemma C24_wnaf_stmt : forall ck w k, scanon k -> 2 <= w <= 6 -> (w = 6 -> sval k <> L - 2) ->
  exists ds, sc_compute_window_NAF ck k w = Ok ds /\ signed_recoding w (sval k) ds.
Proof.
  intros ck w k K Hw N. destruct (sc_compute_window_NAF_ok ck w k K) as (ds & E & Hl & R).
  - unfold no_wrap. lia.
  - exists (pad256 ds). split; [assumption|now apply recoding_spec].
Qed.
(** Width 6, the one reduced scalar for which the recoding is wrong: the digits sum to -3. *)
Lemma C24_wnaf_six_refuted_stmt : exists k ds, scanon k /\ sval k = L - 2 /\
  (forall ck, sc_compute_window_NAF ck k 6 = Ok ds) /\ digits_value ds mod L <> sval k mod L.
Proof.
  exists (SC 1129677152307297 1363544697812651 714439 0 2199023255552), (pad256 [-31; 0; 7]).
  split; [apply scanon_check; reflexivity|]. split; [reflexivity|].
  split; [intros []; vm_compute; reflexivity|]. vm_compute. discriminate.
Qed.
(** Width 1 runs off the end of the digit array. *)
Lemma C24_wnaf_one_refuted_stmt : exists k, scanon k /\
  forall ck, sc_compute_window_NAF ck k 1 = Panic.
Proof.
  exists sc_one. split; [exact scanon_one|]. intros []; vm_compute; reflexivity.
Qed.
(** Width 7 panics with overflow checks. *)
Lemma C24_wnaf_seven_refuted_stmt : exists k, scanon k /\ sc_compute_window_NAF true k 7 = Panic.
Proof. exists (SC 127 0 0 0 0). split; [apply scanon_check; reflexivity|]. vm_compute. reflexivity. Qed.
(** Width 8 panics with them and returns a wrong recoding (all zero digits for 1) without. *)
Lemma C24_wnaf_eight_refuted_stmt : exists k, scanon k /\ sc_compute_window_NAF true k 8 = Panic /\
  sc_compute_window_NAF false k 8 = Ok (repeat 0 256) /\ sval k mod L <> 0.
Proof.
  exists sc_one. split; [exact scanon_one|]. vm_compute. split; [reflexivity|]. split; [reflexivity|discriminate].
Qed.
Lemma C24_ex : scanon sc_minus_one /\ sval sc_minus_one <> L - 2 /\
  sc_compute_window_NAF true (SC 23 0 0 0 0) 4 = Ok (7 :: 0 :: 0 :: 0 :: 1 :: repeat 0 251).
Proof. split; [apply C17_ex|]. split; [discriminate|]. vm_compute. reflexivity. Qed.

(** ** C25 *)
Lemma C25_mod_stmt : forall ck a k, slimbs a -> 0 <= k <= 8 -> sc_mod_2_pow_k ck a k = Ok (sval a mod 2 ^ k).
Proof. intros. now apply sc_mod_2_pow_k_ok. Qed.
Lemma C25_mods_stmt : forall ck a w, slimbs a -> 1 <= w <= 6 \/ (w = 7 /\ ck = false) ->
  exists r, sc_mods_2_pow_k ck a w = Ok r /\ signed_residue w (sval a) r.
Proof.
  intros ck a w A H. exists (smods (sval a) w).
  assert (1 <= w) by lia. split; [|split; [now apply smods_mod|now apply smods_range]].
  destruct H as [H|[-> ->]]; [now apply sc_mods_2_pow_k_ok|].
  unfold sc_mods_2_pow_k. change (7 <? 32) with true. cbn [rassert]. rewrite bind_ok.
  rewrite sc_mod_2_pow_k_ok by (assumption || lia). rewrite bind_ok. cbv zeta.
  rewrite smods_case by lia. change (2 ^ 7) with 128. change (2 ^ (7 - 1)) with 64.
  pose proof (Z.mod_pos_bound (sval a) 128 ltac:(lia)) as B.
  set (m := sval a mod 128) in *.
  assert (Em : as_i8 m = m) by (unfold as_i8; rewrite Z.mod_small; lia). rewrite Em. clearbody m.
  change (usub false W8 7 1) with (Ok 6). rewrite bind_ok.
  change (i8shl false 1 6) with (Ok 64). rewrite bind_ok.
  change (ushl false 8 W8 1 7) with (Ok 128). rewrite bind_ok. change (as_i8 128) with (-128).
  destruct (Z.leb_spec 64 m); [|reflexivity].
  unfold i8sub. replace (-128 <=? m - -128) with true by (symmetry; apply Z.leb_le; lia).
  replace (m - -128 <=? 127) with false by (symmetry; apply Z.leb_gt; lia).
  cbn [andb]. f_equal. unfold as_i8.
  replace (m - -128 + 128) with (m + 1 * 256) by lia. rewrite Z.mod_add by lia.
  rewrite Z.mod_small by lia. lia.
Qed.
(** The documented range for k goes up to 32; from 9 on the result is the value
    modulo 256, and beyond 32 there is no panic. *)
Lemma C25_mod_trunc_stmt : forall ck a k, slimbs a -> 8 <= k < 52 ->
  sc_mod_2_pow_k ck a k = Ok (sval a mod 256).
Proof. intros. now apply sc_mod_2_pow_k_trunc. Qed.
Lemma C25_mod_range_refuted_stmt : exists a, scanon a /\
  (forall ck, exists r, sc_mod_2_pow_k ck a 9 = Ok r /\ r <> sval a mod 2 ^ 9) /\
  (forall ck, sc_mod_2_pow_k ck a 40 = Ok 0).
Proof.
  exists (SC 256 0 0 0 0). split; [apply scanon_check; reflexivity|].
  split; [|intros []; reflexivity]. intros ck. exists 0. split; [now destruct ck|]. discriminate.
Qed.
Lemma C25_mods_range_refuted_stmt : exists a, scanon a /\
  sc_mods_2_pow_k true a 7 = Panic /\
  sc_mods_2_pow_k true a 8 = Panic /\ (exists r, sc_mods_2_pow_k false a 8 = Ok r /\ ~ signed_residue 8 (sval a) r) /\
  sc_mods_2_pow_k true a 9 = Panic /\ sc_mods_2_pow_k true a 0 = Panic.
Proof.
  exists (SC 100 0 0 0 0). split; [apply scanon_check; reflexivity|].
  split; [reflexivity|]. split; [reflexivity|]. split; [|split; reflexivity].
  exists 99. split; [reflexivity|]. intros [H _]. vm_compute in H. discriminate.
Qed.
Lemma C25_ex : slimbs sc_minus_one /\ sc_mod_2_pow_k true sc_minus_one 8 = Ok 98 /\
  sc_mods_2_pow_k true (SC 23 0 0 0 0) 4 = Ok 7 /\ sc_mods_2_pow_k false (SC 100 0 0 0 0) 7 = Ok (-28).
Proof. split; [apply C18_ex|]. vm_compute. auto. Qed.

(** ** C26 *)
Lemma C26_from_i8_stmt : forall ck x, -127 <= x <= 127 -> returns_scalar (sc_from_i8 ck x) x.
Proof. exact sc_from_i8_ok. Qed.
Lemma C26_min_refuted_stmt : exists x, -128 <= x <= 127 /\
  sc_from_i8 true x = Panic /\
  exists r, sc_from_i8 false x = Ok r /\ sval r mod L <> x mod L.
Proof.
  exists (-128). split; [lia|]. split; [reflexivity|]. exists (SC 128 0 0 0 0).
  split; [reflexivity|]. vm_compute. discriminate.
Qed.
Lemma C26_ex : sc_from_i8 true (-1) = Ok sc_minus_one /\ -127 <= -1 <= 127.
Proof. split; [reflexivity|lia]. Qed.

(** ** C27 *)
Lemma C27_from_int_stmt :
  (forall x, 0 <= x < 2 ^ 8 -> scanon (sc_from_u8 x) /\ sval (sc_from_u8 x) = x) /\
  (forall x, 0 <= x < 2 ^ 16 -> scanon (sc_from_u16 x) /\ sval (sc_from_u16 x) = x) /\
  (forall x, 0 <= x < 2 ^ 32 -> scanon (sc_from_u32 x) /\ sval (sc_from_u32 x) = x) /\
  (forall x, 0 <= x < 2 ^ 64 -> scanon (sc_from_u64 x) /\ sval (sc_from_u64 x) = x) /\
  (forall x, 0 <= x < 2 ^ 128 -> scanon (sc_from_u128 x) /\ sval (sc_from_u128 x) = x).
Proof.
  split; [intros; apply sc_from_u32_ok; lia|]. split; [intros; apply sc_from_u32_ok; lia|].
  split; [exact sc_from_u32_ok|]. split; [exact sc_from_u64_ok|exact sc_from_u128_ok].
Qed.
Lemma C27_two_pow_k_stmt : forall ck k, 0 <= k ->
  (k < 250 -> exists r, sc_two_pow_k ck k = Ok r /\ scanon r /\ sval r = 2 ^ k) /\
  (250 <= k -> sc_two_pow_k ck k = Panic).
Proof. intros. split; intros; [apply sc_two_pow_k_ok|apply sc_two_pow_k_panic]; lia. Qed.
Lemma C27_cmp_stmt : forall a b, slimbs a -> slimbs b -> sc_cmp a b = Z.compare (sval a) (sval b).
Proof. exact sc_cmp_ok. Qed.
Lemma C27_eq_stmt : forall a b, sloadable a -> sloadable b -> (sc_eqb a b = true <-> sval a = sval b).
Proof. intros a b A B. rewrite sc_eqb_ok by assumption. apply Z.eqb_eq. Qed.
Lemma C27_is_even_stmt : forall a, slimbs a -> sc_is_even a = Z.even (sval a).
Proof. intros a _. apply sc_is_even_ok. Qed.
Lemma C27_ex : sc_from_u128 (2 ^ 128 - 1) = SC 4503599627370495 4503599627370495 16777215 0 0 /\
  sc_two_pow_k true 249 = Ok (SC 0 0 0 0 2199023255552) /\ sc_two_pow_k false 250 = Panic /\
  slimbs sc_minus_one /\ slimbs SC_RR /\ sloadable sc_minus_one /\ sloadable SC_RR /\
  sc_cmp SC_RR sc_minus_one = Lt /\ sc_eqb SC_RR sc_minus_one = false.
Proof.
  destruct C17_ex as (A & B & _). pose proof (scanon_loadable _ A). pose proof (scanon_loadable _ B).
  split; [reflexivity|]. split; [reflexivity|]. split; [reflexivity|].
  split; [apply A|]. split; [apply B|]. split; [assumption|]. split; [assumption|]. split; reflexivity.
Qed.

(** ** C28 *)
Lemma C28_random_stmt : forall draw, is_bytes 32 draw ->
  exists r, sc_random draw = Ok r /\ scanon r /\ sval r = le_value draw mod 2 ^ 249.
Proof. exact sc_random_ok. Qed.
(** Documented as a uniform choice: some scalars are never returned. *)
Lemma C28_uniform_refuted_stmt : exists a, scanon a /\
  forall draw, is_bytes 32 draw -> sc_random draw <> Ok a.
Proof.
  exists sc_minus_one. split; [apply C17_ex|].
  intros d D E. destruct (C28_random_stmt d D) as (r & E' & C & V).
  rewrite E' in E. injection E as ->.
  pose proof (Z.mod_pos_bound (le_value d) (2 ^ 249)) as B.
  assert (2 ^ 249 <= sval sc_minus_one) by (vm_compute; discriminate). lia.
Qed.
Lemma C28_ex : is_bytes 32 (repeat 255 32) /\
  sc_random (repeat 255 32)
  = Ok (SC 4503599627370495 4503599627370495 4503599627370495 4503599627370495 2199023255551).
Proof.
  split; [|reflexivity]. split; [reflexivity|].
  apply Forall_forall. intros x H. apply repeat_spec in H. subst. split; [discriminate|reflexivity].
Qed.
