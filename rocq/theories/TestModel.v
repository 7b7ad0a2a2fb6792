(** * Tests of the crate as programs over arbitrary inputs

    The tests in edwards.rs and ristretto.rs that state a law rather than a table of
    values.  Their literal or random inputs are parameters; a failing `assert!` and an
    `unwrap` of `None` are [Panic], a completed test is [Ok tt]. *)

From Coq Require Import ZArith List Bool.
From Verif Require Import Machine FieldModel ScalarModel EdwardsModel RistrettoModel DocTestModel.
Import ListNotations.
Open Scope Z_scope.

(** A `for` loop over the elements of an array (ristretto.rs 588, 621, 637, 672). *)
Fixpoint for_each {A : Type} (l : list A) (body : A -> res unit) : res unit :=
  match l with
  | [] => Ok tt
  | a :: l' => _ <- body a ;; for_each l' body
  end.

(** edwards.rs 1411-1418 `extended_double_and_add`; [P] stands for `P1_EXTENDED`. *)
Definition test_double_and_add (ck : bool) (P : ept) : res unit :=
  a <- ept_double ck P ;;
  b <- ept_double ck a ;;
  expect <- ept_double ck b ;;
  r <- ept_mul ck P (sc_from_u8 8) ;;
  e <- ept_eqb ck expect r ;;
  assert_that e (Ok tt).

(** edwards.rs 1594-1600 `unique_basepoint_test`; [y] stands for 3/5. *)
Definition test_unique_basepoint (ck : bool) (y : fe) (s : bool) : res unit :=
  o <- ept_new_from_y_coord ck y s ;;
  basep <- unwrap_option o ;;
  v <- ept_is_valid ck basep ;;
  assert_that v (
  r <- ept_mul ck basep SC_L ;;
  e <- ept_eqb ck r ept_identity ;;
  assert_that e (Ok tt)).

(** edwards.rs 1603-1605 `left_to_right_bin_mul`; [P] and [n] stand for `P1_EXTENDED` and
    `Scalar::two_pow_k(215)`. *)
Definition test_ltr (ck : bool) (P : ept) (n : sc) : res unit :=
  a <- ept_mul ck P n ;;
  b <- ltr_bin_mul (ept_add ck) (ept_double ck) ept_identity P n ;;
  e <- ept_eqb ck a b ;;
  assert_that e (Ok tt).

(** edwards.rs 1608-1617 `naf_bin_mul`: one of its assertions, for a point and a scalar. *)
Definition test_naf (ck : bool) (P : ept) (n : sc) : res unit :=
  a <- double_and_add (ept_add ck) (ept_double ck) ept_identity P n ;;
  b <- binary_naf_mul ck (ept_add ck) (ept_sub ck) (ept_double ck) ept_identity P n ;;
  e <- ept_eqb ck a b ;;
  assert_that e (Ok tt).

(** ristretto.rs 582-594 `decompress_id`; [b] stands for `CompressedRistretto::identity()`.
    The loop runs through all four entries; its flag is the accumulator. *)
Fixpoint identity_in_coset (ck : bool) (l : list ept) (found : bool) : res bool :=
  match l with
  | [] => Ok found
  | P :: l' =>
      c <- ept_compress ck P ;;
      identity_in_coset ck l' (if cey_eqb c cey_identity then true else found)
  end.
(** ristretto.rs 582-594 `decompress_id`, the whole test. *)
Definition test_decompress_id (ck : bool) (b : list Z) : res unit :=
  o <- cr_decompress ck b ;;
  id <- unwrap_option o ;;
  l <- rp_coset4 ck id ;;
  f <- identity_in_coset ck l false ;;
  assert_that f (Ok tt).

(** ristretto.rs 597-613 `four_torsion_diff`; [P] stands for `RISTRETTO_BASEPOINT`. *)
Definition test_four_torsion_diff (ck : bool) (P : ept) : res unit :=
  c <- rp_compress ck P ;;
  o <- cr_decompress ck c ;;
  bp <- unwrap_option o ;;
  point_order_4 <- ept_sub ck P bp ;;
  verif <- mul_by_pow_2 ck (ept_mul ck) point_order_4 2 ;;
  v <- ept_compress ck verif ;;
  assert_that (cey_eqb v cey_identity) (Ok tt).

(** ristretto.rs 615-630 `four_torsion_diff_random` (compiled with the feature `rand` only;
    the second argument of `mul_by_pow_2` is written `&2` there); [draw] is what the
    generator delivers to `Scalar::random`. *)
Definition test_four_torsion_diff_random (ck : bool) (draw : list Z) : res unit :=
  s <- sc_random draw ;;
  P <- rp_mul ck RISTRETTO_BASEPOINT s ;;
  l <- rp_coset4 ck P ;;
  _ <- for_each l (fun Q => e <- rp_eqb ck P Q ;; assert_that e (Ok tt)) ;;
  c <- rp_compress ck P ;;
  o <- cr_decompress ck c ;;
  D <- unwrap_option o ;;
  N <- rp_neg ck D ;;
  point_order_4 <- rp_add ck P N ;;
  v <- mul_by_pow_2 ck (rp_mul ck) point_order_4 2 ;;
  e <- rp_eqb ck v rp_identity ;;
  assert_that e (Ok tt).

(** ristretto.rs 633-640 `four_coset_eq_basepoint`; [P] stands for `RISTRETTO_BASEPOINT`. *)
Definition test_four_coset_eq (ck : bool) (P : ept) : res unit :=
  l <- rp_coset4 ck P ;;
  for_each l (fun Q => e <- rp_eqb ck Q P ;; assert_that e (Ok tt)).

(** ristretto.rs 648-652, the loop of `validity_check`; [n] stands for 16 rounds, [P] for the
    running point and [B] for the base point. *)
Fixpoint validity_loop (ck : bool) (n : nat) (P B : ept) : res unit :=
  match n with
  | O => Ok tt
  | S m =>
      v <- rp_is_valid ck P ;;
      assert_that v (
      P' <- rp_add ck P B ;;
      validity_loop ck m P' B)
  end.
(** ristretto.rs 643-664 `validity_check`; [n] stands for 16, [y] and [s] for the
    arguments in lines 656-661. *)
Definition test_validity (ck : bool) (n : nat) (y : fe) (s : bool) : res unit :=
  v <- rp_is_valid ck RISTRETTO_BASEPOINT ;;
  assert_that v (
  _ <- validity_loop ck n rp_identity RISTRETTO_BASEPOINT ;;
  o <- ept_new_from_y_coord ck y s ;;
  P <- unwrap_option o ;;
  w <- ept_is_valid ck P ;;
  assert_that w (
  u <- rp_is_valid ck P ;;
  assert_that (negb u) (Ok tt))).

(** ristretto.rs 666-676 `random_point_validity` (feature `rand`); [draws] are the 64-byte
    outputs of the generator, one per round. *)
Definition test_random_points (ck : bool) (draws : list (list Z)) : res unit :=
  for_each draws (fun d =>
    P <- rp_new_random_point ck d ;;
    v <- ept_is_valid ck P ;;
    assert_that v (
    c <- rp_compress ck P ;;
    _ <- cr_decompress ck c ;;
    Ok tt)).
