(** * The examples in the module documentation

    field.rs 11-65, scalar.rs 15-51, edwards.rs 9-71.  Each is a program that the test
    runner executes.  The literal inputs are parameters here; the values the programs bind
    are returned.  A failing `assert!` and an `unwrap` of `None` are [Panic]. *)

From Coq Require Import ZArith List Bool.
From Verif Require Import Machine FieldModel ScalarModel EdwardsModel.
Import ListNotations.
Open Scope Z_scope.

(** `assert!(b)` (field.rs 34, 51; scalar.rs 30, 44; edwards.rs 57). *)
Definition assert_that {A : Type} (b : bool) (k : res A) : res A := if b then k else Panic.

(** `unwrap` on an `Option` (field.rs 44; edwards.rs 37, 66). *)
Definition unwrap_option {A : Type} (o : option A) : res A :=
  match o with Some a => Ok a | None => Panic end.

(** field.rs 11-65.  [bytes], [x], [z] stand for the arguments of lines 19, 22 and 23, [d]
    for the array of line 33, [k] for the exponent of line 34, [s] for the choice of line 44;
    [draw] is the output of the generator in line 26. *)
Definition field_example (ck : bool) (bytes : list Z) (x z : Z) (d : fe) (k : Z) (s : bool)
    (draw : list Z) : res (list fe * list Z) :=
  let a := fe_from_bytes bytes in
  let b := fe_from_u128 x in
  let c := fe_from_u64 z in
  rand <- fe_random draw ;;
  t <- fe_two_pow_k ck k ;;
  assert_that (fe_eqb d t) (
  r1 <- fe_add ck a b ;;
  r2 <- fe_sub ck a b ;;
  r3 <- fe_mul ck a b ;;
  r4 <- fe_square ck a ;;
  r5 <- fe_neg ck a ;;
  r6 <- fe_pow ck a b ;;
  o <- fe_mod_sqrt ck a s ;;
  r7 <- unwrap_option o ;;
  nb <- fe_neg ck b ;;
  q <- fe_div_val ck nb c ;;
  assert_that (fe_eqb q EDWARDS_D) (
  h <- (if fe_is_even a then fe_half ck a else Ok a) ;;
  inv <- fe_inverse ck c ;;
  Ok ([rand; r1; r2; r3; r4; r5; r6; r7; h; inv], fe_to_bytes c))).

(** scalar.rs 15-51.  [bytes], [x], [z] stand for the arguments of lines 20, 23 and 24, [d]
    and [k] for those of lines 30 and 31. *)
Definition scalar_example (ck : bool) (bytes : list Z) (x z : Z) (d : sc) (k : Z)
    : res (list sc * list Z) :=
  a <- sc_from_bytes bytes ;;
  let b := sc_from_u128 x in
  let c := sc_from_u64 z in
  t <- sc_two_pow_k ck k ;;
  assert_that (sc_eqb d t) (
  r1 <- sc_add ck a b ;;
  r2 <- sc_sub ck a b ;;
  r3 <- sc_mul ck c d ;;
  r4 <- sc_square ck a ;;
  r5 <- sc_neg ck a ;;
  h <- (if sc_is_even a then half_c <- sc_half ck c ;; assert_that (sc_eqb half_c b) (Ok half_c) else Ok c) ;;
  Ok ([r1; r2; r3; r4; r5; h], sc_to_bytes d)).

(** edwards.rs 9-71.  [y] and [s] stand for the arguments of line 37, [n] for the scalar of
    line 53 (`Scalar::from(8u8)`).  The seven points are [ex_point], [rngp], [p1], [p2],
    [p3], [p4] and the decompressed one; then come [cp_point] and [cpedw]. *)
Definition edwards_example (ck : bool) (y : fe) (s : bool) (n : Z) : res (list ept * list Z * list Z) :=
  o <- ept_new_from_y_coord ck y s ;;
  ex_point <- unwrap_option o ;;
  rngp <- ept_of_ppt ck ppt_identity ;;
  p1 <- ept_add ck ex_point rngp ;;
  p2 <- ept_sub ck ex_point rngp ;;
  p3 <- ept_double ck ex_point ;;
  p4 <- double_and_add (ept_add ck) (ept_double ck) ept_identity ex_point (sc_from_u8 n) ;;
  cof <- mul_by_cofactor (ept_mul ck) ex_point ;;
  e <- ept_eqb ck p4 cof ;;
  assert_that e (
  cp <- ept_compress ck rngp ;;
  o' <- cey_decompress ck cp ;;
  decompr <- unwrap_option o' ;;
  cpedw <- cey_from_slice cp ;;
  Ok ([ex_point; rngp; p1; p2; p3; p4; decompr], cp, cpedw)).

(** The literals of field.rs 19-34. *)
Definition field_example_doc (ck : bool) (draw : list Z) : res (list fe * list Z) :=
  field_example ck (repeat 0 32) 126296 126297 (FE 0 1 0 0 0) 52 true draw.
(** The literals of scalar.rs 20-31. *)
Definition scalar_example_doc (ck : bool) : res (list sc * list Z) :=
  scalar_example ck (repeat 0 32) 43325 86650 (SC 0 1 0 0 0) 52.
(** The literals of edwards.rs 34-53. *)
Definition edwards_example_doc (ck : bool) : res (list ept * list Z * list Z) :=
  edwards_example ck (FE 2369245568431362 2665603790611352 3317390952748653 1908583331312524 8011773354506) false 8.

(** The modulus of the scalars as printed in scalar.rs 2. *)
Definition printed_scalar_modulus : Z := 2 ^ 249 - 15145038707218910765482344729778085401.
(** The modulus of the field as printed in field.rs 2. *)
Definition printed_field_modulus : Z := 2 ^ 252 + 27742317777372353535851937790883648493.
