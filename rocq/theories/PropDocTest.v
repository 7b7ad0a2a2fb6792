(** * Properties proved in DocTestStmt.v, restated (written by tools/genprops.py) *)

From Coq Require Import ZArith Znumtheory List Bool Lia Ring Field.
From Verif Require Import Machine FieldModel ScalarModel EdwardsModel DocTestModel Spec MachineFacts
  FieldLimb FieldOps FieldBytes NumTheory Primes Fp FieldF FieldInv FieldStmt ScalarOps ScalarBits ScalarStmt Curve CurveGroup EdwardsF
  PointMul EdwardsY EdwardsStmt RistSpec CodeSpec CodeStmt GroupCheck GroupOrder GroupStmt LawsStmt ProtoStmt.
Import ListNotations.
Open Scope Z_scope.
From Verif Require Import DocTestStmt.

(** ** C92: The documentation examples as programs *)

(** The field example for arbitrary literals: it runs to its end exactly if both assertions
    hold and the number whose root is taken is a square. *)
Theorem C92_field : forall ck bytes x z d k s draw,
  is_bytes 32 bytes -> le_value bytes < p -> 0 <= x < 2 ^ 128 -> 0 <= z < 2 ^ 64 -> floadable d -> 0 <= k -> is_bytes 32 draw ->
  let a := le_value bytes in
  let good := k <= 252 /\ fval d = 2 ^ k /\ square_mod_p a /\ z <> 0 /\ (fval EDWARDS_D * z + x) mod p = 0 in
  (good -> exists l c root inv, field_example ck bytes x z d k s draw = Ok (l, c) /\ Forall fcanon l /\
     map fval l = [le_value draw mod 2 ^ 251; (a + x) mod p; (a - x) mod p; (a * x) mod p; (a * a) mod p; (- a) mod p;
                   a ^ x mod p; root; if Z.even a then a / 2 else a; inv] /\
     (root * root) mod p = a /\ (z * inv) mod p = 1 /\ is_bytes 32 c /\ le_value c = z) /\
  (~ good -> field_example ck bytes x z d k s draw = Panic).
Proof. exact C92_field_stmt. Qed.
Print Assumptions C92_field.

(** The literals of the documentation satisfy the condition, whatever the generator returns. *)
Theorem C92_field_doc : forall ck draw, is_bytes 32 draw ->
  exists l c inv, field_example_doc ck draw = Ok (l, c) /\ Forall fcanon l /\
    map fval l = [le_value draw mod 2 ^ 251; 126296; p - 126296; 0; 0; 0; 0; 0; 0; inv] /\
    (126297 * inv) mod p = 1 /\ is_bytes 32 c /\ le_value c = 126297.
Proof. exact C92_field_doc_stmt. Qed.
Print Assumptions C92_field_doc.

(** The scalar example: it needs a reduced encoding, and, if that encoding is even, a number
    [z] that is twice [x] modulo the group order. *)
Theorem C92_scalar : forall ck bytes x z d k,
  is_bytes 32 bytes -> 0 <= x < 2 ^ 128 -> 0 <= z < 2 ^ 64 -> sloadable d -> 0 <= k ->
  let a := le_value bytes in
  let good := a < L /\ k < 250 /\ sval d = 2 ^ k /\ (Z.even a = true -> (x + x) mod L = z) in
  (good -> exists l c, scalar_example ck bytes x z d k = Ok (l, c) /\ Forall scanon l /\
     map sval l = [(a + x) mod L; (a - x) mod L; (z * 2 ^ k) mod L; (a * a) mod L; (- a) mod L; if Z.even a then x else z] /\
     is_bytes 32 c /\ le_value c = 2 ^ k) /\
  (~ good -> scalar_example ck bytes x z d k = Panic).
Proof. exact C92_scalar_stmt. Qed.
Print Assumptions C92_scalar.

(** The literals of the documentation. *)
Theorem C92_scalar_doc : forall ck, exists l c, scalar_example_doc ck = Ok (l, c) /\ Forall scanon l /\
  map sval l = [43325; L - 43325; 86650 * 2 ^ 52; 0; 0; 43325] /\ is_bytes 32 c /\ le_value c = 2 ^ 52.
Proof. exact C92_scalar_doc_stmt. Qed.
Print Assumptions C92_scalar_doc.

(** The point example: it runs to its end exactly if there is a point with the given
    ordinate and its [n]-fold is its 8-fold.  The decompressed point is the neutral element. *)
Theorem C92_edwards : forall ck y s n, fcanon y -> 0 <= n < 2 ^ 8 ->
  (forall A, has_y (residue y) s A -> multiple n A = multiple 8 A ->
     exists l, edwards_example ck y s n = Ok (l, 1 :: repeat 0 31, 1 :: repeat 0 31) /\
       Forall2 ext_rep l [A; origin; A; A; sum A A; multiple n A; origin]) /\
  ((forall A, has_y (residue y) s A -> multiple n A <> multiple 8 A) -> edwards_example ck y s n = Panic).
Proof. exact C92_edwards_stmt. Qed.
Print Assumptions C92_edwards.

(** The ordinate of the documentation belongs to a point with abscissa 67 or -67. *)
Theorem C92_edwards_doc : exists x, (x * x = toF 67 * toF 67)%F /\
  let A := (x, toF 3295852391766231710775359255962084372654764936733420286493628916624458118402) in
  on_curve A /\ forall ck, exists l, edwards_example_doc ck = Ok (l, 1 :: repeat 0 31, 1 :: repeat 0 31) /\
    Forall2 ext_rep l [A; origin; A; A; sum A A; multiple 8 A; origin].
Proof. exact C92_edwards_doc_stmt. Qed.
Print Assumptions C92_edwards_doc.

(** The number printed as the order of the scalars (scalar.rs 2 and 71, lib.rs 138) is not
    the order of the base point; the one printed for the field is the modulus. *)
Theorem C92_modulus_refuted : exists n, n = printed_scalar_modulus /\ 0 < n /\ multiple n base <> origin /\
  multiple (L - n) base <> origin /\ printed_field_modulus = p.
Proof. exact C92_modulus_refuted_stmt. Qed.
Print Assumptions C92_modulus_refuted.

Example C92_nonvacuous : is_bytes 32 (9 :: repeat 0 31) /\ le_value (9 :: repeat 0 31) < p /\ square_mod_p (le_value (9 :: repeat 0 31)) /\
  (fval EDWARDS_D * (2 * 126297) + 2 * 126296) mod p = 0 /\ (fval EDWARDS_D * 7 + 5) mod p <> 0 /\
  Z.even (le_value (9 :: repeat 0 31)) = false /\
  fcanon (FE 6 0 0 0 0) /\ (forall s A, ~ has_y (residue (FE 6 0 0 0 0)) s A) /\
  fcanon fe_minus_one /\ has_y (residue fe_minus_one) false order2 /\
  multiple 12 order2 = multiple 8 order2 /\ multiple 7 order2 <> multiple 8 order2.
Proof. exact C92_ex. Qed.
