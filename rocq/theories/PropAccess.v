(** * Properties proved in AccessStmt.v, restated (written by tools/genprops.py) *)

From Coq Require Import ZArith NArith List String Ascii Bool Lia Decimal DecimalString DecimalFacts DecimalN.
From Verif Require Import Machine FieldModel ScalarModel EdwardsModel Spec MachineFacts FieldLimb FieldBytes EdwardsStmt AccessModel AccessSpec.
Import ListNotations.
Open Scope Z_scope.
From Verif Require Import AccessStmt.

(** ** C83: Indexing reads and writes single digits *)

(** Reading: entry i is the i-th 52-bit digit of the value, and there are five. *)
Theorem C83_read : forall i,
  (forall a, flimbs a -> (i < 5)%nat -> fe_index a i = Ok (fval a / 2 ^ (52 * Z.of_nat i) mod 2 ^ 52)) /\
  (forall a, slimbs a -> (i < 5)%nat -> sc_index a i = Ok (sval a / 2 ^ (52 * Z.of_nat i) mod 2 ^ 52)) /\
  ((5 <= i)%nat -> forall a b, fe_index a i = Panic /\ sc_index b i = Panic).
Proof. exact C83_read_stmt. Qed.
Print Assumptions C83_read.

(** Writing changes one digit of the value and nothing else, for every word and whatever the limbs were. *)
Theorem C83_write_field : forall a i v,
  ((i < 5)%nat -> exists b old, fe_index a i = Ok old /\ fe_index_set a i v = Ok b /\
     fval b = fval a + (v - old) * 2 ^ (52 * Z.of_nat i) /\ fe_index b i = Ok v /\
     forall j, j <> i -> fe_index b j = fe_index a j) /\
  ((5 <= i)%nat -> fe_index_set a i v = Panic).
Proof. exact C83_write_field_stmt. Qed.
Print Assumptions C83_write_field.

Theorem C83_write_scalar : forall a i v,
  ((i < 5)%nat -> exists b old, sc_index a i = Ok old /\ sc_index_set a i v = Ok b /\
     sval b = sval a + (v - old) * 2 ^ (52 * Z.of_nat i) /\ sc_index b i = Ok v /\
     forall j, j <> i -> sc_index b j = sc_index a j) /\
  ((5 <= i)%nat -> sc_index_set a i v = Panic).
Proof. exact C83_write_scalar_stmt. Qed.
Print Assumptions C83_write_scalar.

Theorem C83_bytes : forall b i, is_bytes 32 b ->
  ((i < 32)%nat -> bytes_index b i = Ok (le_value b / 256 ^ Z.of_nat i mod 256)) /\
  ((32 <= i)%nat -> bytes_index b i = Panic).
Proof. exact C83_bytes_stmt. Qed.
Print Assumptions C83_bytes.

Theorem C83_write_bytes : forall b i v, is_bytes 32 b -> 0 <= v < 256 ->
  ((i < 32)%nat -> exists r, cey_index_set b i v = Ok r /\ is_bytes 32 r /\ bytes_index r i = Ok v /\
     forall j, j <> i -> bytes_index r j = bytes_index b j) /\
  ((32 <= i)%nat -> cey_index_set b i v = Panic).
Proof. exact C83_write_bytes_stmt. Qed.
Print Assumptions C83_write_bytes.

(** Assigning through an index can leave the reduced range and the 52-bit limbs. *)
Theorem C83_invariant_refuted : exists a i v b, fcanon a /\ 0 <= v < 2 ^ 64 /\ fe_index_set a i v = Ok b /\
  ~ flimbs b /\ p <= fval b.
Proof. exact C83_invariant_refuted_stmt. Qed.
Print Assumptions C83_invariant_refuted.

Example C83_nonvacuous : flimbs (FE 5 4 3 2 1) /\ slimbs (SC 5 4 3 2 1) /\ is_bytes 32 (repeat 7 32) /\
  fe_index (FE 5 4 3 2 1) 3 = Ok 2 /\ fe_index_set (FE 5 4 3 2 1) 3 9 = Ok (FE 5 4 3 9 1) /\ fe_index (FE 5 4 3 2 1) 5 = Panic.
Proof. exact C83_ex. Qed.

(** ** C84: Printed text determines the value printed *)

(** An unsigned integer is printed in decimal notation. *)
Theorem C84_decimal : forall x, 0 <= x -> decimal (int_text x) x.
Proof. exact C84_decimal_stmt. Qed.
Print Assumptions C84_decimal.

(** ... and the notation determines the integer. *)
Theorem C84_decimal_unique : forall s x y, decimal s x -> decimal s y -> x = y.
Proof. exact C84_decimal_unique_stmt. Qed.
Print Assumptions C84_decimal_unique.

(** Field elements and scalars print alike only when every limb is the same. *)
Theorem C84_field : forall a b, fwords a -> fwords b -> fe_text a = fe_text b -> a = b.
Proof. exact C84_field_stmt. Qed.
Print Assumptions C84_field.

Theorem C84_scalar : forall a b, swords a -> swords b -> sc_text a = sc_text b -> a = b.
Proof. exact C84_scalar_stmt. Qed.
Print Assumptions C84_scalar.

(** Points print alike only when every coordinate is the same. *)
Theorem C84_edwards : forall P Q, ewords P -> ewords Q -> ept_text P = ept_text Q -> P = Q.
Proof. exact C84_edwards_stmt. Qed.
Print Assumptions C84_edwards.

Theorem C84_projective : forall P Q, pwords P -> pwords Q -> ppt_text P = ppt_text Q -> P = Q.
Proof. exact C84_projective_stmt. Qed.
Print Assumptions C84_projective.

Theorem C84_affine : forall P Q, awords P -> awords Q -> apt_text P = apt_text Q -> P = Q.
Proof. exact C84_affine_stmt. Qed.
Print Assumptions C84_affine.

(** Encodings print alike only when they are equal. *)
Theorem C84_encodings : forall b c, is_bytes 32 b -> is_bytes 32 c ->
  (cey_text b = cey_text c -> b = c) /\ (cr_text b = cr_text c -> b = c) /\ (mp_text b = mp_text c -> b = c).
Proof. exact C84_encodings_stmt. Qed.
Print Assumptions C84_encodings.

(** The text also tells the type: values of different types never print alike. *)
Theorem C84_types : forall x y, shown_text x = shown_text y -> shown_type x = shown_type y.
Proof. exact C84_types_stmt. Qed.
Print Assumptions C84_types.

(** The characters around the numbers, blanks included. *)
Theorem C84_layout : forall P Q A b,
  (ept_text P = "
        EdwardsPoint {
            X: " ++ fe_text (eX P) ++ ",
            Y: " ++ fe_text (eY P) ++ ",
            Z: " ++ fe_text (eZ P) ++ ",
            T: " ++ fe_text (eT P) ++ "
        };" /\
  ppt_text Q = "
        ProjectivePoint {
            X: " ++ fe_text (pX Q) ++ ",
            Y: " ++ fe_text (pY Q) ++ ",
            Z: " ++ fe_text (pZ Q) ++ "
        };" /\
  apt_text A = "
        AffinePoint {
            X: " ++ fe_text (aX A) ++ ",
            Y: " ++ fe_text (aY A) ++ "
        };" /\
  exists t, cey_text b = "CompressedEdwardsY: " ++ t /\ cr_text b = "CompressedRistretto(" ++ t ++ ")" /\
    mp_text b = "MontgomeryPoint(" ++ t ++ ")")%string.
Proof. exact C84_layout_stmt. Qed.
Print Assumptions C84_layout.

(** Printing shows the coordinates, not the point: equal points can print differently. *)
Theorem C84_same_point_refuted : exists P Q, ept_eqb true P Q = Ok true /\ ewords P /\ ewords Q /\ ept_text P <> ept_text Q.
Proof. exact C84_same_point_refuted_stmt. Qed.
Print Assumptions C84_same_point_refuted.

Example C84_nonvacuous : fwords fe_one /\ fe_text fe_one = "FieldElement([1, 0, 0, 0, 0])"%string /\ swords sc_one /\
  sc_text (SC 10 0 0 0 7) = "Scalar: [10, 0, 0, 0, 7]"%string /\ ewords ept_identity /\ decimal "1050" 1050 /\
  int_text (2 ^ 64 - 1) = "18446744073709551615"%string.
Proof. exact C84_ex. Qed.
