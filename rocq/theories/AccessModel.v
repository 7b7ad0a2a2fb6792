(** * Model of indexing and printing

    The `Index`, `IndexMut`, `Debug` and `Display` impls of the crate.  Arrays are bounds
    checked in every build profile, so an index past the end is [Panic].  A `&mut` result is
    modelled by the value after assigning [v] through it.  Text is a Coq string; `{:?}` of a
    slice or array of integers is its decimal entries between brackets, separated by a comma
    and a space (core::fmt).  The `#` flag does not reach the inner values of the hand written
    impls; for the derived ones only the plain `{:?}` is modelled.                          *)

From Coq Require Import ZArith NArith List String Ascii Decimal DecimalString.
From Verif Require Import Machine FieldModel ScalarModel EdwardsModel.
Import ListNotations.
Open Scope Z_scope.

(** ** Indexing *)

(** backend/u64/field.rs 46-51 `Index<usize> for FieldElement`: `&(self.0[_index])`. *)
Definition fe_index (a : fe) (i : nat) : res Z :=
  unwrap (nth_error [f0 a; f1 a; f2 a; f3 a; f4 a] i).

(** backend/u64/field.rs 53-57 `IndexMut<usize> for FieldElement`, as `a[i] = v`. *)
Definition fe_index_set (a : fe) (i : nat) (v : Z) : res fe :=
  l <- set_nth i v [f0 a; f1 a; f2 a; f3 a; f4 a] ;;
  Ok (FE (nth 0 l 0) (nth 1 l 0) (nth 2 l 0) (nth 3 l 0) (nth 4 l 0)).

(** backend/u64/scalar.rs 35-40 `Index<usize> for Scalar`. *)
Definition sc_index (a : sc) (i : nat) : res Z :=
  unwrap (nth_error [s0 a; s1 a; s2 a; s3 a; s4 a] i).

(** backend/u64/scalar.rs 42-46 `IndexMut<usize> for Scalar`, as `a[i] = v`. *)
Definition sc_index_set (a : sc) (i : nat) (v : Z) : res sc :=
  l <- set_nth i v [s0 a; s1 a; s2 a; s3 a; s4 a] ;;
  Ok (SC (nth 0 l 0) (nth 1 l 0) (nth 2 l 0) (nth 3 l 0) (nth 4 l 0)).

(** edwards.rs 227-232 `Index<usize> for CompressedEdwardsY` and
    ristretto.rs 47-52 `Index<usize> for CompressedRistretto`. *)
Definition bytes_index (b : list Z) (i : nat) : res Z := unwrap (nth_error b i).

(** edwards.rs 234-238 `IndexMut<usize> for CompressedEdwardsY`, as `b[i] = v`. *)
Definition cey_index_set (b : list Z) (i : nat) (v : Z) : res (list Z) := set_nth i v b.

(** ** Printing *)

Local Open Scope string_scope.

(** core::fmt, used in backend/u64/field.rs 36: `{:?}` of an unsigned integer: its decimal digits. *)
Definition int_text (x : Z) : string := NilZero.string_of_uint (N.to_uint (Z.to_N x)).

(** core::fmt, used in backend/u64/field.rs 36: the entries of a slice separated by ", ". *)
Fixpoint entries_text (l : list Z) : string :=
  match l with
  | [] => ""
  | [x] => int_text x
  | x :: l' => int_text x ++ ", " ++ entries_text l'
  end.

(** core::fmt, used in backend/u64/field.rs 36: `{:?}` of a slice or array of unsigned integers. *)
Definition slice_text (l : list Z) : string := "[" ++ entries_text l ++ "]".

(** backend/u64/field.rs 34-38 `Debug for FieldElement` and 40-44 `Display for FieldElement`:
    `write!(f, "FieldElement({:?})", &self.0[..])`. *)
Definition fe_text (a : fe) : string :=
  "FieldElement(" ++ slice_text [f0 a; f1 a; f2 a; f3 a; f4 a] ++ ")".

(** backend/u64/scalar.rs 29-33 `Debug for Scalar`: `write!(f, "Scalar: {:?}", &self.0[..])`. *)
Definition sc_text (a : sc) : string :=
  "Scalar: " ++ slice_text [s0 a; s1 a; s2 a; s3 a; s4 a].

(** edwards.rs 240-244 `Debug for CompressedEdwardsY`. *)
Definition cey_text (b : list Z) : string := "CompressedEdwardsY: " ++ slice_text b.

(** A line break followed by [n] spaces, as inside the multi-line format strings of edwards.rs 346-356. *)
Definition newline (n : nat) : string := String "010" (concat "" (repeat " " n)).

(** edwards.rs 344-358 `Debug for EdwardsPoint`, and ristretto.rs 160-164 `Debug for
    RistrettoPoint`, which forwards to it. *)
Definition ept_text (P : ept) : string :=
  newline 8 ++ "EdwardsPoint {" ++ newline 12 ++ "X: " ++ fe_text (eX P) ++ "," ++
  newline 12 ++ "Y: " ++ fe_text (eY P) ++ "," ++ newline 12 ++ "Z: " ++ fe_text (eZ P) ++ "," ++
  newline 12 ++ "T: " ++ fe_text (eT P) ++ newline 8 ++ "};".

(** edwards.rs 686-699 `Debug for ProjectivePoint`. *)
Definition ppt_text (P : ppt) : string :=
  newline 8 ++ "ProjectivePoint {" ++ newline 12 ++ "X: " ++ fe_text (pX P) ++ "," ++
  newline 12 ++ "Y: " ++ fe_text (pY P) ++ "," ++ newline 12 ++ "Z: " ++ fe_text (pZ P) ++
  newline 8 ++ "};".

(** edwards.rs 1013-1025 `Debug for AffinePoint`. *)
Definition apt_text (P : apt) : string :=
  newline 8 ++ "AffinePoint {" ++ newline 12 ++ "X: " ++ fe_text (aX P) ++ "," ++
  newline 12 ++ "Y: " ++ fe_text (aY P) ++ newline 8 ++ "};".

(** ristretto.rs 44-45 `#[derive(Debug)] struct CompressedRistretto(pub [u8; 32])`. *)
Definition cr_text (b : list Z) : string := "CompressedRistretto(" ++ slice_text b ++ ")".

(** montgomery.rs 14-16 `#[derive(Debug)] struct MontgomeryPoint(pub [u8; 32])`. *)
Definition mp_text (b : list Z) : string := "MontgomeryPoint(" ++ slice_text b ++ ")".
