(** * The example program

    examples/basic_ops.rs (the same text is the crate documentation, lib.rs 109-152). *)

From Coq Require Import ZArith List Bool.
From Verif Require Import Machine FieldModel ScalarModel EdwardsModel.
Import ListNotations.
Open Scope Z_scope.

(** basic_ops.rs 21-38: the point `G`. *)
Definition example_G : ept := EP
  (FE 23 0 0 0 0)
  (FE 1664892896009688 132583819244870 812547420185263 637811013879057 13284180325998)
  (FE 1 0 0 0 0)
  (FE 4351986304670635 4020128726404030 674192131526433 1158854437106827 6468984742885).

(** basic_ops.rs 50-64 `rand_scalar_generation`: [b] is what the generator writes into
    `bytes[..31]`; the last byte stays 0. *)
Definition rand_scalar_generation (b : list Z) : res sc := sc_from_bytes (b ++ [0]).

(** basic_ops.rs 19-46 `main`; the two printed values are returned. *)
Definition example_main (ck : bool) (b : list Z) : res (sc * ept) :=
  scalar <- rand_scalar_generation b ;;
  P <- ept_mul ck example_G scalar ;;
  Ok (scalar, P).
