(** * Specification for coordinates that are not reduced *)

From Coq Require Import ZArith.
From Verif Require Import Machine FieldModel EdwardsModel Spec.
Open Scope Z_scope.

(** Two elements that can be loaded from 32 bytes and have the same residue modulo p. *)
Definition alike (a b : fe) : Prop := floadable a /\ floadable b /\ fval a mod p = fval b mod p.

(** Points whose coordinates have the same residues. *)
Definition alike_ext (P Q : ept) : Prop :=
  alike (eX P) (eX Q) /\ alike (eY P) (eY Q) /\ alike (eZ P) (eZ Q) /\ alike (eT P) (eT Q).
Definition alike_proj (P Q : ppt) : Prop :=
  alike (pX P) (pX Q) /\ alike (pY P) (pY Q) /\ alike (pZ P) (pZ Q).
Definition alike_aff (P Q : apt) : Prop := alike (aX P) (aX Q) /\ alike (aY P) (aY Q).
