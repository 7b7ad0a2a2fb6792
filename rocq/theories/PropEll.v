(** * Properties proved in EllStmt.v, restated (written by tools/genprops.py) *)

From Coq Require Import ZArith List Bool Lia Ring Field.
From Verif Require Import Machine FieldModel ScalarModel EdwardsModel RistrettoModel Spec NumTheory Primes MachineFacts
  FieldOps FieldBytes Fp FieldF FieldInv Curve CurveGroup EdwardsF EdwardsY Rist RistF RistE RistSpec CodeSpec ApiSpec
  RistrettoStmt CodeStmt ApiStmt FieldStmt RandSpec RandStmt EllPre.
Import ListNotations.
Open Scope F_scope.
From Verif Require Import EllStmt.

(** ** C86: How many inputs the Elligator map sends to one point *)

(** At most four field elements are mapped to the same curve point. *)
Theorem C86_point : forall A, exists l, (length l <= 4)%nat /\ forall r0, elligator_image r0 A -> In r0 l.
Proof. exact C86_point_stmt. Qed.
Print Assumptions C86_point.

(** The function of the code: at most sixteen residues lead to the same Ristretto element. *)
Theorem C86_element : forall A, on_curve A -> exists l, (length l <= 16)%nat /\
  forall ck r P B, floadable r -> rp_elligator ck r = Ok P -> ext_rep P B -> coset4 A B -> In (residue r) l.
Proof. exact C86_element_stmt. Qed.
Print Assumptions C86_element.

Theorem C86_image : forall m : list xy, Forall on_curve m ->
  (forall ck r, fcanon r -> exists P A B, rp_elligator ck r = Ok P /\ ext_rep P B /\ In A m /\ coset4 A B) ->
  (p <= 16 * Z.of_nat (length m))%Z.
Proof. exact C86_image_stmt. Qed.
Print Assumptions C86_image.

Theorem C86_sixteen : exists A l, on_curve A /\ NoDup l /\ length l = 16%nat /\
  forall r0, In r0 l -> exists B, elligator_image r0 B /\ coset4 A B.
Proof. exact C86_sixteen_stmt. Qed.
Print Assumptions C86_sixteen.

Theorem C86_uniform : forall A, on_curve A -> exists l, (Z.of_nat (length l) <= 2 ^ 264)%Z /\
  forall ck b P B, is_bytes 64 b -> rp_from_uniform_bytes ck b = Ok P -> ext_rep P B -> coset4 A B -> In b l.
Proof. exact C86_uniform_stmt. Qed.
Print Assumptions C86_uniform.

Theorem C86_random : forall A, on_curve A -> exists l, (Z.of_nat (length l) <= 2 ^ 264)%Z /\
  forall ck b P B, is_bytes 64 b -> rp_new_random_point ck b = Ok P -> ext_rep P B -> coset4 A B -> In b l.
Proof. exact C86_random_stmt. Qed.
Print Assumptions C86_random.

(** 2^264 in comparison with that share. *)
Theorem C86_share : (2 ^ 264 * L < 2 * 2 ^ 512 + 2 ^ 388)%Z.
Proof. exact C86_share_stmt. Qed.
Print Assumptions C86_share.

(** The hypotheses hold for the element of the residue 33. *)
Example C86_nonvacuous : (forall ck, exists P B, rp_elligator ck (FE 33 0 0 0 0) = Ok P /\ ext_rep P B /\
    on_curve (el_x33, el_y33) /\ coset4 (el_x33, el_y33) B) /\ floadable (FE 33 0 0 0 0) /\
  exists m, Forall on_curve m /\
    forall ck r, fcanon r -> exists P A B, rp_elligator ck r = Ok P /\ ext_rep P B /\ In A m /\ coset4 A B.
Proof. exact C86_ex. Qed.
