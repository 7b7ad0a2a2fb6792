(** * Properties proved in SearchStmt.v, restated (written by tools/genprops.py) *)

From Coq Require Import ZArith Znumtheory List Bool Lia Ring Field.
From Verif Require Import Machine MachineFacts Spec NumTheory Primes Fp FieldF FieldInv ScriptModel SageModel SearchModel SearchSpec SageStmt Curve DocModel DocPrimes DocFacts DocStmt EllStmt RandStmt.
Import ListNotations.
Open Scope Z_scope.
From Verif Require Import SearchStmt.

(** ** C106: The search for the curve coefficient *)

(** What the search ends with, for any orders the oracle may answer: the first wanted
    candidate; the exception of the singular cubic at i = p - 1 if there is none. *)
Theorem C106_search : forall O fuel, sound O ->
  (forall A, derivation fuel O = Ok A <->
     exists i, 1 <= i <= Z.of_nat fuel /\ i < p - 1 /\ A = (4 * i + 2) mod p /\ wanted O i /\ forall j, 1 <= j < i -> ~ wanted O j) /\
  (derivation fuel O = Panic <-> p - 1 <= Z.of_nat fuel /\ forall i, 1 <= i < p - 1 -> ~ wanted O i) /\
  (derivation fuel O = NoFuel <-> Z.of_nat fuel < p - 1 /\ forall i, 1 <= i <= Z.of_nat fuel -> ~ wanted O i).
Proof. exact C106_search_stmt. Qed.
Print Assumptions C106_search.

(** With the true orders the coefficient of the curve is wanted, so the search ends, no later
    than there, and without the exception.  (That no smaller coefficient is wanted is not
    shown: it would need the orders of 126295 other curves.) *)
Theorem C106_ends : forall O, right O -> wanted O 126296 /\ exists i, 1 <= i <= 126296 /\ wanted O i /\ (forall j, 1 <= j < i -> ~ wanted O j) /\
  forall fuel, 126296 <= Z.of_nat fuel -> derivation fuel O = Ok (4 * i + 2).
Proof. exact C106_ends_stmt. Qed.
Print Assumptions C106_ends.

(** Whatever the search prints, its curve has order 8r and its twist 4s with r and s prime. *)
Theorem C106_result : forall O fuel A, right O -> derivation fuel O = Ok A -> 0 <= A <= 505186 /\ A mod 4 = 2 /\
  exists r s B, prime r /\ prime s /\ counts A 1%F (8 * r) /\ ~ is_sq B /\ counts A B (4 * s).
Proof. exact C106_result_stmt. Qed.
Print Assumptions C106_result.

(** There is an oracle that answers correctly, and one for which nothing is wanted. *)
Example C106_nonvacuous : (exists O, right O) /\ exists O, sound O /\ forall i, ~ wanted O i.
Proof. exact C106_ex. Qed.
