(** * Properties proved in SafeStmt.v, restated (written by tools/genprops.py) *)

From Coq Require Import ZArith Znumtheory Zpow_facts List Bool Lia.
From Verif Require Import Machine NumTheory DocPrimes SafeModel.
Import ListNotations.
Open Scope Z_scope.
From Verif Require Import SafeStmt.

(** ** C95: The safe-curve verifier *)

(** [expand2] ends for every integer and what it prints adds up to the integer, in at most
    one piece for every nine bits. *)
Theorem C95_expand : forall n, exists s, pieces_value s = n /\ (n <> 0 -> Z.of_nat (length s) <= Z.log2 (Z.abs n) / 9 + 1) /\
  forall fuel, Z.log2 (Z.abs n) + 3 <= Z.of_nat fuel -> expand2 fuel n = Ok s.
Proof. exact C95_expand_stmt. Qed.
Print Assumptions C95_expand.

(** The list of verified primes contains primes only, whatever the oracle for `is_prime`
    answers above one, each of them once and all taken from the file; two is always taken. *)
Theorem C95_primes : forall is_prime bases fuel lines,
  (forall n, is_prime n = true -> 1 < n) -> (forall n, In n lines -> n <= 2 ^ Z.of_nat fuel) ->
  exists V, verify_primes fuel is_prime bases lines [] = Ok V /\ Forall prime V /\ NoDup V /\ incl V lines.
Proof. exact C95_primes_stmt. Qed.
Print Assumptions C95_primes.

(** A prime of the file is taken when the primes below it already cover its predecessor and
    one of the bases generates its multiplicative group. *)
Theorem C95_complete : forall is_prime bases fuel before n after V,
  (forall m, is_prime m = true -> 1 < m) -> (forall m, In m (before ++ n :: after) -> m <= 2 ^ Z.of_nat fuel) ->
  verify_primes fuel is_prime bases before [] = Ok V -> prime n -> is_prime n = true ->
  n = 2 \/ ((forall q, prime q -> (q | n - 1) -> In q V) /\
            exists b, In b bases /\ b ^ (n - 1) mod n = 1 /\ forall k, 0 < k < n - 1 -> b ^ k mod n <> 1) ->
  exists W, verify_primes fuel is_prime bases (before ++ n :: after) [] = Ok W /\ In n W.
Proof. exact C95_complete_stmt. Qed.
Print Assumptions C95_complete.

(** A degree that is printed is the exact order of p modulo l, and it is printed exactly
    when l is prime, does not divide p and l - 1 factors over the verified primes. *)
Theorem C95_embedding : forall is_prime fuel p l V, Forall prime V -> (is_prime l = true <-> prime l) -> l <= 2 ^ Z.of_nat fuel ->
  exists r, embedding fuel is_prime p l V = Ok r /\
    (forall d, r = Some d -> 0 < d /\ forall k, 0 <= k -> (p ^ k mod l = 1 <-> (d | k))) /\
    (r <> None <-> prime l /\ Z.gcd l p = 1 /\ forall q, prime q -> (q | l - 1) -> In q V).
Proof. exact C95_embedding_stmt. Qed.
Print Assumptions C95_embedding.

(** The condition on the degree: no power of p below (l - 1)/100 is 1 modulo l. *)
Theorem C95_mov : forall is_prime fuel p l V d, Forall prime V -> (is_prime l = true <-> prime l) -> l <= 2 ^ Z.of_nat fuel ->
  embedding fuel is_prime p l V = Ok (Some d) ->
  (mov_safe l d = true <-> forall k, 0 < k -> 100 * k < l - 1 -> p ^ k mod l <> 1).
Proof. exact C95_mov_stmt. Qed.
Print Assumptions C95_mov.

(** The trace is the one of every multiple of l in the Hasse interval, once l is larger than
    the interval. *)
Theorem C95_trace : forall p l N, 0 < l -> (l | N) -> (p + 1 - N) * (p + 1 - N) <= 4 * p -> 16 * p < l * l -> verify_trace p l = p + 1 - N.
Proof. exact C95_trace_stmt. Qed.
Print Assumptions C95_trace.

(** The printed cofactor divides the number and leaves nothing the verified primes divide;
    it is the whole number when they cover it. *)
Theorem C95_cofactor : forall V d fuel, Forall prime V -> 0 < d < 2 ^ Z.of_nat fuel ->
  exists f r, cofactor fuel V d [] = Ok f /\ d = fold_right Z.mul 1 f * r /\ incl f V /\ (forall v, In v V -> ~ (v | r)) /\
    ((forall q, prime q -> (q | d) -> In q V) -> r = 1).
Proof. exact C95_cofactor_stmt. Qed.
Print Assumptions C95_cofactor.

(** A discriminant that is printed is the fundamental discriminant of the field of
    t^2 - 4p; it is printed exactly when the verified primes cover that number. *)
Theorem C95_discriminant : forall V p t fuel, Forall prime V -> NoDup V -> t * t < 4 * p < 2 ^ Z.of_nat fuel ->
  exists r, discriminant fuel p t V = Ok r /\
    (forall D, r = Some D -> D < 0 /\ (exists s, t * t - 4 * p = D * (s * s)) /\
       (D mod 4 = 1 /\ squarefree D \/ exists m, D = 4 * m /\ (m mod 4 = 2 \/ m mod 4 = 3) /\ squarefree m)) /\
    (r <> None <-> forall q, prime q -> (q | t * t - 4 * p) -> In q V).
Proof. exact C95_discriminant_stmt. Qed.
Print Assumptions C95_discriminant.

(** The prime found for the twist is the largest prime factor of its order p + 1 + t. *)
Theorem C95_twist : forall V p t fuel, Forall prime V -> 0 < p + 1 + t < 2 ^ Z.of_nat fuel ->
  exists r, twist_prime fuel p t V = Ok r /\
    (forall v, r = Some v -> prime v /\ (v | p + 1 + t) /\ forall q, prime q -> (q | p + 1 + t) -> q <= v) /\
    (r <> None <-> 1 < p + 1 + t /\ forall q, prime q -> (q | p + 1 + t) -> In q V).
Proof. exact C95_twist_stmt. Qed.
Print Assumptions C95_twist.
