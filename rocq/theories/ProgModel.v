(** * Imperative programs over the public API

    Statements, branches, loops and random draws on top of the expressions of
    ApiModel.v, executed with the model of the code.  A Rust function body that keeps
    its values in local variables and only calls the public API is such a program.  *)

From Coq Require Import ZArith List Bool.
From Verif Require Import Machine FieldModel ScalarModel EdwardsModel TableModel RistrettoModel ApiModel.
Import ListNotations.
Open Scope Z_scope.

(** Equality of types is decidable (no code). *)
Definition ty_dec (t u : ty) : {t = u} + {t <> u}.
Proof. decide equality. Defined.

(** Assignment to a variable: `x = v`.  Variables of different types are different. *)
Definition assign {V : ty -> Type} (rho : forall t, nat -> V t) (t : ty) (i : nat) (v : V t) : forall t, nat -> V t :=
  fun u j => match ty_dec t u with
             | left E => if Nat.eqb i j then eq_rect t V v u E else rho u j
             | right _ => rho u j
             end.

(** The random number generator passed to the `random` functions: the answer to the
    k-th request, which asks for n bytes.  The request made by `gen_range` in
    `new_random_point` is not counted, as its answer does not reach the result. *)
Definition rng : Type := nat -> nat -> list Z.

(** Statements; the last five draw a random FieldElement (/repo/src/field.rs 131-140),
    Scalar (/repo/src/scalar.rs 100-109), EdwardsPoint (/repo/src/edwards.rs 658-663),
    ProjectivePoint (edwards.rs 984-997) and RistrettoPoint (/repo/src/ristretto.rs
    519-523). *)
Inductive cmd : Type :=
| Skip
| Set_ (t : ty) (i : nat) (e : expr t)
| Seq (c d : cmd)
| Cond (b : expr TB) (c d : cmd)
| While (b : expr TB) (c : cmd)
| RandF (i : nat)
| RandS (i : nat)
| RandE (i : nat)
| RandP (i : nat)
| RandR (i : nat).

(** /repo/src/edwards.rs 984-997 `ProjectivePoint::new_random_point` drawing from the
    generator: as [ppt_new_random_point] of EdwardsModel.v, with the number of requests
    made so far.  [fuel] bounds the recursion. *)
Fixpoint draw_point (ck : bool) (g : rng) (fuel k : nat) : res (ppt * nat) :=
  match fuel with
  | O => NoFuel
  | S fuel' =>
    y <- fe_random (g k 32%nat) ;;
    o <- ppt_new_from_y_coord ck y false ;;
    match o with
    | None => draw_point ck g fuel' (S k)
    | Some P => Ok (P, S k)
    end
  end.

(** Execution with at most [fuel] nested loop rounds and draws; the state is the
    variables and the number of requests made to the generator. *)
Fixpoint run (ck : bool) (g : rng) (fuel : nat) (c : cmd) (s : env * nat) : res (env * nat) :=
  match fuel with
  | O => NoFuel
  | S fuel' =>
    let (rho, k) := s in
    match c with
    | Skip => Ok s
    | Set_ t i e => v <- eval ck rho e ;; Ok (assign rho t i v, k)
    | Seq c d => s' <- run ck g fuel' c s ;; run ck g fuel' d s'
    | Cond b c d => x <- eval ck rho b ;; if x : bool then run ck g fuel' c s else run ck g fuel' d s
    | While b c => x <- eval ck rho b ;;
        if x : bool then (s' <- run ck g fuel' c s ;; run ck g fuel' (While b c) s') else Ok s
    | RandF i => v <- fe_random (g k 32%nat) ;; Ok (assign rho TF i v, S k)
    | RandS i => v <- sc_random (g k 32%nat) ;; Ok (assign rho TS i v, S k)
    | RandE i => ' (P, k') <- draw_point ck g fuel' k ;; E <- ept_of_ppt ck P ;; Ok (assign rho TE i E, k')
    | RandP i => ' (P, k') <- draw_point ck g fuel' k ;; Ok (assign rho TP i P, k')
    | RandR i => v <- rp_new_random_point ck (g k 64%nat) ;; Ok (assign rho TR i v, S k)
    end
  end.
