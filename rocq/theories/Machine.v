(** * Machine arithmetic and the result monad

    Conventions shared by the whole model.  A computation of the Rust code
    returns [Ok v] when it returns [v], [Panic] when it panics, and [NoFuel]
    when a loop of the model ran out of the step budget given to it.

    [ck = true]  : integer overflow checks on (dev/test profile): overflow panics.
    [ck = false] : release profile, /repo/Cargo.toml `[profile.release]
                   overflow-checks = false`: overflow wraps.                 *)

From Coq Require Import ZArith List Bool.
Import ListNotations.
Open Scope Z_scope.

(** The outcome of a Rust call; panics are raised by `assert!`, `unwrap`, indexing and
    overflow, e.g. backend/u64/field.rs 285, 164, 48, 200 (no code of its own). *)
Inductive res (A : Type) : Type :=
| Ok (a : A)
| Panic
| NoFuel.
Arguments Ok {A} a.
Arguments Panic {A}.
Arguments NoFuel {A}.

(** Sequencing `let x = e; f` (no code of its own): a panic ends the computation. *)
Definition bind {A B : Type} (x : res A) (f : A -> res B) : res B :=
  match x with
  | Ok a => f a
  | Panic => Panic
  | NoFuel => NoFuel
  end.

Notation "x <- e ;; f" := (bind e (fun x => f))
  (at level 61, e at next level, right associativity).
Notation "' p <- e ;; f" := (bind e (fun p => f))
  (at level 61, p pattern, e at next level, right associativity).

(** u8 (backend/u64/field.rs 563, 591): wraps modulo 2^8. *)
Definition W8 : Z := 256.
(** u64 (field.rs 32): wraps modulo 2^64. *)
Definition W64 : Z := 18446744073709551616.
(** u128 (field.rs 506): wraps modulo 2^128. *)
Definition W128 : Z := 340282366920938463463374607431768211456.

(** `a + b` on an unsigned type with modulus [M] (Rust operator semantics, depends on the
    build profile), e.g. backend/u64/field.rs 200. *)
Definition uadd (ck : bool) (M a b : Z) : res Z :=
  if a + b <? M then Ok (a + b) else if ck then Panic else Ok ((a + b) mod M).
(** `a - b`, e.g. field.rs 651. *)
Definition usub (ck : bool) (M a b : Z) : res Z :=
  if b <=? a then Ok (a - b) else if ck then Panic else Ok ((a - b) mod M).
(** `a * b`, e.g. field.rs 507, 764. *)
Definition umul (ck : bool) (M a b : Z) : res Z :=
  if a * b <? M then Ok (a * b) else if ck then Panic else Ok ((a * b) mod M).

(** `x as u8` / `x as u64` from a wider or signed type: the low bits of the
    two's complement form ([M] is a power of two), e.g. field.rs 594, 783. *)
Definition cast (M x : Z) : Z := Z.land x (M - 1).

(** `a.wrapping_sub(b)`, e.g. field.rs 225. *)
Definition wsub (M a b : Z) : Z := cast M (a - b).
(** `a.wrapping_mul(b)`, e.g. field.rs 783. *)
Definition wmul (M a b : Z) : Z := cast M (a * b).
(** `x as i8` from u8 (or truncation of any integer to i8), backend/u64/scalar.rs 378, 435. *)
Definition as_i8 (x : Z) : Z := (x + 128) mod 256 - 128.

(** `x >> k` with a constant, in-range shift amount, e.g. field.rs 200. *)
Definition shr (x k : Z) : Z := Z.shiftr x k.
(** `x << k` with a constant, in-range shift amount: drops the bits shifted out, e.g.
    field.rs 566-572. *)
Definition shl (M x k : Z) : Z := cast M (Z.shiftl x k).

(** `x << k` with a run-time shift amount on a type of [n] bits (modulus [M]):
    an out-of-range amount panics with overflow checks and is taken modulo [n]
    without them; field.rs 648-660. *)
Definition ushl (ck : bool) (n M x k : Z) : res Z :=
  if k <? n then Ok (shl M x k) else if ck then Panic else Ok (shl M x (k mod n)).
(** The same on i8. *)
Definition i8shl (ck : bool) (x k : Z) : res Z :=
  if k <? 8 then Ok (as_i8 (Z.shiftl x k))
  else if ck then Panic else Ok (as_i8 (Z.shiftl x (k mod 8))).
(** `a - b` on i8, backend/u64/scalar.rs 378, 440. *)
Definition i8sub (ck : bool) (a b : Z) : res Z :=
  if (-128 <=? a - b) && (a - b <=? 127) then Ok (a - b)
  else if ck then Panic else Ok (as_i8 (a - b)).
(** `a.abs()` on i8, edwards.rs 167, scalar.rs 79. *)
Definition i8abs (ck : bool) (a : Z) : res Z :=
  if a =? -128 then (if ck then Panic else Ok (-128)) else Ok (Z.abs a).

(** `assert!(b)`, e.g. field.rs 285. *)
Definition rassert (b : bool) : res unit := if b then Ok tt else Panic.

(** `opt.unwrap()`, e.g. field.rs 490. *)
Definition unwrap {A} (o : option A) : res A :=
  match o with Some a => Ok a | None => Panic end.

(** Equality of byte arrays (subtle: `[u8]::ct_eq`, false on different lengths). *)
Fixpoint bytes_eqb (a b : list Z) : bool :=
  match a, b with
  | [], [] => true
  | x :: a', y :: b' => (x =? y) && bytes_eqb a' b'
  | _, _ => false
  end.

(** Byte [i] of an array, e.g. field.rs 565; arrays are indexed in range by construction. *)
Definition byte (b : list Z) (i : nat) : Z := nth i b 0.

(** `arr[i] = v` on a fixed-size array, e.g. /repo/src/field.rs 138: out of range panics. *)
Fixpoint set_nth {A} (i : nat) (v : A) (l : list A) : res (list A) :=
  match l, i with
  | [], _ => Panic
  | _ :: l', O => Ok (v :: l')
  | x :: l', S i' => r <- set_nth i' v l' ;; Ok (x :: r)
  end.

(** `tmp.copy_from_slice(bytes)` into a [u8; n]: panics unless lengths agree. *)
Definition copy_from_slice (n : nat) (bytes : list Z) : res (list Z) :=
  if Nat.eqb (length bytes) n then Ok bytes else Panic.

(** `>` from `Ord::cmp`, e.g. backend/u64/field.rs 340. *)
Definition is_gt (c : comparison) : bool := match c with Gt => true | _ => false end.
(** `<` from `Ord::cmp`, e.g. field.rs 419. *)
Definition is_lt (c : comparison) : bool := match c with Lt => true | _ => false end.
(** `>=` from `Ord::cmp`, e.g. field.rs 553. *)
Definition is_ge (c : comparison) : bool := match c with Lt => false | _ => true end.
(** `<=` from `Ord::cmp`, e.g. field.rs 553. *)
Definition is_le (c : comparison) : bool := match c with Gt => false | _ => true end.
