(** * The field functions of /repo/src/backend/u64/field.rs with a log of their branches

    The same functions as in FieldModel.v.  In addition they return, in the order of
    execution, every decision taken by an `if`, a `while`, a `match`, an `&&` or an
    `assert!`: the line it stands on and its outcome.  This is what an observer of the
    control flow can see.

    Not logged: loops with a constant number of rounds (field.rs 200, 225, 234, 681, 832),
    overflow checks of the debug profile, and `unwrap`.  Addition, subtraction,
    negation, multiplication, squaring, halving, Montgomery multiplication, `ct_eq`, `==`,
    `to_bytes` and `conditional_select` contain no other branch (field.rs 191-270, 306-323, 590-632, 676-688,
    745-848; /repo/src/field.rs 93-118), so they appear below as they are in FieldModel.v. *)

From Coq Require Import ZArith List Bool.
From Verif Require Import Machine FieldModel.
Import ListNotations.
Open Scope Z_scope.

(** One decision: the line of the condition in backend/u64/field.rs, and which way it went
    (1 or 0 for a condition, the number of the arm from 0 for a `match`; no code of its own). *)
Record branch : Set := Br { line : Z; outcome : Z }.

(** A computation with its log (no code of its own); the log is kept when it panics. *)
Definition lres (A : Type) : Type := (list branch * res A)%type.

(** A computation without branches (no code of its own). *)
Definition quiet {A : Type} (x : res A) : lres A := ([], x).

(** Sequencing `let x = e; f` (no code of its own): the logs are put one after the other. *)
Definition lbind {A B : Type} (m : lres A) (f : A -> lres B) : lres B :=
  match m with
  | (l, Ok a) => (l ++ fst (f a), snd (f a))
  | (l, Panic) => (l, Panic)
  | (l, NoFuel) => (l, NoFuel)
  end.

Notation "x <~ e ;; f" := (lbind e (fun x => f))
  (at level 61, e at next level, right associativity).

(** A decision on the condition [b] at line [n] (no code of its own). *)
Definition ask (n : Z) (b : bool) : lres bool := ([Br n (Z.b2z b)], Ok b).
(** The choice of arm [i] of the `match` at line [n] (no code of its own). *)
Definition arm (n i : Z) : lres Z := ([Br n i], Ok i).
(** `assert!(b)` at line [n] (no code of its own). *)
Definition lassert (n : Z) (b : bool) : lres unit := ([Br n (Z.b2z b)], rassert b).

(** ** Comparison *)

(** field.rs 67-73 loop of `Ord::cmp` over the limbs, from the top one down. *)
Fixpoint cmp_limbs_log (l : list (Z * Z)) : lres comparison :=
  match l with
  | [] => quiet (Ok Eq)
  | (x, y) :: l' =>
    g <~ ask 68 (y <? x) ;;
    if g then quiet (Ok Gt) else
    s <~ ask 70 (x <? y) ;;
    if s then quiet (Ok Lt) else cmp_limbs_log l'
  end.

(** field.rs 65-76 `Ord::cmp`. *)
Definition fe_cmp_log (a b : fe) : lres comparison :=
  cmp_limbs_log [(f4 a, f4 b); (f3 a, f3 b); (f2 a, f2 b); (f1 a, f1 b); (f0 a, f0 b)].

(** field.rs 552-557 `is_positive`; the right operand of `&&` is evaluated only after a
    true left one. *)
Definition fe_is_positive_log (a : fe) : lres bool :=
  c <~ fe_cmp_log a fe_zero ;;
  g <~ ask 553 (is_ge c) ;;
  if g then
    c <~ fe_cmp_log a POS_RANGE ;;
    ask 553 (is_le c)
  else quiet (Ok false).

(** ** Exponentiation *)

(** field.rs 340-351 loop of `Pow::pow`. *)
Fixpoint fe_pow_loop_log (fuel : nat) (ck : bool) (base res_ expon : fe) : lres fe :=
  match fuel with
  | O => quiet NoFuel
  | S fuel' =>
    c <~ fe_cmp_log expon fe_zero ;;
    go <~ ask 340 (is_gt c) ;;
    if go then
      ev <~ ask 341 (fe_is_even expon) ;;
      if ev then
        let expon := fe_half_without_mod expon in
        base <~ quiet (fe_mul ck base base) ;;
        fe_pow_loop_log fuel' ck base res_ expon
      else
        expon <~ quiet (fe_sub ck expon fe_one) ;;
        res_ <~ quiet (fe_mul ck res_ base) ;;
        let expon := fe_half_without_mod expon in
        base <~ quiet (fe_mul ck base base) ;;
        fe_pow_loop_log fuel' ck base res_ expon
    else quiet (Ok res_)
  end.

(** field.rs 325-355 `Pow::pow`. *)
Definition fe_pow_log (ck : bool) (a exp : fe) : lres fe :=
  fe_pow_loop_log loop_fuel ck a fe_one exp.

(** field.rs 703-706 `legendre_symbol`. *)
Definition fe_legendre_symbol_log (ck : bool) (a : fe) : lres bool :=
  r <~ fe_pow_log ck a MINUS_ONE_HALF ;;
  quiet (Ok (xorb (fe_eqb r fe_minus_one) true)).

(** ** Inversion *)

(** field.rs 715-738 `inner_two_pow_k`: the assertion and the arm of the `match`. *)
Definition fe_inner_two_pow_k_log (ck : bool) (exp : Z) : lres fe :=
  _ <~ lassert 717 (exp <? 260) ;;
  _ <~ arm 720 (if exp <=? 51 then 0 else if exp <=? 103 then 1 else if exp <=? 155 then 2
                else if exp <=? 207 then 3 else 4) ;;
  quiet (fe_inner_two_pow_k ck exp).

(** field.rs 881-910 loop of `phase1`; the `match` of line 882 compares u with v twice
    before it chooses an arm. *)
Fixpoint fe_phase1_loop_log (fuel : nat) (ck : bool) (u v r s : fe) (k : Z) : lres (fe * Z) :=
  match fuel with
  | O => quiet NoFuel
  | S fuel' =>
    c <~ fe_cmp_log v fe_zero ;;
    go <~ ask 881 (is_gt c) ;;
    if go then
      uv <~ fe_cmp_log u v ;;
      vu <~ fe_cmp_log v u ;;
      i <~ arm 882 (if fe_is_even u then 0 else if fe_is_even v then 1
                    else if is_gt uv then 2 else if is_ge vu then 3 else 4) ;;
      if i =? 0 then
        let u := fe_half_without_mod u in
        s <~ quiet (fe_mul ck s fe_two) ;;
        k <~ quiet (uadd ck W64 k 1) ;;
        fe_phase1_loop_log fuel' ck u v r s k
      else if i =? 1 then
        let v := fe_half_without_mod v in
        r <~ quiet (fe_mul ck r fe_two) ;;
        k <~ quiet (uadd ck W64 k 1) ;;
        fe_phase1_loop_log fuel' ck u v r s k
      else if i =? 2 then
        u <~ quiet (fe_sub ck u v) ;;
        let u := fe_half_without_mod u in
        r <~ quiet (fe_add ck r s) ;;
        s <~ quiet (fe_mul ck s fe_two) ;;
        k <~ quiet (uadd ck W64 k 1) ;;
        fe_phase1_loop_log fuel' ck u v r s k
      else if i =? 3 then
        v <~ quiet (fe_sub ck v u) ;;
        let v := fe_half_without_mod v in
        s <~ quiet (fe_add ck r s) ;;
        r <~ quiet (fe_mul ck r fe_two) ;;
        k <~ quiet (uadd ck W64 k 1) ;;
        fe_phase1_loop_log fuel' ck u v r s k
      else quiet Panic
    else quiet (Ok (r, k))
  end.

(** field.rs 863-915 `phase1`. *)
Definition fe_phase1_log (ck : bool) (a : fe) : lres (fe * Z) :=
  _ <~ lassert 864 (negb (fe_eqb a fe_zero)) ;;
  let p := FE 671914833335277 3916664325105025 1367801 0 17592186044416 in
  rk <~ fe_phase1_loop_log loop_fuel ck p a fe_zero fe_one 0 ;;
  c <~ fe_cmp_log (fst rk) p ;;
  g <~ ask 911 (is_gt c) ;;
  r <~ quiet (if g then fe_sub ck (fst rk) p else Ok (fst rk)) ;;
  d <~ quiet (fe_sub ck p r) ;;
  quiet (Ok (d, snd rk)).

(** field.rs 854-925 `inverse`. *)
Definition fe_inverse_log (ck : bool) (a : fe) : lres fe :=
  rz <~ fe_phase1_log ck a ;;
  g <~ ask 918 (260 <? snd rz) ;;
  rz <~ quiet (if g then
                 r <- fe_montgomery_mul ck (fst rz) fe_one ;;
                 z <- usub ck W64 (snd rz) 260 ;;
                 Ok (r, z)
               else Ok rz) ;;
  e <~ quiet (usub ck W64 260 (snd rz)) ;;
  fact <~ fe_inner_two_pow_k_log ck e ;;
  quiet (fe_montgomery_mul ck (fst rz) fact).

(** field.rs 277-288 `Div` on references. *)
Definition fe_div_log (ck : bool) (a b : fe) : lres fe :=
  _ <~ lassert 285 (negb (fe_eqb b fe_zero)) ;;
  i <~ fe_inverse_log ck b ;;
  quiet (fe_mul ck a i).

(** field.rs 290-300 `Div` by value. *)
Definition fe_div_val_log (ck : bool) (a b : fe) : lres fe :=
  i <~ fe_inverse_log ck b ;;
  quiet (fe_mul ck a i).

(** ** Square roots *)

(** field.rs 400-403: the loop that factors p - 1. *)
Fixpoint fe_factor_loop_log (fuel : nat) (ck : bool) (q s : fe) : lres (fe * fe) :=
  match fuel with
  | O => quiet NoFuel
  | S fuel' =>
    ev <~ ask 400 (fe_is_even q) ;;
    if ev then
      s <~ quiet (fe_add ck s fe_one) ;;
      let q := fe_half_without_mod q in
      fe_factor_loop_log fuel' ck q s
    else quiet (Ok (q, s))
  end.

(** field.rs 419-425: inner search of `mod_sqrt`. *)
Fixpoint fe_order_loop_log (fuel : nat) (ck : bool) (t m i e : fe) : lres fe :=
  match fuel with
  | O => quiet NoFuel
  | S fuel' =>
    c <~ fe_cmp_log i m ;;
    go <~ ask 419 (is_lt c) ;;
    if go then
      i <~ quiet (fe_add ck i fe_one) ;;
      te <~ fe_pow_log ck t e ;;
      st <~ ask 421 (fe_eqb te fe_one) ;;
      if st then quiet (Ok i)
      else
        e <~ quiet (fe_mul ck e fe_two) ;;
        fe_order_loop_log fuel' ck t m i e
    else quiet (Ok i)
  end.

(** field.rs 414-433: outer loop of `mod_sqrt`. *)
Fixpoint fe_sqrt_loop_log (fuel : nat) (ck : bool) (x t c m : fe) : lres fe :=
  match fuel with
  | O => quiet NoFuel
  | S fuel' =>
    go <~ ask 414 (negb (fe_eqb t fe_one)) ;;
    if go then
      i <~ fe_order_loop_log loop_fuel ck t m fe_zero (fe_from_u8 2) ;;
      mi <~ quiet (fe_sub ck m i) ;;
      mi1 <~ quiet (fe_sub ck mi fe_one) ;;
      e <~ fe_pow_log ck fe_two mi1 ;;
      b <~ fe_pow_log ck c e ;;
      x <~ quiet (fe_mul ck x b) ;;
      bb <~ quiet (fe_square ck b) ;;
      t <~ quiet (fe_mul ck t bb) ;;
      c <~ quiet (fe_square ck b) ;;
      fe_sqrt_loop_log fuel' ck x t c i
    else quiet (Ok x)
  end.

(** field.rs 357-441 `ModSqrt::mod_sqrt`. *)
Definition fe_mod_sqrt_log (ck : bool) (a : fe) (sign : bool) : lres (option fe) :=
  z <~ ask 381 (fe_eqb a fe_zero) ;;
  if z then quiet (Ok (Some fe_zero)) else
  leg <~ fe_legendre_symbol_log ck a ;;
  n <~ ask 387 (negb leg) ;;
  if n then quiet (Ok None) else
  let six := FE 6 0 0 0 0 in
  qs <~ fe_factor_loop_log loop_fuel ck fe_minus_one fe_zero ;;
  c <~ fe_pow_log ck six (fst qs) ;;
  q1 <~ quiet (fe_add ck (fst qs) fe_one) ;;
  x <~ fe_pow_log ck a (fe_half_without_mod q1) ;;
  t <~ fe_pow_log ck a (fst qs) ;;
  x <~ fe_sqrt_loop_log loop_fuel ck x t c (snd qs) ;;
  nx <~ quiet (fe_sub ck FIELD_L x) ;;
  quiet (Ok (Some (fe_select x nx sign))).

(** field.rs 462-503 `SqrtRatioI::sqrt_ratio_i` (`self` = u). *)
Definition fe_sqrt_ratio_i_log (ck : bool) (u v : fe) : lres (bool * fe) :=
  i <~ arm 477 (if fe_eqb u fe_zero then 0 else if fe_eqb v fe_zero then 1 else 2) ;;
  if i =? 0 then quiet (Ok (true, fe_zero))
  else if i =? 1 then quiet (Ok (false, fe_zero))
  else
    r <~ fe_div_log ck u v ;;
    leg <~ fe_legendre_symbol_log ck r ;;
    leg <~ ask 484 leg ;;
    if leg then
      r <~ fe_div_log ck u v ;;
      o <~ fe_mod_sqrt_log ck r true ;;
      x <~ quiet (unwrap o) ;;
      pos <~ fe_is_positive_log x ;;
      x <~ quiet (fe_conditional_negate ck x (negb pos)) ;;
      quiet (Ok (true, x))
    else
      r <~ fe_div_log ck u v ;;
      ir <~ quiet (fe_mul ck SQRT_MINUS_ONE r) ;;
      o <~ fe_mod_sqrt_log ck ir true ;;
      x <~ quiet (unwrap o) ;;
      pos <~ fe_is_positive_log x ;;
      x <~ quiet (fe_conditional_negate ck x (negb pos)) ;;
      quiet (Ok (false, x)).

(** field.rs 443-460 `InvSqrt::inv_sqrt`. *)
Definition fe_inv_sqrt_log (ck : bool) (a : fe) : lres (bool * fe) :=
  fe_sqrt_ratio_i_log ck fe_one a.
