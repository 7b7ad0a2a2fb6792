(** * Model of the scalar code

    /repo/src/backend/u64/scalar.rs, /repo/src/scalar.rs and the scalar
    constants of /repo/src/backend/u64/constants.rs.  Line numbers refer to those
    files.  The `for i in 0..5` limb loops are unrolled.  By-value and
    by-reference operator impls that only forward share one definition.
    [wide], [mm] and [sum2] (u128 columns, products and sums) are shared with the
    field model: scalar.rs 325-327 `m` is the same function as in field.rs.  *)

From Coq Require Import ZArith List Bool.
From Verif Require Import Machine FieldModel.
Import ListNotations.
Open Scope Z_scope.

(** scalar.rs 26-27: `pub struct Scalar(pub [u64; 5])`. *)
Record sc : Set := SC { s0 : Z; s1 : Z; s2 : Z; s3 : Z; s4 : Z }.

(** ** Constants *)

(** backend/u64/constants.rs 9 `L`. *)
Definition SC_L : sc := SC 1129677152307299 1363544697812651 714439 0 2199023255552.
(** constants.rs 18 `LFACTOR`. *)
Definition LFACTOR : Z := 1331240223835829.
(** constants.rs 21-27 `RR`. *)
Definition SC_RR : sc :=
  SC 137682194168839 3209056245311277 1480926248458276 2533620989757837 1314911199310.
(** constants.rs 48 `SCALAR_INVERSE_MOD_TWO`. *)
Definition SCALAR_INVERSE_MOD_TWO : sc :=
  SC 2816638389838898 2933572162591573 357219 0 1099511627776.

(** scalar.rs 330-333 `zero`. *)
Definition sc_zero : sc := SC 0 0 0 0 0.
(** scalar.rs 335-338 `one`. *)
Definition sc_one : sc := SC 1 0 0 0 0.
(** scalar.rs 340-343 `minus_one`. *)
Definition sc_minus_one : sc := SC 1129677152307298 1363544697812651 714439 0 2199023255552.
(** scalar.rs 157-163 `Identity::identity`. *)
Definition sc_identity : sc := sc_one.

(** ** Ordering *)

(** scalar.rs 54-65 `Ord::cmp`. *)
Definition sc_cmp (a b : sc) : comparison :=
  if s4 b <? s4 a then Gt else if s4 a <? s4 b then Lt else
  if s3 b <? s3 a then Gt else if s3 a <? s3 b then Lt else
  if s2 b <? s2 a then Gt else if s2 a <? s2 b then Lt else
  if s1 b <? s1 a then Gt else if s1 a <? s1 b then Lt else
  if s0 b <? s0 a then Gt else if s0 a <? s0 b then Lt else Eq.

(** scalar.rs 346-348 `is_even`. *)
Definition sc_is_even (a : sc) : bool := Z.land (s0 a) 1 =? 0.

(** ** Bytes *)

(** scalar.rs 477-516 `to_bytes`. *)
Definition sc_to_bytes (a : sc) : list Z :=
  [ cast W8 (shr (s0 a) 0);
    cast W8 (shr (s0 a) 8);
    cast W8 (shr (s0 a) 16);
    cast W8 (shr (s0 a) 24);
    cast W8 (shr (s0 a) 32);
    cast W8 (shr (s0 a) 40);
    cast W8 (Z.lor (shr (s0 a) 48) (shl W64 (s1 a) 4));
    cast W8 (shr (s1 a) 4);
    cast W8 (shr (s1 a) 12);
    cast W8 (shr (s1 a) 20);
    cast W8 (shr (s1 a) 28);
    cast W8 (shr (s1 a) 36);
    cast W8 (shr (s1 a) 44);
    cast W8 (shr (s2 a) 0);
    cast W8 (shr (s2 a) 8);
    cast W8 (shr (s2 a) 16);
    cast W8 (shr (s2 a) 24);
    cast W8 (shr (s2 a) 32);
    cast W8 (shr (s2 a) 40);
    cast W8 (Z.lor (shr (s2 a) 48) (shl W64 (s3 a) 4));
    cast W8 (shr (s3 a) 4);
    cast W8 (shr (s3 a) 12);
    cast W8 (shr (s3 a) 20);
    cast W8 (shr (s3 a) 28);
    cast W8 (shr (s3 a) 36);
    cast W8 (shr (s3 a) 44);
    cast W8 (shr (s4 a) 0);
    cast W8 (shr (s4 a) 8);
    cast W8 (shr (s4 a) 16);
    cast W8 (shr (s4 a) 24);
    cast W8 (shr (s4 a) 32);
    cast W8 (shr (s4 a) 40) ].

(** /repo/src/scalar.rs 77-92 `PartialEq`, `ConstantTimeEq`. *)
Definition sc_eqb (a b : sc) : bool := bytes_eqb (sc_to_bytes a) (sc_to_bytes b).

(** scalar.rs 446-451: word [i] is the `|=` of its eight shifted bytes, from 0. *)
Definition sc_word (b : list Z) (i : nat) : Z :=
  fold_left (fun acc j => Z.lor acc (shl W64 (byte b (i * 8 + j)) (Z.of_nat j * 8)))
    (seq 0 8) 0.

(** scalar.rs 445-467 `from_bytes`.  The argument type [u8; 32] is a list of 32
    bytes.  Panics through the final `assert!`. *)
Definition sc_from_bytes (b : list Z) : res sc :=
  let w0 := sc_word b 0 in
  let w1 := sc_word b 1 in
  let w2 := sc_word b 2 in
  let w3 := sc_word b 3 in
  let top_mask := 281474976710655 in
  let s := SC (Z.land w0 mask52)
     (Z.land (Z.lor (shr w0 52) (shl W64 w1 12)) mask52)
     (Z.land (Z.lor (shr w1 40) (shl W64 w2 24)) mask52)
     (Z.land (Z.lor (shr w2 28) (shl W64 w3 36)) mask52)
     (Z.land (shr w3 16) top_mask) in
  _ <- rassert (is_le (sc_cmp s sc_minus_one)) ;;
  Ok s.

(** scalar.rs 470-474 `from_bytes_wide`: `unimplemented!()`. *)
Definition sc_from_bytes_wide (b : list Z) : res sc := Panic.

(** ** Conversions from unsigned integers *)

(** scalar.rs 85-92 `From<u8>`: only limb 0 is set. *)
Definition sc_from_u8 (x : Z) : sc := SC x 0 0 0 0.
(** scalar.rs 94-101 `From<u16>`. *)
Definition sc_from_u16 (x : Z) : sc := SC x 0 0 0 0.
(** scalar.rs 103-110 `From<u32>`. *)
Definition sc_from_u32 (x : Z) : sc := SC x 0 0 0 0.
(** scalar.rs 113-122 `From<u64>`. *)
Definition sc_from_u64 (x : Z) : sc := SC (Z.land x mask52) (shr x 52) 0 0 0.
(** scalar.rs 124-137 `From<u128>`. *)
Definition sc_from_u128 (x : Z) : sc :=
  SC (cast W64 (Z.land x mask52)) (cast W64 (Z.land (shr x 52) mask52))
     (cast W64 (shr x 104)) 0 0.

(** ** Subtraction, addition, negation *)

(** scalar.rs 210-237 `Sub::sub`. *)
Definition sc_sub (ck : bool) (a b : sc) : res sc :=
  (* sub = self.0[i].wrapping_sub(b[i] + (sub >> 63)); difference[i] = sub & mask *)
  t0 <- uadd ck W64 (s0 b) (shr 0 63) ;;
  let v0 := wsub W64 (s0 a) t0 in
  t1 <- uadd ck W64 (s1 b) (shr v0 63) ;;
  let v1 := wsub W64 (s1 a) t1 in
  t2 <- uadd ck W64 (s2 b) (shr v1 63) ;;
  let v2 := wsub W64 (s2 a) t2 in
  t3 <- uadd ck W64 (s3 b) (shr v2 63) ;;
  let v3 := wsub W64 (s3 a) t3 in
  t4 <- uadd ck W64 (s4 b) (shr v3 63) ;;
  let v4 := wsub W64 (s4 a) t4 in
  let d0 := Z.land v0 mask52 in
  let d1 := Z.land v1 mask52 in
  let d2 := Z.land v2 mask52 in
  let d3 := Z.land v3 mask52 in
  let d4 := Z.land v4 mask52 in
  let underflow_mask := wsub W64 (Z.lxor (shr v4 63) 1) 1 in
  (* carry = (carry >> 52) + difference[i] + (SC_L[i] & underflow_mask) *)
  u0 <- uadd ck W64 (shr 0 52) d0 ;;
  c0 <- uadd ck W64 u0 (Z.land (s0 SC_L) underflow_mask) ;;
  u1 <- uadd ck W64 (shr c0 52) d1 ;;
  c1 <- uadd ck W64 u1 (Z.land (s1 SC_L) underflow_mask) ;;
  u2 <- uadd ck W64 (shr c1 52) d2 ;;
  c2 <- uadd ck W64 u2 (Z.land (s2 SC_L) underflow_mask) ;;
  u3 <- uadd ck W64 (shr c2 52) d3 ;;
  c3 <- uadd ck W64 u3 (Z.land (s3 SC_L) underflow_mask) ;;
  u4 <- uadd ck W64 (shr c3 52) d4 ;;
  c4 <- uadd ck W64 u4 (Z.land (s4 SC_L) underflow_mask) ;;
  Ok (SC (Z.land c0 mask52) (Z.land c1 mask52) (Z.land c2 mask52)
         (Z.land c3 mask52) (Z.land c4 mask52)).

(** scalar.rs 184-200 `Add::add`. *)
Definition sc_add (ck : bool) (a b : sc) : res sc :=
  (* carry = self.0[i] + b[i] + (carry >> 52); sum[i] = carry & mask *)
  t0 <- uadd ck W64 (s0 a) (s0 b) ;;
  c0 <- uadd ck W64 t0 (shr 0 52) ;;
  t1 <- uadd ck W64 (s1 a) (s1 b) ;;
  c1 <- uadd ck W64 t1 (shr c0 52) ;;
  t2 <- uadd ck W64 (s2 a) (s2 b) ;;
  c2 <- uadd ck W64 t2 (shr c1 52) ;;
  t3 <- uadd ck W64 (s3 a) (s3 b) ;;
  c3 <- uadd ck W64 t3 (shr c2 52) ;;
  t4 <- uadd ck W64 (s4 a) (s4 b) ;;
  c4 <- uadd ck W64 t4 (shr c3 52) ;;
  sc_sub ck (SC (Z.land c0 mask52) (Z.land c1 mask52) (Z.land c2 mask52)
                (Z.land c3 mask52) (Z.land c4 mask52)) SC_L.

(** scalar.rs 139-155 `Neg::neg`. *)
Definition sc_neg (ck : bool) (a : sc) : res sc := sc_sub ck sc_zero a.

(** scalar.rs 68-84 `From<i8>`: `_inp.abs() as u64` sign-extends in a release
    build when abs(-128) wraps to -128. *)
Definition sc_from_i8 (ck : bool) (x : Z) : res sc :=
  if 0 <=? x then Ok (SC (cast W64 x) 0 0 0 0)
  else
    a <- i8abs ck x ;;
    sc_neg ck (SC (cast W64 a) 0 0 0 0).

(** ** Multiplication *)

(** scalar.rs 580-594 `mul_internal`. *)
Definition sc_mul_internal (ck : bool) (a b : sc) : res wide :=
  r0 <- mm ck (s0 a) (s0 b) ;;
  r1 <- sum2 ck (mm ck (s0 a) (s1 b)) (mm ck (s1 a) (s0 b)) ;;
  r2 <- sum2 ck (sum2 ck (mm ck (s0 a) (s2 b)) (mm ck (s1 a) (s1 b))) (mm ck (s2 a) (s0 b)) ;;
  r3 <- sum2 ck (sum2 ck (sum2 ck (mm ck (s0 a) (s3 b)) (mm ck (s1 a) (s2 b)))
                (mm ck (s2 a) (s1 b))) (mm ck (s3 a) (s0 b)) ;;
  r4 <- sum2 ck (sum2 ck (sum2 ck (sum2 ck (mm ck (s0 a) (s4 b)) (mm ck (s1 a) (s3 b)))
                (mm ck (s2 a) (s2 b))) (mm ck (s3 a) (s1 b))) (mm ck (s4 a) (s0 b)) ;;
  r5 <- sum2 ck (sum2 ck (sum2 ck (mm ck (s1 a) (s4 b)) (mm ck (s2 a) (s3 b)))
                (mm ck (s3 a) (s2 b))) (mm ck (s4 a) (s1 b)) ;;
  r6 <- sum2 ck (sum2 ck (mm ck (s2 a) (s4 b)) (mm ck (s3 a) (s3 b))) (mm ck (s4 a) (s2 b)) ;;
  r7 <- sum2 ck (mm ck (s3 a) (s4 b)) (mm ck (s4 a) (s3 b)) ;;
  r8 <- mm ck (s4 a) (s4 b) ;;
  Ok (WD r0 r1 r2 r3 r4 r5 r6 r7 r8).

(** scalar.rs 600-614 `square_internal`. *)
Definition sc_square_internal (ck : bool) (a : sc) : res wide :=
  q0 <- umul ck W64 (s0 a) 2 ;;
  q1 <- umul ck W64 (s1 a) 2 ;;
  q2 <- umul ck W64 (s2 a) 2 ;;
  q3 <- umul ck W64 (s3 a) 2 ;;
  r0 <- mm ck (s0 a) (s0 a) ;;
  r1 <- mm ck q0 (s1 a) ;;
  r2 <- sum2 ck (mm ck q0 (s2 a)) (mm ck (s1 a) (s1 a)) ;;
  r3 <- sum2 ck (mm ck q0 (s3 a)) (mm ck q1 (s2 a)) ;;
  r4 <- sum2 ck (sum2 ck (mm ck q0 (s4 a)) (mm ck q1 (s3 a))) (mm ck (s2 a) (s2 a)) ;;
  r5 <- sum2 ck (mm ck q1 (s4 a)) (mm ck q2 (s3 a)) ;;
  r6 <- sum2 ck (mm ck q2 (s4 a)) (mm ck (s3 a) (s3 a)) ;;
  r7 <- mm ck q3 (s4 a) ;;
  r8 <- mm ck (s4 a) (s4 a) ;;
  Ok (WD r0 r1 r2 r3 r4 r5 r6 r7 r8).

(** scalar.rs 619-622 `adjustment_fact`. *)
Definition sc_adjustment_fact (ck : bool) (sum : Z) : res (Z * Z) :=
  let p := Z.land (wmul W64 (cast W64 sum) LFACTOR) mask52 in
  t <- mm ck p (s0 SC_L) ;;
  s <- uadd ck W128 sum t ;;
  Ok (shr s 52, p).

(** scalar.rs 617-652 `montgomery_reduce`; the inner `montg_red_res` (625-628) is
    the same function as in field.rs. *)
Definition sc_montgomery_reduce (ck : bool) (t : wide) : res sc :=
  let l := SC_L in
  '(carry, n0) <- sc_adjustment_fact ck (w0 t) ;;
  x <- sum2 ck (uadd ck W128 carry (w1 t)) (mm ck n0 (s1 l)) ;;
  '(carry, n1) <- sc_adjustment_fact ck x ;;
  x <- sum2 ck (sum2 ck (uadd ck W128 carry (w2 t)) (mm ck n0 (s2 l))) (mm ck n1 (s1 l)) ;;
  '(carry, n2) <- sc_adjustment_fact ck x ;;
  x <- sum2 ck (sum2 ck (sum2 ck (uadd ck W128 carry (w3 t)) (mm ck n0 (s3 l)))
               (mm ck n1 (s2 l))) (mm ck n2 (s1 l)) ;;
  '(carry, n3) <- sc_adjustment_fact ck x ;;
  x <- sum2 ck (sum2 ck (sum2 ck (sum2 ck (uadd ck W128 carry (w4 t)) (mm ck n0 (s4 l)))
               (mm ck n1 (s3 l))) (mm ck n2 (s2 l))) (mm ck n3 (s1 l)) ;;
  '(carry, n4) <- sc_adjustment_fact ck x ;;
  x <- sum2 ck (sum2 ck (sum2 ck (sum2 ck (uadd ck W128 carry (w5 t)) (mm ck n1 (s4 l)))
               (mm ck n2 (s3 l))) (mm ck n3 (s2 l))) (mm ck n4 (s1 l)) ;;
  let '(carry, r0) := montg_red_res x in
  x <- sum2 ck (sum2 ck (sum2 ck (uadd ck W128 carry (w6 t)) (mm ck n2 (s4 l)))
               (mm ck n3 (s3 l))) (mm ck n4 (s2 l)) ;;
  let '(carry, r1) := montg_red_res x in
  x <- sum2 ck (sum2 ck (uadd ck W128 carry (w7 t)) (mm ck n3 (s4 l))) (mm ck n4 (s3 l)) ;;
  let '(carry, r2) := montg_red_res x in
  x <- sum2 ck (uadd ck W128 carry (w8 t)) (mm ck n4 (s4 l)) ;;
  let '(carry, r3) := montg_red_res x in
  let r4 := cast W64 carry in
  sc_sub ck (SC r0 r1 r2 r3 r4) l.

(** scalar.rs 656-658 `montgomery_mul`. *)
Definition sc_montgomery_mul (ck : bool) (a b : sc) : res sc :=
  w <- sc_mul_internal ck a b ;; sc_montgomery_reduce ck w.

(** scalar.rs 662-664 `to_montgomery`. *)
Definition sc_to_montgomery (ck : bool) (a : sc) : res sc := sc_montgomery_mul ck a SC_RR.

(** scalar.rs 668-674 `from_montgomery`. *)
Definition sc_from_montgomery (ck : bool) (a : sc) : res sc :=
  sc_montgomery_reduce ck (WD (s0 a) (s1 a) (s2 a) (s3 a) (s4 a) 0 0 0 0).

(** scalar.rs 247-270 `Mul::mul`. *)
Definition sc_mul (ck : bool) (a b : sc) : res sc :=
  w <- sc_mul_internal ck a b ;;
  prod <- sc_montgomery_reduce ck w ;;
  w' <- sc_mul_internal ck prod SC_RR ;;
  sc_montgomery_reduce ck w'.

(** scalar.rs 272-283 `Square::square`. *)
Definition sc_square (ck : bool) (a : sc) : res sc :=
  w <- sc_square_internal ck a ;;
  aa <- sc_montgomery_reduce ck w ;;
  w' <- sc_mul_internal ck aa SC_RR ;;
  sc_montgomery_reduce ck w'.

(** scalar.rs 285-291 `Half::half`. *)
Definition sc_half (ck : bool) (a : sc) : res sc := sc_mul ck a SCALAR_INVERSE_MOD_TWO.

(** scalar.rs 562-574 `half_without_mod`. *)
Definition sc_half_without_mod (a : sc) : sc :=
  let x4 := Z.lor (s4 a) 0 in
  let c4 := shl W64 (Z.land x4 1) 52 in
  let x3 := Z.lor (s3 a) c4 in
  let c3 := shl W64 (Z.land x3 1) 52 in
  let x2 := Z.lor (s2 a) c3 in
  let c2 := shl W64 (Z.land x2 1) 52 in
  let x1 := Z.lor (s1 a) c2 in
  let c1 := shl W64 (Z.land x1 1) 52 in
  let x0 := Z.lor (s0 a) c1 in
  SC (shr x0 1) (shr x1 1) (shr x2 1) (shr x3 1) (shr x4 1).

(** scalar.rs 165-182 `Shr<u8>`: [k] rounds of the same one-bit shift. *)
Definition sc_shr (a : sc) (k : Z) : sc :=
  Nat.iter (Z.to_nat k) sc_half_without_mod a.

(** ** Exponentiation *)

(** scalar.rs 308-320 loop of `Pow::pow`; the odd branch uses the modular `half`. *)
Fixpoint sc_pow_loop (fuel : nat) (ck : bool) (base res_ expon : sc) : res sc :=
  match fuel with
  | O => NoFuel
  | S fuel' =>
    if is_gt (sc_cmp expon sc_zero) then
      if sc_is_even expon then
        let expon := sc_half_without_mod expon in
        base <- sc_square ck base ;;
        sc_pow_loop fuel' ck base res_ expon
      else
        expon <- sc_sub ck expon sc_one ;;
        res_ <- sc_mul ck res_ base ;;
        expon <- sc_half ck expon ;;
        base <- sc_square ck base ;;
        sc_pow_loop fuel' ck base res_ expon
    else Ok res_
  end.

(** scalar.rs 300-322 `Pow::pow`. *)
Definition sc_pow (ck : bool) (a exp : sc) : res sc :=
  sc_pow_loop loop_fuel ck a sc_one exp.

(** scalar.rs 525-552 `two_pow_k`. *)
Definition sc_two_pow_k (ck : bool) (exp : Z) : res sc :=
  _ <- rassert (exp <? 250) ;;
  if exp <=? 51 then
    x <- ushl ck 64 W64 1 exp ;; Ok (SC x 0 0 0 0)
  else if exp <=? 103 then
    e <- usub ck W64 exp 52 ;; x <- ushl ck 64 W64 1 e ;; Ok (SC 0 x 0 0 0)
  else if exp <=? 155 then
    e <- usub ck W64 exp 104 ;; x <- ushl ck 64 W64 1 e ;; Ok (SC 0 0 x 0 0)
  else if exp <=? 207 then
    e <- usub ck W64 exp 156 ;; x <- ushl ck 64 W64 1 e ;; Ok (SC 0 0 0 x 0)
  else
    e <- usub ck W64 exp 208 ;; x <- ushl ck 64 W64 1 e ;; Ok (SC 0 0 0 0 x).

(** ** Bits and signed-digit forms *)

(** scalar.rs 352-366 `into_bits`: eight bits of each byte, low bit first. *)
Definition sc_into_bits (a : sc) : list Z :=
  flat_map (fun b => map (fun i => if shr b i mod 2 =? 0 then 0 else 1) [0; 1; 2; 3; 4; 5; 6; 7])
    (sc_to_bytes a).

(** scalar.rs 423-425 `mod_2_pow_k` ([k] is a u8). *)
Definition sc_mod_2_pow_k (ck : bool) (a : sc) (k : Z) : res Z :=
  s <- ushl ck 64 W64 1 k ;;
  m <- usub ck W64 s 1 ;;
  Ok (cast W8 (Z.land (s0 a) m)).

(** scalar.rs 433-442 `mods_2_pow_k` ([w] is a u8). *)
Definition sc_mods_2_pow_k (ck : bool) (a : sc) (w : Z) : res Z :=
  _ <- rassert (w <? 32) ;;
  m <- sc_mod_2_pow_k ck a w ;;
  let modulus := as_i8 m in
  w1 <- usub ck W8 w 1 ;;
  two_pow_w_minus_one <- i8shl ck 1 w1 ;;
  if two_pow_w_minus_one <=? modulus then
    s <- ushl ck 8 W8 1 w ;;
    i8sub ck modulus (as_i8 s)
  else Ok modulus.

(** scalar.rs 376-387 loop of `compute_NAF`; [i] is the array index. *)
Fixpoint sc_naf_loop (fuel : nat) (ck : bool) (k : sc) (i : nat) (arr : list Z) : res (list Z) :=
  match fuel with
  | O => NoFuel
  | S fuel' =>
    if is_ge (sc_cmp k sc_one) then
      '(k, arr) <- (if negb (sc_is_even k) then
                      m <- sc_mod_2_pow_k ck k 2 ;;
                      ki <- i8sub ck 2 (as_i8 m) ;;
                      arr <- set_nth i ki arr ;;
                      d <- sc_from_i8 ck ki ;;
                      k <- sc_sub ck k d ;;
                      Ok (k, arr)
                    else
                      arr <- set_nth i 0 arr ;;
                      Ok (k, arr)) ;;
      sc_naf_loop fuel' ck (sc_half_without_mod k) (S i) arr
    else Ok arr
  end.

(** scalar.rs 370-389 `compute_NAF`. *)
Definition sc_compute_NAF (ck : bool) (a : sc) : res (list Z) :=
  sc_naf_loop loop_fuel ck a 0 (repeat 0 256).

(** scalar.rs 402-413 loop of `compute_window_NAF`. *)
Fixpoint sc_wnaf_loop (fuel : nat) (ck : bool) (w : Z) (k : sc) (i : nat) (arr : list Z)
  : res (list Z) :=
  match fuel with
  | O => NoFuel
  | S fuel' =>
    if is_ge (sc_cmp k sc_one) then
      '(k, arr) <- (if negb (sc_is_even k) then
                      ki <- sc_mods_2_pow_k ck k w ;;
                      arr <- set_nth i ki arr ;;
                      d <- sc_from_i8 ck ki ;;
                      k <- sc_sub ck k d ;;
                      Ok (k, arr)
                    else
                      arr <- set_nth i 0 arr ;;
                      Ok (k, arr)) ;;
      sc_wnaf_loop fuel' ck w (sc_half_without_mod k) (S i) arr
    else Ok arr
  end.

(** scalar.rs 396-415 `compute_window_NAF`. *)
Definition sc_compute_window_NAF (ck : bool) (a : sc) (w : Z) : res (list Z) :=
  sc_wnaf_loop loop_fuel ck w a 0 (repeat 0 256).

(** ** Randomness *)

(** /repo/src/scalar.rs 100-109 `Scalar::random`; [draw] is the 32 bytes written
    by `rand.fill_bytes`. *)
Definition sc_random (draw : list Z) : res sc :=
  bytes <- set_nth 31 (Z.land (byte draw 31) 1) draw ;;
  sc_from_bytes bytes.
