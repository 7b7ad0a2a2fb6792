(** * Model of the field code

    /repo/src/backend/u64/field.rs, /repo/src/field.rs and the field constants
    of /repo/src/backend/u64/constants.rs.  Line numbers refer to those files.
    The `for i in 0..5` limb loops are unrolled.  By-value and by-reference
    operator impls that only forward share one definition.                  *)

From Coq Require Import ZArith List Bool.
From Verif Require Import Machine.
Import ListNotations.
Open Scope Z_scope.

(** field.rs 31-32: `pub struct FieldElement(pub [u64; 5])`. *)
Record fe : Set := FE { f0 : Z; f1 : Z; f2 : Z; f3 : Z; f4 : Z }.

(** ** Constants *)

(** backend/u64/constants.rs 30-36 `FIELD_L`. *)
Definition FIELD_L : fe :=
  FE 671914833335277 3916664325105025 1367801 0 17592186044416.
(** constants.rs 12-13 `POS_RANGE`. *)
Definition POS_RANGE : fe :=
  FE 2587757230352886 4210131976237760 683900 0 8796093022208.
(** constants.rs 39-45 `RR_FIELD`. *)
Definition RR_FIELD : fe :=
  FE 2764609938444603 3768881411696287 1616719297148420 1087343033131391 10175238647962.
(** constants.rs 51 `INVERSE_MOD_TWO`. *)
Definition INVERSE_MOD_TWO : fe :=
  FE 2587757230352887 4210131976237760 683900 0 8796093022208.
(** constants.rs 54 `MINUS_ONE_HALF`. *)
Definition MINUS_ONE_HALF : fe :=
  FE 2587757230352886 4210131976237760 683900 0 8796093022208.
(** constants.rs 59 `LFACTOR_FIELD`. *)
Definition LFACTOR_FIELD : Z := 1439961107955227.
(** constants.rs 64-70 `INV_RR`. *)
Definition INV_RR : fe :=
  FE 2210115751650724 3809421927348411 2357176729341513 3420097284349172 7483527818736.
(** constants.rs 75-81 `EDWARDS_A`. *)
Definition EDWARDS_A : fe :=
  FE 671914833335276 3916664325105025 1367801 0 17592186044416.
(** constants.rs 86-92 `EDWARDS_D`. *)
Definition EDWARDS_D : fe :=
  FE 3304133203739795 2446467598308289 1534112949566882 2032729967918914 2313225441931.
(** constants.rs 96-102 `SQRT_MINUS_ONE`. *)
Definition SQRT_MINUS_ONE : fe :=
  FE 3075585030474777 2451921961843096 1194333869305507 2218299809671669 7376823328646.
(** constants.rs 105-111 `INV_SQRT_A`. *)
Definition INV_SQRT_A : fe :=
  FE 2099929430230996 1464742363261928 3309265759432790 2285299817698826 10215362715769.
(** constants.rs 114-120 `MINUS_SQRT_A`. *)
Definition MINUS_SQRT_A : fe :=
  FE 2099929430230996 1464742363261928 3309265759432790 2285299817698826 10215362715769.
(** constants.rs 123-129 `INV_SQRT_A_MINUS_D`. *)
Definition INV_SQRT_A_MINUS_D : fe :=
  FE 550050132044477 3953042081665262 2971403105229349 212915494370164 1172367057772.
(** constants.rs 132-138 `SQRT_AD_MINUS_ONE`. *)
Definition SQRT_AD_MINUS_ONE : fe :=
  FE 3601277882726560 1817821323014817 1726005090908779 2111284621343800 648674458156.

(** field.rs 513-515 `zero`. *)
Definition fe_zero : fe := FE 0 0 0 0 0.
(** field.rs 518-520 `one`. *)
Definition fe_one : fe := FE 1 0 0 0 0.
(** field.rs 523-531 `minus_one`. *)
Definition fe_minus_one : fe :=
  FE 671914833335276 3916664325105025 1367801 0 17592186044416.

(** field.rs 84-86 `Identity::identity`. *)
Definition fe_identity : fe := FE 1 0 0 0 0.
(** field.rs 91-93 `Default::default`. *)
Definition fe_default : fe := fe_zero.

(** `(1u64 << 52) - 1`, e.g. field.rs 128, 195, 221, 575. *)
Definition mask52 : Z := 4503599627370495.

(** ** Ordering *)

(** field.rs 65-76 `Ord::cmp`: from the top limb down, first difference decides. *)
Definition fe_cmp (a b : fe) : comparison :=
  if f4 b <? f4 a then Gt else if f4 a <? f4 b then Lt else
  if f3 b <? f3 a then Gt else if f3 a <? f3 b then Lt else
  if f2 b <? f2 a then Gt else if f2 a <? f2 b then Lt else
  if f1 b <? f1 a then Gt else if f1 a <? f1 b then Lt else
  if f0 b <? f0 a then Gt else if f0 a <? f0 b then Lt else Eq.

(** field.rs 534-539 `is_even`. *)
Definition fe_is_even (a : fe) : bool := Z.land (f0 a) 1 =? 0.

(** field.rs 552-557 `is_positive`. *)
Definition fe_is_positive (a : fe) : bool :=
  if is_ge (fe_cmp a fe_zero) && is_le (fe_cmp a POS_RANGE) then true else false.

(** ** Bytes *)

(** field.rs 564-573 closure `load8` applied to `&bytes[o..]`. *)
Definition load8 (b : list Z) (o : nat) : Z :=
  Z.lor (Z.lor (Z.lor (Z.lor (Z.lor (Z.lor (Z.lor
    (byte b (o + 0))
    (shl W64 (byte b (o + 1)) 8))
    (shl W64 (byte b (o + 2)) 16))
    (shl W64 (byte b (o + 3)) 24))
    (shl W64 (byte b (o + 4)) 32))
    (shl W64 (byte b (o + 5)) 40))
    (shl W64 (byte b (o + 6)) 48))
    (shl W64 (byte b (o + 7)) 56).

(** field.rs 563-587 `from_bytes`.  The argument type [u8; 32] is a list of 32 bytes. *)
Definition fe_from_bytes (b : list Z) : fe :=
  FE (Z.land (load8 b 0) mask52)
     (Z.land (shr (load8 b 6) 4) mask52)
     (Z.land (shr (load8 b 12) 8) mask52)
     (Z.land (shr (load8 b 19) 4) mask52)
     (Z.land (shr (load8 b 24) 16) mask52).

(** field.rs 591-631 `to_bytes`. *)
Definition fe_to_bytes (a : fe) : list Z :=
  [ cast W8 (shr (f0 a) 0);
    cast W8 (shr (f0 a) 8);
    cast W8 (shr (f0 a) 16);
    cast W8 (shr (f0 a) 24);
    cast W8 (shr (f0 a) 32);
    cast W8 (shr (f0 a) 40);
    cast W8 (Z.lor (shr (f0 a) 48) (shl W64 (f1 a) 4));
    cast W8 (shr (f1 a) 4);
    cast W8 (shr (f1 a) 12);
    cast W8 (shr (f1 a) 20);
    cast W8 (shr (f1 a) 28);
    cast W8 (shr (f1 a) 36);
    cast W8 (shr (f1 a) 44);
    cast W8 (shr (f2 a) 0);
    cast W8 (shr (f2 a) 8);
    cast W8 (shr (f2 a) 16);
    cast W8 (shr (f2 a) 24);
    cast W8 (shr (f2 a) 32);
    cast W8 (shr (f2 a) 40);
    cast W8 (Z.lor (shr (f2 a) 48) (shl W64 (f3 a) 4));
    cast W8 (shr (f3 a) 4);
    cast W8 (shr (f3 a) 12);
    cast W8 (shr (f3 a) 20);
    cast W8 (shr (f3 a) 28);
    cast W8 (shr (f3 a) 36);
    cast W8 (shr (f3 a) 44);
    cast W8 (shr (f4 a) 0);
    cast W8 (shr (f4 a) 8);
    cast W8 (shr (f4 a) 16);
    cast W8 (shr (f4 a) 24);
    cast W8 (shr (f4 a) 32);
    cast W8 (shr (f4 a) 40) ].

(** /repo/src/field.rs 99-106 `ConstantTimeEq`, 93-97 `PartialEq`. *)
Definition fe_eqb (a b : fe) : bool := bytes_eqb (fe_to_bytes a) (fe_to_bytes b).

(** /repo/src/field.rs 108-118 `ConditionallySelectable::conditional_select`:
    [a] for Choice(0), [b] for Choice(1). *)
Definition fe_select (a b : fe) (choice : bool) : fe :=
  FE (if choice then f0 b else f0 a)
     (if choice then f1 b else f1 a)
     (if choice then f2 b else f2 a)
     (if choice then f3 b else f3 a)
     (if choice then f4 b else f4 a).

(** ** Conversions from integers *)

(** field.rs 97-104 `From<u8>`: only limb 0 is set. *)
Definition fe_from_u8 (x : Z) : fe := FE x 0 0 0 0.
(** field.rs 106-113 `From<u16>`. *)
Definition fe_from_u16 (x : Z) : fe := FE x 0 0 0 0.
(** field.rs 115-122 `From<u32>`. *)
Definition fe_from_u32 (x : Z) : fe := FE x 0 0 0 0.
(** field.rs 124-133 `From<u64>`. *)
Definition fe_from_u64 (x : Z) : fe := FE (Z.land x mask52) (shr x 52) 0 0 0.
(** field.rs 135-149 `From<u128>`. *)
Definition fe_from_u128 (x : Z) : fe :=
  FE (cast W64 (Z.land x mask52)) (cast W64 (Z.land (shr x 52) mask52))
     (cast W64 (shr x 104)) 0 0.

(** ** Subtraction, addition, negation *)

(** field.rs 217-240 `Sub::sub`. *)
Definition fe_sub (ck : bool) (a b : fe) : res fe :=
  (* sub = self.0[i].wrapping_sub(b[i] + (sub >> 63)); difference[i] = sub & mask *)
  t0 <- uadd ck W64 (f0 b) (shr 0 63) ;;
  let s0 := wsub W64 (f0 a) t0 in
  t1 <- uadd ck W64 (f1 b) (shr s0 63) ;;
  let s1 := wsub W64 (f1 a) t1 in
  t2 <- uadd ck W64 (f2 b) (shr s1 63) ;;
  let s2 := wsub W64 (f2 a) t2 in
  t3 <- uadd ck W64 (f3 b) (shr s2 63) ;;
  let s3 := wsub W64 (f3 a) t3 in
  t4 <- uadd ck W64 (f4 b) (shr s3 63) ;;
  let s4 := wsub W64 (f4 a) t4 in
  let d0 := Z.land s0 mask52 in
  let d1 := Z.land s1 mask52 in
  let d2 := Z.land s2 mask52 in
  let d3 := Z.land s3 mask52 in
  let d4 := Z.land s4 mask52 in
  let underflow_mask := wsub W64 (Z.lxor (shr s4 63) 1) 1 in
  (* carry = (carry >> 52) + difference[i] + (FIELD_L[i] & underflow_mask) *)
  u0 <- uadd ck W64 (shr 0 52) d0 ;;
  c0 <- uadd ck W64 u0 (Z.land (f0 FIELD_L) underflow_mask) ;;
  u1 <- uadd ck W64 (shr c0 52) d1 ;;
  c1 <- uadd ck W64 u1 (Z.land (f1 FIELD_L) underflow_mask) ;;
  u2 <- uadd ck W64 (shr c1 52) d2 ;;
  c2 <- uadd ck W64 u2 (Z.land (f2 FIELD_L) underflow_mask) ;;
  u3 <- uadd ck W64 (shr c2 52) d3 ;;
  c3 <- uadd ck W64 u3 (Z.land (f3 FIELD_L) underflow_mask) ;;
  u4 <- uadd ck W64 (shr c3 52) d4 ;;
  c4 <- uadd ck W64 u4 (Z.land (f4 FIELD_L) underflow_mask) ;;
  Ok (FE (Z.land c0 mask52) (Z.land c1 mask52) (Z.land c2 mask52)
         (Z.land c3 mask52) (Z.land c4 mask52)).

(** field.rs 191-207 `Add::add`. *)
Definition fe_add (ck : bool) (a b : fe) : res fe :=
  (* carry = self.0[i] + b[i] + (carry >> 52); sum[i] = carry & mask *)
  t0 <- uadd ck W64 (f0 a) (f0 b) ;;
  c0 <- uadd ck W64 t0 (shr 0 52) ;;
  t1 <- uadd ck W64 (f1 a) (f1 b) ;;
  c1 <- uadd ck W64 t1 (shr c0 52) ;;
  t2 <- uadd ck W64 (f2 a) (f2 b) ;;
  c2 <- uadd ck W64 t2 (shr c1 52) ;;
  t3 <- uadd ck W64 (f3 a) (f3 b) ;;
  c3 <- uadd ck W64 t3 (shr c2 52) ;;
  t4 <- uadd ck W64 (f4 a) (f4 b) ;;
  c4 <- uadd ck W64 t4 (shr c3 52) ;;
  fe_sub ck (FE (Z.land c0 mask52) (Z.land c1 mask52) (Z.land c2 mask52)
                (Z.land c3 mask52) (Z.land c4 mask52)) FIELD_L.

(** field.rs 170-189 `Neg::neg`. *)
Definition fe_neg (ck : bool) (a : fe) : res fe := fe_sub ck fe_zero a.

(** subtle `conditional_negate`, called in field.rs 491, 498 (uses `Neg` and `conditional_select` above). *)
Definition fe_conditional_negate (ck : bool) (a : fe) (choice : bool) : res fe :=
  n <- fe_neg ck a ;; Ok (fe_select a n choice).

(** ** Multiplication *)

(** `[u128; 9]`, field.rs 741. *)
Record wide : Set := WD { w0 : Z; w1 : Z; w2 : Z; w3 : Z; w4 : Z; w5 : Z; w6 : Z; w7 : Z; w8 : Z }.

(** field.rs 506-508 `m`. *)
Definition mm (ck : bool) (x y : Z) : res Z := umul ck W128 x y.

(** Left-to-right sums `m(..) + m(..) + ...` in u128, field.rs 747-754. *)
Definition sum2 (ck : bool) (a b : res Z) : res Z :=
  x <- a ;; y <- b ;; uadd ck W128 x y.

(** field.rs 741-757 `mul_internal`. *)
Definition fe_mul_internal (ck : bool) (a b : fe) : res wide :=
  r0 <- mm ck (f0 a) (f0 b) ;;
  r1 <- sum2 ck (mm ck (f0 a) (f1 b)) (mm ck (f1 a) (f0 b)) ;;
  r2 <- sum2 ck (sum2 ck (mm ck (f0 a) (f2 b)) (mm ck (f1 a) (f1 b))) (mm ck (f2 a) (f0 b)) ;;
  r3 <- sum2 ck (sum2 ck (sum2 ck (mm ck (f0 a) (f3 b)) (mm ck (f1 a) (f2 b)))
                (mm ck (f2 a) (f1 b))) (mm ck (f3 a) (f0 b)) ;;
  r4 <- sum2 ck (sum2 ck (sum2 ck (sum2 ck (mm ck (f0 a) (f4 b)) (mm ck (f1 a) (f3 b)))
                (mm ck (f2 a) (f2 b))) (mm ck (f3 a) (f1 b))) (mm ck (f4 a) (f0 b)) ;;
  r5 <- sum2 ck (sum2 ck (sum2 ck (mm ck (f1 a) (f4 b)) (mm ck (f2 a) (f3 b)))
                (mm ck (f3 a) (f2 b))) (mm ck (f4 a) (f1 b)) ;;
  r6 <- sum2 ck (sum2 ck (mm ck (f2 a) (f4 b)) (mm ck (f3 a) (f3 b))) (mm ck (f4 a) (f2 b)) ;;
  r7 <- sum2 ck (mm ck (f3 a) (f4 b)) (mm ck (f4 a) (f3 b)) ;;
  r8 <- mm ck (f4 a) (f4 b) ;;
  Ok (WD r0 r1 r2 r3 r4 r5 r6 r7 r8).

(** field.rs 763-777 `square_internal`. *)
Definition fe_square_internal (ck : bool) (a : fe) : res wide :=
  q0 <- umul ck W64 (f0 a) 2 ;;
  q1 <- umul ck W64 (f1 a) 2 ;;
  q2 <- umul ck W64 (f2 a) 2 ;;
  q3 <- umul ck W64 (f3 a) 2 ;;
  r0 <- mm ck (f0 a) (f0 a) ;;
  r1 <- mm ck q0 (f1 a) ;;
  r2 <- sum2 ck (mm ck q0 (f2 a)) (mm ck (f1 a) (f1 a)) ;;
  r3 <- sum2 ck (mm ck q0 (f3 a)) (mm ck q1 (f2 a)) ;;
  r4 <- sum2 ck (sum2 ck (mm ck q0 (f4 a)) (mm ck q1 (f3 a))) (mm ck (f2 a) (f2 a)) ;;
  r5 <- sum2 ck (mm ck q1 (f4 a)) (mm ck q2 (f3 a)) ;;
  r6 <- sum2 ck (mm ck q2 (f4 a)) (mm ck (f3 a) (f3 a)) ;;
  r7 <- mm ck q3 (f4 a) ;;
  r8 <- mm ck (f4 a) (f4 a) ;;
  Ok (WD r0 r1 r2 r3 r4 r5 r6 r7 r8).

(** field.rs 782-785 `adjustment_fact`. *)
Definition fe_adjustment_fact (ck : bool) (sum : Z) : res (Z * Z) :=
  let p := Z.land (wmul W64 (cast W64 sum) LFACTOR_FIELD) mask52 in
  t <- mm ck p (f0 FIELD_L) ;;
  s <- uadd ck W128 sum t ;;
  Ok (shr s 52, p).

(** field.rs 788-791 `montg_red_res`. *)
Definition montg_red_res (sum : Z) : Z * Z :=
  (shr sum 52, Z.land (cast W64 sum) mask52).

(** field.rs 780-813 `montgomery_reduce` (products with FIELD_L[3] = 0 are
    skipped by the code). *)
Definition fe_montgomery_reduce (ck : bool) (t : wide) : res fe :=
  let l := FIELD_L in
  '(carry, n0) <- fe_adjustment_fact ck (w0 t) ;;
  x <- sum2 ck (uadd ck W128 carry (w1 t)) (mm ck n0 (f1 l)) ;;
  '(carry, n1) <- fe_adjustment_fact ck x ;;
  x <- sum2 ck (sum2 ck (uadd ck W128 carry (w2 t)) (mm ck n0 (f2 l))) (mm ck n1 (f1 l)) ;;
  '(carry, n2) <- fe_adjustment_fact ck x ;;
  x <- sum2 ck (sum2 ck (uadd ck W128 carry (w3 t)) (mm ck n1 (f2 l))) (mm ck n2 (f1 l)) ;;
  '(carry, n3) <- fe_adjustment_fact ck x ;;
  x <- sum2 ck (sum2 ck (sum2 ck (uadd ck W128 carry (w4 t)) (mm ck n0 (f4 l)))
               (mm ck n2 (f2 l))) (mm ck n3 (f1 l)) ;;
  '(carry, n4) <- fe_adjustment_fact ck x ;;
  x <- sum2 ck (sum2 ck (sum2 ck (uadd ck W128 carry (w5 t)) (mm ck n1 (f4 l)))
               (mm ck n3 (f2 l))) (mm ck n4 (f1 l)) ;;
  let '(carry, r0) := montg_red_res x in
  x <- sum2 ck (sum2 ck (uadd ck W128 carry (w6 t)) (mm ck n2 (f4 l))) (mm ck n4 (f2 l)) ;;
  let '(carry, r1) := montg_red_res x in
  x <- sum2 ck (uadd ck W128 carry (w7 t)) (mm ck n3 (f4 l)) ;;
  let '(carry, r2) := montg_red_res x in
  x <- sum2 ck (uadd ck W128 carry (w8 t)) (mm ck n4 (f4 l)) ;;
  let '(carry, r3) := montg_red_res x in
  let r4 := cast W64 carry in
  fe_sub ck (FE r0 r1 r2 r3 r4) l.

(** field.rs 818-820 `montgomery_mul`. *)
Definition fe_montgomery_mul (ck : bool) (a b : fe) : res fe :=
  w <- fe_mul_internal ck a b ;; fe_montgomery_reduce ck w.

(** field.rs 824-826 `to_montgomery`. *)
Definition fe_to_montgomery (ck : bool) (a : fe) : res fe := fe_montgomery_mul ck a RR_FIELD.

(** field.rs 830-836 `from_montgomery`. *)
Definition fe_from_montgomery (ck : bool) (a : fe) : res fe :=
  fe_montgomery_reduce ck (WD (f0 a) (f1 a) (f2 a) (f3 a) (f4 a) 0 0 0 0).

(** field.rs 250-275 `Mul::mul`. *)
Definition fe_mul (ck : bool) (a b : fe) : res fe :=
  w <- fe_mul_internal ck a b ;;
  prod <- fe_montgomery_reduce ck w ;;
  w' <- fe_mul_internal ck prod RR_FIELD ;;
  fe_montgomery_reduce ck w'.

(** field.rs 302-315 `Square::square`. *)
Definition fe_square (ck : bool) (a : fe) : res fe :=
  w <- fe_square_internal ck a ;;
  aa <- fe_montgomery_reduce ck w ;;
  w' <- fe_mul_internal ck aa RR_FIELD ;;
  fe_montgomery_reduce ck w'.

(** field.rs 317-323 `Half::half`. *)
Definition fe_half (ck : bool) (a : fe) : res fe := fe_mul ck a INVERSE_MOD_TWO.

(** field.rs 676-688 `half_without_mod`: limbs 4 down to 0, the low bit of a
    limb becomes bit 52 of the next lower one before its shift. *)
Definition fe_half_without_mod (a : fe) : fe :=
  let x4 := Z.lor (f4 a) 0 in
  let c4 := shl W64 (Z.land x4 1) 52 in
  let x3 := Z.lor (f3 a) c4 in
  let c3 := shl W64 (Z.land x3 1) 52 in
  let x2 := Z.lor (f2 a) c3 in
  let c2 := shl W64 (Z.land x2 1) 52 in
  let x1 := Z.lor (f1 a) c2 in
  let c1 := shl W64 (Z.land x1 1) 52 in
  let x0 := Z.lor (f0 a) c1 in
  FE (shr x0 1) (shr x1 1) (shr x2 1) (shr x3 1) (shr x4 1).

(** ** Exponentiation *)

(** field.rs 340-351 loop of `Pow::pow`. *)
Fixpoint fe_pow_loop (fuel : nat) (ck : bool) (base res_ expon : fe) : res fe :=
  match fuel with
  | O => NoFuel
  | S fuel' =>
    if is_gt (fe_cmp expon fe_zero) then
      if fe_is_even expon then
        let expon := fe_half_without_mod expon in
        base <- fe_mul ck base base ;;
        fe_pow_loop fuel' ck base res_ expon
      else
        expon <- fe_sub ck expon fe_one ;;
        res_ <- fe_mul ck res_ base ;;
        let expon := fe_half_without_mod expon in
        base <- fe_mul ck base base ;;
        fe_pow_loop fuel' ck base res_ expon
    else Ok res_
  end.

(** Step budget used for all data-dependent loops of the field code (field.rs 340, 400, 414,
    419, 881; no code of its own). *)
Definition loop_fuel : nat := 600.

(** field.rs 325-355 `Pow::pow`. *)
Definition fe_pow (ck : bool) (a exp : fe) : res fe :=
  fe_pow_loop loop_fuel ck a fe_one exp.

(** field.rs 703-706 `legendre_symbol`. *)
Definition fe_legendre_symbol (ck : bool) (a : fe) : res bool :=
  r <- fe_pow ck a MINUS_ONE_HALF ;;
  Ok (xorb (fe_eqb r fe_minus_one) true).

(** ** Inversion *)

(** field.rs 715-738 `inner_two_pow_k`. *)
Definition fe_inner_two_pow_k (ck : bool) (exp : Z) : res fe :=
  _ <- rassert (exp <? 260) ;;
  if exp <=? 51 then
    x <- ushl ck 64 W64 1 exp ;; Ok (FE x 0 0 0 0)
  else if exp <=? 103 then
    e <- usub ck W64 exp 52 ;; x <- ushl ck 64 W64 1 e ;; Ok (FE 0 x 0 0 0)
  else if exp <=? 155 then
    e <- usub ck W64 exp 104 ;; x <- ushl ck 64 W64 1 e ;; Ok (FE 0 0 x 0 0)
  else if exp <=? 207 then
    e <- usub ck W64 exp 156 ;; x <- ushl ck 64 W64 1 e ;; Ok (FE 0 0 0 x 0)
  else
    e <- usub ck W64 exp 208 ;; x <- ushl ck 64 W64 1 e ;; Ok (FE 0 0 0 0 x).

(** field.rs 640-666 `two_pow_k`. *)
Definition fe_two_pow_k (ck : bool) (exp : Z) : res fe :=
  _ <- rassert (exp <? 253) ;;
  if exp <=? 51 then
    x <- ushl ck 64 W64 1 exp ;; Ok (FE x 0 0 0 0)
  else if exp <=? 103 then
    e <- usub ck W64 exp 52 ;; x <- ushl ck 64 W64 1 e ;; Ok (FE 0 x 0 0 0)
  else if exp <=? 155 then
    e <- usub ck W64 exp 104 ;; x <- ushl ck 64 W64 1 e ;; Ok (FE 0 0 x 0 0)
  else if exp <=? 207 then
    e <- usub ck W64 exp 156 ;; x <- ushl ck 64 W64 1 e ;; Ok (FE 0 0 0 x 0)
  else
    e <- usub ck W64 exp 208 ;; x <- ushl ck 64 W64 1 e ;; Ok (FE 0 0 0 0 x).

(** field.rs 878 `two` inside `phase1`. *)
Definition fe_two : fe := FE 2 0 0 0 0.

(** field.rs 881-910 loop of `phase1`; returns (r, k). *)
Fixpoint fe_phase1_loop (fuel : nat) (ck : bool) (u v r s : fe) (k : Z) : res (fe * Z) :=
  match fuel with
  | O => NoFuel
  | S fuel' =>
    if is_gt (fe_cmp v fe_zero) then
      if fe_is_even u then
        let u := fe_half_without_mod u in
        s <- fe_mul ck s fe_two ;;
        k <- uadd ck W64 k 1 ;;
        fe_phase1_loop fuel' ck u v r s k
      else if fe_is_even v then
        let v := fe_half_without_mod v in
        r <- fe_mul ck r fe_two ;;
        k <- uadd ck W64 k 1 ;;
        fe_phase1_loop fuel' ck u v r s k
      else if is_gt (fe_cmp u v) then
        u <- fe_sub ck u v ;;
        let u := fe_half_without_mod u in
        r <- fe_add ck r s ;;
        s <- fe_mul ck s fe_two ;;
        k <- uadd ck W64 k 1 ;;
        fe_phase1_loop fuel' ck u v r s k
      else if is_ge (fe_cmp v u) then
        v <- fe_sub ck v u ;;
        let v := fe_half_without_mod v in
        s <- fe_add ck r s ;;
        r <- fe_mul ck r fe_two ;;
        k <- uadd ck W64 k 1 ;;
        fe_phase1_loop fuel' ck u v r s k
      else Panic
    else Ok (r, k)
  end.

(** field.rs 863-915 `phase1`. *)
Definition fe_phase1 (ck : bool) (a : fe) : res (fe * Z) :=
  _ <- rassert (negb (fe_eqb a fe_zero)) ;;
  let p := FE 671914833335277 3916664325105025 1367801 0 17592186044416 in
  '(r, k) <- fe_phase1_loop loop_fuel ck p a fe_zero fe_one 0 ;;
  r <- (if is_gt (fe_cmp r p) then fe_sub ck r p else Ok r) ;;
  d <- fe_sub ck p r ;;
  Ok (d, k).

(** field.rs 854-925 `inverse`. *)
Definition fe_inverse (ck : bool) (a : fe) : res fe :=
  '(r, z) <- fe_phase1 ck a ;;
  '(r, z) <- (if 260 <? z then
                r <- fe_montgomery_mul ck r fe_one ;;
                z <- usub ck W64 z 260 ;;
                Ok (r, z)
              else Ok (r, z)) ;;
  e <- usub ck W64 260 z ;;
  fact <- fe_inner_two_pow_k ck e ;;
  fe_montgomery_mul ck r fact.

(** field.rs 277-288 `Div` on references (asserts a nonzero divisor). *)
Definition fe_div (ck : bool) (a b : fe) : res fe :=
  _ <- rassert (negb (fe_eqb b fe_zero)) ;;
  i <- fe_inverse ck b ;;
  fe_mul ck a i.

(** field.rs 290-300 `Div` by value (no assertion of its own). *)
Definition fe_div_val (ck : bool) (a b : fe) : res fe :=
  i <- fe_inverse ck b ;;
  fe_mul ck a i.

(** ** Square roots *)

(** field.rs 400-403: `while q.is_even() { s = s + one; q = q.half_without_mod(); }`. *)
Fixpoint fe_factor_loop (fuel : nat) (ck : bool) (q s : fe) : res (fe * fe) :=
  match fuel with
  | O => NoFuel
  | S fuel' =>
    if fe_is_even q then
      s <- fe_add ck s fe_one ;;
      let q := fe_half_without_mod q in
      fe_factor_loop fuel' ck q s
    else Ok (q, s)
  end.

(** field.rs 419-425: inner search of `mod_sqrt`, returns i. *)
Fixpoint fe_order_loop (fuel : nat) (ck : bool) (t m i e : fe) : res fe :=
  match fuel with
  | O => NoFuel
  | S fuel' =>
    if is_lt (fe_cmp i m) then
      i <- fe_add ck i fe_one ;;
      te <- fe_pow ck t e ;;
      if fe_eqb te fe_one then Ok i
      else
        e <- fe_mul ck e fe_two ;;
        fe_order_loop fuel' ck t m i e
    else Ok i
  end.

(** field.rs 414-433: outer loop of `mod_sqrt`, returns x. *)
Fixpoint fe_sqrt_loop (fuel : nat) (ck : bool) (x t c m : fe) : res fe :=
  match fuel with
  | O => NoFuel
  | S fuel' =>
    if negb (fe_eqb t fe_one) then
      i <- fe_order_loop loop_fuel ck t m fe_zero (fe_from_u8 2) ;;
      mi <- fe_sub ck m i ;;
      mi1 <- fe_sub ck mi fe_one ;;
      e <- fe_pow ck fe_two mi1 ;;
      b <- fe_pow ck c e ;;
      x <- fe_mul ck x b ;;
      bb <- fe_square ck b ;;
      t <- fe_mul ck t bb ;;
      c <- fe_square ck b ;;
      fe_sqrt_loop fuel' ck x t c i
    else Ok x
  end.

(** field.rs 357-441 `ModSqrt::mod_sqrt`; [sign] is the `Choice`, [fuel] bounds the
    rounds of the outer loop. *)
Definition fe_mod_sqrt_fuel (fuel : nat) (ck : bool) (a : fe) (sign : bool) : res (option fe) :=
  if fe_eqb a fe_zero then Ok (Some fe_zero) else
  leg <- fe_legendre_symbol ck a ;;
  if negb leg then Ok None else
  let six := FE 6 0 0 0 0 in
  '(q, s) <- fe_factor_loop loop_fuel ck fe_minus_one fe_zero ;;
  c <- fe_pow ck six q ;;
  q1 <- fe_add ck q fe_one ;;
  x <- fe_pow ck a (fe_half_without_mod q1) ;;
  t <- fe_pow ck a q ;;
  x <- fe_sqrt_loop fuel ck x t c s ;;
  nx <- fe_sub ck FIELD_L x ;;
  Ok (Some (fe_select x nx sign)).

(** field.rs 357-441 `ModSqrt::mod_sqrt` with the step budget used for every other loop. *)
Definition fe_mod_sqrt (ck : bool) (a : fe) (sign : bool) : res (option fe) :=
  fe_mod_sqrt_fuel loop_fuel ck a sign.

(** field.rs 462-503 `SqrtRatioI::sqrt_ratio_i` (`self` = u). *)
Definition fe_sqrt_ratio_i (ck : bool) (u v : fe) : res (bool * fe) :=
  if fe_eqb u fe_zero then Ok (true, fe_zero)
  else if fe_eqb v fe_zero then Ok (false, fe_zero)
  else
    r <- fe_div ck u v ;;
    leg <- fe_legendre_symbol ck r ;;
    if leg then
      r <- fe_div ck u v ;;
      o <- fe_mod_sqrt ck r true ;;
      x <- unwrap o ;;
      x <- fe_conditional_negate ck x (negb (fe_is_positive x)) ;;
      Ok (true, x)
    else
      r <- fe_div ck u v ;;
      ir <- fe_mul ck SQRT_MINUS_ONE r ;;
      o <- fe_mod_sqrt ck ir true ;;
      x <- unwrap o ;;
      x <- fe_conditional_negate ck x (negb (fe_is_positive x)) ;;
      Ok (false, x).

(** field.rs 443-460 `InvSqrt::inv_sqrt`. *)
Definition fe_inv_sqrt (ck : bool) (a : fe) : res (bool * fe) :=
  fe_sqrt_ratio_i ck fe_one a.

(** ** Ristretto255 scalars and randomness *)

(** Little-endian value of a byte string; used only for the two functions of
    the external crate below (no code of its own; called in field.rs 157, 166). *)
Fixpoint le_bytes_value (b : list Z) : Z :=
  match b with
  | [] => 0
  | x :: b' => x + 256 * le_bytes_value b'
  end.

(** External, called in field.rs 166: curve25519-dalek 1.x `Scalar::from_canonical_bytes`
    (Some iff the value is below the Ristretto255 group order, which is the
    zerocaf field prime). *)
Definition dalek_order : Z :=
  7237005577332262213973186563042994240857116359379907606001950938285454250989.
(** The function itself. *)
Definition dalek_from_canonical_bytes (b : list Z) : option (list Z) :=
  if le_bytes_value b <? dalek_order then Some b else None.

(** Little-endian bytes of a value, [n] of them (no code of its own; used below). *)
Fixpoint dalek_le_bytes (n : nat) (x : Z) : list Z :=
  match n with
  | O => []
  | S n' => (x mod 256) :: dalek_le_bytes n' (x / 256)
  end.
(** External, called in /repo/src/field.rs 122: curve25519-dalek 1.x `Scalar::from_bytes_mod_order`. *)
Definition dalek_from_bytes_mod_order (b : list Z) : list Z :=
  dalek_le_bytes 32 (le_bytes_value b mod dalek_order).

(** field.rs 151-159 `From<&Ristretto255Scalar>` (a dalek scalar is its 32 bytes). *)
Definition fe_from_dalek (b : list Z) : fe := fe_from_bytes b.

(** field.rs 161-168 `Into<Ristretto255Scalar> for FieldElement`. *)
Definition fe_into_dalek (a : fe) : res (list Z) :=
  unwrap (dalek_from_canonical_bytes (fe_to_bytes a)).

(** /repo/src/field.rs 120-124 `Into<Scalar> for &FieldElement`. *)
Definition fe_ref_into_dalek (a : fe) : list Z :=
  dalek_from_bytes_mod_order (fe_to_bytes a).

(** /repo/src/field.rs 131-140 `FieldElement::random`; [draw] is the 32 bytes
    written by `rand.fill_bytes`. *)
Definition fe_random (draw : list Z) : res fe :=
  bytes <- set_nth 31 (Z.land (byte draw 31) 7) draw ;;
  Ok (fe_from_bytes bytes).
