(** * The scalar and point functions with a log of their branches

    The functions of ScalarModel.v, EdwardsModel.v and RistrettoModel.v with the log of
    decisions of BranchModel.v.  To tell the files apart, lines of
    /repo/src/backend/u64/scalar.rs are counted from 10000, lines of /repo/src/edwards.rs
    from 20000 and lines of /repo/src/ristretto.rs from 30000: 10057 is line 57 of
    scalar.rs.  Lines of backend/u64/field.rs keep their numbers.

    Not logged: loops with a constant number of rounds, overflow checks of the debug
    profile, bounds checks, `unwrap`.  Scalar addition, subtraction, negation,
    multiplication, squaring, halving, `to_bytes` and `into_bits` and the addition,
    subtraction, negation and doubling of points contain no other branch (scalar.rs
    139-298, 346-366, 423-425, 477-516, 562-690; edwards.rs 440-592, 787-942;
    ristretto.rs 160-328), so they appear below as they are in the model. *)

From Coq Require Import ZArith List Bool.
From Verif Require Import Machine FieldModel ScalarModel EdwardsModel TableModel RistrettoModel BranchModel.
Import ListNotations.
Open Scope Z_scope.

(** ** Scalars *)

(** scalar.rs 56-62 loop of `Ord::cmp` over the limbs, from the top one down. *)
Fixpoint sc_cmp_limbs_log (l : list (Z * Z)) : lres comparison :=
  match l with
  | [] => quiet (Ok Eq)
  | (x, y) :: l' =>
    g <~ ask 10057 (y <? x) ;;
    if g then quiet (Ok Gt) else
    s <~ ask 10059 (x <? y) ;;
    if s then quiet (Ok Lt) else sc_cmp_limbs_log l'
  end.

(** scalar.rs 54-65 `Ord::cmp`. *)
Definition sc_cmp_log (a b : sc) : lres comparison :=
  sc_cmp_limbs_log [(s4 a, s4 b); (s3 a, s3 b); (s2 a, s2 b); (s1 a, s1 b); (s0 a, s0 b)].

(** scalar.rs 68-84 `From<i8>`; the arms of the `match` are true and false. *)
Definition sc_from_i8_log (ck : bool) (x : Z) : lres sc :=
  i <~ arm 10073 (if 0 <=? x then 0 else 1) ;;
  quiet (sc_from_i8 ck x).

(** scalar.rs 445-467 `from_bytes`: the final assertion. *)
Definition sc_from_bytes_log (b : list Z) : lres sc :=
  let w0 := sc_word b 0 in
  let w1 := sc_word b 1 in
  let w2 := sc_word b 2 in
  let w3 := sc_word b 3 in
  let top_mask := 281474976710655 in
  let s := SC (Z.land w0 mask52)
     (Z.land (Z.lor (shr w0 52) (shl W64 w1 12)) mask52)
     (Z.land (Z.lor (shr w1 40) (shl W64 w2 24)) mask52)
     (Z.land (Z.lor (shr w2 28) (shl W64 w3 36)) mask52)
     (Z.land (shr w3 16) top_mask) in
  c <~ sc_cmp_log s sc_minus_one ;;
  _ <~ lassert 10465 (is_le c) ;;
  quiet (Ok s).

(** scalar.rs 525-552 `two_pow_k`: the assertion and the arm of the `match`. *)
Definition sc_two_pow_k_log (ck : bool) (exp : Z) : lres sc :=
  _ <~ lassert 10531 (exp <? 250) ;;
  _ <~ arm 10534 (if exp <=? 51 then 0 else if exp <=? 103 then 1 else if exp <=? 155 then 2
                  else if exp <=? 207 then 3 else 4) ;;
  quiet (sc_two_pow_k ck exp).

(** scalar.rs 308-320 loop of `Pow::pow`. *)
Fixpoint sc_pow_loop_log (fuel : nat) (ck : bool) (base res_ expon : sc) : lres sc :=
  match fuel with
  | O => quiet NoFuel
  | S fuel' =>
    c <~ sc_cmp_log expon sc_zero ;;
    go <~ ask 10308 (is_gt c) ;;
    if go then
      ev <~ ask 10309 (sc_is_even expon) ;;
      if ev then
        let expon := sc_half_without_mod expon in
        base <~ quiet (sc_square ck base) ;;
        sc_pow_loop_log fuel' ck base res_ expon
      else
        expon <~ quiet (sc_sub ck expon sc_one) ;;
        res_ <~ quiet (sc_mul ck res_ base) ;;
        expon <~ quiet (sc_half ck expon) ;;
        base <~ quiet (sc_square ck base) ;;
        sc_pow_loop_log fuel' ck base res_ expon
    else quiet (Ok res_)
  end.

(** scalar.rs 300-322 `Pow::pow`. *)
Definition sc_pow_log (ck : bool) (a exp : sc) : lres sc :=
  sc_pow_loop_log loop_fuel ck a sc_one exp.

(** scalar.rs 433-442 `mods_2_pow_k`: the assertion and the `match`, arms false and true. *)
Definition sc_mods_2_pow_k_log (ck : bool) (a : sc) (w : Z) : lres Z :=
  _ <~ lassert 10434 (w <? 32) ;;
  m <~ quiet (sc_mod_2_pow_k ck a w) ;;
  w1 <~ quiet (usub ck W8 w 1) ;;
  t <~ quiet (i8shl ck 1 w1) ;;
  i <~ arm 10438 (if t <=? as_i8 m then 1 else 0) ;;
  if i =? 1 then quiet (s <- ushl ck 8 W8 1 w ;; i8sub ck (as_i8 m) (as_i8 s))
  else quiet (Ok (as_i8 m)).

(** scalar.rs 376-387 loop of `compute_NAF`. *)
Fixpoint sc_naf_loop_log (fuel : nat) (ck : bool) (k : sc) (i : nat) (arr : list Z) : lres (list Z) :=
  match fuel with
  | O => quiet NoFuel
  | S fuel' =>
    c <~ sc_cmp_log k sc_one ;;
    go <~ ask 10376 (is_ge c) ;;
    if go then
      odd <~ ask 10377 (negb (sc_is_even k)) ;;
      if odd then
        m <~ quiet (sc_mod_2_pow_k ck k 2) ;;
        ki <~ quiet (i8sub ck 2 (as_i8 m)) ;;
        arr <~ quiet (set_nth i ki arr) ;;
        d <~ sc_from_i8_log ck ki ;;
        k <~ quiet (sc_sub ck k d) ;;
        sc_naf_loop_log fuel' ck (sc_half_without_mod k) (S i) arr
      else
        arr <~ quiet (set_nth i 0 arr) ;;
        sc_naf_loop_log fuel' ck (sc_half_without_mod k) (S i) arr
    else quiet (Ok arr)
  end.

(** scalar.rs 370-389 `compute_NAF`. *)
Definition sc_compute_NAF_log (ck : bool) (a : sc) : lres (list Z) :=
  sc_naf_loop_log loop_fuel ck a 0 (repeat 0 256).

(** scalar.rs 402-413 loop of `compute_window_NAF`. *)
Fixpoint sc_wnaf_loop_log (fuel : nat) (ck : bool) (w : Z) (k : sc) (i : nat) (arr : list Z) : lres (list Z) :=
  match fuel with
  | O => quiet NoFuel
  | S fuel' =>
    c <~ sc_cmp_log k sc_one ;;
    go <~ ask 10402 (is_ge c) ;;
    if go then
      odd <~ ask 10403 (negb (sc_is_even k)) ;;
      if odd then
        ki <~ sc_mods_2_pow_k_log ck k w ;;
        arr <~ quiet (set_nth i ki arr) ;;
        d <~ sc_from_i8_log ck ki ;;
        k <~ quiet (sc_sub ck k d) ;;
        sc_wnaf_loop_log fuel' ck w (sc_half_without_mod k) (S i) arr
      else
        arr <~ quiet (set_nth i 0 arr) ;;
        sc_wnaf_loop_log fuel' ck w (sc_half_without_mod k) (S i) arr
    else quiet (Ok arr)
  end.

(** scalar.rs 396-415 `compute_window_NAF`. *)
Definition sc_compute_window_NAF_log (ck : bool) (a : sc) (w : Z) : lres (list Z) :=
  sc_wnaf_loop_log loop_fuel ck w a 0 (repeat 0 256).

(** ** Multiplication of points

    [add], [sub] and [double] are the operations of the point type; those of
    EdwardsPoint, ProjectivePoint and RistrettoPoint have no branches. *)

(** edwards.rs 111-118 loop of `double_and_add`. *)
Fixpoint double_and_add_loop_log {T : Type} (add : T -> T -> res T) (double : T -> res T)
  (fuel : nat) (N : T) (n : sc) (Q : T) : lres T :=
  match fuel with
  | O => quiet NoFuel
  | S fuel' =>
    go <~ ask 20111 (negb (sc_eqb n sc_zero)) ;;
    if go then
      odd <~ ask 20112 (negb (sc_is_even n)) ;;
      Q <~ quiet (if odd then add Q N else Ok Q) ;;
      N <~ quiet (double N) ;;
      double_and_add_loop_log add double fuel' N (sc_half_without_mod n) Q
    else quiet (Ok Q)
  end.

(** edwards.rs 102-120 `double_and_add`. *)
Definition double_and_add_log {T : Type} (add : T -> T -> res T) (double : T -> res T) (identity : T)
  (point : T) (scalar : sc) : lres T :=
  double_and_add_loop_log add double loop_fuel point scalar identity.

(** edwards.rs 129-132 loop of `ltr_bin_mul`. *)
Fixpoint ltr_bin_mul_loop_log {T : Type} (add : T -> T -> res T) (double : T -> res T)
  (point : T) (bits : list Z) (i : nat) (Q : T) : lres T :=
  match i with
  | O => quiet (Ok Q)
  | S i' =>
    Q <~ quiet (double Q) ;;
    b <~ quiet (unwrap (nth_error bits i')) ;;
    one <~ ask 20131 (b =? 1) ;;
    Q <~ quiet (if one then add Q point else Ok Q) ;;
    ltr_bin_mul_loop_log add double point bits i' Q
  end.

(** edwards.rs 122-134 `ltr_bin_mul`. *)
Definition ltr_bin_mul_log {T : Type} (add : T -> T -> res T) (double : T -> res T) (identity : T)
  (point : T) (scalar : sc) : lres T :=
  ltr_bin_mul_loop_log add double point (sc_into_bits scalar) 249 identity.

(** edwards.rs 144-151 loop of `binary_naf_mul`. *)
Fixpoint binary_naf_mul_loop_log {T : Type} (add sub : T -> T -> res T) (double : T -> res T)
  (point : T) (k_naf : list Z) (i : nat) (Q : T) : lres T :=
  match i with
  | O => quiet (Ok Q)
  | S i' =>
    Q <~ quiet (double Q) ;;
    k <~ quiet (unwrap (nth_error k_naf i')) ;;
    a <~ arm 20146 (if k =? 1 then 0 else if k =? -1 then 1 else 2) ;;
    Q <~ quiet (if a =? 0 then add Q point else if a =? 1 then sub Q point else Ok Q) ;;
    binary_naf_mul_loop_log add sub double point k_naf i' Q
  end.

(** edwards.rs 136-153 `binary_naf_mul`. *)
Definition binary_naf_mul_log {T : Type} (ck : bool) (add sub : T -> T -> res T) (double : T -> res T)
  (identity : T) (point : T) (scalar : sc) : lres T :=
  k_naf <~ sc_compute_NAF_log ck scalar ;;
  binary_naf_mul_loop_log add sub double point k_naf 250 identity.

(** edwards.rs 160-169 loop of `window_naf_mul`.  The table index is not a branch. *)
Fixpoint window_naf_mul_loop_log (ck : bool) (wnaf : list Z) (i : nat) (Q : ept) : lres ept :=
  match i with
  | O => quiet (Ok Q)
  | S i' =>
    Q <~ quiet (rp_double ck Q) ;;
    ki <~ quiet (unwrap (nth_error wnaf i')) ;;
    a <~ arm 20164 (if ki =? 0 then 0 else if 0 <? ki then 1 else 2) ;;
    Q <~ quiet (if a =? 0 then Ok Q
                else if a =? 1 then
                  t <- unwrap (nth_error BASEPOINT_ODD_MULTIPLES_TABLE (Z.to_nat ki)) ;;
                  rp_add ck Q t
                else
                  b <- i8abs ck ki ;;
                  _ <- rassert (0 <=? b) ;;
                  t <- unwrap (nth_error BASEPOINT_ODD_MULTIPLES_TABLE (Z.to_nat b)) ;;
                  rp_sub ck Q t) ;;
    window_naf_mul_loop_log ck wnaf i' Q
  end.

(** edwards.rs 155-171 `window_naf_mul`. *)
Definition window_naf_mul_log (ck : bool) (scalar : sc) (w : Z) : lres ept :=
  wnaf <~ sc_compute_window_NAF_log ck scalar w ;;
  window_naf_mul_loop_log ck wnaf 250 rp_identity.

(** edwards.rs 547-577 `Mul<Scalar> for EdwardsPoint`. *)
Definition ept_mul_log (ck : bool) (P : ept) (n : sc) : lres ept :=
  double_and_add_log (ept_add ck) (ept_double ck) ept_identity P n.

(** edwards.rs 881-913 `Mul<Scalar> for ProjectivePoint`. *)
Definition ppt_mul_log (ck : bool) (P : ppt) (n : sc) : lres ppt :=
  double_and_add_log (ppt_add ck) (ppt_double ck) ppt_identity P n.

(** ristretto.rs 330-392 `Mul` between Scalar and RistrettoPoint. *)
Definition rp_mul_log (ck : bool) (P : ept) (n : sc) : lres ept :=
  double_and_add_log (rp_add ck) (rp_double ck) rp_identity P n.

(** ** Conversion and comparison *)

(** edwards.rs 1071-1092 `From<EdwardsPoint> for AffinePoint`. *)
Definition apt_of_ept_log (ck : bool) (P : ept) : lres apt :=
  zinv <~ fe_inverse_log ck (eZ P) ;;
  x <~ quiet (fe_mul ck (eX P) zinv) ;;
  y <~ quiet (fe_mul ck (eY P) zinv) ;;
  quiet (Ok (AP x y)).

(** edwards.rs 1094-1110 `From<ProjectivePoint> for AffinePoint`. *)
Definition apt_of_ppt_log (ck : bool) (P : ppt) : lres apt :=
  zinv <~ fe_inverse_log ck (pZ P) ;;
  x <~ quiet (fe_mul ck (pX P) zinv) ;;
  y <~ quiet (fe_mul ck (pY P) zinv) ;;
  quiet (Ok (AP x y)).

(** edwards.rs 360-370 `ct_eq` and `==` for EdwardsPoint. *)
Definition ept_eqb_log (ck : bool) (P Q : ept) : lres bool :=
  a <~ apt_of_ept_log ck P ;;
  b <~ apt_of_ept_log ck Q ;;
  quiet (Ok (apt_eqb a b)).

(** edwards.rs 702-712 `ct_eq` and `==` for ProjectivePoint. *)
Definition ppt_eqb_log (ck : bool) (P Q : ppt) : lres bool :=
  a <~ apt_of_ppt_log ck P ;;
  b <~ apt_of_ppt_log ck Q ;;
  quiet (Ok (apt_eqb a b)).

(** ** Encoding and decoding of Edwards points *)

(** edwards.rs 200-204 `find_xx`. *)
Definition find_xx_log (ck : bool) (y : fe) : lres fe :=
  y2 <~ quiet (fe_square ck y) ;;
  a <~ quiet (fe_sub ck y2 fe_one) ;;
  y2' <~ quiet (fe_square ck y) ;;
  dy <~ quiet (fe_mul ck EDWARDS_D y2') ;;
  b <~ quiet (fe_sub ck dy EDWARDS_A) ;;
  fe_div_val_log ck a b.

(** edwards.rs 962-979 `ProjectivePoint::new_from_y_coord`; arms None and Some. *)
Definition ppt_new_from_y_coord_log (ck : bool) (y : fe) (sign : bool) : lres (option ppt) :=
  y2 <~ quiet (fe_square ck y) ;;
  n <~ quiet (fe_sub ck y2 fe_one) ;;
  y2' <~ quiet (fe_square ck y) ;;
  dy <~ quiet (fe_mul ck EDWARDS_D y2') ;;
  den <~ quiet (fe_sub ck dy EDWARDS_A) ;;
  xx <~ fe_div_val_log ck n den ;;
  o <~ fe_mod_sqrt_log ck xx sign ;;
  _ <~ arm 20968 (match o with None => 0 | Some _ => 1 end) ;;
  quiet (Ok (match o with None => None | Some x => Some (PP x y fe_one) end)).

(** edwards.rs 648-653 `EdwardsPoint::new_from_y_coord`; arms None and Some. *)
Definition ept_new_from_y_coord_log (ck : bool) (y : fe) (sign : bool) : lres (option ept) :=
  o <~ ppt_new_from_y_coord_log ck y sign ;;
  _ <~ arm 20649 (match o with None => 0 | Some _ => 1 end) ;;
  quiet (match o with None => Ok None | Some P => E <- ept_of_ppt ck P ;; Ok (Some E) end).

(** edwards.rs 313-326 `CompressedEdwardsY::decompress`. *)
Definition cey_decompress_log (ck : bool) (b : list Z) : lres (option ept) :=
  let sign := shr (byte b 31) 7 =? 1 in
  y <~ quiet (set_nth 31 (Z.land (byte b 31) 15) b) ;;
  ept_new_from_y_coord_log ck (fe_from_bytes y) sign.

(** edwards.rs 613-629 `EdwardsPoint::compress`. *)
Definition ept_compress_log (ck : bool) (P : ept) : lres (list Z) :=
  point <~ apt_of_ept_log ck P ;;
  xx <~ find_xx_log ck (aY point) ;;
  o <~ fe_mod_sqrt_log ck xx false ;;
  r <~ quiet (unwrap o) ;;
  sign <~ ask 20621 (negb (fe_eqb r (aX point))) ;;
  let compr := fe_to_bytes (aY point) in
  compr <~ quiet (set_nth 31 (Z.lor (byte compr 31) (shl W8 (if sign then 1 else 0) 7)) compr) ;;
  quiet (cey_from_slice compr).

(** ** Encoding and decoding of Ristretto points *)

(** ristretto.rs 96-154 `CompressedRistretto::decompress`; the right operand of `||` is
    evaluated only after a false left one.  The comparison of the encoding (line 106) goes
    through `ct_eq` of byte slices. *)
Definition cr_decompress_log (ck : bool) (b : list Z) : lres (option ept) :=
  let s := fe_from_bytes b in
  let s_correct_enc := bytes_eqb (fe_to_bytes s) b in
  s_is_positive <~ fe_is_positive_log s ;;
  n <~ ask 30112 (negb s_is_positive) ;;
  bad <~ (if n then quiet (Ok true) else ask 30112 (negb s_correct_enc)) ;;
  if bad then quiet (Ok None) else
  ss <~ quiet (fe_square ck s) ;;
  u1 <~ quiet (fe_sub ck fe_one ss) ;;
  ss' <~ quiet (fe_square ck s) ;;
  u2 <~ quiet (fe_add ck fe_one ss') ;;
  u2_sq <~ quiet (fe_square ck u2) ;;
  u1_sq <~ quiet (fe_square ck u1) ;;
  du1 <~ quiet (fe_mul ck EDWARDS_D u1_sq) ;;
  ndu1 <~ quiet (fe_neg ck du1) ;;
  v <~ quiet (fe_sub ck ndu1 u2_sq) ;;
  vu <~ quiet (fe_mul ck v u2_sq) ;;
  okI <~ fe_inv_sqrt_log ck vu ;;
  nok <~ ask 30128 (negb (fst okI)) ;;
  if nok then quiet (Ok None) else
  Dx <~ quiet (fe_mul ck (snd okI) u2) ;;
  IDx <~ quiet (fe_mul ck (snd okI) Dx) ;;
  Dy <~ quiet (fe_mul ck IDx v) ;;
  s2 <~ quiet (fe_add ck s s) ;;
  x <~ quiet (fe_mul ck s2 Dx) ;;
  xp <~ fe_is_positive_log x ;;
  x <~ quiet (fe_conditional_negate ck x (negb xp)) ;;
  y <~ quiet (fe_mul ck u1 Dy) ;;
  t <~ quiet (fe_mul ck x y) ;;
  tp <~ fe_is_positive_log t ;;
  n <~ ask 30144 (negb tp) ;;
  bad <~ (if n then quiet (Ok true) else ask 30144 (fe_eqb y fe_zero)) ;;
  quiet (Ok (if bad then None else Some (EP x y fe_one t))).

(** ristretto.rs 398-425 `RistrettoPoint::compress`. *)
Definition rp_compress_log (ck : bool) (P : ept) : lres (list Z) :=
  zpy <~ quiet (fe_add ck (eZ P) (eY P)) ;;
  zmy <~ quiet (fe_sub ck (eZ P) (eY P)) ;;
  u1 <~ quiet (fe_mul ck zpy zmy) ;;
  u2 <~ quiet (fe_mul ck (eX P) (eY P)) ;;
  u2_sq <~ quiet (fe_square ck u2) ;;
  w <~ quiet (fe_mul ck u1 u2_sq) ;;
  okI <~ fe_inv_sqrt_log ck w ;;
  D1 <~ quiet (fe_mul ck u1 (snd okI)) ;;
  D2 <~ quiet (fe_mul ck u2 (snd okI)) ;;
  D12 <~ quiet (fe_mul ck D1 D2) ;;
  Zinv <~ quiet (fe_mul ck D12 (eT P)) ;;
  tz <~ quiet (fe_mul ck (eT P) Zinv) ;;
  tp <~ fe_is_positive_log tz ;;
  n <~ ask 30407 (negb tp) ;;
  xyD <~ quiet (if n then
                  iy <- fe_mul ck SQRT_MINUS_ONE (eY P) ;;
                  ix <- fe_mul ck SQRT_MINUS_ONE (eX P) ;;
                  D <- fe_mul ck D1 INV_SQRT_A_MINUS_D ;;
                  Ok (iy, ix, D)
                else Ok (eX P, eY P, D2)) ;;
  xz <~ quiet (fe_mul ck (fst (fst xyD)) Zinv) ;;
  xp <~ fe_is_positive_log xz ;;
  y <~ quiet (fe_conditional_negate ck (snd (fst xyD)) (negb xp)) ;;
  zy <~ quiet (fe_sub ck (eZ P) y) ;;
  s <~ quiet (fe_mul ck zy (snd xyD)) ;;
  sp <~ fe_is_positive_log s ;;
  s <~ quiet (fe_conditional_negate ck s (negb sp)) ;;
  quiet (Ok (fe_to_bytes s)).

(** ristretto.rs 430-471 `elligator_ristretto_flavor`: the only branches are those of
    `sqrt_ratio_i` (line 444) and of `is_positive` (line 448). *)
Definition rp_elligator_log (ck : bool) (r_0 : fe) : lres ept :=
  let d := EDWARDS_D in
  c <~ quiet (fe_neg ck fe_one) ;;
  d_sq <~ quiet (fe_square ck d) ;;
  one_minus_d_sq <~ quiet (fe_sub ck fe_one d_sq) ;;
  r0_sq <~ quiet (fe_square ck r_0) ;;
  r <~ quiet (fe_mul ck SQRT_MINUS_ONE r0_sq) ;;
  r1 <~ quiet (fe_add ck r fe_one) ;;
  N_s <~ quiet (fe_mul ck r1 one_minus_d_sq) ;;
  dr <~ quiet (fe_mul ck d r) ;;
  cdr <~ quiet (fe_sub ck c dr) ;;
  rd <~ quiet (fe_add ck r d) ;;
  D <~ quiet (fe_mul ck cdr rd) ;;
  sqs <~ fe_sqrt_ratio_i_log ck N_s D ;;
  s_prim <~ quiet (fe_mul ck (snd sqs) r_0) ;;
  sp <~ fe_is_positive_log s_prim ;;
  s_prim <~ quiet (fe_conditional_negate ck s_prim sp) ;;
  let s := fe_select (snd sqs) s_prim (negb (fst sqs)) in
  let c := fe_select c r (negb (fst sqs)) in
  rm1 <~ quiet (fe_sub ck r fe_one) ;;
  crm1 <~ quiet (fe_mul ck c rm1) ;;
  dm1 <~ quiet (fe_sub ck d fe_one) ;;
  dm1_sq <~ quiet (fe_square ck dm1) ;;
  nt <~ quiet (fe_mul ck crm1 dm1_sq) ;;
  N_t <~ quiet (fe_sub ck nt D) ;;
  s_square <~ quiet (fe_square ck s) ;;
  s2 <~ quiet (fe_add ck s s) ;;
  W0 <~ quiet (fe_mul ck s2 D) ;;
  W1 <~ quiet (fe_mul ck N_t SQRT_AD_MINUS_ONE) ;;
  W2 <~ quiet (fe_sub ck fe_one s_square) ;;
  W3 <~ quiet (fe_add ck fe_one s_square) ;;
  x <~ quiet (fe_mul ck W0 W3) ;;
  y <~ quiet (fe_mul ck W2 W1) ;;
  z <~ quiet (fe_mul ck W1 W3) ;;
  t <~ quiet (fe_mul ck W0 W2) ;;
  quiet (Ok (EP x y z t)).
