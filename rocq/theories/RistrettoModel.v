(** * Model of the Ristretto and Montgomery code

    /repo/src/ristretto.rs (line numbers refer to it unless said otherwise),
    `window_naf_mul` of /repo/src/edwards.rs and /repo/src/montgomery.rs.
    `struct RistrettoPoint(pub EdwardsPoint)` (157-158) is its Edwards point; a
    `CompressedRistretto` (44-45) and a `MontgomeryPoint` are their 32 bytes.  *)

From Coq Require Import ZArith List Bool.
From Verif Require Import Machine FieldModel ScalarModel EdwardsModel TableModel.
Import ListNotations.
Open Scope Z_scope.

(** backend/u64/constants.rs 213-214 `RISTRETTO_BASEPOINT`. *)
Definition RISTRETTO_BASEPOINT : ept := BASEPOINT.

(** /repo/src/constants.rs 18-21 `RISTRETTO_BASEPOINT_COMPRESSED`. *)
Definition RISTRETTO_BASEPOINT_COMPRESSED : list Z := 2 :: repeat 0 31.

(** ** Compressed points *)

(** 69-75 `Identity for CompressedRistretto`. *)
Definition cr_identity : list Z := repeat 0 32.

(** 54-67 `ct_eq` and `==` for CompressedRistretto. *)
Definition cr_eqb (a b : list Z) : bool := bytes_eqb a b.

(** 83-87 `CompressedRistretto::copy_from_slice`. *)
Definition cr_copy_from_slice (bytes : list Z) : res (list Z) := copy_from_slice 32 bytes.

(** 96-154 `CompressedRistretto::decompress`. *)
Definition cr_decompress (ck : bool) (b : list Z) : res (option ept) :=
  let s := fe_from_bytes b in
  let s_correct_enc := bytes_eqb (fe_to_bytes s) b in
  let s_is_positive := fe_is_positive s in
  if negb s_is_positive || negb s_correct_enc then Ok None else
  ss <- fe_square ck s ;;
  u1 <- fe_sub ck fe_one ss ;;
  ss' <- fe_square ck s ;;
  u2 <- fe_add ck fe_one ss' ;;
  u2_sq <- fe_square ck u2 ;;
  u1_sq <- fe_square ck u1 ;;
  du1 <- fe_mul ck EDWARDS_D u1_sq ;;
  ndu1 <- fe_neg ck du1 ;;
  v <- fe_sub ck ndu1 u2_sq ;;
  vu <- fe_mul ck v u2_sq ;;
  '(ok, Inv) <- fe_inv_sqrt ck vu ;;
  if negb ok then Ok None else
  Dx <- fe_mul ck Inv u2 ;;
  IDx <- fe_mul ck Inv Dx ;;
  Dy <- fe_mul ck IDx v ;;
  s2 <- fe_add ck s s ;;
  x <- fe_mul ck s2 Dx ;;
  x <- fe_conditional_negate ck x (negb (fe_is_positive x)) ;;
  y <- fe_mul ck u1 Dy ;;
  t <- fe_mul ck x y ;;
  if negb (fe_is_positive t) || fe_eqb y fe_zero then Ok None else
  Ok (Some (EP x y fe_one t)).

(** ** Group operations *)

(** 186-201 `Identity` and `Default` for RistrettoPoint. *)
Definition rp_identity : ept := ept_identity.

(** 166-176 `ct_eq` for RistrettoPoint, and 178-182 `==`. *)
Definition rp_eqb (ck : bool) (P Q : ept) : res bool :=
  a1 <- fe_mul ck (eX P) (eY Q) ;;
  a2 <- fe_mul ck (eY P) (eX Q) ;;
  b1 <- fe_mul ck (eX P) (eX Q) ;;
  b2 <- fe_mul ck (eY P) (eY Q) ;;
  Ok (fe_eqb a1 a2 || fe_eqb b1 b2).

(** 205-222 `is_valid` for RistrettoPoint; `constants::L` is the scalar [SC_L]. *)
Definition rp_is_valid (ck : bool) (P : ept) : res bool :=
  LP <- ept_mul ck P SC_L ;;
  has_order_l <- ept_eqb ck LP ept_identity ;;
  v <- ept_is_valid ck P ;;
  Ok (has_order_l && v).

(** 224-246 `Neg for RistrettoPoint`. *)
Definition rp_neg (ck : bool) (P : ept) : res ept := ept_neg ck P.

(** 248-276 `Add for RistrettoPoint`. *)
Definition rp_add (ck : bool) (P Q : ept) : res ept := ept_add ck P Q.

(** 278-312 `Sub for RistrettoPoint`: `self + &-other`. *)
Definition rp_sub (ck : bool) (P Q : ept) : res ept :=
  nq <- rp_neg ck Q ;; rp_add ck P nq.

(** 314-328 `Double for RistrettoPoint`. *)
Definition rp_double (ck : bool) (P : ept) : res ept := ept_double ck P.

(** 330-392 `Mul` between Scalar and RistrettoPoint (all four impls). *)
Definition rp_mul (ck : bool) (P : ept) (n : sc) : res ept :=
  double_and_add (rp_add ck) (rp_double ck) rp_identity P n.

(** ** Encoding and hashing to the group *)

(** 398-425 `RistrettoPoint::compress`. *)
Definition rp_compress (ck : bool) (P : ept) : res (list Z) :=
  zpy <- fe_add ck (eZ P) (eY P) ;;
  zmy <- fe_sub ck (eZ P) (eY P) ;;
  u1 <- fe_mul ck zpy zmy ;;
  u2 <- fe_mul ck (eX P) (eY P) ;;
  u2_sq <- fe_square ck u2 ;;
  w <- fe_mul ck u1 u2_sq ;;
  '(_, Inv) <- fe_inv_sqrt ck w ;;
  D1 <- fe_mul ck u1 Inv ;;
  D2 <- fe_mul ck u2 Inv ;;
  D12 <- fe_mul ck D1 D2 ;;
  Zinv <- fe_mul ck D12 (eT P) ;;
  tz <- fe_mul ck (eT P) Zinv ;;
  '(x, y, D) <- (if negb (fe_is_positive tz) then
                   iy <- fe_mul ck SQRT_MINUS_ONE (eY P) ;;
                   ix <- fe_mul ck SQRT_MINUS_ONE (eX P) ;;
                   D <- fe_mul ck D1 INV_SQRT_A_MINUS_D ;;
                   Ok (iy, ix, D)
                 else Ok (eX P, eY P, D2)) ;;
  xz <- fe_mul ck x Zinv ;;
  y <- fe_conditional_negate ck y (negb (fe_is_positive xz)) ;;
  zy <- fe_sub ck (eZ P) y ;;
  s <- fe_mul ck zy D ;;
  s <- fe_conditional_negate ck s (negb (fe_is_positive s)) ;;
  Ok (fe_to_bytes s).

(** 430-471 `elligator_ristretto_flavor`. *)
Definition rp_elligator (ck : bool) (r_0 : fe) : res ept :=
  let d := EDWARDS_D in
  c <- fe_neg ck fe_one ;;
  d_sq <- fe_square ck d ;;
  one_minus_d_sq <- fe_sub ck fe_one d_sq ;;
  r0_sq <- fe_square ck r_0 ;;
  r <- fe_mul ck SQRT_MINUS_ONE r0_sq ;;
  r1 <- fe_add ck r fe_one ;;
  N_s <- fe_mul ck r1 one_minus_d_sq ;;
  dr <- fe_mul ck d r ;;
  cdr <- fe_sub ck c dr ;;
  rd <- fe_add ck r d ;;
  D <- fe_mul ck cdr rd ;;
  '(Ns_D_is_sq, s) <- fe_sqrt_ratio_i ck N_s D ;;
  s_prim <- fe_mul ck s r_0 ;;
  s_prim <- fe_conditional_negate ck s_prim (fe_is_positive s_prim) ;;
  let s := fe_select s s_prim (negb Ns_D_is_sq) in
  let c := fe_select c r (negb Ns_D_is_sq) in
  rm1 <- fe_sub ck r fe_one ;;
  crm1 <- fe_mul ck c rm1 ;;
  dm1 <- fe_sub ck d fe_one ;;
  dm1_sq <- fe_square ck dm1 ;;
  nt <- fe_mul ck crm1 dm1_sq ;;
  N_t <- fe_sub ck nt D ;;
  s_square <- fe_square ck s ;;
  s2 <- fe_add ck s s ;;
  W0 <- fe_mul ck s2 D ;;
  W1 <- fe_mul ck N_t SQRT_AD_MINUS_ONE ;;
  W2 <- fe_sub ck fe_one s_square ;;
  W3 <- fe_add ck fe_one s_square ;;
  x <- fe_mul ck W0 W3 ;;
  y <- fe_mul ck W2 W1 ;;
  z <- fe_mul ck W1 W3 ;;
  t <- fe_mul ck W0 W2 ;;
  Ok (EP x y z t).

(** 475-477 `coset4`. *)
Definition rp_coset4 (ck : bool) (P : ept) : res (list ept) := ept_coset4 ck P.

(** 493-507 `from_uniform_bytes` of a [u8; 64]. *)
Definition rp_from_uniform_bytes (ck : bool) (b : list Z) : res ept :=
  b1 <- copy_from_slice 32 (firstn 32 b) ;;
  R1 <- rp_elligator ck (fe_from_bytes b1) ;;
  b2 <- copy_from_slice 32 (firstn 32 (skipn 32 b)) ;;
  R2 <- rp_elligator ck (fe_from_bytes b2) ;;
  rp_add ck R1 R2.

(** 519-523 `RistrettoPoint::new_random_point`; [draw] is the 64 bytes delivered
    by `try_fill` (a failing generator is not modelled). *)
Definition rp_new_random_point (ck : bool) (draw : list Z) : res ept :=
  rp_from_uniform_bytes ck draw.

(** ** Windowed multiplication of the basepoint *)

(** edwards.rs 160-169 loop of `window_naf_mul`; indexing the table out of range
    panics.  `ki as usize` of a positive i8 and of a non-negative absolute value
    is the value itself; of -128 (wrapped absolute value) it is out of range. *)
Fixpoint window_naf_mul_loop (ck : bool) (wnaf : list Z) (i : nat) (Q : ept) : res ept :=
  match i with
  | O => Ok Q
  | S i' =>
    Q <- rp_double ck Q ;;
    ki <- unwrap (nth_error wnaf i') ;;
    Q <- (if ki =? 0 then Ok Q
          else if 0 <? ki then
            t <- unwrap (nth_error BASEPOINT_ODD_MULTIPLES_TABLE (Z.to_nat ki)) ;;
            rp_add ck Q t
          else
            a <- i8abs ck ki ;;
            _ <- rassert (0 <=? a) ;;
            t <- unwrap (nth_error BASEPOINT_ODD_MULTIPLES_TABLE (Z.to_nat a)) ;;
            rp_sub ck Q t) ;;
    window_naf_mul_loop ck wnaf i' Q
  end.

(** edwards.rs 155-171 `window_naf_mul`. *)
Definition window_naf_mul (ck : bool) (scalar : sc) (w : Z) : res ept :=
  wnaf <- sc_compute_window_NAF ck scalar w ;;
  window_naf_mul_loop ck wnaf 250 rp_identity.

(** ** Montgomery points *)

(** /repo/src/montgomery.rs 18-26 `ct_eq`, and 34-38 `==`. *)
Definition mp_eqb (a b : list Z) : bool := fe_eqb (fe_from_bytes a) (fe_from_bytes b).

(** /repo/src/montgomery.rs 28-32 `Default`. *)
Definition mp_default : list Z := repeat 0 32.

(** /repo/src/montgomery.rs 53-57 `to_edwards`: `unimplemented!()`. *)
Definition mp_to_edwards (b : list Z) (sign : Z) : res (option ept) := Panic.
