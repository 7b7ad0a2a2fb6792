(** * Programs over the public API

    Expressions of a small language whose operations are the public functions and
    operators of the crate, and their evaluation with the model of the code.  A Rust
    expression that only builds values through these functions is such an expression;
    raw constructors such as `FieldElement([..])` and direct access to the fields of
    points are not part of the language.  Statements, loops and random draws are added
    in ProgModel.v.                                                            *)

From Coq Require Import ZArith List Bool.
From Verif Require Import Machine FieldModel ScalarModel EdwardsModel TableModel RistrettoModel.
Import ListNotations.
Open Scope Z_scope.

(** The types: FieldElement, Scalar, EdwardsPoint, ProjectivePoint, AffinePoint,
    RistrettoPoint, CompressedEdwardsY, CompressedRistretto, bool (also Choice) and
    [u8; 32].
    /repo/src/backend/u64/field.rs 32, scalar.rs 27, /repo/src/edwards.rs 211, 337, 680,
    1008, /repo/src/ristretto.rs 45, 158. *)
Inductive ty : Set := TF | TS | TE | TP | TA | TR | TC | TX | TB | TW.

(** The model types of these structs (lines above). *)
Definition val (t : ty) : Type :=
  match t with
  | TF => fe | TS => sc | TE => ept | TP => ppt | TA => apt | TR => ept
  | TC => list Z | TX => list Z | TB => bool | TW => list Z
  end.

(** The values of the program's variables. *)
Definition env : Type := forall t, nat -> val t.

(** One constructor for each API function; the lines are those of the model
    definition used in [eval] below. *)
Inductive expr : ty -> Type :=
| Var {t} (i : nat) : expr t                                   (* a variable *)
| If {t} (c : expr TB) (a b : expr t) : expr t                 (* Rust's if-else *)
| Lit (b : bool) : expr TB
| Not (a : expr TB) : expr TB
(* field.rs *)
| FInt (n : Z) : expr TF                                       (* From<u128> *)
| FBytes (b : list Z) : expr TF                                (* from_bytes *)
| FTwoPow (k : Z) : expr TF                                    (* two_pow_k *)
| FAdd (a b : expr TF) : expr TF
| FSub (a b : expr TF) : expr TF
| FMul (a b : expr TF) : expr TF
| FDiv (a b : expr TF) : expr TF
| FNeg (a : expr TF) : expr TF
| FSquare (a : expr TF) : expr TF
| FHalf (a : expr TF) : expr TF
| FInverse (a : expr TF) : expr TF
| FPow (a e : expr TF) : expr TF
| FSqrt (a : expr TF) (sign : expr TB) : expr TF               (* mod_sqrt(..).unwrap() *)
| FEq (a b : expr TF) : expr TB
| FPositive (a : expr TF) : expr TB
| FSquareTest (a : expr TF) : expr TB                          (* legendre_symbol *)
| FLess (a b : expr TF) : expr TB                              (* Ord: a < b *)
| FEven (a : expr TF) : expr TB
| FToBytes (a : expr TF) : expr TW
| FHasSqrt (a : expr TF) (sign : expr TB) : expr TB            (* mod_sqrt(..).is_some() *)
| FRatio (u v : expr TF) : expr TF                             (* sqrt_ratio_i(..).1 *)
| FRatioFlag (u v : expr TF) : expr TB                         (* sqrt_ratio_i(..).0 *)
| FInvSqrt (v : expr TF) : expr TF                             (* inv_sqrt().1 *)
| FInvSqrtFlag (v : expr TF) : expr TB                         (* inv_sqrt().0 *)
(* scalar.rs *)
| SInt (n : Z) : expr TS                                       (* From<u128> *)
| SSigned (n : Z) : expr TS                                    (* From<i8> *)
| SBytes (b : expr TW) : expr TS                               (* from_bytes *)
| STwoPow (k : Z) : expr TS                                    (* two_pow_k *)
| SAdd (a b : expr TS) : expr TS
| SSub (a b : expr TS) : expr TS
| SMul (a b : expr TS) : expr TS
| SNeg (a : expr TS) : expr TS
| SSquare (a : expr TS) : expr TS
| SHalf (a : expr TS) : expr TS
| SPow (a e : expr TS) : expr TS
| SEq (a b : expr TS) : expr TB
| SLess (a b : expr TS) : expr TB                              (* Ord: a < b *)
| SEven (a : expr TS) : expr TB
| SShr (a : expr TS) (k : Z) : expr TS                         (* a >> k *)
| SToBytes (a : expr TS) : expr TW
(* edwards.rs, extended coordinates *)
| EIdentity : expr TE
| EBase : expr TE
| EAdd (a b : expr TE) : expr TE
| ESub (a b : expr TE) : expr TE
| ENeg (a : expr TE) : expr TE
| EDouble (a : expr TE) : expr TE
| EMul (a : expr TE) (n : expr TS) : expr TE
| ENaf (a : expr TE) (n : expr TS) : expr TE                   (* binary_naf_mul *)
| ECofactor (a : expr TE) : expr TE                            (* mul_by_cofactor *)
| EPow2 (a : expr TE) (k : Z) : expr TE                        (* mul_by_pow_2 *)
| EFromY (y : expr TF) (sign : expr TB) : expr TE              (* new_from_y_coord(..).unwrap() *)
| EDecompress (c : expr TC) : expr TE                          (* decompress().unwrap() *)
| EHasY (y : expr TF) (sign : expr TB) : expr TB               (* new_from_y_coord(..).is_some() *)
| EDecodes (c : expr TC) : expr TB                             (* decompress().is_some() *)
| EOfP (a : expr TP) : expr TE
| EOfA (a : expr TA) : expr TE
| EEq (a b : expr TE) : expr TB
| EValid (a : expr TE) : expr TB
| PValid (a : expr TP) : expr TB
| AValid (a : expr TA) : expr TB
(* projective coordinates *)
| PIdentity : expr TP
| PAdd (a b : expr TP) : expr TP
| PSub (a b : expr TP) : expr TP
| PNeg (a : expr TP) : expr TP
| PDouble (a : expr TP) : expr TP
| PMul (a : expr TP) (n : expr TS) : expr TP
| PFromY (y : expr TF) (sign : expr TB) : expr TP
| POfE (a : expr TE) : expr TP
| POfA (a : expr TA) : expr TP
| PEq (a b : expr TP) : expr TB
(* affine coordinates *)
| AIdentity : expr TA
| ANeg (a : expr TA) : expr TA
| AOfE (a : expr TE) : expr TA
| AOfP (a : expr TP) : expr TA
| AEq (a b : expr TA) : expr TB
(* compressed Edwards points *)
| CBytes (b : expr TW) : expr TC                               (* from_slice *)
| CToBytes (c : expr TC) : expr TW                             (* to_bytes *)
| CCompress (a : expr TE) : expr TC
| CNeg (c : expr TC) : expr TC
| CEq (a b : expr TC) : expr TB
(* ristretto.rs *)
| RIdentity : expr TR
| RBase : expr TR
| RAdd (a b : expr TR) : expr TR
| RSub (a b : expr TR) : expr TR
| RNeg (a : expr TR) : expr TR
| RDouble (a : expr TR) : expr TR
| RMul (a : expr TR) (n : expr TS) : expr TR
| RElligator (r : expr TF) : expr TR
| RUniform (b : list Z) : expr TR                              (* from_uniform_bytes *)
| RDecompress (c : expr TX) : expr TR                          (* decompress().unwrap() *)
| RDecodes (c : expr TX) : expr TB                             (* decompress().is_some() *)
| REq (a b : expr TR) : expr TB
| XBytes (b : expr TW) : expr TX                               (* copy_from_slice *)
| XToBytes (c : expr TX) : expr TW                             (* to_bytes *)
| XCompress (a : expr TR) : expr TX
| XEq (a b : expr TX) : expr TB
(* byte arrays *)
| WBytes (b : list Z) : expr TW
| WEq (a b : expr TW) : expr TB.

(** `Option::is_some` (core; for programs that test a result instead of unwrapping it). *)
Definition is_some {A : Type} (o : option A) : bool := match o with Some _ => true | None => false end.

(** Strict evaluation, left operand first.  The functions are the definitions of
    FieldModel.v, ScalarModel.v, EdwardsModel.v and RistrettoModel.v, each of which
    cites the Rust lines. *)
Fixpoint eval (ck : bool) (rho : env) {t : ty} (e : expr t) : res (val t) :=
  match e in expr t return res (val t) with
  | Var i => Ok (rho _ i)
  | If c a b => x <- eval ck rho c ;; if x : bool then eval ck rho a else eval ck rho b
  | Lit b => Ok b
  | Not a => x <- eval ck rho a ;; Ok (negb x)
  | FInt n => Ok (fe_from_u128 n)
  | FBytes b => Ok (fe_from_bytes b)
  | FTwoPow k => fe_two_pow_k ck k
  | FAdd a b => x <- eval ck rho a ;; y <- eval ck rho b ;; fe_add ck x y
  | FSub a b => x <- eval ck rho a ;; y <- eval ck rho b ;; fe_sub ck x y
  | FMul a b => x <- eval ck rho a ;; y <- eval ck rho b ;; fe_mul ck x y
  | FDiv a b => x <- eval ck rho a ;; y <- eval ck rho b ;; fe_div ck x y
  | FNeg a => x <- eval ck rho a ;; fe_neg ck x
  | FSquare a => x <- eval ck rho a ;; fe_square ck x
  | FHalf a => x <- eval ck rho a ;; fe_half ck x
  | FInverse a => x <- eval ck rho a ;; fe_inverse ck x
  | FPow a e => x <- eval ck rho a ;; y <- eval ck rho e ;; fe_pow ck x y
  | FSqrt a s => x <- eval ck rho a ;; y <- eval ck rho s ;; o <- fe_mod_sqrt ck x y ;; unwrap o
  | FEq a b => x <- eval ck rho a ;; y <- eval ck rho b ;; Ok (fe_eqb x y)
  | FPositive a => x <- eval ck rho a ;; Ok (fe_is_positive x)
  | FSquareTest a => x <- eval ck rho a ;; fe_legendre_symbol ck x
  | FLess a b => x <- eval ck rho a ;; y <- eval ck rho b ;; Ok (match fe_cmp x y with Lt => true | _ => false end)
  | FEven a => x <- eval ck rho a ;; Ok (fe_is_even x)
  | FToBytes a => x <- eval ck rho a ;; Ok (fe_to_bytes x)
  | FHasSqrt a s => x <- eval ck rho a ;; y <- eval ck rho s ;; o <- fe_mod_sqrt ck x y ;; Ok (is_some o)
  | FRatio u v => x <- eval ck rho u ;; y <- eval ck rho v ;; r <- fe_sqrt_ratio_i ck x y ;; Ok (snd r)
  | FRatioFlag u v => x <- eval ck rho u ;; y <- eval ck rho v ;; r <- fe_sqrt_ratio_i ck x y ;; Ok (fst r)
  | FInvSqrt v => x <- eval ck rho v ;; r <- fe_inv_sqrt ck x ;; Ok (snd r)
  | FInvSqrtFlag v => x <- eval ck rho v ;; r <- fe_inv_sqrt ck x ;; Ok (fst r)
  | SInt n => Ok (sc_from_u128 n)
  | SSigned n => sc_from_i8 ck n
  | SBytes b => x <- eval ck rho b ;; sc_from_bytes x
  | STwoPow k => sc_two_pow_k ck k
  | SAdd a b => x <- eval ck rho a ;; y <- eval ck rho b ;; sc_add ck x y
  | SSub a b => x <- eval ck rho a ;; y <- eval ck rho b ;; sc_sub ck x y
  | SMul a b => x <- eval ck rho a ;; y <- eval ck rho b ;; sc_mul ck x y
  | SNeg a => x <- eval ck rho a ;; sc_neg ck x
  | SSquare a => x <- eval ck rho a ;; sc_square ck x
  | SHalf a => x <- eval ck rho a ;; sc_half ck x
  | SPow a e => x <- eval ck rho a ;; y <- eval ck rho e ;; sc_pow ck x y
  | SEq a b => x <- eval ck rho a ;; y <- eval ck rho b ;; Ok (sc_eqb x y)
  | SLess a b => x <- eval ck rho a ;; y <- eval ck rho b ;; Ok (match sc_cmp x y with Lt => true | _ => false end)
  | SEven a => x <- eval ck rho a ;; Ok (sc_is_even x)
  | SShr a k => x <- eval ck rho a ;; Ok (sc_shr x k)
  | SToBytes a => x <- eval ck rho a ;; Ok (sc_to_bytes x)
  | EIdentity => Ok ept_identity
  | EBase => Ok BASEPOINT
  | EAdd a b => x <- eval ck rho a ;; y <- eval ck rho b ;; ept_add ck x y
  | ESub a b => x <- eval ck rho a ;; y <- eval ck rho b ;; ept_sub ck x y
  | ENeg a => x <- eval ck rho a ;; ept_neg ck x
  | EDouble a => x <- eval ck rho a ;; ept_double ck x
  | EMul a n => x <- eval ck rho a ;; y <- eval ck rho n ;; ept_mul ck x y
  | ENaf a n => x <- eval ck rho a ;; y <- eval ck rho n ;;
      binary_naf_mul ck (ept_add ck) (ept_sub ck) (ept_double ck) ept_identity x y
  | ECofactor a => x <- eval ck rho a ;; mul_by_cofactor (ept_mul ck) x
  | EPow2 a k => x <- eval ck rho a ;; mul_by_pow_2 ck (ept_mul ck) x k
  | EFromY y s => x <- eval ck rho y ;; b <- eval ck rho s ;; o <- ept_new_from_y_coord ck x b ;; unwrap o
  | EDecompress c => x <- eval ck rho c ;; o <- cey_decompress ck x ;; unwrap o
  | EHasY y s => x <- eval ck rho y ;; b <- eval ck rho s ;; o <- ept_new_from_y_coord ck x b ;; Ok (is_some o)
  | EDecodes c => x <- eval ck rho c ;; o <- cey_decompress ck x ;; Ok (is_some o)
  | EOfP a => x <- eval ck rho a ;; ept_of_ppt ck x
  | EOfA a => x <- eval ck rho a ;; ept_of_apt ck x
  | EEq a b => x <- eval ck rho a ;; y <- eval ck rho b ;; ept_eqb ck x y
  | EValid a => x <- eval ck rho a ;; ept_is_valid ck x
  | PValid a => x <- eval ck rho a ;; ppt_is_valid ck x
  | AValid a => x <- eval ck rho a ;; apt_is_valid ck x
  | PIdentity => Ok ppt_identity
  | PAdd a b => x <- eval ck rho a ;; y <- eval ck rho b ;; ppt_add ck x y
  | PSub a b => x <- eval ck rho a ;; y <- eval ck rho b ;; ppt_sub ck x y
  | PNeg a => x <- eval ck rho a ;; ppt_neg ck x
  | PDouble a => x <- eval ck rho a ;; ppt_double ck x
  | PMul a n => x <- eval ck rho a ;; y <- eval ck rho n ;; ppt_mul ck x y
  | PFromY y s => x <- eval ck rho y ;; b <- eval ck rho s ;; o <- ppt_new_from_y_coord ck x b ;; unwrap o
  | POfE a => x <- eval ck rho a ;; Ok (ppt_of_ept x)
  | POfA a => x <- eval ck rho a ;; Ok (ppt_of_apt x)
  | PEq a b => x <- eval ck rho a ;; y <- eval ck rho b ;; ppt_eqb ck x y
  | AIdentity => Ok apt_identity
  | ANeg a => x <- eval ck rho a ;; apt_neg ck x
  | AOfE a => x <- eval ck rho a ;; apt_of_ept ck x
  | AOfP a => x <- eval ck rho a ;; apt_of_ppt ck x
  | AEq a b => x <- eval ck rho a ;; y <- eval ck rho b ;; Ok (apt_eqb x y)
  | CBytes b => x <- eval ck rho b ;; cey_from_slice x
  | CToBytes c => eval ck rho c
  | CCompress a => x <- eval ck rho a ;; ept_compress ck x
  | CNeg a => x <- eval ck rho a ;; cey_neg ck x
  | CEq a b => x <- eval ck rho a ;; y <- eval ck rho b ;; Ok (cey_eqb x y)
  | RIdentity => Ok rp_identity
  | RBase => Ok RISTRETTO_BASEPOINT
  | RAdd a b => x <- eval ck rho a ;; y <- eval ck rho b ;; rp_add ck x y
  | RSub a b => x <- eval ck rho a ;; y <- eval ck rho b ;; rp_sub ck x y
  | RNeg a => x <- eval ck rho a ;; rp_neg ck x
  | RDouble a => x <- eval ck rho a ;; rp_double ck x
  | RMul a n => x <- eval ck rho a ;; y <- eval ck rho n ;; rp_mul ck x y
  | RElligator r => x <- eval ck rho r ;; rp_elligator ck x
  | RUniform b => rp_from_uniform_bytes ck b
  | RDecompress c => x <- eval ck rho c ;; o <- cr_decompress ck x ;; unwrap o
  | RDecodes c => x <- eval ck rho c ;; o <- cr_decompress ck x ;; Ok (is_some o)
  | REq a b => x <- eval ck rho a ;; y <- eval ck rho b ;; rp_eqb ck x y
  | XBytes b => x <- eval ck rho b ;; cr_copy_from_slice x
  | XToBytes c => eval ck rho c
  | XCompress a => x <- eval ck rho a ;; rp_compress ck x
  | XEq a b => x <- eval ck rho a ;; y <- eval ck rho b ;; Ok (cr_eqb x y)
  | WBytes b => Ok b
  | WEq a b => x <- eval ck rho a ;; y <- eval ck rho b ;; Ok (bytes_eqb x y)
  end.
