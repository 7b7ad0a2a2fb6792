(** * Model of the Edwards point code

    /repo/src/edwards.rs and the point constants of
    /repo/src/backend/u64/constants.rs.  Line numbers refer to edwards.rs unless
    said otherwise.  By-value and by-reference operator impls that only forward
    share one definition.  Field expressions are sequenced left to right.     *)

From Coq Require Import ZArith List Bool.
From Verif Require Import Machine FieldModel ScalarModel.
Import ListNotations.
Open Scope Z_scope.

(** ** Points *)

(** 336-342 `struct EdwardsPoint { X, Y, Z, T }`. *)
Record ept : Set := EP { eX : fe; eY : fe; eZ : fe; eT : fe }.
(** 680-685 `struct ProjectivePoint { X, Y, Z }`. *)
Record ppt : Set := PP { pX : fe; pY : fe; pZ : fe }.
(** 1008-1011 `struct AffinePoint { X, Y }`. *)
Record apt : Set := AP { aX : fe; aY : fe }.

(** ** Constants *)

(** backend/u64/constants.rs 140-184 `FOUR_COSET_GROUP`. *)
Definition FOUR_COSET_GROUP : list ept := [
  EP (FE 1 0 0 0 0) (FE 0 0 0 0 0) (FE 1 0 0 0 0) (FE 0 0 0 0 0);
  EP (FE 2099929430230996 1464742363261928 3309265759432790 2285299817698826 10215362715769)
     (FE 0 0 0 0 0) (FE 1 0 0 0 0) (FE 0 0 0 0 0);
  EP (FE 0 0 0 0 0) (FE 671914833335276 3916664325105025 1367801 0 17592186044416)
     (FE 1 0 0 0 0) (FE 0 0 0 0 0);
  EP (FE 3075585030474777 2451921961843096 1194333869305507 2218299809671669 7376823328646)
     (FE 0 0 0 0 0) (FE 1 0 0 0 0) (FE 0 0 0 0 0)
].

(** backend/u64/constants.rs 186-211 `BASEPOINT`. *)
Definition BASEPOINT : ept :=
  EP (FE 276718085098056 1646536057461434 2704687245600312 2630386667454967 13476148227069)
     (FE 1303868825475266 3250718520537114 2702159777242978 2702159776422297 10555311626649)
     (FE 1 0 0 0 0)
     (FE 3634527586288175 2006028620404053 3424252198034825 2478951925947079 4567251727358).

(** /repo/src/constants.rs 13-16 `BASEPOINT_COMPRESSED`. *)
Definition BASEPOINT_COMPRESSED : list Z :=
  [194; 24; 45; 158; 220; 161; 164; 1; 231; 42; 46; 200; 184; 98; 31; 166; 153; 153; 153; 153;
   153; 153; 153; 153; 153; 153; 153; 153; 153; 153; 153; 9].

(** ** Affine points *)

(** 1036-1042 `Identity for AffinePoint` (also the `Default`, 1028-1033). *)
Definition apt_identity : apt := AP fe_zero fe_one.

(** 1044-1048 `ct_eq` for AffinePoint, and 1050-1054 `==`. *)
Definition apt_eqb (P Q : apt) : bool := fe_eqb (aX P) (aX Q) && fe_eqb (aY P) (aY Q).

(** 1058-1069 `is_valid` for AffinePoint. *)
Definition apt_is_valid (ck : bool) (P : apt) : res bool :=
  x_sq <- fe_square ck (aX P) ;;
  y_sq <- fe_square ck (aY P) ;;
  l1 <- fe_mul ck fe_minus_one x_sq ;;
  left <- fe_add ck l1 y_sq ;;
  r1 <- fe_mul ck EDWARDS_D x_sq ;;
  r2 <- fe_mul ck r1 y_sq ;;
  right <- fe_add ck fe_one r2 ;;
  Ok (fe_eqb left right).

(** 1112-1123 `Neg for &AffinePoint`. *)
Definition apt_neg (ck : bool) (P : apt) : res apt :=
  x <- fe_neg ck (aX P) ;; Ok (AP x (aY P)).

(** ** Conversions *)

(** 750-764 `From<EdwardsPoint> for ProjectivePoint`. *)
Definition ppt_of_ept (P : ept) : ppt := PP (eX P) (eY P) (eZ P).

(** 767-785 `From<AffinePoint> for ProjectivePoint`. *)
Definition ppt_of_apt (P : apt) : ppt := PP (aX P) (aY P) fe_one.

(** 402-417 `From<ProjectivePoint> for EdwardsPoint`. *)
Definition ept_of_ppt (ck : bool) (P : ppt) : res ept :=
  x <- fe_mul ck (pX P) (pZ P) ;;
  y <- fe_mul ck (pY P) (pZ P) ;;
  z <- fe_square ck (pZ P) ;;
  t <- fe_mul ck (pX P) (pY P) ;;
  Ok (EP x y z t).

(** 419-438 `From<AffinePoint> for EdwardsPoint`. *)
Definition ept_of_apt (ck : bool) (P : apt) : res ept :=
  t <- fe_mul ck (aX P) (aY P) ;;
  Ok (EP (aX P) (aY P) fe_one t).

(** 1071-1092 `From<EdwardsPoint> for AffinePoint`. *)
Definition apt_of_ept (ck : bool) (P : ept) : res apt :=
  zinv <- fe_inverse ck (eZ P) ;;
  x <- fe_mul ck (eX P) zinv ;;
  y <- fe_mul ck (eY P) zinv ;;
  Ok (AP x y).

(** 1094-1110 `From<ProjectivePoint> for AffinePoint`. *)
Definition apt_of_ppt (ck : bool) (P : ppt) : res apt :=
  zinv <- fe_inverse ck (pZ P) ;;
  x <- fe_mul ck (pX P) zinv ;;
  y <- fe_mul ck (pY P) zinv ;;
  Ok (AP x y).

(** ** Projective points *)

(** 722-731 `Identity for ProjectivePoint` (also the `Default`). *)
Definition ppt_identity : ppt := PP fe_zero fe_one fe_one.

(** 702-706 `ct_eq` for ProjectivePoint, and 708-712 `==`. *)
Definition ppt_eqb (ck : bool) (P Q : ppt) : res bool :=
  a <- apt_of_ppt ck P ;;
  b <- apt_of_ppt ck Q ;;
  Ok (apt_eqb a b).

(** 733-748 `is_valid` for ProjectivePoint. *)
Definition ppt_is_valid (ck : bool) (P : ppt) : res bool :=
  x_sq <- fe_square ck (pX P) ;;
  y_sq <- fe_square ck (pY P) ;;
  z_sq <- fe_square ck (pZ P) ;;
  l1 <- fe_mul ck EDWARDS_A x_sq ;;
  l2 <- fe_add ck l1 y_sq ;;
  left <- fe_mul ck l2 z_sq ;;
  z4 <- fe_square ck z_sq ;;
  r1 <- fe_mul ck EDWARDS_D x_sq ;;
  r2 <- fe_mul ck r1 y_sq ;;
  right <- fe_add ck z4 r2 ;;
  Ok (fe_eqb left right).

(** 787-799 `Neg for &ProjectivePoint`. *)
Definition ppt_neg (ck : bool) (P : ppt) : res ppt :=
  x <- fe_neg ck (pX P) ;; Ok (PP x (pY P) (pZ P)).

(** 809-834 `Add for &ProjectivePoint`. *)
Definition ppt_add (ck : bool) (P Q : ppt) : res ppt :=
  A <- fe_mul ck (pZ P) (pZ Q) ;;
  B <- fe_square ck A ;;
  C <- fe_mul ck (pX P) (pX Q) ;;
  D <- fe_mul ck (pY P) (pY Q) ;;
  E0 <- fe_mul ck EDWARDS_D C ;;
  E <- fe_mul ck E0 D ;;
  F <- fe_sub ck B E ;;
  G <- fe_add ck B E ;;
  s1 <- fe_add ck (pX P) (pY P) ;;
  s2 <- fe_add ck (pX Q) (pY Q) ;;
  m <- fe_mul ck s1 s2 ;;
  m <- fe_sub ck m C ;;
  m <- fe_sub ck m D ;;
  fm <- fe_mul ck F m ;;
  x <- fe_mul ck A fm ;;
  ag <- fe_mul ck A G ;;
  dc <- fe_add ck D C ;;
  y <- fe_mul ck ag dc ;;
  z <- fe_mul ck F G ;;
  Ok (PP x y z).

(** 851-864 `Sub for &ProjectivePoint`. *)
Definition ppt_sub (ck : bool) (P Q : ppt) : res ppt :=
  nq <- ppt_neg ck Q ;; ppt_add ck P nq.

(** 915-942 `Double for &ProjectivePoint`. *)
Definition ppt_double (ck : bool) (P : ppt) : res ppt :=
  xy <- fe_add ck (pX P) (pY P) ;;
  B <- fe_square ck xy ;;
  C <- fe_square ck (pX P) ;;
  D <- fe_square ck (pY P) ;;
  E <- fe_mul ck EDWARDS_A C ;;
  F <- fe_add ck E D ;;
  H <- fe_square ck (pZ P) ;;
  h2 <- fe_mul ck (fe_from_u8 2) H ;;
  J <- fe_sub ck F h2 ;;
  bc <- fe_sub ck B C ;;
  bcd <- fe_sub ck bc D ;;
  x <- fe_mul ck bcd J ;;
  ed <- fe_sub ck E D ;;
  y <- fe_mul ck F ed ;;
  z <- fe_mul ck F J ;;
  Ok (PP x y z).

(** 962-979 `ProjectivePoint::new_from_y_coord`; `/` is the by-value division. *)
Definition ppt_new_from_y_coord (ck : bool) (y : fe) (sign : bool) : res (option ppt) :=
  y2 <- fe_square ck y ;;
  n <- fe_sub ck y2 fe_one ;;
  y2' <- fe_square ck y ;;
  dy <- fe_mul ck EDWARDS_D y2' ;;
  den <- fe_sub ck dy EDWARDS_A ;;
  xx <- fe_div_val ck n den ;;
  o <- fe_mod_sqrt ck xx sign ;;
  match o with
  | None => Ok None
  | Some x => Ok (Some (PP x y fe_one))
  end.

(** 984-997 `ProjectivePoint::new_random_point`.  [draws] are the 32-byte
    strings the generator delivers to `FieldElement::random`, one per attempt;
    `gen_range(0u8, 1u8)` is half-open, so the sign is always Choice(0) and
    whatever the generator is asked for it does not matter.  An exhausted stream
    gives [NoFuel]. *)
Fixpoint ppt_new_random_point (ck : bool) (draws : list (list Z)) : res ppt :=
  match draws with
  | [] => NoFuel
  | d :: draws' =>
    y <- fe_random d ;;
    o <- ppt_new_from_y_coord ck y false ;;
    match o with
    | None => ppt_new_random_point ck draws'
    | Some P => Ok P
    end
  end.

(** ** Extended points *)

(** 381-391 `Identity for EdwardsPoint` (also the `Default`, 374-379). *)
Definition ept_identity : ept := EP fe_zero fe_one fe_one fe_zero.

(** 360-364 `ct_eq` for EdwardsPoint, and 366-370 `==`. *)
Definition ept_eqb (ck : bool) (P Q : ept) : res bool :=
  a <- apt_of_ept ck P ;;
  b <- apt_of_ept ck Q ;;
  Ok (apt_eqb a b).

(** 393-400 `is_valid` for EdwardsPoint. *)
Definition ept_is_valid (ck : bool) (P : ept) : res bool := ppt_is_valid ck (ppt_of_ept P).

(** 440-455 `Neg for &EdwardsPoint`. *)
Definition ept_neg (ck : bool) (P : ept) : res ept :=
  x <- fe_neg ck (eX P) ;;
  t <- fe_neg ck (eT P) ;;
  Ok (EP x (eY P) (eZ P) t).

(** 465-489 `Add for &EdwardsPoint`. *)
Definition ept_add (ck : bool) (P Q : ept) : res ept :=
  A <- fe_mul ck (eX P) (eX Q) ;;
  B <- fe_mul ck (eY P) (eY Q) ;;
  C0 <- fe_mul ck EDWARDS_D (eT P) ;;
  C <- fe_mul ck C0 (eT Q) ;;
  D <- fe_mul ck (eZ P) (eZ Q) ;;
  s1 <- fe_add ck (eX P) (eY P) ;;
  s2 <- fe_add ck (eX Q) (eY Q) ;;
  m <- fe_mul ck s1 s2 ;;
  m <- fe_sub ck m A ;;
  E <- fe_sub ck m B ;;
  F <- fe_sub ck D C ;;
  G <- fe_add ck D C ;;
  H <- fe_add ck B A ;;
  x <- fe_mul ck E F ;;
  y <- fe_mul ck G H ;;
  z <- fe_mul ck F G ;;
  t <- fe_mul ck E H ;;
  Ok (EP x y z t).

(** 503-531 `Sub for &EdwardsPoint` (its own copy of the formulas). *)
Definition ept_sub (ck : bool) (P Q : ept) : res ept :=
  Q <- ept_neg ck Q ;;
  A <- fe_mul ck (eX P) (eX Q) ;;
  B <- fe_mul ck (eY P) (eY Q) ;;
  C0 <- fe_mul ck EDWARDS_D (eT P) ;;
  C <- fe_mul ck C0 (eT Q) ;;
  D <- fe_mul ck (eZ P) (eZ Q) ;;
  s1 <- fe_add ck (eX P) (eY P) ;;
  s2 <- fe_add ck (eX Q) (eY Q) ;;
  m <- fe_mul ck s1 s2 ;;
  m <- fe_sub ck m A ;;
  E <- fe_sub ck m B ;;
  F <- fe_sub ck D C ;;
  G <- fe_add ck D C ;;
  aA <- fe_mul ck EDWARDS_A A ;;
  H <- fe_sub ck B aA ;;
  x <- fe_mul ck E F ;;
  y <- fe_mul ck G H ;;
  z <- fe_mul ck F G ;;
  t <- fe_mul ck E H ;;
  Ok (EP x y z t).

(** 579-592 `Double for &EdwardsPoint`. *)
Definition ept_double (ck : bool) (P : ept) : res ept := ept_add ck P P.

(** 597-599 `to_montgomery`: `unimplemented!()`. *)
Definition ept_to_montgomery (P : ept) : res (list Z) := Panic.

(** 603-610 `coset4`. *)
Definition ept_coset4 (ck : bool) (P : ept) : res (list ept) :=
  c0 <- unwrap (nth_error FOUR_COSET_GROUP 0) ;;
  a <- ept_add ck P c0 ;;
  c1 <- unwrap (nth_error FOUR_COSET_GROUP 1) ;;
  b <- ept_add ck P c1 ;;
  c2 <- unwrap (nth_error FOUR_COSET_GROUP 2) ;;
  c <- ept_add ck P c2 ;;
  Ok [P; a; b; c].

(** 648-653 `EdwardsPoint::new_from_y_coord`. *)
Definition ept_new_from_y_coord (ck : bool) (y : fe) (sign : bool) : res (option ept) :=
  o <- ppt_new_from_y_coord ck y sign ;;
  match o with
  | None => Ok None
  | Some P => E <- ept_of_ppt ck P ;; Ok (Some E)
  end.

(** 658-663 `EdwardsPoint::new_random_point`. *)
Definition ept_new_random_point (ck : bool) (draws : list (list Z)) : res ept :=
  P <- ppt_new_random_point ck draws ;; ept_of_ppt ck P.

(** ** Compressed points (a `CompressedEdwardsY` is its 32 bytes) *)

(** 200-204 `find_xx`. *)
Definition find_xx (ck : bool) (y : fe) : res fe :=
  y2 <- fe_square ck y ;;
  a <- fe_sub ck y2 fe_one ;;
  y2' <- fe_square ck y ;;
  dy <- fe_mul ck EDWARDS_D y2' ;;
  b <- fe_sub ck dy EDWARDS_A ;;
  fe_div_val ck a b.

(** 276-281 `Identity for CompressedEdwardsY` (also the `Default`). *)
Definition cey_identity : list Z := 1 :: repeat 0 31.

(** 214-226 `ct_eq` and `==` for CompressedEdwardsY. *)
Definition cey_eqb (a b : list Z) : bool := bytes_eqb a b.

(** 296-302 `CompressedEdwardsY::from_slice`. *)
Definition cey_from_slice (bytes : list Z) : res (list Z) := copy_from_slice 32 bytes.

(** 313-326 `decompress`; `self[31] >> 7` is 0 or 1. *)
Definition cey_decompress (ck : bool) (b : list Z) : res (option ept) :=
  let sign := shr (byte b 31) 7 =? 1 in
  y <- set_nth 31 (Z.land (byte b 31) 15) b ;;
  ept_new_from_y_coord ck (fe_from_bytes y) sign.

(** 613-629 `EdwardsPoint::compress`. *)
Definition ept_compress (ck : bool) (P : ept) : res (list Z) :=
  point <- apt_of_ept ck P ;;
  xx <- find_xx ck (aY point) ;;
  o <- fe_mod_sqrt ck xx false ;;
  r <- unwrap o ;;
  let sign := negb (fe_eqb r (aX point)) in
  let compr := fe_to_bytes (aY point) in
  compr <- set_nth 31 (Z.lor (byte compr 31) (shl W8 (if sign then 1 else 0) 7)) compr ;;
  cey_from_slice compr.

(** 253-271 `Neg for CompressedEdwardsY`. *)
Definition cey_neg (ck : bool) (b : list Z) : res (list Z) :=
  o <- cey_decompress ck b ;;
  P <- unwrap o ;;
  N <- ept_neg ck P ;;
  ept_compress ck N.

(** ** Scalar multiplication, generic in the point type

    The trait bounds (`Add`, `Double`, `Sub`, `Identity`) become parameters. *)

(** 111-118 loop of `double_and_add`. *)
Fixpoint double_and_add_loop {T : Type} (add : T -> T -> res T) (double : T -> res T)
  (fuel : nat) (N : T) (n : sc) (Q : T) : res T :=
  match fuel with
  | O => NoFuel
  | S fuel' =>
    if negb (sc_eqb n sc_zero) then
      Q <- (if negb (sc_is_even n) then add Q N else Ok Q) ;;
      N <- double N ;;
      double_and_add_loop add double fuel' N (sc_half_without_mod n) Q
    else Ok Q
  end.

(** 102-120 `double_and_add`. *)
Definition double_and_add {T : Type} (add : T -> T -> res T) (double : T -> res T) (identity : T)
  (point : T) (scalar : sc) : res T :=
  double_and_add_loop add double loop_fuel point scalar identity.

(** 129-132 loop of `ltr_bin_mul`: [i] counts the indices still to visit, the
    next one is [i - 1]. *)
Fixpoint ltr_bin_mul_loop {T : Type} (add : T -> T -> res T) (double : T -> res T)
  (point : T) (bits : list Z) (i : nat) (Q : T) : res T :=
  match i with
  | O => Ok Q
  | S i' =>
    Q <- double Q ;;
    b <- unwrap (nth_error bits i') ;;
    Q <- (if b =? 1 then add Q point else Ok Q) ;;
    ltr_bin_mul_loop add double point bits i' Q
  end.

(** 122-134 `ltr_bin_mul`. *)
Definition ltr_bin_mul {T : Type} (add : T -> T -> res T) (double : T -> res T) (identity : T)
  (point : T) (scalar : sc) : res T :=
  ltr_bin_mul_loop add double point (sc_into_bits scalar) 249 identity.

(** 144-151 loop of `binary_naf_mul`. *)
Fixpoint binary_naf_mul_loop {T : Type} (add sub : T -> T -> res T) (double : T -> res T)
  (point : T) (k_naf : list Z) (i : nat) (Q : T) : res T :=
  match i with
  | O => Ok Q
  | S i' =>
    Q <- double Q ;;
    k <- unwrap (nth_error k_naf i') ;;
    Q <- (if k =? 1 then add Q point else if k =? -1 then sub Q point else Ok Q) ;;
    binary_naf_mul_loop add sub double point k_naf i' Q
  end.

(** 136-153 `binary_naf_mul`. *)
Definition binary_naf_mul {T : Type} (ck : bool) (add sub : T -> T -> res T) (double : T -> res T)
  (identity : T) (point : T) (scalar : sc) : res T :=
  k_naf <- sc_compute_NAF ck scalar ;;
  binary_naf_mul_loop add sub double point k_naf 250 identity.

(** 547-577 `Mul<Scalar> for EdwardsPoint` (both impls). *)
Definition ept_mul (ck : bool) (P : ept) (n : sc) : res ept :=
  double_and_add (ept_add ck) (ept_double ck) ept_identity P n.

(** 881-913 `Mul<Scalar> for ProjectivePoint` (both impls). *)
Definition ppt_mul (ck : bool) (P : ppt) (n : sc) : res ppt :=
  double_and_add (ppt_add ck) (ppt_double ck) ppt_identity P n.

(** 174-179 `mul_by_cofactor`, [mul] being the `Mul<&Scalar>` of the type. *)
Definition mul_by_cofactor {T : Type} (mul : T -> sc -> res T) (P : T) : res T :=
  mul P (sc_from_u8 8).

(** 186-191 `mul_by_pow_2` ([k] is a u64). *)
Definition mul_by_pow_2 {T : Type} (ck : bool) (mul : T -> sc -> res T) (P : T) (k : Z) : res T :=
  s <- sc_two_pow_k ck k ;; mul P s.
