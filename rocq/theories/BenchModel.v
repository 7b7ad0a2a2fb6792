(** * The benchmark programs

    benchmarks/dusk_benchmarks.rs.  A benchmark runs one closure many times on a fixed
    input; here each closure is run once, in the order of the file, and the values it
    computes are returned.  The literal inputs are parameters; [*_literals] at the end fill
    them in.  A call whose closure panics stops the program.  The outputs of the random
    generator are parameters. *)

From Coq Require Import ZArith List Bool.
From Verif Require Import Machine FieldModel ScalarModel EdwardsModel TableModel RistrettoModel DocTestModel.
Import ListNotations.
Open Scope Z_scope.

(** dusk_benchmarks.rs 36-120 `bench_field_element_ops`: [A], [B] are `inp`, [s] is the choice
    of line 38, [k] is `pow`; [draw] is the output of the generator in line 119. *)
Definition bench_field_element_ops (ck : bool) (A B : fe) (s : bool) (k : Z) (draw : list Z)
    : res (list fe * bool * option fe * (bool * fe) * (bool * fe)) :=
  r1 <- fe_add ck B A ;;
  r2 <- fe_sub ck A B ;;
  r3 <- fe_mul ck A B ;;
  r4 <- fe_div_val ck A B ;;
  r5 <- fe_square ck B ;;
  r6 <- fe_half ck A ;;
  r7 <- fe_two_pow_k ck k ;;
  r8 <- fe_pow ck A B ;;
  leg <- fe_legendre_symbol ck A ;;
  root <- fe_mod_sqrt ck A s ;;
  r9 <- fe_inverse ck A ;;
  ratio <- fe_sqrt_ratio_i ck A B ;;
  invs <- fe_inv_sqrt ck A ;;
  r10 <- fe_random draw ;;
  Ok ([r1; r2; r3; r4; r5; r6; r7; r8; r9; r10], leg, root, ratio, invs).

(** 139-216 `bench_scalar_element_ops`: [C], [D] and [w] are `inp`, [k] is `pow`, [n] is the
    shift of line 193.  The digit lists are those of `into_bits`, `compute_NAF` and
    `compute_window_NAF`. *)
Definition bench_scalar_element_ops (ck : bool) (C D : sc) (w k n : Z) (draw : list Z)
    : res (list sc * Z * list Z * list Z * list Z) :=
  r1 <- sc_add ck C D ;;
  r2 <- sc_sub ck C D ;;
  r3 <- sc_mul ck C D ;;
  r4 <- sc_square ck D ;;
  r5 <- sc_half ck C ;;
  r6 <- sc_two_pow_k ck k ;;
  r7 <- sc_pow ck C D ;;
  let bits := sc_into_bits D in
  let r8 := sc_shr D n in
  m <- sc_mod_2_pow_k ck D w ;;
  naf <- sc_compute_NAF ck D ;;
  wnaf <- sc_compute_window_NAF ck D w ;;
  r9 <- sc_random draw ;;
  Ok ([r1; r2; r3; r4; r5; r6; r7; r8; r9], m, bits, naf, wnaf).

(** 301-343 `bench_extended_point_ops`. *)
Definition bench_extended_point_ops (ck : bool) (P Q : ept) (D : sc) (y : fe) (s : bool) (draws : list (list Z))
    : res (list ept * option ept) :=
  r1 <- ept_add ck P Q ;;
  r2 <- ept_sub ck P Q ;;
  r3 <- ept_double ck P ;;
  r4 <- ept_mul ck P D ;;
  o <- ept_new_from_y_coord ck y s ;;
  r5 <- ept_new_random_point ck draws ;;
  Ok ([r1; r2; r3; r4; r5], o).

(** 345-387 `bench_projective_point_ops`. *)
Definition bench_projective_point_ops (ck : bool) (P Q : ppt) (D : sc) (y : fe) (s : bool) (draws : list (list Z))
    : res (list ppt * option ppt) :=
  r1 <- ppt_add ck P Q ;;
  r2 <- ppt_sub ck P Q ;;
  r3 <- ppt_double ck P ;;
  r4 <- ppt_mul ck P D ;;
  o <- ppt_new_from_y_coord ck y s ;;
  r5 <- ppt_new_random_point ck draws ;;
  Ok ([r1; r2; r3; r4; r5], o).

(** 389-403 `bench_point_compression_decompression`. *)
Definition bench_point_compression_decompression (ck : bool) (b : list Z) (P : ept) : res (list Z * ept) :=
  c <- ept_compress ck P ;;
  o <- cey_decompress ck b ;;
  Q <- unwrap_option o ;;
  Ok (c, Q).

(** 418-447 `bench_ristretto_point_ops`. *)
Definition bench_ristretto_point_ops (ck : bool) (P : ept) (D : sc) (draw : list Z) : res (list ept) :=
  r1 <- rp_add ck P P ;;
  n <- rp_neg ck P ;;
  r2 <- rp_add ck P n ;;
  r3 <- rp_double ck P ;;
  r4 <- rp_mul ck P D ;;
  r5 <- rp_new_random_point ck draw ;;
  Ok [r1; r2; r3; r4; r5].

(** 449-484 `bench_ristretto_protocol_impl`. *)
Definition bench_ristretto_protocol_impl (ck : bool) (P : ept) (r : fe) (b : list Z) : res (list Z * ept * ept * bool) :=
  c <- rp_compress ck P ;;
  o <- cr_decompress ck b ;;
  Q <- unwrap_option o ;;
  E <- rp_elligator ck r ;;
  e <- rp_eqb ck P P ;;
  Ok (c, Q, E, e).

(** 520-557 `bench_point_ops_impl`: [i] is the point of line 521, [P], [D] the pair of line
    522, [w] the width of line 554.  Line 527 calls `old_half`, which the crate does not
    define; it is left out. *)
Definition bench_point_ops_impl (ck : bool) (i P : ept) (D : sc) (w : Z) : res (fe * bool * bool * list ept) :=
  h <- fe_half ck (eT i) ;;
  c1 <- rp_compress ck i ;;
  c2 <- rp_compress ck i ;;
  e <- rp_eqb ck i i ;;
  m1 <- double_and_add (rp_add ck) (rp_double ck) rp_identity P D ;;
  m2 <- ltr_bin_mul (rp_add ck) (rp_double ck) rp_identity P D ;;
  m3 <- binary_naf_mul ck (rp_add ck) (rp_sub ck) (rp_double ck) rp_identity P D ;;
  m4 <- window_naf_mul ck D w ;;
  Ok (h, cr_eqb c1 c2, e, [m1; m2; m3; m4]).

(** 562-567, 578-583, 594-599 `generate_kp_ltrs`, `generate_kp_binary_naf`,
    `generate_kp_double_add`: they differ in the multiplication. *)
Definition generate_kp (mul : ept -> sc -> res ept) (draw : list Z) : res (sc * ept) :=
  sk <- sc_random draw ;;
  pk <- mul RISTRETTO_BASEPOINT sk ;;
  Ok (sk, pk).

(** 569-575, 585-591, 601-607 `ecdh_ltrs`, `ecdh_binary_naf`, `ecdh_double_add`: the two
    points computed. *)
Definition ecdh (mul : ept -> sc -> res ept) (draw1 draw2 : list Z) : res (ept * ept) :=
  '(ask, apk) <- generate_kp mul draw1 ;;
  '(bsk, bpk) <- generate_kp mul draw2 ;;
  S1 <- mul bpk ask ;;
  S2 <- mul apk bsk ;;
  Ok (S1, S2).

(** 564, 573-574: `ltr_bin_mul` on Ristretto points. *)
Definition ecdh_ltrs (ck : bool) : list Z -> list Z -> res (ept * ept) :=
  ecdh (ltr_bin_mul (rp_add ck) (rp_double ck) rp_identity).
(** 580, 589-590: `binary_naf_mul` on Ristretto points. *)
Definition ecdh_binary_naf (ck : bool) : list Z -> list Z -> res (ept * ept) :=
  ecdh (binary_naf_mul ck (rp_add ck) (rp_sub ck) (rp_double ck) rp_identity).
(** 596, 605-606: `double_and_add` on Ristretto points. *)
Definition ecdh_double_add (ck : bool) : list Z -> list Z -> res (ept * ept) :=
  ecdh (double_and_add (rp_add ck) (rp_double ck) rp_identity).

(** 25-31 `B`. *)
Definition bench_B : fe := FE 2766226127823335 4237835465749098 4503599626623787 4503599627370493 2199023255551.
(** 34 `A`. *)
Definition bench_A : fe := FE 0 0 0 2 0.
(** 128 `C`. *)
Definition bench_C : sc := SC 0 0 0 2 0.
(** 131-137 `D`; also 287-293, 410-416. *)
Definition bench_D : sc := SC 2766226127823335 4237835465749098 4503599626623787 4503599627370493 2199023255551.
(** 512-518 `D`. *)
Definition bench_D' : sc := SC 2766226127823334 4237835465749098 4503599626623787 4503599627370493 2199023255551.
(** 224-241 `P1_EXTENDED`; also 492-509. *)
Definition bench_P1 : ept :=
  EP (FE 13 0 0 0 0) (FE 606320128494542 1597163540666577 1835599237877421 1667478411389512 3232679738299)
     (FE 1 0 0 0 0) (FE 2034732376387996 3922598123714460 1344791952818393 3662820838581677 6840464509059).
(** 304-310, 348-354, 452-458: the ordinate. *)
Definition bench_y : fe := FE 2369245568431362 2665603790611352 3317390952748653 1908583331312524 8011773354506.
(** 243-260 `P2_EXTENDED`. *)
Definition bench_P2 : ept :=
  EP (FE 67 0 0 0 0) bench_y
     (FE 1 0 0 0 0) (FE 3474019263728064 2548729061993416 1588812051971430 1774293631565269 9023233419450).
(** 262-272 `P1_PROJECTIVE`. *)
Definition bench_P1_proj : ppt :=
  PP (FE 13 0 0 0 0) (FE 606320128494542 1597163540666577 1835599237877421 1667478411389512 3232679738299) (FE 1 0 0 0 0).
(** 274-284 `P2_PROJECTIVE`. *)
Definition bench_P2_proj : ppt := PP (FE 67 0 0 0 0) bench_y (FE 1 0 0 0 0).
(** 296-299 `P1_COMPRESSED`. *)
Definition bench_P1_compressed : list Z :=
  [206; 11; 225; 231; 113; 39; 18; 141; 213; 215; 201; 201; 90; 173; 14; 134; 192; 119; 133;
   134; 164; 26; 38; 1; 201; 94; 187; 59; 186; 170; 240; 2].

(** 624-635 `criterion_group!`: all groups on their literals; 612-620 `bench_ecdh` is the three
    exchanges.  [d] are eight generator outputs of 32 bytes, [ds], [ds'] those
    drawn for random points, [b64] one of 64 bytes. *)
Definition benchmarks_literals (ck : bool) (d : list (list Z)) (ds ds' : list (list Z)) (b64 : list Z) : res unit :=
  _ <- bench_point_ops_impl ck bench_P1 RISTRETTO_BASEPOINT bench_D' 5 ;;
  _ <- ecdh_double_add ck (nth 0 d []) (nth 1 d []) ;;
  _ <- ecdh_ltrs ck (nth 2 d []) (nth 3 d []) ;;
  _ <- ecdh_binary_naf ck (nth 4 d []) (nth 5 d []) ;;
  _ <- bench_field_element_ops ck bench_A bench_B true 249 (nth 6 d []) ;;
  _ <- bench_scalar_element_ops ck bench_C bench_D 4 215 135 (nth 7 d []) ;;
  _ <- bench_extended_point_ops ck bench_P1 bench_P2 bench_D bench_y true ds ;;
  _ <- bench_projective_point_ops ck bench_P1_proj bench_P2_proj bench_D bench_y true ds' ;;
  _ <- bench_point_compression_decompression ck bench_P1_compressed bench_P1 ;;
  _ <- bench_ristretto_point_ops ck RISTRETTO_BASEPOINT bench_D b64 ;;
  _ <- bench_ristretto_protocol_impl ck RISTRETTO_BASEPOINT bench_y RISTRETTO_BASEPOINT_COMPRESSED ;;
  Ok tt.
