(** * The unit tests of the repository, run on the model

    The slow part of Vectors.v, not part of the build: about half an hour of evaluation.
    After building, from /verif/rocq/theories:
      cp ../../tools/heavy_vectors.txt /tmp/HeavyVectors.v
      coqc -Q . Verif /tmp/HeavyVectors.v                                              *)
From Coq Require Import ZArith List Bool.
From Verif Require Import Machine FieldModel ScalarModel EdwardsModel RistrettoModel VectorData.
Import ListNotations.
Local Open Scope Z_scope.

(** `for i in 0..5 { assert!(a[i] == b[i]) }` on field elements. *)
Definition feq (a b : fe) : bool :=
  (f0 a =? f0 b) && (f1 a =? f1 b) && (f2 a =? f2 b) && (f3 a =? f3 b) && (f4 a =? f4 b).

(** The same on scalars. *)
Definition seq5 (a b : sc) : bool :=
  (s0 a =? s0 b) && (s1 a =? s1 b) && (s2 a =? s2 b) && (s3 a =? s3 b) && (s4 a =? s4 b).

(** ** src/backend/u64/field.rs *)

(** 1243-1260 `division`. *)
Example division :
  (a <- fe_neg true (FE 86649 0 0 0 0) ;; r <- fe_div_val true a (FE 86650 0 0 0 0) ;;
   Ok (fe_eqb r (FE 939392471225133 587442007554368 4497154776428662 4184267646867733
                    2921744366591))) = Ok true.
Proof. vm_cast_no_check (eq_refl (Ok true)). Qed.

(** 1263-1269 `a_pow_b`. *)
Example a_pow_b :
  (r <- fe_pow true tf_A tf_C ;; r2 <- fe_pow true tf_A tf_B ;;
   Ok (fe_eqb r tf_A_POW_C && fe_eqb r2 tf_A_POW_B)) = Ok true.
Proof. vm_cast_no_check (eq_refl (Ok true)). Qed.

(** 1272-1279 `legendre_symbol`. *)
Example legendre_symbol :
  (h <- fe_half true fe_minus_one ;;
   r1 <- fe_legendre_symbol true tf_A ;; r2 <- fe_legendre_symbol true (fe_from_u8 17) ;;
   Ok (negb r1 && r2)) = Ok true.
Proof. vm_cast_no_check (eq_refl (Ok true)). Qed.

(** 1282-1296 `mod_sqrt_tonelli_shanks`. *)
Example mod_sqrt_tonelli_shanks :
  (o <- fe_mod_sqrt true (fe_from_u8 17) false ;; s <- unwrap o ;;
   o1 <- fe_mod_sqrt true (fe_from_u8 17) true ;; s1 <- unwrap o1 ;;
   o2 <- fe_mod_sqrt true fe_zero false ;; s2 <- unwrap o2 ;;
   o3 <- fe_mod_sqrt true fe_zero true ;; s3 <- unwrap o3 ;;
   Ok (fe_eqb s tf_SQRT1_27_NEG && fe_eqb s1 tf_SQRT1_27_POS
       && fe_eqb s2 fe_zero && fe_eqb s3 fe_zero)) = Ok true.
Proof. vm_cast_no_check (eq_refl (Ok true)). Qed.

(** 1299-1303 `inv_sqrt`. *)
Example inv_sqrt :
  (p <- fe_inv_sqrt true (fe_from_u8 27) ;; r <- fe_neg true (snd p) ;;
   Ok (fe_eqb r tf_INV_SQRT_27)) = Ok true.
Proof. vm_cast_no_check (eq_refl (Ok true)). Qed.

(** 1307-1311 `non_QRmod_sqrt_tonelli_shanks`. *)
Example non_QRmod_sqrt_tonelli_shanks :
  (o <- fe_mod_sqrt true tf_A false ;; o' <- fe_mod_sqrt true tf_A true ;;
   Ok (match o, o' with None, None => true | _, _ => false end)) = Ok true.
Proof. vm_cast_no_check (eq_refl (Ok true)). Qed.

(** 1532-1547 `savas_koc_inverse`. *)
Example savas_koc_inverse :
  (a <- fe_inverse true tf_A ;; b <- fe_inverse true tf_B ;; c <- fe_inverse true tf_C ;;
   Ok (feq a tf_INV_MOD_A && feq b tf_INV_MOD_B && feq c tf_INV_MOD_C)) = Ok true.
Proof. vm_cast_no_check (eq_refl (Ok true)). Qed.

(** ** src/backend/u64/scalar.rs *)

(** 930-934 `mod_pow`. *)
Example mod_pow :
  (r <- sc_pow true ts_A ts_B ;; Ok (sc_eqb r ts_A_POW_B)) = Ok true.
Proof. vm_cast_no_check (eq_refl (Ok true)). Qed.

(** ** src/edwards.rs *)

(** 1358-1360 `from_projective_to_extended`. *)
Example from_projective_to_extended :
  (e <- ept_of_ppt true te_P1_PROJECTIVE ;; ept_eqb true e te_P1_EXTENDED) = Ok true.
Proof. vm_cast_no_check (eq_refl (Ok true)). Qed.

(** 1363-1365 `from_extended_to_projective`. *)
Example from_extended_to_projective :
  ppt_eqb true te_P1_PROJECTIVE (ppt_of_ept te_P1_EXTENDED) = Ok true.
Proof. vm_cast_no_check (eq_refl (Ok true)). Qed.

(** 1368-1379 `extended_point_neg`, 1382-1386 `extended_coords_neg_identity`. *)
Example extended_point_neg :
  (r <- ept_neg true ept_identity ;; ept_eqb true r (EP fe_zero fe_one fe_one fe_zero)) = Ok true.
Proof. vm_cast_no_check (eq_refl (Ok true)). Qed.

(** 1389-1392 `extended_point_addition`. *)
Example extended_point_addition :
  (r <- ept_add true te_P1_EXTENDED te_P2_EXTENDED ;; ept_eqb true r te_P4_EXTENDED) = Ok true.
Proof. vm_cast_no_check (eq_refl (Ok true)). Qed.

(** 1395-1398 `extended_point_doubling_by_addition`. *)
Example extended_point_doubling_by_addition :
  (r <- ept_add true te_P1_EXTENDED te_P1_EXTENDED ;; ept_eqb true r te_P3_EXTENDED) = Ok true.
Proof. vm_cast_no_check (eq_refl (Ok true)). Qed.

(** 1401-1408 `extended_point_doubling`. *)
Example extended_point_doubling :
  (r <- ept_double true te_P1_EXTENDED ;; b <- ept_eqb true r te_P3_EXTENDED ;;
   i <- ept_double true ept_identity ;; b' <- ept_eqb true ept_identity i ;; Ok (b && b')) = Ok true.
Proof. vm_cast_no_check (eq_refl (Ok true)). Qed.

(** 1411-1418 `extended_double_and_add`. *)
Example extended_double_and_add :
  (a <- ept_double true te_P1_EXTENDED ;; a <- ept_double true a ;; a <- ept_double true a ;;
   r <- ept_mul true te_P1_EXTENDED (sc_from_u8 8) ;; ept_eqb true a r) = Ok true.
Proof. vm_cast_no_check (eq_refl (Ok true)). Qed.

(** 1421-1448 `extended_point_generation`. *)
Example extended_point_generation :
  (o2 <- ept_new_from_y_coord true (aY te_P2_AFFINE) false ;; p2 <- unwrap o2 ;;
   b2 <- ept_eqb true p2 te_P2_EXTENDED ;;
   o1 <- ept_new_from_y_coord true (aY te_P1_AFFINE) false ;; p1 <- unwrap o1 ;;
   b1 <- ept_eqb true p1 te_P1_EXTENDED ;;
   o <- ept_new_from_y_coord true (fe_from_u8 15) false ;;
   Ok (b1 && b2 && match o with None => true | Some _ => false end)) = Ok true.
Proof. vm_cast_no_check (eq_refl (Ok true)). Qed.

(** 1451-1461 `projective_point_neg`, 1464-1468 `projective_coords_neg_identity`. *)
Example projective_point_neg :
  (r <- ppt_neg true ppt_identity ;; ppt_eqb true r (PP fe_zero fe_one fe_one)) = Ok true.
Proof. vm_cast_no_check (eq_refl (Ok true)). Qed.

(** 1471-1475 `projective_point_addition`. *)
Example projective_point_addition :
  (r <- ppt_add true te_P1_PROJECTIVE te_P2_PROJECTIVE ;; ppt_eqb true r te_P4_PROJECTIVE) = Ok true.
Proof. vm_cast_no_check (eq_refl (Ok true)). Qed.

(** 1478-1482 `projective_point_doubling`. *)
Example projective_point_doubling :
  (r <- ppt_double true te_P1_PROJECTIVE ;; ppt_eqb true r te_P3_PROJECTIVE) = Ok true.
Proof. vm_cast_no_check (eq_refl (Ok true)). Qed.

(** 1485-1492 `projective_double_and_add`. *)
Example projective_double_and_add :
  (a <- ppt_double true te_P1_PROJECTIVE ;; a <- ppt_double true a ;; a <- ppt_double true a ;;
   r <- ppt_mul true te_P1_PROJECTIVE (sc_from_u8 8) ;; ppt_eqb true a r) = Ok true.
Proof. vm_cast_no_check (eq_refl (Ok true)). Qed.

(** 1495-1522 `projective_point_generation`. *)
Example projective_point_generation :
  (o2 <- ppt_new_from_y_coord true (aY te_P2_AFFINE) false ;; p2 <- unwrap o2 ;;
   b2 <- ppt_eqb true p2 te_P2_PROJECTIVE ;;
   o1 <- ppt_new_from_y_coord true (aY te_P1_AFFINE) false ;; p1 <- unwrap o1 ;;
   b1 <- ppt_eqb true p1 te_P1_PROJECTIVE ;;
   o <- ppt_new_from_y_coord true (fe_from_u8 15) false ;;
   Ok (b1 && b2 && match o with None => true | Some _ => false end)) = Ok true.
Proof. vm_cast_no_check (eq_refl (Ok true)). Qed.

(** 1525-1539 `affine_point_ct_eq`, 1542-1547 `affine_point_eq`. *)
Example affine_point_eq :
  (a <- apt_of_ppt true te_P3_PROJECTIVE ;; d <- ppt_double true te_P1_PROJECTIVE ;;
   b <- apt_of_ppt true d ;;
   Ok (negb (apt_eqb te_P1_AFFINE te_P2_AFFINE) && apt_eqb te_P1_AFFINE te_P1_AFFINE
       && apt_eqb a b)) = Ok true.
Proof. vm_cast_no_check (eq_refl (Ok true)). Qed.

(** 1550-1562 `point_compression`. *)
Example point_compression :
  (c <- cey_from_slice te_slice0 ;; d <- ept_compress true te_P1_EXTENDED ;;
   c2 <- cey_from_slice te_slice1 ;; d2 <- ept_compress true te_P2_EXTENDED ;;
   Ok (cey_eqb c d && cey_eqb c2 d2)) = Ok true.
Proof. vm_cast_no_check (eq_refl (Ok true)). Qed.

(** 1565-1577 `point_decompression`. *)
Example point_decompression :
  (o1 <- cey_decompress true te_P1_COMPRESSED ;; p1 <- unwrap o1 ;;
   b1 <- ept_eqb true p1 te_P1_EXTENDED ;;
   o2 <- cey_decompress true te_P2_COMPRESSED ;; p2 <- unwrap o2 ;;
   b2 <- ept_eqb true p2 te_P2_EXTENDED ;;
   c <- cey_from_slice te_slice2 ;; o <- cey_decompress true c ;;
   Ok (b1 && b2 && match o with None => true | Some _ => false end)) = Ok true.
Proof. vm_cast_no_check (eq_refl (Ok true)). Qed.

(** 1580-1591 `validity_check`. *)
Example edwards_validity_check :
  (a <- apt_is_valid true apt_identity ;; b <- apt_is_valid true te_P1_AFFINE ;;
   c <- apt_is_valid true te_P2_AFFINE ;; d <- ept_is_valid true ept_identity ;;
   e <- ept_is_valid true te_P1_EXTENDED ;; f <- ppt_is_valid true te_P2_PROJECTIVE ;;
   g <- ept_is_valid true te_P4_EXTENDED ;;
   Ok (a && b && c && d && e && f && g)) = Ok true.
Proof. vm_cast_no_check (eq_refl (Ok true)). Qed.

(** 1594-1600 `unique_basepoint_test`. *)
Example unique_basepoint_test :
  (y <- fe_div_val true (fe_from_u8 3) (fe_from_u8 5) ;;
   o <- ept_new_from_y_coord true y false ;; B <- unwrap o ;;
   v <- ept_is_valid true B ;; r <- ept_mul true B SC_L ;;
   b <- ept_eqb true r ept_identity ;; Ok (v && b)) = Ok true.
Proof. vm_cast_no_check (eq_refl (Ok true)). Qed.

(** 1603-1605 `left_to_right_bin_mul`. *)
Example left_to_right_bin_mul :
  (k <- sc_two_pow_k true 215 ;; a <- ept_mul true te_P1_EXTENDED k ;;
   b <- ltr_bin_mul (ept_add true) (ept_double true) ept_identity te_P1_EXTENDED k ;;
   ept_eqb true a b) = Ok true.
Proof. vm_cast_no_check (eq_refl (Ok true)). Qed.

(** 1608-1617 `naf_bin_mul`. *)
Example naf_bin_mul_7 :
  (t <- sc_two_pow_k true 7 ;;
   a <- ept_mul true te_P1_EXTENDED t ;;
   b <- binary_naf_mul true (ept_add true) (ept_sub true) (ept_double true) ept_identity
          te_P1_EXTENDED t ;; ept_eqb true a b) = Ok true.
Proof. vm_cast_no_check (eq_refl (Ok true)). Qed.

(** 1608-1617 `naf_bin_mul`. *)
Example naf_bin_mul_215 :
  (t <- sc_two_pow_k true 215 ;;
   a <- ept_mul true te_P1_EXTENDED t ;;
   b <- binary_naf_mul true (ept_add true) (ept_sub true) (ept_double true) ept_identity
          te_P1_EXTENDED t ;; ept_eqb true a b) = Ok true.
Proof. vm_cast_no_check (eq_refl (Ok true)). Qed.

(** 1608-1617 `naf_bin_mul`. *)
Example naf_bin_mul_249 :
  (t <- (p <- sc_two_pow_k true 249 ;; sc_sub true p sc_one) ;;
   a <- ept_mul true te_P1_EXTENDED t ;;
   b <- binary_naf_mul true (ept_add true) (ept_sub true) (ept_double true) ept_identity
          te_P1_EXTENDED t ;; ept_eqb true a b) = Ok true.
Proof. vm_cast_no_check (eq_refl (Ok true)). Qed.

(** 1608-1617 `naf_bin_mul`. *)
Example naf_bin_mul_minus_one :
  (t <- Ok sc_minus_one ;;
   a <- ept_mul true te_P1_EXTENDED t ;;
   b <- binary_naf_mul true (ept_add true) (ept_sub true) (ept_double true) ept_identity
          te_P1_EXTENDED t ;; ept_eqb true a b) = Ok true.
Proof. vm_cast_no_check (eq_refl (Ok true)). Qed.

(** ** src/ristretto.rs *)

(** 534-539 `basepoint_compr_decompr`. *)
Example basepoint_compr_decompr :
  (c <- rp_compress true BASEPOINT ;; o <- cr_decompress true c ;; d <- unwrap o ;; rp_eqb true d BASEPOINT) = Ok true.
Proof. vm_cast_no_check (eq_refl (Ok true)). Qed.

(** 570-578, the loop of `valid_encoding_test_vectors`. *)
Fixpoint check_encodings (P : ept) (l : list (list Z)) : res bool :=
  match l with
  | [] => Ok true
  | e :: l' =>
    c <- rp_compress true P ;;
    P' <- rp_add true P RISTRETTO_BASEPOINT ;;
    r <- check_encodings P' l' ;;
    Ok (bytes_eqb c e && r)
  end.

(** 542-579 `valid_encoding_test_vectors`. *)
Example valid_encoding_test_vectors :
  check_encodings rp_identity tr_encodings = Ok true.
Proof. vm_cast_no_check (eq_refl (Ok true)). Qed.

(** 582-594 `decompress_id`. *)
Example decompress_id :
  (o <- cr_decompress true cr_identity ;; i <- unwrap o ;; cs <- ept_coset4 true i ;;
   c0 <- unwrap (nth_error cs 0) ;; c1 <- unwrap (nth_error cs 1) ;;
   c2 <- unwrap (nth_error cs 2) ;; c3 <- unwrap (nth_error cs 3) ;;
   e0 <- ept_compress true c0 ;; e1 <- ept_compress true c1 ;;
   e2 <- ept_compress true c2 ;; e3 <- ept_compress true c3 ;;
   Ok (cey_eqb e0 cey_identity || cey_eqb e1 cey_identity
       || cey_eqb e2 cey_identity || cey_eqb e3 cey_identity)) = Ok true.
Proof. vm_cast_no_check (eq_refl (Ok true)). Qed.

(** 597-612 `four_torsion_diff`. *)
Example four_torsion_diff :
  (c <- rp_compress true RISTRETTO_BASEPOINT ;; o <- cr_decompress true c ;; d <- unwrap o ;;
   p <- ept_sub true RISTRETTO_BASEPOINT d ;; v <- mul_by_pow_2 true (ept_mul true) p 2 ;;
   e <- ept_compress true v ;; Ok (cey_eqb e cey_identity)) = Ok true.
Proof. vm_cast_no_check (eq_refl (Ok true)). Qed.

(** 633-640 `four_coset_eq_basepoint`. *)
Example four_coset_eq_basepoint :
  (cs <- rp_coset4 true RISTRETTO_BASEPOINT ;;
   c0 <- unwrap (nth_error cs 0) ;; c1 <- unwrap (nth_error cs 1) ;;
   c2 <- unwrap (nth_error cs 2) ;; c3 <- unwrap (nth_error cs 3) ;;
   b0 <- rp_eqb true c0 RISTRETTO_BASEPOINT ;; b1 <- rp_eqb true c1 RISTRETTO_BASEPOINT ;;
   b2 <- rp_eqb true c2 RISTRETTO_BASEPOINT ;; b3 <- rp_eqb true c3 RISTRETTO_BASEPOINT ;;
   Ok (b0 && b1 && b2 && b3)) = Ok true.
Proof. vm_cast_no_check (eq_refl (Ok true)). Qed.

(** 648-651, the loop of `validity_check`. *)
Fixpoint check_valid (P : ept) (n : nat) : res bool :=
  match n with
  | O => Ok true
  | S n' =>
    v <- rp_is_valid true P ;;
    P' <- rp_add true P RISTRETTO_BASEPOINT ;;
    r <- check_valid P' n' ;;
    Ok (v && r)
  end.

(** 643-651 `validity_check`. *)
Example ristretto_validity_check_multiples :
  (v <- rp_is_valid true RISTRETTO_BASEPOINT ;; r <- check_valid rp_identity 16 ;; Ok (v && r)) = Ok true.
Proof. vm_cast_no_check (eq_refl (Ok true)). Qed.

(** 653-663 `validity_check`. *)
Example ristretto_validity_check_8L :
  (o <- ept_new_from_y_coord true (fe_from_bytes tr_y_8L) false ;; p <- unwrap o ;;
   v <- ept_is_valid true p ;; r <- rp_is_valid true p ;; Ok (v && negb r)) = Ok true.
Proof. vm_cast_no_check (eq_refl (Ok true)). Qed.

(** 679-719 `elligator_vs_ristretto_sage`. *)
Example elligator_vs_ristretto_sage :
  (v <- rp_is_valid true tr_expected ;; q <- rp_elligator true (fe_from_bytes tr_raw) ;;
   b <- ept_is_valid true q ;; e <- rp_eqb true q tr_expected ;;
   c <- rp_compress true q ;; c' <- rp_compress true tr_expected ;;
   Ok (v && b && e && cr_eqb c c')) = Ok true.
Proof. vm_cast_no_check (eq_refl (Ok true)). Qed.
