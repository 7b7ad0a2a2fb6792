{
 "claims": [
  {
   "property": "C01",
   "status": "proved",
   "theorems": [
    "C01_add",
    "C01_sub",
    "C01_neg"
   ],
   "note": ""
  },
  {
   "property": "C02",
   "status": "proved",
   "theorems": [
    "C02_mul",
    "C02_square"
   ],
   "note": ""
  },
  {
   "property": "C03",
   "status": "proved",
   "theorems": [
    "C03_inverse",
    "C03_inverse_zero",
    "C03_inverse_p"
   ],
   "note": "C03_inverse also covers unreduced inputs that are nonzero modulo p; C03_inverse_p records that the unreduced zero p does not panic."
  },
  {
   "property": "C04",
   "status": "proved",
   "theorems": [
    "C04_div",
    "C04_div_zero"
   ],
   "note": ""
  },
  {
   "property": "C05",
   "status": "proved",
   "theorems": [
    "C05_half",
    "C05_half_without_mod",
    "C05_odd_panics_refuted"
   ],
   "note": "C05_odd_panics_refuted: the documented panic of half_without_mod on odd elements does not happen."
  },
  {
   "property": "C06",
   "status": "proved",
   "theorems": [
    "C06_pow"
   ],
   "note": ""
  },
  {
   "property": "C07",
   "status": "proved",
   "theorems": [
    "C07_legendre"
   ],
   "note": ""
  },
  {
   "property": "C08",
   "status": "proved",
   "theorems": [
    "C08_mod_sqrt",
    "C08_signs"
   ],
   "note": ""
  },
  {
   "property": "C09",
   "status": "proved",
   "theorems": [
    "C09_sign_refuted"
   ],
   "note": "The documented sign convention is false; the theorem exhibits squares for which Choice(1) returns the negative and the positive root."
  },
  {
   "property": "C10",
   "status": "proved",
   "theorems": [
    "C10_sqrt_ratio_i",
    "C10_inv_sqrt"
   ],
   "note": ""
  },
  {
   "property": "C11",
   "status": "proved",
   "theorems": [
    "C11_from_bytes",
    "C11_to_bytes",
    "C11_roundtrip"
   ],
   "note": ""
  },
  {
   "property": "C12",
   "status": "proved",
   "theorems": [
    "C12_cmp",
    "C12_is_positive",
    "C12_one_positive"
   ],
   "note": ""
  },
  {
   "property": "C13",
   "status": "proved",
   "theorems": [
    "C13_eq",
    "C13_eq_mod",
    "C13_unreduced_refuted"
   ],
   "note": "Documented equality modulo p of unreduced representations refuted by C13_unreduced_refuted."
  },
  {
   "property": "C14",
   "status": "proved",
   "theorems": [
    "C14_from_int",
    "C14_two_pow_k"
   ],
   "note": ""
  },
  {
   "property": "C15",
   "status": "proved",
   "theorems": [
    "C15_from_dalek",
    "C15_into_dalek",
    "C15_ref_into_dalek"
   ],
   "note": "Behaviour of the two curve25519-dalek constructors is part of the trusted base (FieldModel.v, dalek_*)."
  },
  {
   "property": "C16",
   "status": "proved",
   "theorems": [
    "C16_random",
    "C16_uniform_refuted"
   ],
   "note": "Documented uniformity refuted by C16_uniform_refuted."
  },
  {
   "property": "C17",
   "status": "proved",
   "theorems": [
    "C17_add",
    "C17_sub",
    "C17_neg"
   ],
   "note": ""
  },
  {
   "property": "C18",
   "status": "proved",
   "theorems": [
    "C18_mul",
    "C18_square"
   ],
   "note": ""
  },
  {
   "property": "C19",
   "status": "proved",
   "theorems": [
    "C19_half",
    "C19_half_without_mod",
    "C19_shr"
   ],
   "note": ""
  },
  {
   "property": "C20",
   "status": "proved",
   "theorems": [
    "C20_pow"
   ],
   "note": ""
  },
  {
   "property": "C21",
   "status": "proved",
   "theorems": [
    "C21_from_bytes",
    "C21_to_bytes"
   ],
   "note": ""
  },
  {
   "property": "C22",
   "status": "proved",
   "theorems": [
    "C22_into_bits"
   ],
   "note": ""
  },
  {
   "property": "C23",
   "status": "proved",
   "theorems": [
    "C23_naf"
   ],
   "note": ""
  },
  {
   "property": "C24",
   "status": "proved",
   "theorems": [
    "C24_wnaf",
    "C24_wnaf_six_refuted",
    "C24_wnaf_one_refuted",
    "C24_wnaf_seven_refuted",
    "C24_wnaf_eight_refuted"
   ],
   "note": "Correct for widths 2..5 and for width 6 except k = L-2, where it is refuted; widths 1, 7 (checked build) and 8 refuted."
  },
  {
   "property": "C25",
   "status": "proved",
   "theorems": [
    "C25_mod",
    "C25_mods",
    "C25_mod_trunc",
    "C25_mod_range_refuted",
    "C25_mods_range_refuted"
   ],
   "note": "Documented range up to 32 refuted."
  },
  {
   "property": "C26",
   "status": "proved",
   "theorems": [
    "C26_from_i8",
    "C26_min_refuted"
   ],
   "note": "-128 refuted."
  },
  {
   "property": "C27",
   "status": "proved",
   "theorems": [
    "C27_from_int",
    "C27_two_pow_k",
    "C27_cmp",
    "C27_eq",
    "C27_is_even"
   ],
   "note": ""
  },
  {
   "property": "C28",
   "status": "proved",
   "theorems": [
    "C28_random",
    "C28_uniform_refuted"
   ],
   "note": "Documented uniformity refuted by C28_uniform_refuted."
  },
  {
   "property": "C29",
   "status": "proved",
   "theorems": [
    "C29_add",
    "C29_double",
    "C29_complete"
   ],
   "note": ""
  },
  {
   "property": "C30",
   "status": "proved",
   "theorems": [
    "C30_comm",
    "C30_assoc",
    "C30_identity",
    "C30_inverse",
    "C30_sub"
   ],
   "note": ""
  },
  {
   "property": "C31",
   "status": "proved",
   "theorems": [
    "C31_neg",
    "C31_sub",
    "C31_neg_affine"
   ],
   "note": ""
  },
  {
   "property": "C32",
   "status": "proved",
   "theorems": [
    "C32_add",
    "C32_sub",
    "C32_neg",
    "C32_double",
    "C32_identity"
   ],
   "note": ""
  },
  {
   "property": "C33",
   "status": "proved",
   "theorems": [
    "C33_ext_to_proj",
    "C33_aff_to_proj",
    "C33_aff_to_ext",
    "C33_proj_to_ext",
    "C33_ext_to_aff",
    "C33_proj_to_aff",
    "C33_ext_to_aff_panics",
    "C33_proj_to_aff_panics"
   ],
   "note": ""
  },
  {
   "property": "C34",
   "status": "proved",
   "theorems": [
    "C34_ext_eq",
    "C34_proj_eq",
    "C34_aff_eq",
    "C34_valid_eq"
   ],
   "note": ""
  },
  {
   "property": "C35",
   "status": "partial",
   "theorems": [
    "C35_aff",
    "C35_proj",
    "C35_ext_partial",
    "C35_ext_with_T",
    "C35_zero_z_refuted",
    "C35_t_refuted"
   ],
   "note": "Exact for projective points with nonzero Z; is_valid of EdwardsPoint never looks at T and tuples with Z = 0 and X*Y = 0 are accepted (C35_t_refuted, C35_zero_z_refuted)."
  },
  {
   "property": "C36",
   "status": "proved",
   "theorems": [
    "C36_ext_mul",
    "C36_proj_mul",
    "C36_double_and_add"
   ],
   "note": ""
  },
  {
   "property": "C37",
   "status": "partial",
   "theorems": [
    "C37_ltr_low_bits",
    "C37_ltr_partial",
    "C37_ltr_refuted"
   ],
   "note": "C37_ltr_low_bits: the result is (n mod 2^249)*P; C37_ltr_partial: exact for scalars below 2^249; C37_ltr_refuted above."
  },
  {
   "property": "C38",
   "status": "proved",
   "theorems": [
    "C38_naf_mul",
    "C38_naf_mul_proj"
   ],
   "note": ""
  },
  {
   "property": "C39",
   "status": "proved",
   "theorems": [
    "C39_mul_add_points",
    "C39_mul_neg",
    "C39_mul_integers",
    "C39_scalar_add",
    "C39_scalar_mul",
    "C39_all_points_refuted"
   ],
   "note": "Reduction modulo L is compatible on multiples of the basepoint (C39_scalar_*); for other points such as (0,-1) it is not (C39_all_points_refuted)."
  },
  {
   "property": "C40",
   "status": "proved",
   "theorems": [
    "C40_cofactor",
    "C40_cofactor_proj",
    "C40_pow2",
    "C40_pow2_proj",
    "C40_pow2_panics"
   ],
   "note": ""
  },
  {
   "property": "C41",
   "status": "proved",
   "theorems": [
    "C41_ext",
    "C41_proj",
    "C41_signs",
    "C41_divisor"
   ],
   "note": ""
  },
  {
   "property": "C42",
   "status": "partial",
   "theorems": [
    "C42_compress",
    "C42_round_trip_partial",
    "C42_round_trip_refuted"
   ],
   "note": "C42_round_trip_partial is an equivalence: the round trip works exactly when y < 2^252; refuted for (0,-1)."
  },
  {
   "property": "C43",
   "status": "proved",
   "theorems": [
    "C43_decompress",
    "C43_sign",
    "C43_unique_refuted"
   ],
   "note": "Encodings are not unique: C43_unique_refuted."
  },
  {
   "property": "C44",
   "status": "proved",
   "theorems": [
    "C44_neg",
    "C44_panics"
   ],
   "note": ""
  },
  {
   "property": "C45",
   "status": "proved",
   "theorems": [
    "C45_ext",
    "C45_proj"
   ],
   "note": ""
  },
  {
   "property": "C46",
   "status": "partial",
   "theorems": [
    "C46_coset4_partial",
    "C46_coset4_refuted"
   ],
   "note": "The second entry is never a curve point; the coset element P + (-j,0) is missing. Refuted by C46_coset4_refuted."
  },
  {
   "property": "C47",
   "status": "proved",
   "theorems": [
    "C47_eq",
    "C47_torsion",
    "C47_equivalence",
    "C47_edwards"
   ],
   "note": ""
  },
  {
   "property": "C48",
   "status": "proved",
   "theorems": [
    "C48_congruence"
   ],
   "note": ""
  },
  {
   "property": "C49",
   "status": "proved",
   "theorems": [
    "C49_decode",
    "C49_canonical",
    "C49_unique"
   ],
   "note": ""
  },
  {
   "property": "C50",
   "status": "proved",
   "theorems": [
    "C50_round_trip",
    "C50_even",
    "C50_closed"
   ],
   "note": ""
  },
  {
   "property": "C51",
   "status": "proved",
   "theorems": [
    "C51_encodings"
   ],
   "note": ""
  },
  {
   "property": "C52",
   "status": "proved",
   "theorems": [
    "C52_elligator",
    "C52_image_unique",
    "C52_opposite"
   ],
   "note": ""
  },
  {
   "property": "C53",
   "status": "proved",
   "theorems": [
    "C53_uniform",
    "C53_random"
   ],
   "note": ""
  },
  {
   "property": "C54",
   "status": "proved",
   "theorems": [
    "C54_group",
    "C54_mul"
   ],
   "note": ""
  },
  {
   "property": "C55",
   "status": "proved",
   "theorems": [
    "C55_primes",
    "C55_order",
    "C55_mul_identity",
    "C55_faithful"
   ],
   "note": ""
  },
  {
   "property": "C56",
   "status": "partial",
   "theorems": [
    "C56_window",
    "C56_window_partial",
    "C56_window_refuted"
   ],
   "note": "C56_window describes the result for widths 2..6 exactly; only w = 2 computes k*B (C56_window_partial); widths 3..6 refuted."
  },
  {
   "property": "C57",
   "status": "proved",
   "theorems": [
    "C57_structure",
    "C57_count",
    "C57_even",
    "C57_order",
    "C57_generator"
   ],
   "note": ""
  },
  {
   "property": "C58",
   "status": "proved",
   "theorems": [
    "C58_is_valid",
    "C58_on_curve",
    "C58_reject_refuted"
   ],
   "note": "is_valid characterised exactly; its use as a Ristretto validity test is refuted by C58_reject_refuted."
  },
  {
   "property": "C59",
   "status": "proved",
   "theorems": [
    "C59_eq",
    "C59_default",
    "C59_mod_p_refuted"
   ],
   "note": "Exact characterisation; the documented equality modulo p is refuted by C59_mod_p_refuted."
  },
  {
   "property": "C60",
   "status": "proved",
   "theorems": [
    "C60_field",
    "C60_scalar",
    "C60_d_nonsquare",
    "C60_basepoint",
    "C60_sign",
    "C60_table"
   ],
   "note": "C60_sign: the basepoint's x is not positive in the sense of is_positive, contrary to the comment in constants.rs."
  },
  {
   "property": "C61",
   "status": "proved",
   "theorems": [
    "C61_slices",
    "C61_eq"
   ],
   "note": ""
  },
  {
   "property": "C62",
   "status": "proved",
   "theorems": [
    "C62_panics"
   ],
   "note": "The three functions consist of unimplemented!(), modelled as Panic."
  },
  {
   "property": "C63",
   "status": "proved",
   "theorems": [
    "C63_field",
    "C63_field_int",
    "C63_scalar",
    "C63_scalar_int",
    "C63_edwards",
    "C63_projective",
    "C63_encodings",
    "C63_ristretto",
    "C63_hash"
   ],
   "note": "compute_window_NAF: widths 2..6 without the refuted case of C24; from(i8): without -128; the two builds differ there."
  },
  {
   "property": "C64",
   "status": "proved",
   "theorems": [
    "C64_scalar_add",
    "C64_scalar_mul",
    "C64_prime_order"
   ],
   "note": ""
  },
  {
   "property": "C65",
   "status": "proved",
   "theorems": [
    "C65_field_to",
    "C65_field_from",
    "C65_field_mul",
    "C65_field_roundtrip",
    "C65_field_hom",
    "C65_scalar_to",
    "C65_scalar_from",
    "C65_scalar_mul",
    "C65_scalar_roundtrip"
   ],
   "note": ""
  },
  {
   "property": "C66",
   "status": "proved",
   "theorems": [
    "C66_field_add",
    "C66_field_sub",
    "C66_field_add_mod",
    "C66_field_sub_refuted",
    "C66_scalar_add",
    "C66_scalar_sub"
   ],
   "note": "Subtraction and negation of unreduced operands refuted by C66_field_sub_refuted."
  },
  {
   "property": "C67",
   "status": "proved",
   "theorems": [
    "C67_inverse",
    "C67_div",
    "C67_div_multiple",
    "C67_mod_sqrt",
    "C67_mod_sqrt_diverges",
    "C67_sqrt_ratio_multiple"
   ],
   "note": ""
  },
  {
   "property": "C68",
   "status": "proved",
   "theorems": [
    "C68_add",
    "C68_mul",
    "C68_domain",
    "C68_field"
   ],
   "note": ""
  },
  {
   "property": "C69",
   "status": "proved",
   "theorems": [
    "C69_add",
    "C69_mul",
    "C69_domain",
    "C69_inverse"
   ],
   "note": ""
  },
  {
   "property": "C70",
   "status": "proved",
   "theorems": [
    "C70_field",
    "C70_scalar",
    "C70_points",
    "C70_edwards_encoding",
    "C70_ristretto_encoding"
   ],
   "note": ""
  },
  {
   "property": "C71",
   "status": "proved",
   "theorems": [
    "C71_encode",
    "C71_injective",
    "C71_surjective",
    "C71_count"
   ],
   "note": ""
  },
  {
   "property": "C72",
   "status": "proved",
   "theorems": [
    "C72_diffie_hellman",
    "C72_nontrivial",
    "C72_edwards",
    "C72_schnorr"
   ],
   "note": ""
  },
  {
   "property": "C73",
   "status": "proved",
   "theorems": [
    "C73_ext",
    "C73_proj",
    "C73_zero_z"
   ],
   "note": ""
  },
  {
   "property": "C74",
   "status": "proved",
   "theorems": [
    "C74_rand",
    "C74_rand_range",
    "C74_main",
    "C74_point_refuted"
   ],
   "note": "The comment that G is a point of the curve is refuted by C74_point_refuted."
  },
  {
   "property": "C75",
   "status": "proved",
   "theorems": [
    "C75_principal",
    "C75_mod_sqrt"
   ],
   "note": ""
  },
  {
   "property": "C76",
   "status": "proved",
   "theorems": [
    "C76_unique",
    "C76_from_y",
    "C76_decompress",
    "C76_compress",
    "C76_code",
    "C76_injective",
    "C76_neg"
   ],
   "note": ""
  },
  {
   "property": "C77",
   "status": "proved",
   "theorems": [
    "C77_representative",
    "C77_code",
    "C77_compress",
    "C77_decompress"
   ],
   "note": ""
  },
  {
   "property": "C78",
   "status": "proved",
   "theorems": [
    "C78_returns",
    "C78_panics",
    "C78_sound",
    "C78_unique",
    "C78_builds",
    "C78_observe"
   ],
   "note": ""
  },
  {
   "property": "C79",
   "status": "proved",
   "theorems": [
    "C79_naf",
    "C79_wnaf",
    "C79_width_two"
   ],
   "note": ""
  },
  {
   "property": "C80",
   "status": "proved",
   "theorems": [
    "C80_zero",
    "C80_panic",
    "C80_mul_panic",
    "C80_seven_checked",
    "C80_seven_unchecked",
    "C80_wide_unchecked",
    "C80_wrap",
    "C80_eight_unchecked"
   ],
   "note": ""
  },
  {
   "property": "C81",
   "status": "proved",
   "theorems": [
    "C81_adequate",
    "C81_sound",
    "C81_diverges",
    "C81_builds",
    "C81_unique",
    "C81_draw",
    "C81_loop"
   ],
   "note": ""
  },
  {
   "property": "C82",
   "status": "proved",
   "theorems": [
    "C82_field",
    "C82_field_above",
    "C82_scalar",
    "C82_scalar_above",
    "C82_point_draw",
    "C82_point_stream"
   ],
   "note": ""
  },
  {
   "property": "C83",
   "status": "proved",
   "theorems": [
    "C83_read",
    "C83_write_field",
    "C83_write_scalar",
    "C83_bytes",
    "C83_write_bytes",
    "C83_invariant_refuted"
   ],
   "note": ""
  },
  {
   "property": "C84",
   "status": "proved",
   "theorems": [
    "C84_decimal",
    "C84_decimal_unique",
    "C84_field",
    "C84_scalar",
    "C84_edwards",
    "C84_projective",
    "C84_affine",
    "C84_encodings",
    "C84_types",
    "C84_layout",
    "C84_same_point_refuted"
   ],
   "note": ""
  },
  {
   "property": "C85",
   "status": "proved",
   "theorems": [
    "C85_limbs",
    "C85_limbs_elements",
    "C85_elem51_refuted",
    "C85_overflow_refuted",
    "C85_bytes",
    "C85_main",
    "C85_new",
    "C85_reduce",
    "C85_reduction",
    "C85_long_modulus",
    "C85_recovered_refuted",
    "C85_phase1",
    "C85_phase1_modulus",
    "C85_phase1_inverse_refuted",
    "C85_text",
    "C85_radix",
    "C85_bytes_text",
    "C85_point"
   ],
   "note": ""
  },
  {
   "property": "C86",
   "status": "proved",
   "theorems": [
    "C86_point",
    "C86_element",
    "C86_image",
    "C86_sixteen",
    "C86_uniform",
    "C86_random",
    "C86_share"
   ],
   "note": ""
  },
  {
   "property": "C87",
   "status": "proved",
   "theorems": [
    "C87_double_and_add",
    "C87_ltr",
    "C87_naf",
    "C87_window",
    "C87_cost_binary",
    "C87_cost_naf",
    "C87_cost_window",
    "C87_leak_rtl",
    "C87_leak_ltr",
    "C87_leak_naf",
    "C87_leak_window",
    "C87_constant_refuted"
   ],
   "note": ""
  },
  {
   "property": "C88",
   "status": "proved",
   "theorems": [
    "C88_almost",
    "C88_phase2",
    "C88_inverse",
    "C88_modulus",
    "C88_ainv_refuted",
    "C88_limbs",
    "C88_agree"
   ],
   "note": ""
  },
  {
   "property": "C89",
   "status": "proved",
   "theorems": [
    "C89_sqrt",
    "C89_rounds",
    "C89_field",
    "C89_agree",
    "C89_composite_refuted"
   ],
   "note": ""
  },
  {
   "property": "C90",
   "status": "proved",
   "theorems": [
    "C90_maps",
    "C90_direct",
    "C90_direct_refuted",
    "C90_scaling",
    "C90_montgomery",
    "C90_weierstrass",
    "C90_shift",
    "C90_count",
    "C90_laws",
    "C90_mult",
    "C90_basepoint",
    "C90_generator",
    "C90_generator_refuted",
    "C90_extended",
    "C90_comment_refuted",
    "C90_second",
    "C90_r_refuted",
    "C90_equation_refuted",
    "C90_hex_refuted"
   ],
   "note": ""
  },
  {
   "property": "C91",
   "status": "proved",
   "theorems": [
    "C91_embedding",
    "C91_twist",
    "C91_discriminant",
    "C91_trace_refuted",
    "C91_parameters",
    "C91_torsion",
    "C91_rho"
   ],
   "note": ""
  },
  {
   "property": "C92",
   "status": "proved",
   "theorems": [
    "C92_field",
    "C92_field_doc",
    "C92_scalar",
    "C92_scalar_doc",
    "C92_edwards",
    "C92_edwards_doc",
    "C92_modulus_refuted"
   ],
   "note": ""
  },
  {
   "property": "C93",
   "status": "proved",
   "theorems": [
    "C93_eight",
    "C93_naf",
    "C93_ltr",
    "C93_ltr_pow",
    "C93_ltr_pow_refuted",
    "C93_basepoint",
    "C93_coset",
    "C93_coset_entries",
    "C93_coset_refuted",
    "C93_coset_panic_refuted",
    "C93_identity",
    "C93_torsion",
    "C93_torsion_random",
    "C93_random_points",
    "C93_validity"
   ],
   "note": ""
  },
  {
   "property": "C94",
   "status": "proved",
   "theorems": [
    "C94_result",
    "C94_pow",
    "C94_legendre",
    "C94_inverse",
    "C94_rounds",
    "C94_mod_sqrt",
    "C94_div",
    "C94_sqrt_ratio",
    "C94_inv_sqrt"
   ],
   "note": ""
  },
  {
   "property": "C95",
   "status": "proved",
   "theorems": [
    "C95_expand",
    "C95_primes",
    "C95_complete",
    "C95_embedding",
    "C95_mov",
    "C95_trace",
    "C95_cofactor",
    "C95_discriminant",
    "C95_twist"
   ],
   "note": ""
  },
  {
   "property": "C96",
   "status": "proved",
   "theorems": [
    "C96_egcd",
    "C96_modinv",
    "C96_modinv_refuted",
    "C96_sqrt",
    "C96_weierstrass",
    "C96_weierstrass_refuted",
    "C96_derivation",
    "C96_derivation_refuted",
    "C96_edwards",
    "C96_montgomery",
    "C96_ladder"
   ],
   "note": ""
  },
  {
   "property": "C97",
   "status": "proved",
   "theorems": [
    "C97_result",
    "C97_generic",
    "C97_mul",
    "C97_ltr",
    "C97_naf",
    "C97_binary_naf",
    "C97_pow",
    "C97_window",
    "C97_window_refuted"
   ],
   "note": ""
  },
  {
   "property": "C98",
   "status": "proved",
   "theorems": [
    "C98_eq",
    "C98_proj_eq",
    "C98_compress",
    "C98_from_y",
    "C98_decompress",
    "C98_ristretto_compress",
    "C98_ristretto_decompress",
    "C98_elligator"
   ],
   "note": ""
  },
  {
   "property": "C99",
   "status": "proved",
   "theorems": [
    "C99_field_mul",
    "C99_field_square",
    "C99_field_half",
    "C99_field_pow",
    "C99_field_montgomery",
    "C99_field_reduced_refuted",
    "C99_field_limbs_refuted",
    "C99_scalar_mul",
    "C99_scalar_square",
    "C99_scalar_pow",
    "C99_scalar_exponent_refuted",
    "C99_scalar_montgomery"
   ],
   "note": ""
  },
  {
   "property": "C100",
   "status": "proved",
   "theorems": [
    "C100_mod",
    "C100_mod_wide",
    "C100_mods_zero",
    "C100_mods_seven",
    "C100_mods_checked",
    "C100_mods_assert",
    "C100_mods_eight",
    "C100_mods_wide",
    "C100_doc_refuted"
   ],
   "note": ""
  },
  {
   "property": "C101",
   "status": "proved",
   "theorems": [
    "C101_affine",
    "C101_projective",
    "C101_edwards",
    "C101_ristretto",
    "C101_decoding",
    "C101_window",
    "C101_unreduced_refuted"
   ],
   "note": ""
  },
  {
   "property": "C102",
   "status": "proved",
   "theorems": [
    "C102_field",
    "C102_scalar",
    "C102_mul",
    "C102_points",
    "C102_unreduced_refuted"
   ],
   "note": ""
  },
  {
   "property": "C103",
   "status": "proved",
   "theorems": [
    "C103_window",
    "C103_naf",
    "C103_from_bytes",
    "C103_two_pow_k",
    "C103_ristretto_compress",
    "C103_ristretto_decompress",
    "C103_elligator"
   ],
   "note": ""
  },
  {
   "property": "C104",
   "status": "proved",
   "theorems": [
    "C104_field",
    "C104_scalar",
    "C104_mod4_refuted",
    "C104_extended",
    "C104_projective",
    "C104_compression",
    "C104_ristretto",
    "C104_protocol",
    "C104_comparison",
    "C104_ecdh",
    "C104_literals"
   ],
   "note": ""
  },
  {
   "property": "C105",
   "status": "proved",
   "theorems": [
    "C105_add",
    "C105_double",
    "C105_proj_add",
    "C105_proj_double",
    "C105_mul",
    "C105_convert",
    "C105_eq",
    "C105_valid",
    "C105_compress",
    "C105_meaning",
    "C105_zero",
    "C105_field_sub",
    "C105_neg",
    "C105_proj_neg",
    "C105_rist_compress",
    "C105_neg_refuted",
    "C105_rist_compress_refuted"
   ],
   "note": ""
  },
  {
   "property": "C106",
   "status": "proved",
   "theorems": [
    "C106_search",
    "C106_ends",
    "C106_result"
   ],
   "note": ""
  },
  {
   "property": "C107",
   "status": "proved",
   "theorems": [
    "C107_naf",
    "C107_naf_long",
    "C107_naf_exact",
    "C107_naf_total",
    "C107_window_refuted",
    "C107_naf_mul",
    "C107_naf_mul_proj",
    "C107_order",
    "C107_order_refuted"
   ],
   "note": ""
  },
  {
   "property": "C108",
   "status": "proved",
   "theorems": [
    "C108_comm",
    "C108_neutral",
    "C108_ext_double",
    "C108_ext_self",
    "C108_proj_self",
    "C108_proj_double",
    "C108_proj_double_zero",
    "C108_doublings",
    "C108_compress",
    "C108_round_trip",
    "C108_add",
    "C108_proj_add"
   ],
   "note": ""
  },
  {
   "property": "C109",
   "status": "proved",
   "theorems": [
    "C109_eq",
    "C109_equivalence",
    "C109_zero",
    "C109_transitive_refuted",
    "C109_double_refuted"
   ],
   "note": ""
  }
 ]
}