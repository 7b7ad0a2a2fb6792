{
 "C03": {
  "note": "C03_inverse also covers unreduced inputs that are nonzero modulo p; C03_inverse_p records that the unreduced zero p does not panic."
 },
 "C05": {
  "note": "C05_odd_panics_refuted: the documented panic of half_without_mod on odd elements does not happen."
 },
 "C09": {
  "note": "The documented sign convention is false; the theorem exhibits squares for which Choice(1) returns the negative and the positive root."
 },
 "C13": {
  "note": "Documented equality modulo p of unreduced representations refuted by C13_unreduced_refuted."
 },
 "C15": {
  "note": "Behaviour of the two curve25519-dalek constructors is part of the trusted base (FieldModel.v, dalek_*)."
 },
 "C16": {
  "note": "Documented uniformity refuted by C16_uniform_refuted."
 },
 "C24": {
  "note": "Correct for widths 2..5 and for width 6 except k = L-2, where it is refuted; widths 1, 7 (checked build) and 8 refuted."
 },
 "C25": {
  "note": "Documented range up to 32 refuted."
 },
 "C26": {
  "note": "-128 refuted."
 },
 "C28": {
  "note": "Documented uniformity refuted by C28_uniform_refuted."
 },
 "C35": {
  "status": "partial",
  "note": "Exact for projective points with nonzero Z; is_valid of EdwardsPoint never looks at T and tuples with Z = 0 and X*Y = 0 are accepted (C35_t_refuted, C35_zero_z_refuted)."
 },
 "C37": {
  "status": "partial",
  "note": "C37_ltr_low_bits: the result is (n mod 2^249)*P; C37_ltr_partial: exact for scalars below 2^249; C37_ltr_refuted above."
 },
 "C42": {
  "status": "partial",
  "note": "C42_round_trip_partial is an equivalence: the round trip works exactly when y < 2^252; refuted for (0,-1)."
 },
 "C43": {
  "note": "Encodings are not unique: C43_unique_refuted."
 },
 "C46": {
  "status": "partial",
  "note": "The second entry is never a curve point; the coset element P + (-j,0) is missing. Refuted by C46_coset4_refuted."
 },
 "C39": {
  "note": "Reduction modulo L is compatible on multiples of the basepoint (C39_scalar_*); for other points such as (0,-1) it is not (C39_all_points_refuted)."
 },
 "C56": {
  "status": "partial",
  "note": "C56_window describes the result for widths 2..6 exactly; only w = 2 computes k*B (C56_window_partial); widths 3..6 refuted."
 },
 "C58": {
  "note": "is_valid characterised exactly; its use as a Ristretto validity test is refuted by C58_reject_refuted."
 },
 "C59": {
  "note": "Exact characterisation; the documented equality modulo p is refuted by C59_mod_p_refuted."
 },
 "C60": {
  "note": "C60_sign: the basepoint's x is not positive in the sense of is_positive, contrary to the comment in constants.rs."
 },
 "C62": {
  "note": "The three functions consist of unimplemented!(), modelled as Panic."
 },
 "C63": {
  "note": "compute_window_NAF: widths 2..6 without the refuted case of C24; from(i8): without -128; the two builds differ there."
 },
 "C66": {
  "note": "Subtraction and negation of unreduced operands refuted by C66_field_sub_refuted."
 },
 "C74": {
  "note": "The comment that G is a point of the curve is refuted by C74_point_refuted."
 }
}