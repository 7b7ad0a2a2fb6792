{"id": "C01", "title": "Field addition, subtraction and negation are exact", "statement": "For reduced field elements, a + b, a - b and -a return the unique reduced element whose value is (a+b), (a-b), (-a) modulo p = 2^252+27742317777372353535851937790883648493. No call panics or overflows, with or without overflow checks.", "quantifier": "all pairs of reduced FieldElements, both build modes (overflow checks on and off)", "why_tests_cant": "About 2^504 input pairs; carry and borrow chains go wrong only on rare limb patterns.", "anchors": ["src/backend/u64/field.rs: impl Add for FieldElement", "src/backend/u64/field.rs: impl Sub for FieldElement", "src/backend/u64/field.rs: impl Neg for FieldElement"]}
{"id": "C02", "title": "Field multiplication and squaring are exact", "statement": "For any two elements obtainable from 32 bytes (reduced or not), a * b and a.square() return the unique reduced element whose value is the product modulo p. No intermediate u64/u128 overflows.", "quantifier": "all pairs of FieldElements with 52-bit limbs and value below 2^256, both build modes", "why_tests_cant": "Montgomery carry errors and u128 overflow occur only for extreme limb combinations out of about 2^512.", "anchors": ["src/backend/u64/field.rs: impl Mul for FieldElement", "src/backend/u64/field.rs: impl Square for FieldElement", "src/backend/u64/field.rs: montgomery_reduce", "src/backend/u64/field.rs: mul_internal", "src/backend/u64/field.rs: square_internal"]}
{"id": "C03", "title": "Field inversion always terminates and is correct", "statement": "For every nonzero reduced a, a.inverse() returns without panicking a reduced r with a*r = 1 mod p. For a = 0 it panics.", "quantifier": "all reduced FieldElements, both build modes", "why_tests_cant": "The loop length depends on the input; a bad iteration count, a failed internal assertion or a wrong power-of-two correction could hide in any of 2^252 inputs.", "anchors": ["src/backend/u64/field.rs: FieldElement::inverse", "src/backend/u64/field.rs: inner_two_pow_k"]}
{"id": "C04", "title": "Division is multiplication by the inverse and panics exactly on zero divisors", "statement": "For reduced a and b with b nonzero, a / b returns the reduced element q with q*b = a mod p. Division by zero panics, in the by-reference and by-value forms.", "quantifier": "all pairs of reduced FieldElements", "why_tests_cant": "Two separate implementations with different guards; all pairs matter.", "anchors": ["src/backend/u64/field.rs: impl Div for FieldElement"]}
{"id": "C05", "title": "Halving is exact", "statement": "half(a) returns the reduced r with r + r = a mod p, for every a loadable from 32 bytes. half_without_mod(a) is the integer floor(a/2), so it is exact on even integers; it does not panic on odd ones, contrary to its documentation.", "quantifier": "all FieldElements with 52-bit limbs below 2^256 (half) / any 52-bit limbs (half_without_mod)", "why_tests_cant": "Shifts across limb boundaries must be right for every bit pattern; the documented panic is claimed for every odd input.", "anchors": ["src/backend/u64/field.rs: impl Half for FieldElement", "src/backend/u64/field.rs: half_without_mod"]}
{"id": "C06", "title": "Field exponentiation terminates and is exact", "statement": "a.pow(e) returns the reduced element of value a^e mod p, for every base and every exponent loadable from 32 bytes.", "quantifier": "all bases and exponents with 52-bit limbs below 2^256", "why_tests_cant": "Needs a loop invariant; exponents range over 2^256 values.", "anchors": ["src/backend/u64/field.rs: impl Pow for FieldElement"]}
{"id": "C07", "title": "legendre_symbol decides quadratic residuosity", "statement": "For every reduced a, legendre_symbol returns Choice(1) iff some b satisfies b^2 = a mod p (zero included).", "quantifier": "all reduced FieldElements", "why_tests_cant": "Correctness is an existential statement over the whole field (Euler criterion, primality of p).", "anchors": ["src/backend/u64/field.rs: legendre_symbol"]}
{"id": "C08", "title": "mod_sqrt finds a root exactly when one exists", "statement": "For every reduced a: mod_sqrt returns Some(r), r reduced with r^2 = a mod p, iff a is a square, and None otherwise. The two sign choices give r and -r. It terminates without panic.", "quantifier": "all reduced FieldElements and both sign choices", "why_tests_cant": "Tonelli-Shanks loops are data dependent; absence of a root is a universal statement.", "anchors": ["src/backend/u64/field.rs: impl ModSqrt for FieldElement"]}
{"id": "C09", "title": "The sign argument of mod_sqrt selects the documented sign", "statement": "mod_sqrt's documentation says the Choice selects the positive or negative root. Claim: this is false. There are nonzero squares for which Choice(1) returns the positive root and others for which it returns the negative root; what holds is only that the two choices give opposite roots (C08).", "quantifier": "all reduced nonzero squares", "why_tests_cant": "The sign of the root produced depends on the input; the existing test uses a value where it happens to match.", "anchors": ["src/backend/u64/field.rs: impl ModSqrt for FieldElement"]}
{"id": "C10", "title": "sqrt_ratio_i and inv_sqrt satisfy their four-case contract", "statement": "For reduced u, v: (1, +sqrt(u/v)) if u/v is a nonzero square; (1,0) if u=0; (0,0) if v=0 and u nonzero; (0, +sqrt(i*u/v)) if u/v is not a square. The root returned is non-negative (value at most (p-1)/2). inv_sqrt is the case u=1.", "quantifier": "all pairs of reduced FieldElements", "why_tests_cant": "Case split depends on residuosity, which no sample of tests covers.", "anchors": ["src/backend/u64/field.rs: impl SqrtRatioI for FieldElement", "src/backend/u64/field.rs: impl InvSqrt for FieldElement"]}
{"id": "C11", "title": "Field byte encoding round-trips", "statement": "from_bytes reads all 256 bits little-endian without loss: to_bytes(from_bytes(b)) = b for all 32-byte arrays, and from_bytes(to_bytes(a)) = a for every element with 52-bit limbs below 2^256. The bytes are the little-endian encoding of the value.", "quantifier": "all 32-byte arrays; all elements with 52-bit limbs and value below 2^256", "why_tests_cant": "2^256 encodings; a single misplaced bit shows only on specific inputs.", "anchors": ["src/backend/u64/field.rs: from_bytes", "src/backend/u64/field.rs: to_bytes"]}
{"id": "C12", "title": "Ordering and sign of field elements", "statement": "Comparison agrees with comparison of the integer values. is_positive(a) holds iff the value is at most (p-1)/2; for reduced nonzero a exactly one of a, -a is positive.", "quantifier": "all pairs of FieldElements with 52-bit limbs", "why_tests_cant": "Universal over pairs; boundary at (p-1)/2.", "anchors": ["src/backend/u64/field.rs: impl Ord for FieldElement", "src/backend/u64/field.rs: is_positive"]}
{"id": "C13", "title": "Field equality", "statement": "For elements with 52-bit limbs below 2^256, == holds iff the integer values are equal. On reduced elements this is equality modulo p. The documented equality of non-reduced representations modulo p is refuted (0 and p differ).", "quantifier": "all pairs of such elements", "why_tests_cant": "Universal over pairs; failure only for non-reduced representations.", "anchors": ["src/field.rs: impl ConstantTimeEq for FieldElement", "src/field.rs: impl PartialEq for FieldElement"]}
{"id": "C14", "title": "Integer conversions into the field are exact", "statement": "From<u8>, From<u16>, From<u32>, From<u64>, From<u128> give reduced elements with the same value; two_pow_k(k) has value 2^k for k<=252 and panics for larger k.", "quantifier": "all integers of each width; all u64 exponents", "why_tests_cant": "2^128 inputs, and the panic boundary must hold for every larger exponent.", "anchors": ["src/backend/u64/field.rs: impl From<u8..u128> for FieldElement", "src/backend/u64/field.rs: two_pow_k"]}
{"id": "C15", "title": "Conversion to and from Ristretto255 scalars is value preserving", "statement": "From<&Ristretto255Scalar> of a canonical scalar is the reduced field element with the same bytes. Into<Ristretto255Scalar> of a reduced element gives the same bytes and never panics; for elements at or above p (below 2^256) it panics. Into on a reference reduces modulo p. The two directions are mutually inverse on reduced values.", "quantifier": "all canonical Ristretto255 scalars, all FieldElements with 52-bit limbs below 2^256", "why_tests_cant": "Universal round trip over 2^252 values.", "anchors": ["src/backend/u64/field.rs: impl From<&Ristretto255Scalar> for FieldElement", "src/backend/u64/field.rs: impl Into<Ristretto255Scalar> for FieldElement", "src/field.rs: impl Into<Scalar> for &FieldElement"]}
{"id": "C16", "title": "Random field elements", "statement": "For every 32 bytes the generator may deliver, FieldElement::random returns a reduced element below 2^251 and does not panic. The documented uniform choice over the field is refuted: some reduced element is returned for no generator output.", "quantifier": "all RNG outputs", "why_tests_cant": "Must hold for every output of the generator; unreachability of values is a universal statement.", "anchors": ["src/field.rs: FieldElement::random"]}
{"id": "C17", "title": "Scalar addition, subtraction and negation are exact", "statement": "For reduced scalars, a+b, a-b, -a return the unique reduced scalar with that value modulo L = 2^249+14490550575682688738086195780655237219, without panic or overflow.", "quantifier": "all pairs of reduced Scalars, both build modes", "why_tests_cant": "About 2^498 pairs; rare carry patterns.", "anchors": ["src/backend/u64/scalar.rs: impl Add for Scalar", "src/backend/u64/scalar.rs: impl Sub for Scalar", "src/backend/u64/scalar.rs: impl Neg for Scalar"]}
{"id": "C18", "title": "Scalar multiplication and squaring are exact", "statement": "For reduced scalars, a*b and a.square() return the unique reduced scalar with that value modulo L, with no intermediate overflow.", "quantifier": "all pairs of reduced Scalars, both build modes", "why_tests_cant": "Rare carry patterns in Montgomery reduction.", "anchors": ["src/backend/u64/scalar.rs: impl Mul for Scalar", "src/backend/u64/scalar.rs: impl Square for Scalar", "src/backend/u64/scalar.rs: montgomery_reduce"]}
{"id": "C19", "title": "Scalar halving and right shift", "statement": "half(a) is the reduced r with r + r = a mod L; half_without_mod(a) = floor(a/2); a >> k = floor(a / 2^k) for every shift count 0..255.", "quantifier": "all reduced Scalars; all 52-bit-limb Scalars and shift counts", "why_tests_cant": "Every bit pattern and every count.", "anchors": ["src/backend/u64/scalar.rs: impl Half for Scalar", "src/backend/u64/scalar.rs: half_without_mod", "src/backend/u64/scalar.rs: impl Shr<u8> for Scalar"]}
{"id": "C20", "title": "Scalar exponentiation terminates and is exact", "statement": "a.pow(e) is the reduced scalar of value a^e mod L for all reduced a and e.", "quantifier": "all pairs of reduced Scalars", "why_tests_cant": "Needs a loop invariant over 2^249 exponents; the odd branch halves with the modular half.", "anchors": ["src/backend/u64/scalar.rs: impl Pow for Scalar"]}
{"id": "C21", "title": "Scalar decoding accepts exactly the canonical encodings", "statement": "from_bytes(b) returns the reduced scalar with little-endian value of b when that value is below L and panics otherwise. to_bytes is its inverse on reduced scalars and always yields the little-endian encoding of the value.", "quantifier": "all 32-byte arrays; all reduced Scalars", "why_tests_cant": "2^256 byte strings; the rejection boundary must be exact.", "anchors": ["src/backend/u64/scalar.rs: Scalar::from_bytes", "src/backend/u64/scalar.rs: Scalar::to_bytes"]}
{"id": "C22", "title": "Bit decomposition of scalars", "statement": "into_bits returns 256 entries, each 0 or 1, where entry i is bit i of the value.", "quantifier": "all Scalars with 52-bit limbs below 2^256", "why_tests_cant": "All bit patterns.", "anchors": ["src/backend/u64/scalar.rs: into_bits"]}
{"id": "C23", "title": "compute_NAF is a correct non-adjacent form", "statement": "For every reduced k, compute_NAF terminates without panic; digits are in {-1,0,1}, no two adjacent digits are nonzero, and the sum of digit_i*2^i equals k. All digits at index 250 and above are zero.", "quantifier": "all reduced Scalars, both build modes", "why_tests_cant": "Recoding depends on every bit; array bounds must hold for all inputs.", "anchors": ["src/backend/u64/scalar.rs: compute_NAF"]}
{"id": "C24", "title": "compute_window_NAF is a correct width-w recoding", "statement": "For every reduced k and width w in 2..6, except w=6 with k=L-2: terminates without panic; every nonzero digit is odd with absolute value below 2^(w-1); among any w consecutive digits at most one is nonzero; the digit sum equals k; digits at index 250 and above are zero. For w=6, k=L-2 the digit sum is wrong (refuted); width 1 panics, width 7 panics with overflow checks, width 8 gives wrong digits (refuted).", "quantifier": "all reduced Scalars, all widths", "why_tests_cant": "Recoding depends on every bit; behaviour at every u8 width matters.", "anchors": ["src/backend/u64/scalar.rs: compute_window_NAF", "src/backend/u64/scalar.rs: mods_2_pow_k"]}
{"id": "C25", "title": "mod_2_pow_k and mods_2_pow_k", "statement": "mod_2_pow_k(k) equals the value modulo 2^k for k in 0..8 and is truncated to 8 bits for larger k; mods_2_pow_k(w) equals the signed residue in [-2^(w-1),2^(w-1)) for w in 1..7 (w=7 without overflow checks only). The documented range up to 32 is refuted for both.", "quantifier": "all Scalars with 52-bit limbs, all u8 widths", "why_tests_cant": "All low-bit patterns and widths.", "anchors": ["src/backend/u64/scalar.rs: mod_2_pow_k", "src/backend/u64/scalar.rs: mods_2_pow_k"]}
{"id": "C26", "title": "Signed conversion into scalars", "statement": "Scalar::from(i8) is the reduced scalar congruent to the argument modulo L for every argument except -128; for -128 it panics with overflow checks and returns 128 without (refuted).", "quantifier": "all i8 values", "why_tests_cant": "Single failing value not tested; stated for all values.", "anchors": ["src/backend/u64/scalar.rs: impl From<i8> for Scalar"]}
{"id": "C27", "title": "Scalar integer conversions, powers of two, ordering and equality", "statement": "From<u8..u128> are value preserving and reduced; two_pow_k(k) has value 2^k for k<250 and panics otherwise; ordering and equality agree with the integer values.", "quantifier": "all inputs of each width", "why_tests_cant": "2^128 inputs; all pairs for ordering.", "anchors": ["src/backend/u64/scalar.rs: impl From<u8..u128> for Scalar", "src/backend/u64/scalar.rs: two_pow_k", "src/backend/u64/scalar.rs: impl Ord for Scalar", "src/scalar.rs: impl PartialEq for Scalar"]}
{"id": "C28", "title": "Random scalars", "statement": "For every RNG output Scalar::random returns a reduced scalar below 2^249 without panicking. The documented uniform choice modulo the order is refuted: some reduced scalar is returned for no RNG output.", "quantifier": "all RNG outputs", "why_tests_cant": "Must hold for every output of the generator.", "anchors": ["src/scalar.rs: Scalar::random"]}
{"id": "C29", "title": "Edwards addition is complete", "statement": "For any two valid extended points (including equal, opposite, identity and small-order points) P + Q returns a valid extended point (Z nonzero, X*Y = Z*T, on the curve -x^2+y^2 = 1+d x^2 y^2) whose affine coordinates are the twisted Edwards sum. There is no exceptional case and no panic.", "quantifier": "all pairs of valid EdwardsPoints", "why_tests_cant": "Exceptional inputs would be a negligible fraction; absence needs d non-square.", "anchors": ["src/edwards.rs: impl Add for EdwardsPoint", "src/edwards.rs: impl Double for EdwardsPoint"]}
{"id": "C30", "title": "Edwards points form an abelian group under the API", "statement": "With ==: P+Q == Q+P, (P+Q)+R == P+(Q+R), P + identity == P, P + (-P) == identity, P - Q == P + (-Q), for all valid points; every such call returns a valid point.", "quantifier": "all triples of valid EdwardsPoints", "why_tests_cant": "Associativity over triples of points cannot be sampled meaningfully.", "anchors": ["src/edwards.rs: impl Add for EdwardsPoint", "src/edwards.rs: impl Sub for EdwardsPoint", "src/edwards.rs: impl Neg for EdwardsPoint", "src/edwards.rs: impl PartialEq for EdwardsPoint"]}
{"id": "C31", "title": "Edwards negation and subtraction", "statement": "-P represents (-x,y), for extended and affine points; P - Q represents P + (-Q), valid for all valid inputs.", "quantifier": "all pairs of valid EdwardsPoints", "why_tests_cant": "Separate formula in Sub from Add; all inputs.", "anchors": ["src/edwards.rs: impl Neg for EdwardsPoint", "src/edwards.rs: impl Sub for EdwardsPoint"]}
{"id": "C32", "title": "Projective arithmetic agrees with the affine law", "statement": "For valid projective points, P+Q, P-Q, -P and double return valid projective points representing the affine results, with no exceptional case.", "quantifier": "all pairs of valid ProjectivePoints", "why_tests_cant": "Different formulas; exceptional cases negligible in measure.", "anchors": ["src/edwards.rs: impl Add for ProjectivePoint", "src/edwards.rs: impl Double for ProjectivePoint", "src/edwards.rs: impl Sub for ProjectivePoint", "src/edwards.rs: impl Neg for ProjectivePoint"]}
{"id": "C33", "title": "Coordinate conversions preserve the point", "statement": "Conversions among affine, projective and extended coordinates represent the same affine point; extended results satisfy X*Y=Z*T. Conversion to affine panics exactly when Z = 0.", "quantifier": "all valid points in each coordinate system", "why_tests_cant": "All representatives (every Z) matter.", "anchors": ["src/edwards.rs: impl From<ProjectivePoint> for EdwardsPoint", "src/edwards.rs: impl From<AffinePoint> for EdwardsPoint", "src/edwards.rs: impl From<EdwardsPoint> for ProjectivePoint", "src/edwards.rs: impl From<EdwardsPoint> for AffinePoint", "src/edwards.rs: impl From<ProjectivePoint> for AffinePoint"]}
{"id": "C34", "title": "Point equality is equality of affine points", "statement": "For extended, projective and affine points with Z nonzero, == returns true iff the affine coordinates agree, independent of the representative.", "quantifier": "all pairs of points with nonzero Z", "why_tests_cant": "All representatives of all pairs.", "anchors": ["src/edwards.rs: impl ConstantTimeEq for EdwardsPoint", "src/edwards.rs: impl ConstantTimeEq for ProjectivePoint", "src/edwards.rs: impl ConstantTimeEq for AffinePoint"]}
{"id": "C35", "title": "is_valid characterises curve membership", "statement": "For reduced coordinates with Z nonzero, is_valid of affine and projective points is true iff the affine point satisfies the curve equation; the same for extended points when X*Y = Z*T. As a full validity test it is refuted: T of extended points is ignored, and tuples with Z=0 and X*Y=0 are accepted.", "quantifier": "all coordinate tuples", "why_tests_cant": "Universal over coordinates; the gap lies in degenerate tuples.", "anchors": ["src/edwards.rs: impl ValidityCheck for EdwardsPoint", "src/edwards.rs: impl ValidityCheck for ProjectivePoint", "src/edwards.rs: impl ValidityCheck for AffinePoint"]}
{"id": "C36", "title": "Scalar multiplication by double-and-add", "statement": "For every valid point P and every scalar n with 52-bit limbs below 2^256, double_and_add / * terminates and returns a valid point equal to the n-fold sum of P (extended, projective and Ristretto points).", "quantifier": "all valid points and all scalars", "why_tests_cant": "Induction over the scalar; 2^256 scalars.", "anchors": ["src/edwards.rs: double_and_add", "src/edwards.rs: impl Mul<Scalar> for EdwardsPoint", "src/edwards.rs: impl Mul<Scalar> for ProjectivePoint"]}
{"id": "C37", "title": "Left-to-right binary multiplication", "statement": "ltr_bin_mul(P,n) should return the n-fold sum of P for every scalar. It returns (n mod 2^249)*P, hence n*P for n below 2^249; for the basepoint and some reduced scalar above 2^249 the result differs from n*P (refuted).", "quantifier": "all valid points and all reduced scalars", "why_tests_cant": "Failing scalars are a 2^-125 fraction of reduced scalars, never hit by random tests.", "anchors": ["src/edwards.rs: ltr_bin_mul"]}
{"id": "C38", "title": "NAF multiplication", "statement": "binary_naf_mul(P,n) returns the n-fold sum of P for every reduced scalar.", "quantifier": "all valid points and all reduced scalars", "why_tests_cant": "Depends on recoding and loop bound for every scalar.", "anchors": ["src/edwards.rs: binary_naf_mul", "src/backend/u64/scalar.rs: compute_NAF"]}
{"id": "C39", "title": "Scalar multiplication laws", "statement": "(a+b)P == aP + bP and (ab)P == a(bP) with scalar arithmetic modulo L for P in the subgroup generated by the basepoint; a(P+Q) == aP + aQ and n(-P) == -(nP) for all valid points.", "quantifier": "all reduced scalars and points", "why_tests_cant": "Algebraic laws over all inputs; reduction modulo L is only compatible on points of order L.", "anchors": ["src/edwards.rs: impl Mul<Scalar> for EdwardsPoint", "src/backend/u64/scalar.rs: impl Add for Scalar", "src/backend/u64/scalar.rs: impl Mul for Scalar"]}
{"id": "C40", "title": "Cofactor and power-of-two multiplication", "statement": "mul_by_cofactor(P) is 8P; mul_by_pow_2(P,k) is (2^k)P for k<250 and panics for k>=250.", "quantifier": "all valid points and all u64 k", "why_tests_cant": "All points, and the panic boundary for all k.", "anchors": ["src/edwards.rs: mul_by_cofactor", "src/edwards.rs: mul_by_pow_2"]}
{"id": "C41", "title": "Construction from a y coordinate is sound and complete", "statement": "For reduced y: new_from_y_coord(y,s) returns Some(P) iff a curve point with that y exists; P is valid with that y; the two signs give opposite x. It never panics or divides by zero.", "quantifier": "all reduced y and both signs", "why_tests_cant": "Existence is universal over the field; division by zero excluded only by d and -1 being non-square/square.", "anchors": ["src/edwards.rs: EdwardsPoint::new_from_y_coord", "src/edwards.rs: ProjectivePoint::new_from_y_coord", "src/edwards.rs: find_xx"]}
{"id": "C42", "title": "Edwards compression round trip", "statement": "decompress(compress(P)) should be Some(P) for all valid P. compress always returns 32 bytes holding y and a sign bit; the round trip returns a point equal to P exactly when the affine y is below 2^252; it is refuted for the point (0,-1).", "quantifier": "all valid EdwardsPoints", "why_tests_cant": "Failing points are a 2^-127 fraction of all points.", "anchors": ["src/edwards.rs: EdwardsPoint::compress", "src/edwards.rs: CompressedEdwardsY::decompress"]}
{"id": "C43", "title": "Edwards decompression is total and sound", "statement": "For every 32-byte string decompress returns without panic; a returned point is valid, its affine y is the value of the low 252 bits; None is returned iff no curve point has that y. (Encodings are not unique: bits 252..254 are ignored.)", "quantifier": "all 32-byte strings", "why_tests_cant": "2^256 strings; None must mean non-existence.", "anchors": ["src/edwards.rs: CompressedEdwardsY::decompress", "src/edwards.rs: CompressedEdwardsY::from_slice"]}
{"id": "C44", "title": "Negating a compressed Edwards point", "statement": "Neg on CompressedEdwardsY gives the compression of the negated point when the encoding decodes, and panics exactly when it does not decode.", "quantifier": "all 32-byte strings", "why_tests_cant": "All strings; panic condition must be exact.", "anchors": ["src/edwards.rs: impl Neg for CompressedEdwardsY"]}
{"id": "C45", "title": "Random points are valid", "statement": "For every RNG stream on which EdwardsPoint/ProjectivePoint::new_random_point returns, the result is a valid curve point; it can only fail to return by consuming the stream. RistrettoPoint::new_random_point returns a valid point for any 64 bytes.", "quantifier": "all RNG streams", "why_tests_cant": "All streams, unbounded retries.", "anchors": ["src/edwards.rs: ProjectivePoint::new_random_point", "src/edwards.rs: EdwardsPoint::new_random_point", "src/ristretto.rs: RistrettoPoint::new_random_point"]}
{"id": "C46", "title": "coset4 lists the 4-torsion coset of a point", "statement": "coset4(P) should return P + E[4] as four valid distinct points. Entries 0, 2 and 3 are P, P+(j,0) and P+(0,-1) with j^2=-1; entry 1 is never a curve point (refuted), so P-(j,0) is missing.", "quantifier": "all valid points", "why_tests_cant": "A universal claim; failing entry is wrong for every point.", "anchors": ["src/edwards.rs: EdwardsPoint::coset4", "src/backend/u64/constants.rs: FOUR_COSET_GROUP"]}
{"id": "C47", "title": "Ristretto equality is the coset relation", "statement": "For valid points, == holds iff Q - P lies in the 4-torsion subgroup {(0,1),(0,-1),(i,0),(-i,0)}; hence it is an equivalence relation, independent of the representative.", "quantifier": "all pairs of valid RistrettoPoints", "why_tests_cant": "Only-if direction is universal and relies on non-squareness of d.", "anchors": ["src/ristretto.rs: impl ConstantTimeEq for RistrettoPoint"]}
{"id": "C48", "title": "Ristretto operations respect equality", "statement": "If P == P' and Q == Q' then P+Q == P'+Q', P-Q == P'-Q', -P == -P', double(P) == double(P'), n*P == n*P'.", "quantifier": "all valid points and scalars", "why_tests_cant": "Universal over equivalent representatives.", "anchors": ["src/ristretto.rs: impl Add for RistrettoPoint", "src/ristretto.rs: impl Mul for RistrettoPoint"]}
{"id": "C49", "title": "Ristretto decoding is total, sound and accepts only canonical strings", "statement": "For every 32-byte string decompress returns without panic. If it returns Some(P) then P is a valid even point and compress(P) returns exactly the same bytes. Non-canonical or negative encodings (value above (p-1)/2) are rejected.", "quantifier": "all 32-byte strings", "why_tests_cant": "2^256 strings; uniqueness of encoding is a universal property.", "anchors": ["src/ristretto.rs: CompressedRistretto::decompress", "src/ristretto.rs: RistrettoPoint::compress"]}
{"id": "C50", "title": "Ristretto encoding round trip", "statement": "For every point obtainable through the API (identity, basepoint, decoding, hash-to-group, and sums, differences, negations, doublings, multiples of these), decompress(compress(P)) = Some(Q) with Q == P. No panic.", "quantifier": "all points reachable by any sequence of API operations", "why_tests_cant": "Unbounded histories of operations; universal over representatives.", "anchors": ["src/ristretto.rs: RistrettoPoint::compress", "src/ristretto.rs: CompressedRistretto::decompress"]}
{"id": "C51", "title": "Ristretto encodings are equal exactly for equal points", "statement": "For API-obtainable points, compress(P) and compress(Q) are the same bytes iff P == Q.", "quantifier": "all pairs of API-obtainable points", "why_tests_cant": "Needs invariance over all four coset members and injectivity.", "anchors": ["src/ristretto.rs: RistrettoPoint::compress", "src/ristretto.rs: impl ConstantTimeEq for CompressedRistretto"]}
{"id": "C52", "title": "Elligator map is total and lands on the curve", "statement": "elligator_ristretto_flavor(r) returns, for every field element loadable from 32 bytes, a valid even point (Z nonzero) without panic; r and -r give equal points.", "quantifier": "all FieldElements with 52-bit limbs below 2^256", "why_tests_cant": "Degenerate denominators occur for a handful of inputs out of 2^252.", "anchors": ["src/ristretto.rs: elligator_ristretto_flavor"]}
{"id": "C53", "title": "from_uniform_bytes is total", "statement": "For every 64-byte string from_uniform_bytes returns a valid point equal to the sum of the Elligator images of the two halves.", "quantifier": "all 64-byte strings", "why_tests_cant": "2^512 strings.", "anchors": ["src/ristretto.rs: from_uniform_bytes"]}
{"id": "C54", "title": "Ristretto group laws", "statement": "With ==, API-obtainable points form an abelian group under +, - and identity.", "quantifier": "all triples of valid points", "why_tests_cant": "Associativity over all triples.", "anchors": ["src/ristretto.rs: impl Add for RistrettoPoint", "src/ristretto.rs: impl Sub for RistrettoPoint", "src/ristretto.rs: impl Neg for RistrettoPoint"]}
{"id": "C55", "title": "The basepoint has prime order L", "statement": "L is prime, p is prime, L*B == identity as Edwards points, and n*B == identity iff L divides n, so scalars modulo L act faithfully on multiples of B.", "quantifier": "all scalars n", "why_tests_cant": "Order exactly L means no smaller multiple vanishes; primality of 250-bit numbers needs a proof.", "anchors": ["src/backend/u64/constants.rs: BASEPOINT", "src/backend/u64/constants.rs: L", "src/backend/u64/constants.rs: FIELD_L"]}
{"id": "C56", "title": "Windowed multiplication of the basepoint", "statement": "window_naf_mul(k,w) should equal k*B for every reduced k and supported width w. For every width 2..6 the result is the sum over the digits of the table entries the code selects (exact description); for w=2 that is k*B; for w=3..6 it is refuted: 3*B comes out as 5*B, because the odd-multiples table is indexed by the digit instead of (digit+1)/2.", "quantifier": "all reduced scalars and widths", "why_tests_cant": "Universal over scalars and widths.", "anchors": ["src/edwards.rs: window_naf_mul", "src/backend/u64/constants.rs: BASEPOINT_ODD_MULTIPLES_TABLE"]}
{"id": "C57", "title": "The curve has 8L points and the Ristretto group has prime order L", "statement": "Every curve point is a*B + b*T with 0<=a<L and T of order 8, uniquely; hence L*P == identity (Ristretto equality) for every API-obtainable Ristretto point, and every such point equals n*B for exactly one n below L.", "quantifier": "all curve points", "why_tests_cant": "A statement about all 2^252 points.", "anchors": ["src/ristretto.rs: impl Mul for RistrettoPoint", "src/backend/u64/constants.rs: BASEPOINT", "src/backend/u64/constants.rs: L"]}
{"id": "C58", "title": "Ristretto is_valid", "statement": "For reduced coordinates with Z nonzero and X*Y=Z*T, is_valid(P) is true iff P is on the curve and L*P is the identity Edwards point. As a validity test for Ristretto points it is refuted: the decoded compressed basepoint is == the basepoint, yet is_valid rejects it while accepting the basepoint.", "quantifier": "all points", "why_tests_cant": "Universal over representatives.", "anchors": ["src/ristretto.rs: impl ValidityCheck for RistrettoPoint"]}
{"id": "C59", "title": "Montgomery point equality", "statement": "== of MontgomeryPoints is equality of the 32 bytes. The documented equality modulo p is refuted: the encodings of 0 and of p differ. The default point equals exactly the encodings of value 0.", "quantifier": "all pairs of 32-byte strings", "why_tests_cant": "Universal over pairs.", "anchors": ["src/montgomery.rs: impl ConstantTimeEq for MontgomeryPoint"]}
{"id": "C60", "title": "Published constants have their documented values", "statement": "EDWARDS_D = -126296/126297, EDWARDS_A = -1, SQRT_MINUS_ONE^2 = -1, INV_SQRT_A, INV_SQRT_A_MINUS_D, SQRT_AD_MINUS_ONE, RR, RR_FIELD, LFACTOR, halves, POS_RANGE have their documented values; BASEPOINT is the curve point with y = 3/5, compresses to BASEPOINT_COMPRESSED, is what BASEPOINT_COMPRESSED decompresses to, and encodes to RISTRETTO_BASEPOINT_COMPRESSED; d is not a square (so the addition law is complete); entry i>=1 of the odd-multiples table is (2i-1)B. The comment that the basepoint has the positive sign is refuted for the library's own is_positive.", "quantifier": "each constant; non-squareness quantifies over the field", "why_tests_cant": "Non-squareness and curve completeness are universal statements; constants feed every other result.", "anchors": ["src/backend/u64/constants.rs: EDWARDS_D", "src/backend/u64/constants.rs: SQRT_MINUS_ONE", "src/backend/u64/constants.rs: BASEPOINT_ODD_MULTIPLES_TABLE", "src/constants.rs: BASEPOINT_COMPRESSED", "src/constants.rs: RISTRETTO_BASEPOINT_COMPRESSED"]}
{"id": "C61", "title": "Byte-slice constructors", "statement": "CompressedEdwardsY::from_slice and CompressedRistretto::copy_from_slice return the 32 bytes unchanged for slices of length 32 and panic for every other length; equality of compressed points is equality of bytes.", "quantifier": "all byte slices", "why_tests_cant": "Slices of every length.", "anchors": ["src/edwards.rs: CompressedEdwardsY::from_slice", "src/ristretto.rs: CompressedRistretto::copy_from_slice"]}
{"id": "C62", "title": "Unimplemented entry points always panic", "statement": "Scalar::from_bytes_wide, EdwardsPoint::to_montgomery and MontgomeryPoint::to_edwards panic for every input and never return a value.", "quantifier": "all inputs", "why_tests_cant": "Universal; a user must know no input works.", "anchors": ["src/backend/u64/scalar.rs: from_bytes_wide", "src/edwards.rs: to_montgomery", "src/montgomery.rs: to_edwards"]}
{"id": "C63", "title": "Debug and release builds agree", "statement": "On reduced inputs (valid points) every arithmetic, encoding and point operation returns the same value with and without integer overflow checks.", "quantifier": "all reduced inputs / valid points", "why_tests_cant": "Wrapping differs from panicking only on inputs that overflow; absence is universal.", "anchors": ["src/backend/u64/field.rs: FieldElement", "src/backend/u64/scalar.rs: Scalar", "src/edwards.rs: EdwardsPoint", "src/ristretto.rs: RistrettoPoint"]}
{"id": "C64", "title": "Scalars modulo L act on Ristretto points; the group has prime order", "statement": "With Ristretto ==, for every valid even (API-obtainable) point P and reduced scalars a, b: (a+b)P == aP + bP and (a*b)P == a(bP) with scalar arithmetic modulo L, L*P == identity, and if P is not the identity then aP == bP only for a = b.", "quantifier": "all reduced scalars and all Ristretto points", "why_tests_cant": "Compatibility of reduction modulo L with a group of 2^249 classes having cofactor-8 representatives; universal over points.", "anchors": ["src/ristretto.rs: impl Mul for RistrettoPoint", "src/backend/u64/scalar.rs: impl Add for Scalar", "src/backend/u64/scalar.rs: impl Mul for Scalar"]}
{"id": "C65", "title": "The Montgomery domain", "statement": "For every field element loadable from 32 bytes, to_montgomery gives a reduced r congruent to a*2^260; from_montgomery of any 52-bit limbs gives a reduced r with r*2^260 congruent to a; montgomery_mul gives a reduced r with r*2^260 congruent to a*b; from(to(a)) is a mod p; from(montgomery_mul(to a, to b)) is exactly a*b as computed by Mul. The same conversions for scalars modulo L (any 52-bit limbs; one factor of montgomery_mul reduced).", "quantifier": "all loadable field elements / all 52-bit limb scalars, both build modes", "why_tests_cant": "A wrong Montgomery constant limb or a missing final subtraction shows up only for some residues among 2^252; the unit tests convert two or three constants.", "anchors": ["src/backend/u64/field.rs:780-836", "src/backend/u64/scalar.rs:617-674"]}
{"id": "C66", "title": "Addition and subtraction outside the reduced range", "statement": "On any 52-bit limbs field add returns s or s-p with s=(a+b) mod 2^260 (p subtracted iff s>=p) and sub returns a-b, or (a-b+p) mod 2^260 when a<b; same for scalars with L. On any two operands loadable from 32 bytes the field sum is therefore right modulo p. The field difference and the negative of such an operand are not always right modulo p (refuted).", "quantifier": "all 52-bit limb operands, both build modes", "why_tests_cant": "from_bytes accepts every 256-bit string, fifteen sixteenths of them unreduced; the tests only use reduced operands.", "anchors": ["src/backend/u64/field.rs:170-247", "src/backend/u64/scalar.rs:139-244"]}
{"id": "C67", "title": "Inversion, division and square roots of unreduced operands", "statement": "For an operand loadable from 32 bytes that is not 0 modulo p, division and mod_sqrt act as on its reduction. For a nonzero multiple of p (which is zero in the field but passes the zero checks): inverse and division return 0 instead of panicking, sqrt_ratio_i by it reports (true, 0) although by zero it reports (false, 0), and mod_sqrt never terminates, whatever the number of rounds allowed.", "quantifier": "all loadable operands, all round budgets, both build modes", "why_tests_cant": "Non-termination cannot be observed by a test, and the 15 offending byte strings are out of reach of random sampling.", "anchors": ["src/backend/u64/field.rs:277-300", "src/backend/u64/field.rs:357-503", "src/backend/u64/field.rs:854-925"]}
{"id": "C68", "title": "The field API satisfies the field axioms", "statement": "On reduced elements the results of +, -, unary -, *, /, square, inverse satisfy, as equal outputs of the calls: commutativity, associativity, identities, inverses, distributivity, a-b = a+(-b), (a-b)+b = a, -(-a) = a, (-1)*a = -a, (a/b)*b = a, (a*b)/b = a, inverse(inverse b) = b, a/b = a*inverse(b), inverse(b) = b^(p-2), and a*b = 0 only if a = 0 or b = 0.", "quantifier": "all reduced field elements, both build modes", "why_tests_cant": "The laws relate independent code paths (add/sub, mul, Savas-Koc inversion, pow) on all triples of elements.", "anchors": ["src/backend/u64/field.rs:170-355", "src/backend/u64/field.rs:854-925"]}
{"id": "C69", "title": "The scalar API satisfies the laws of the prime field modulo L", "statement": "On reduced scalars the results of +, -, unary -, *, square, pow satisfy, as equal outputs of the calls: the commutative ring axioms, a-b = a+(-b), (a-b)+b = a, -(-a) = a, square = self-product, a*b = 0 only if a = 0 or b = 0, and a * a^(L-2) = 1 for a nonzero.", "quantifier": "all reduced scalars, both build modes", "why_tests_cant": "The laws relate independent code paths on all triples of scalars.", "anchors": ["src/backend/u64/scalar.rs:139-330"]}
{"id": "C70", "title": "Identity, Default and the constant-time selectors", "statement": "Field identity() is 1 and default() is 0: multiplying by the one and adding the other return the operand unchanged; scalar identity() is 1. conditional_select and conditional_negate return exactly the selected alternative. identity() of the affine, projective, extended and Ristretto point types represents the curve point (0,1). Encoding the Edwards and the Ristretto identity gives the identity() of the compressed types, and decoding those gives back the identity.", "quantifier": "all reduced field elements and scalars, every choice bit, both build modes", "why_tests_cant": "Tests check identity on a few literals; the claims quantify over every operand and tie four point types and two encodings to the same curve point.", "anchors": ["src/backend/u64/field.rs:78-94", "src/backend/u64/scalar.rs:157-163", "src/field.rs:108-118", "src/edwards.rs:246-285", "src/edwards.rs:374-391", "src/edwards.rs:715-731", "src/edwards.rs:1027-1042", "src/ristretto.rs:68-74", "src/ristretto.rs:186-202"]}
{"id": "C71", "title": "Ristretto encodings are in bijection with the scalars", "statement": "Mapping a reduced scalar n to the encoding of n times the Ristretto basepoint always succeeds, is injective, and reaches every 32-byte string that decompress accepts; there are exactly L accepted strings.", "quantifier": "all reduced scalars and all 32-byte strings, both build modes", "why_tests_cant": "The set of accepted strings has about 2^249 members; counting it or showing surjectivity is out of reach of sampling.", "anchors": ["src/ristretto.rs:76-135", "src/ristretto.rs:330-344", "src/ristretto.rs:396-447", "src/constants.rs:19-22", "src/backend/u64/constants.rs:214"]}
{"id": "C72", "title": "Key agreement and Schnorr verification over the public API", "statement": "For every even point P and all scalars a, b: decompressing the other party's encoded public value and multiplying gives both parties the same 32 bytes; with nonzero reduced scalars and P not the identity class the shared bytes are not the identity encoding. The same commutation holds for Edwards points without encoding. For reduced r, c, x the point (r + c*x)*P equals r*P + c*(x*P), the Schnorr verification equation.", "quantifier": "all even Ristretto points, all valid Edwards points, all scalars, both build modes", "why_tests_cant": "The claim composes multiplication, encoding, decoding and comparison for every pair of secrets.", "anchors": ["src/ristretto.rs:76-135", "src/ristretto.rs:248-447", "src/edwards.rs:102-120", "src/edwards.rs:547-577", "src/backend/u64/scalar.rs:184-275"]}
{"id": "C73", "title": "Point operations are total on arbitrary reduced coordinates", "statement": "On extended and projective points with any reduced coordinates, on the curve or not, Z zero or not, addition, subtraction, negation, doubling and multiplication by any scalar return in both build modes with the same point, again with reduced coordinates. Comparing, encoding and converting to affine panic when Z is zero.", "quantifier": "all reduced coordinate tuples, all 256-bit scalars, both build modes", "why_tests_cant": "Absence of panics and of build-mode differences is a claim about every tuple of coordinates, including ones no constructor produces.", "anchors": ["src/edwards.rs:102-120", "src/edwards.rs:331-372", "src/edwards.rs:440-605", "src/edwards.rs:787-945"]}
{"id": "C74", "title": "The example program basic_ops", "statement": "The example's scalar generator never panics, and returns exactly the scalars below 2^248. The program always terminates with a reduced scalar and a point with reduced coordinates. Its comment calls G a point over the curve: that is refuted, G fails the curve equation, and so can the printed product.", "quantifier": "all outputs of the random generator (31 bytes), both build modes", "why_tests_cant": "The program is randomised; tests run it on a handful of random draws and never check the curve equation.", "anchors": ["examples/basic_ops.rs:19-64", "src/lib.rs:109-152", "src/backend/u64/scalar.rs:445-465", "src/edwards.rs:102-120"]}
{"id": "C75", "title": "Which square root mod_sqrt returns", "statement": "Of two opposite square roots exactly one is principal: its quartic character x^((p-1)/4) is 1 or the non-negative square root of -1. mod_sqrt returns the principal root for choice 0 and its negative for choice 1, and None when there is no root.", "quantifier": "all reduced field elements, both choices, both build modes", "why_tests_cant": "The root chosen by Tonelli-Shanks depends on the whole loop; the tests compare a few literals and no documentation says which root comes out.", "anchors": ["src/backend/u64/field.rs:378-437"]}
{"id": "C76", "title": "The Edwards encoding against an independent specification", "statement": "compress returns y, with bit 255 set unless x is principal. decompress and new_from_y_coord return the point with the given y (bits 0 to 251) whose x, or -x when the sign is set, is principal; None when there is none. Distinct points have distinct encodings. Negation of an encoding returns the encoding of the opposite point.", "quantifier": "all curve points in any extended coordinates, all 32-byte strings, all reduced y, both signs, both build modes", "why_tests_cant": "Injectivity and exactness of the encoding are claims about all points and all strings; the tests check two literals.", "anchors": ["src/edwards.rs:253-330", "src/edwards.rs:613-680", "src/edwards.rs:962-990"]}
{"id": "C77", "title": "The Ristretto encoding against an independent specification", "statement": "Every coset of the 4-torsion has exactly one canonical representative: x and xy non-negative, y neither 0 nor -1. Encoding any representative of an even element returns the non-negative s with y = (1-s^2)/(1+s^2) for the canonical representative. Decoding returns that representative with Z = 1, and None for every other string.", "quantifier": "all even curve points in any extended coordinates, all 32-byte strings, both build modes", "why_tests_cant": "The specification ranges over all elements and all strings; a pair of encoder and decoder that are wrong in the same way passes every round-trip test.", "anchors": ["src/ristretto.rs:96-140", "src/ristretto.rs:398-440"]}
{"id": "C78", "title": "Every program over the API computes its meaning", "statement": "For every expression built from variables, the public constructors, operators, encodings, comparisons, Option tests and if-else, with the variables representing mathematical values: if the expression has a mathematical meaning (field element, integer mod L, curve point, Ristretto element, string, truth value), both builds return one and the same value representing it; if it has none (division by zero, no root, bad encoding, out-of-range exponent), both builds panic. Meanings are unique; Ristretto programs give equal bytes exactly for equal elements.", "quantifier": "all well-formed expressions of unbounded size over 102 constructors, all variable assignments, both build modes", "why_tests_cant": "It quantifies over all compositions of operations, so it needs an invariant preserved by every operation; tests exercise single operations on chosen inputs.", "anchors": ["src/backend/u64/field.rs:1-800", "src/backend/u64/scalar.rs:1-700", "src/edwards.rs:70-1100", "src/ristretto.rs:40-510"]}
{"id": "C79", "title": "The signed-digit recodings are unique and of least weight", "statement": "compute_NAF returns the only width-2 non-adjacent recoding of the scalar, no expansion with digits -1, 0, 1 (of any length) has fewer non-zero digits, and there are at most 125 of them. compute_window_NAF of width w from 2 to 6 returns the only width-w recoding, no expansion with digits below 2^(w-1) in absolute value has fewer non-zero digits, and their number times w is at most 249 + w. At width 2 the two functions agree.", "quantifier": "all reduced scalars (for width 6 all but L - 2), all competing digit strings of unbounded length, both build modes", "why_tests_cant": "The competing expansions are infinitely many; optimality needs the induction on carries.", "anchors": ["src/backend/u64/scalar.rs:370-389", "src/backend/u64/scalar.rs:396-415"]}
{"id": "C80", "title": "compute_window_NAF at every width argument", "statement": "For each of the 256 widths and each build mode: zero gives zeros; widths 0, 1 and 32 to 255 panic on every non-zero scalar, as do 8 to 31 with overflow checks and 9, 17, 25 without, and so does window_naf_mul. Width 7 is right or panics with overflow checks, and is right without them except on the 17 odd scalars from L - 34 on, where the digit sum is off by one. Without overflow checks the remaining widths have a right digit sum when the width modulo 8 is 2 to 7 (same exceptions for 7), and a wrong one on every non-zero scalar when it is 0.", "quantifier": "all reduced scalars, all u8 widths, both build modes", "why_tests_cant": "2^249 scalars times 256 widths; the exceptional scalars are 17 out of 2^249 and the panics come from a loop that never ends.", "anchors": ["src/backend/u64/scalar.rs:396-415", "src/backend/u64/scalar.rs:423-442", "src/edwards.rs:155-171"]}
{"id": "C81", "title": "Imperative programs over the API compute their meaning", "statement": "For every imperative program over the public API (assignments, sequencing, if, while loops, random draws of field elements, scalars, Edwards, projective and Ristretto points) and every generator: if its execution on mathematical values ends, both builds end in one and the same state that represents the result; if it fails, both panic; conversely every return or panic of the code is the mathematical one, the code runs forever exactly when the mathematical execution has no outcome, both builds take the same steps, and the outcome is unique.", "quantifier": "all programs, all initial states that represent mathematical values, all byte generators, any number of steps, both build modes", "why_tests_cant": "Programs, loop lengths, generator answers and states are all unbounded; it needs a simulation in both directions.", "anchors": ["src/field.rs:131-140", "src/scalar.rs:100-109", "src/edwards.rs:658-663", "src/edwards.rs:984-997", "src/ristretto.rs:493-523"]}
{"id": "C82", "title": "How often each value is drawn at random", "statement": "Seen as a function of the 32 bytes drawn, FieldElement::random returns every reduced element below 2^251 for exactly 32 of the 2^256 byte strings and no element from 2^251 on; Scalar::random returns every scalar below 2^249 for exactly 128 of them and no other. A draw of a random Edwards point yields, of the two points above a y below 2^251, exactly one, for exactly 32 byte strings. For streams of n draws, every point that can be returned at all is returned by the same number of streams.", "quantifier": "all field elements, scalars and curve points, all n, both build modes", "why_tests_cant": "It counts byte strings out of 2^256, and for streams out of 2^(256 n).", "anchors": ["src/field.rs:131-140", "src/scalar.rs:100-109", "src/edwards.rs:658-663", "src/edwards.rs:984-997"]}
{"id": "C83", "title": "Indexing reads and writes single digits", "statement": "On 52-bit limbs a[i] is digit i of the value in base 2^52; for the compressed forms it is byte i of the value; an index past the end panics. Assigning through the index changes the value by (new - old) 2^(52 i), reads back, and leaves the other entries alone. It does not keep the element reduced or the limbs 52 bits wide.", "quantifier": "all limbs or byte strings, all indices, all values assigned", "why_tests_cant": "2^260 values and unbounded indices.", "anchors": ["src/backend/u64/field.rs:46-57", "src/backend/u64/scalar.rs:35-46", "src/edwards.rs:227-238", "src/ristretto.rs:47-52"]}
{"id": "C84", "title": "Printed text determines the value printed", "statement": "Integers are printed in decimal notation. Two field elements, scalars, points in the same coordinates, or encodings whose printed texts coincide are equal limb by limb (byte by byte). The converse reading for points fails: two representations of one curve point print differently although == holds. The text also tells the type: values of different types never print alike. The characters around the numbers, line breaks and blanks included, are fixed for each type.", "quantifier": "all 64-bit limbs and all byte strings", "why_tests_cant": "Injectivity over 2^320 limb vectors and more.", "anchors": ["src/backend/u64/field.rs:34-44", "src/backend/u64/scalar.rs:29-33", "src/edwards.rs:240-244", "src/edwards.rs:344-358", "src/edwards.rs:686-699", "src/edwards.rs:1013-1025", "src/ristretto.rs:44-45", "src/ristretto.rs:160-164", "src/montgomery.rs:14-16"]}
{"id": "C85", "title": "The parameter translator for numbers and moduli of every size", "statement": "In the tools crate: the base 2^52 translation yields the limbs of the field element or scalar with that value and translates back modulo 2^260; the base 2^51 one does not yield the crate's limbs. The byte translation round-trips and is shortest. Text in any base from 2 to 36 is read as a positional numeral, anything else panics, and the base conversion prints the shortest decimal numeral of the same number; EdwardsPoint::new puts the limbs of each coordinate in its place. Montgomery::new accepts exactly the odd moduli, Montgomery reduction and the printed table of the reduction are correct for every odd modulus and all operands below the power of two (the line 'recovered' then shows the operand, not its residue). phase1 always terminates and returns gcd times a power of two divided by its input modulo its constant, which is neither the field modulus nor prime, so some inputs have no inverse. Moduli of 2^31 to 2^32-1 bits, whose length does not fit an i32, make the reduction panic.", "quantifier": "all natural numbers and all moduli with fewer than 2^31 bits; all inputs of phase1", "why_tests_cant": "Arbitrary-precision operands and moduli, and loops whose length depends on them.", "anchors": ["tools/src/main.rs:13-50", "tools/src/main.rs:53-61", "tools/src/main.rs:69-120", "tools/src/main.rs:132-184", "tools/src/main.rs:186-236", "tools/src/main.rs:262-276"]}
{"id": "C86", "title": "How many inputs the Elligator map sends to one point", "statement": "At most four field elements are mapped to one curve point and at most sixteen to one Ristretto element; sixteen is attained. Consequently elligator_ristretto_flavour reaches at least p/16 Ristretto elements, and no Ristretto element is the result of from_uniform_bytes or new_random_point for more than 2^264 of the 2^512 byte strings, which is less than 2 + 2^-124 times the share of a uniform choice.", "quantifier": "all curve points, all loadable field elements, all 64-byte strings", "why_tests_cant": "A statement about all preimages among 2^252 field elements and 2^512 strings.", "anchors": ["src/ristretto.rs:430-491", "src/ristretto.rs:493-517", "src/ristretto.rs:519-523"]}
{"id": "C87", "title": "Which point operations the scalar multiplications perform", "statement": "The sequence of doublings, additions, subtractions and table accesses of double_and_add, ltr_bin_mul, binary_naf_mul and window_naf_mul is a function of the scalar alone and is given explicitly. double_and_add doubles once per binary digit and adds once per one; ltr_bin_mul doubles 249 times and adds once per one among the low 249 digits; the signed variants double 250 times and perform one other operation per non-zero digit, at most 125, respectively (249+w)/w for width w. The sequence determines the scalar (for ltr_bin_mul modulo 2^249), and its length differs between scalars of the same number of digits, so none of the four is constant time.", "quantifier": "all point operations, all points, all loadable scalars (signed variants: canonical scalars, widths 2 to 6)", "why_tests_cant": "Running time of single runs does not show the sequence of operations, and the claim concerns all pairs of scalars.", "anchors": ["src/edwards.rs:102-120", "src/edwards.rs:122-134", "src/edwards.rs:136-153", "src/edwards.rs:155-171"]}
{"id": "C88", "title": "The Kaliski inversion script for every odd modulus", "statement": "AlmostMontInv of tools/kalinski_inv.py terminates for every odd modulus q and every input x and returns d, k with d*x = gcd(q,x)*2^k modulo q, within log2 q + log2 x + 3 rounds. Its phase2 divides by 2^(k-253). For a unit modulo an odd q above 2^252 the script therefore prints the inverse times 2^253, not the inverse. The printed arrays are the limbs of the crate's field elements, and phase1 of the field inversion in the crate returns exactly the numbers of the script.", "quantifier": "all odd moduli, all non-negative inputs, all loadable field elements", "why_tests_cant": "Loops over unbounded integers whose length depends on the data.", "anchors": ["tools/kalinski_inv.py:13-24", "tools/kalinski_inv.py:27-58", "tools/kalinski_inv.py:61-69", "tools/kalinski_inv.py:73-86"]}
{"id": "C89", "title": "The Tonelli-Shanks script for every prime", "statement": "prime_mod_sqrt of tools/tonelli.py terminates for every prime modulus and every integer and returns, without repetition, exactly the square roots of the integer modulo that prime (including the prime 2 and the residue 0). The rounds are bounded by the logarithm of the modulus and any non-residue. The modulus of the script is the field modulus; every root returned by mod_sqrt of the crate is in the list, and mod_sqrt returns None exactly when the list is empty. For a composite modulus the list can miss roots.", "quantifier": "all primes, all integers, all canonical field elements", "why_tests_cant": "All primes; termination depends on the existence of a non-residue and on the order of elements.", "anchors": ["tools/tonelli.py:1-10", "tools/tonelli.py:13-69", "tools/tonelli.py:71-74"]}
{"id": "C90", "title": "The three forms of the curve in the documentation", "statement": "The maps of docs/main.tex convert between the Montgomery curve with parameters A, B and the twisted Edwards curve with a=(A+2)/B, d=(A-2)/B, for all A and B. Scaling by a root of -(A+2) followed by that map, completed at two points, is a group isomorphism from the curve of the code to the Montgomery curve of the README with the chord-and-tangent law; an affine map leads on to the Weierstrass curve of the README. All three have the printed number of points, 8L. The sage function mult computes the k-fold sum, and the extended formulas of the sage session represent the sum. Of the points with u = 1, 2, 3, 4 exactly those with u = 4 are annihilated by L, and the basepoint of the code is one of them; u = 2 is the least first coordinate of a generator of the whole group. Several printed statements are false: the maps applied without scaling, the sign in the printed equation, the printed subgroup order r, the formula in a comment, the second hexadecimal basepoint, and the claim that the basepoint is eight times the least generator.", "quantifier": "all points of the three curves, all curve parameters for the maps, all multipliers", "why_tests_cant": "Isomorphism, group laws and point counts concern about 2^252 points; least generators need orders of points.", "anchors": ["README.md:40-61", "docs/main.tex:170-290", "sage_codes/Point computation :1-218", "sage_codes/sage_weierstrass_code:83-138", "sage_codes/Safe Curve code:399-442"]}
{"id": "C91", "title": "The safety criteria of the documentation", "statement": "The embedding degree of the subgroup is exactly (L-1)/15, hence at least (L-1)/100. Every quadratic twist has order 4q with one prime q above 2^249. The trace satisfies Hasse's bound and 4p - t^2 divided by any square factor exceeds 2^100. A+2 is a square, A-2 and A^2-4 are not. The curve has exactly one point of order two and two of order four. The rho, anomaly, ladder and indistinguishability conditions hold. Both printed traces are wrong.", "quantifier": "all exponents, all twists, all square divisors, all points", "why_tests_cant": "Exact multiplicative orders, point counts of twists and all square divisors of a 500-bit number cannot be enumerated.", "anchors": ["docs/main.tex:256-325", "sage_codes/curve_derivation:1-36", "sage_codes/Safe Curve code:301-379", "sage_codes/Safe Curve code:446-470"]}
{"id": "C92", "title": "The documentation examples as programs", "statement": "The examples in the module documentation of field.rs, scalar.rs and edwards.rs, with every literal and every random draw replaced by a parameter, run to the end exactly when the unwraps and assertions in them can succeed, and panic otherwise; every value they compute is characterised. With the printed literals they all run to the end. The scalar modulus printed in four places of the documentation is not the order of the group.", "quantifier": "all byte strings, field elements, scalars, signs and generator outputs the examples may be given", "why_tests_cant": "A documentation test runs one choice of literals; the conditions under which the example panics range over the whole input space.", "anchors": ["src/field.rs:11-65", "src/scalar.rs:2-71", "src/edwards.rs:9-71", "src/lib.rs:138", "src/backend/u64/scalar.rs:528"]}
{"id": "C93", "title": "The tests of the crate that state laws, for all inputs", "statement": "Tests of edwards.rs and ristretto.rs, read as programs over their literals and random draws. Multiplication by eight agrees with three doublings, binary NAF agrees with double-and-add, the coset comparison, the torsion of the decoding difference and random point validity pass at every point, scalar and draw. The left-to-right test passes exactly when bit 249 does not matter: for all powers 2^k below 2^249, not for 2^249. The base point test passes exactly for ordinates of points annihilated by L, and the validity test exactly for ordinates of points that are not. The identity test passes on the zero string only. The coset test passes although the second entry of coset4 is not a point of the curve, and compressing that entry panics for some elements of the group.", "quantifier": "all points, scalars, ordinates, byte strings, numbers of rounds and generator outputs", "why_tests_cant": "Each test fixes a handful of inputs; whether it would pass on the others is a statement about 2^252 points and all draws.", "anchors": ["src/edwards.rs:1411-1418", "src/edwards.rs:1594-1617", "src/ristretto.rs:582-676"]}
{"id": "C94", "title": "Which branches the field operations take", "statement": "The control flow (every if, while, match, && and assert with its outcome) of the field functions. The branches of pow are the same for all bases and determine the exponent exactly; those of legendre_symbol are the same for all inputs. The branches of inverse determine its operand completely, and its loop runs between 253 and 505 rounds, both attained. The branches of mod_sqrt reveal exactly whether the operand is zero, whether it is a square and whether its power (p-1)/4 is one. Those of /, sqrt_ratio_i and inv_sqrt determine the divisor. The logging functions return what the functions of the model return.", "quantifier": "all operands, exponents, signs, both build profiles", "why_tests_cant": "That two operands with the same branches are equal compares all pairs of 252-bit values; timing tests see a handful.", "anchors": ["src/backend/u64/field.rs:65-76", "src/backend/u64/field.rs:277-300", "src/backend/u64/field.rs:325-503", "src/backend/u64/field.rs:552-557", "src/backend/u64/field.rs:703-738", "src/backend/u64/field.rs:854-925", "docs/main.tex:395"]}
{"id": "C95", "title": "The safe-curve verifier", "statement": "The routines of the Sage script that establish the numbers it prints, for any curve. The expansion by powers of two ends for every integer and its terms add up to it, at most one per nine bits. The list of verified primes contains primes only, each once, even when the primality oracle is wrong, and it contains every prime of the file whose predecessor factors over the earlier ones if a base generates its group. The embedding degree that is printed is the exact order of p modulo l, and it is printed exactly when l - 1 factors over the verified primes. The condition on it says that no power of p with exponent below (l - 1)/100 is 1 modulo l. The trace is that of every multiple of l in the Hasse interval. The discriminant is the fundamental discriminant of t^2 - 4p and is printed exactly when the verified primes cover that number. The cofactor and the prime of the twist order are right.", "quantifier": "all integers, moduli, orders, traces, lists of primes and bases, oracles", "why_tests_cant": "The script was run on a few curves; that a printed value is right for any curve is a statement about all integers.", "anchors": ["sage_codes/Safe Curve code:23-46", "sage_codes/Safe Curve code:76-107", "sage_codes/Safe Curve code:133-195", "sage_codes/Safe Curve code:211-234"]}
{"id": "C96", "title": "The general programs of sage_codes", "statement": "The extended Euclid routine ends within twice the bit length of its first argument and returns the greatest common divisor (with the sign of the first argument) and Bezout coefficients; the modular inverse is right for nonnegative units and raises for everything else, negative units included. The visible part of the square-root routine ends for every odd prime and every number and returns a root exactly when there is one. The session that passes from Montgomery to Weierstrass form computes, for b = 1, a curve and an abscissa whose square is the right-hand side of the Montgomery equation; for other b it need not. The derivation script skips exactly the candidates for which A^2 - 4 is a square and A + 2 is a nonzero square. The conversions of the verifier, over any field where two and three are not zero, take points to points and different points to different points, keep the curve elliptic, and every curve that comes from Montgomery form passes the ladder test.", "quantifier": "all integers, odd primes, fields, curve coefficients and points, fuel above an explicit bound", "why_tests_cant": "The sessions show the programs on two curves; correctness for every prime, field and point is not visible from them.", "anchors": ["sage_codes/sage_weierstrass_code:1-138", "sage_codes/curve_derivation:8-20", "sage_codes/Safe Curve code:264-318", "sage_codes/Safe Curve code:350-354"]}
{"id": "C97", "title": "What the branches of the scalar functions and of the point multiplications reveal", "statement": "The control flow (every if, while, match and assert with its outcome) of the scalar functions and of the multiplication routines. The branches of double_and_add, which is the operator * of EdwardsPoint, ProjectivePoint and RistrettoPoint, determine the scalar exactly and do not depend on the point. The same holds for binary_naf_mul, for compute_NAF and for the exponent of Scalar pow. The branches of ltr_bin_mul determine exactly the 249 low bits of the scalar. The branches of window_naf_mul determine position and sign of every nonzero digit but not the scalar: different scalars can have the same branches. The logging functions (those of comparison, encoding and decoding included) return what the functions of the model return.", "quantifier": "all scalars, all points with reduced coordinates (on the curve or not), both build profiles", "why_tests_cant": "Equality of logs if and only if scalars are equal compares all pairs of 249-bit scalars and all points.", "anchors": ["src/backend/u64/scalar.rs:54-84", "src/backend/u64/scalar.rs:300-442", "src/backend/u64/scalar.rs:445-467", "src/backend/u64/scalar.rs:525-552", "src/edwards.rs:102-171", "src/edwards.rs:547-577", "src/edwards.rs:881-913", "src/ristretto.rs:330-392", "docs/main.tex:395"]}
{"id": "C98", "title": "What the branches of comparison, encoding and decoding of points reveal", "statement": "The control flow of ==, compress, decompress and new_from_y_coord and of the Ristretto map. The branches of == on Edwards and projective points determine the Z coordinates of both operands and nothing else. The branches of EdwardsPoint::compress determine the Z coordinate, the x coordinate and y up to its sign, and nothing else. The branches of CompressedEdwardsY::decompress and of new_from_y_coord determine y up to its sign and nothing else; the requested sign is not visible in them. The branches of RistrettoPoint::compress determine (Z^2 - Y^2) X^2 Y^2. Those of CompressedRistretto::decompress tell whether the number s is at most (p-1)/2, and then determine the polynomial in s whose inverse root is taken. Those of elligator_ristretto_flavor determine r0^2 up to one reflection.", "quantifier": "all points with reduced coordinates and nonzero Z, all byte strings, all field elements, any two build profiles", "why_tests_cant": "That equal branch histories force equal coordinates is a statement about all pairs of inputs; the histories are hundreds of branches long.", "anchors": ["src/edwards.rs:200-204", "src/edwards.rs:313-326", "src/edwards.rs:360-370", "src/edwards.rs:613-653", "src/edwards.rs:702-712", "src/edwards.rs:962-979", "src/edwards.rs:1071-1110", "src/ristretto.rs:96-154", "src/ristretto.rs:398-471", "src/backend/u64/field.rs:854-925", "docs/main.tex:395"]}
{"id": "C99", "title": "Multiplication outside the reduced range", "statement": "mul, square, half and pow of FieldElement, and mul, square and pow of Scalar, return the reduced result for operands whose limbs have 52 bits, reduced or not (values up to 2^260 - 1). montgomery_mul keeps 52-bit limbs and the residue, though its result need not be reduced. Two limits are exact: the exponent of Scalar pow has to be reduced (2^(2L+1) comes out as 2 instead of 8), and with limbs of 64 bits a product panics or is wrong.", "quantifier": "all five-limb vectors with limbs below 2^52, both build profiles", "why_tests_cant": "The carries that matter occur near 2^260, which random or loaded values (below 2^256) never reach.", "anchors": ["src/backend/u64/field.rs:250-346", "src/backend/u64/field.rs:741-825", "src/backend/u64/scalar.rs:247-322", "src/backend/u64/scalar.rs:580-662"]}
{"id": "C100", "title": "mod_2_pow_k and mods_2_pow_k at every width", "statement": "mod_2_pow_k returns the value modulo 2^min(k,8) for every width below 64; above, it panics with overflow checks and counts the width modulo 64 without. mods_2_pow_k is described at each of the 256 widths: width 0, 7, 8, 16, 24, the other widths below 32, and 32 and above. The documented panic of mod_2_pow_k above 32 bits does not happen.", "quantifier": "all scalars with 52-bit limbs, all widths 0 to 255, both build profiles", "why_tests_cant": "The tests use widths 2 to 5; the statement covers all 256 widths and all scalars in both builds.", "anchors": ["src/backend/u64/scalar.rs:417-442"]}
{"id": "C101", "title": "Debug and release builds agree on every point function, on and off the curve", "statement": "Every function on affine, projective, extended and Ristretto points and every decoder, hash and constructor of points has the same outcome (value or panic) with and without integer overflow checks, and every point it returns has reduced coordinates, so the statement applies again to whatever is computed from it. Windowed multiplication is included for widths 2 to 6 and every reduced scalar. With unreduced coordinates it fails.", "quantifier": "all points with reduced coordinates (on the curve or not, Z = 0 included), all reduced scalars, all byte strings", "why_tests_cant": "Public coordinate fields allow points off the curve, which no test constructs; agreement is a universal statement.", "anchors": ["src/edwards.rs:102-191", "src/edwards.rs:253-326", "src/edwards.rs:402-663", "src/edwards.rs:733-997", "src/edwards.rs:1058-1123", "src/ristretto.rs:96-523"]}
{"id": "C102", "title": "The branches taken are the same in debug and release builds", "statement": "The complete log of decisions (every if, match, loop test and assertion with its source line) of each field, scalar and point function, together with its outcome, is the same with and without integer overflow checks, for reduced inputs on or off the curve. With unreduced coordinates it fails.", "quantifier": "all reduced field elements, scalars and points, all byte strings, all widths 2 to 6", "why_tests_cant": "Equality of whole execution paths of two builds for all inputs cannot be observed by running one build on samples.", "anchors": ["src/backend/u64/field.rs:520-960", "src/backend/u64/scalar.rs:320-540", "src/edwards.rs:102-191", "src/edwards.rs:402-663", "src/ristretto.rs:96-523"]}
{"id": "C103", "title": "What single decisions say", "statement": "Individual decisions of the code as mathematical statements about the input. In the signed recodings the loop runs exactly to the last nonzero digit, its parity tests tell the zero digits from the others and the arms give the signs of the others. The assertion of Scalar::from_bytes is the comparison with L. The assertion and arm of two_pow_k give the range and the limb. Encoding a Ristretto point rotates exactly when xy is negative. Decoding stops at the first test exactly for values above (p-1)/2, at the square-root test exactly when the polynomial in s is not a nonzero square, and 1 is the only such encoding rejected for y = 0 after that. The last sign test of the map to Ristretto points is the sign of s\u00b7r0 for the root s that was taken.", "quantifier": "all reduced scalars, widths 2 to 6, byte strings, field elements, Ristretto representatives, both build profiles", "why_tests_cant": "Each statement is an equivalence between a control-flow decision and a predicate on a 252-bit input.", "anchors": ["src/backend/u64/scalar.rs:368-466", "src/backend/u64/scalar.rs:525-560", "src/backend/u64/field.rs:712-740", "src/ristretto.rs:96-160", "src/ristretto.rs:380-420", "src/backend/u64/field.rs:545-560"]}
{"id": "C104", "title": "The benchmark programs", "statement": "benchmarks/dusk_benchmarks.rs as a program. Each group runs to its end and computes what its labels say: the field group exactly for nonzero inputs and exponents up to 252, the scalar group exactly for exponents below 250, the point groups on all points (panic exactly on byte strings that encode nothing). The comparison of multiplications gives D*P for double-and-add and for the signed digits, (D mod 2^249)*P for left-to-right. The three key exchanges agree on a*b*B for all generator outputs, a and b being their low 249 bits. On its literals the whole program ends in both builds. The benchmark \"Scalar mod 4\" reduces modulo 16 (refuted).", "quantifier": "all reduced field elements and scalars, valid points, byte strings and generator outputs, widths 2 to 6, both build profiles", "why_tests_cant": "Benchmarks check nothing: they discard their results. The statements range over all inputs and random draws.", "anchors": ["benchmarks/dusk_benchmarks.rs:36-120", "benchmarks/dusk_benchmarks.rs:139-216", "benchmarks/dusk_benchmarks.rs:301-403", "benchmarks/dusk_benchmarks.rs:418-484", "benchmarks/dusk_benchmarks.rs:520-620"]}
{"id": "C105", "title": "Points with unreduced coordinates", "statement": "EdwardsPoint, ProjectivePoint and AffinePoint have public coordinates, and FieldElement::from_bytes loads values up to 2^256 without reducing them. For coordinates loaded this way, adding, doubling, the multiplication operator, the left-to-right multiplication, the conversions, equality, both validity tests and Edwards encoding depend only on the residues modulo p, so they mean what they mean on the reduced point, with reduced results. A multiple of p as third coordinate is not noticed: the conversion to affine gives (0,0) instead of panicking. Negation and subtraction respect residues when X and T are reduced, Ristretto encoding when Y is reduced. Without those restrictions P - P is not the neutral element and two forms that compare equal encode to different bytes (refuted). Field subtraction is right exactly when the subtrahend exceeds the minuend by at most p.", "quantifier": "all pairs of points whose coordinates are below 2^256 with equal residues (no curve equation assumed unless stated), all scalars, both build profiles", "why_tests_cant": "The tests only use reduced coordinates; the statement covers sixteen representations of every coordinate of every point, and names exactly the functions for which the representation matters.", "anchors": ["src/edwards.rs:337-342", "src/edwards.rs:402-531", "src/edwards.rs:750-942", "src/edwards.rs:1071-1110", "src/ristretto.rs:166-182", "src/ristretto.rs:398-425", "src/backend/u64/field.rs:563"]}
{"id": "C106", "title": "The search for the curve coefficient", "statement": "The loop of sage_codes/curve_derivation with whatever Sage answers about orders as an oracle. If squares and primes are answered correctly the search ends exactly with the first candidate 4i+2 that is not skipped and whose orders are 8r and 4s with r, s prime; if there is none it reaches the singular cubic at i = p-1 and raises. With the true orders the coefficient 505186 of the crate is wanted, so the search ends no later than there; whatever it prints is at most 505186, is 2 modulo 4 and has orders 8r and 4s.", "quantifier": "all oracles, all numbers of iterations (the field has 2^252 candidates)", "why_tests_cant": "A run of the search needs the orders of up to 126296 curves over a 252-bit field; the statement also covers every answer the order oracle might give.", "anchors": ["sage_codes/curve_derivation:1-33"]}
{"id": "C107", "title": "Recoding scalars that are not reduced", "statement": "Scalar has a public array and IndexMut, so scalars of up to 260 bits can be written. compute_NAF ends for all of them, alike in both builds. Its digits stand for the scalar modulo L exactly when no binary prefix of the scalar that is L or more ends in two ones and 3k < 2^257; then they are a non-adjacent form of the integer. Without such a prefix but with 3k >= 2^257 it panics. binary_naf_mul computes the multiple for 3k < 2^251 unless k >= L and k = 3 modulo 4. For constants::L the only digit is -1, so L times any point comes out as its negation, where the operator * gives the L-fold.", "quantifier": "all 52-bit limbs (2^260 scalars), all curve points in extended and projective coordinates, both build profiles", "why_tests_cant": "The digits go wrong only where a subtraction passes L at one of the first eleven steps; which of 2^260 scalars are affected is an arithmetic condition on all their prefixes.", "anchors": ["src/backend/u64/scalar.rs:27", "src/backend/u64/scalar.rs:370-415", "src/edwards.rs:136-153", "src/backend/u64/constants.rs:9"]}
{"id": "C108", "title": "Points that are not on the curve", "statement": "The coordinates of points are public and the operations do not check the curve equation, so pairs (x, y) off the curve can be written. Addition stays commutative and the identity neutral; a sum follows the affine formula with t = d x1 x2 y1 y2 and has Z = 0 exactly if t^2 = 1. Doubling in extended coordinates always has a result; it lies on the curve exactly if (x, y) or (y, x) does. P - P equals the identity exactly if P is on the curve, in extended and in projective coordinates. Doubling in projective coordinates does not use d: it stays on the curve -x^2 + y^2 = 1 + e x^2 y^2 the point is on, and gives Z = 0 exactly if y^2 = x^2 or y^2 = x^2 + 2. Elsewhere, with x and y not zero, the two doublings agree exactly on the curve. Compressing a pair off the curve panics exactly if no curve point has its y; else it gives y with the top bit set, whatever x. Compression and decompression give back an equal point exactly for curve points with y below 2^252.", "quantifier": "all pairs of field elements, all reduced extended and projective coordinates of them, both build profiles", "why_tests_cant": "There are about p^2 pairs off the curve; the statements are equivalences over all of them and rest on d being a non-square.", "anchors": ["src/edwards.rs:337-342", "src/edwards.rs:465-604", "src/edwards.rs:680-685", "src/edwards.rs:809-942", "src/edwards.rs:613-629"]}
{"id": "C109", "title": "Ristretto equality on arbitrary coordinates", "statement": "ct_eq of RistrettoPoint looks only at X and Y. For any reduced coordinates it is true exactly if X1 Y2 = Y1 X2 or X1 X2 = Y1 Y2. It is reflexive and symmetric, and transitive through every value with X or Y not zero. A value with X = Y = 0 equals every point, so transitivity fails through it. Off the curve the relation is not kept by doubling: (x/2, y/2) equals the base point (x, y), their doubles differ.", "quantifier": "all reduced extended coordinates, on the curve or not, both build profiles", "why_tests_cant": "Transitivity speaks of all triples of about p^4 values each, and the code never checks that they are curve points.", "anchors": ["src/ristretto.rs:166-176", "src/edwards.rs:337-342"]}
