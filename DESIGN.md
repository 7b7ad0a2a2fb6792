# Formal model of dusk-zerocaf: design

The model is written in Rocq (Coq 8.16.1) under `rocq/theories`.
It covers the library code in `/repo/src` (u64 backend).

## Modelling choices

* A computation that can panic returns `res A := Ok a | Panic | NoFuel`.
  `NoFuel` marks a loop that ran out of the step budget given to it.
  Every total-correctness theorem concludes `Ok`, so it also proves termination and absence of panics.
* Every machine operation takes a flag `ck`.
  `ck = true` is a build with overflow checks (dev and test profiles): overflow is `Panic`.
  `ck = false` is the release profile (`overflow-checks = false` in Cargo.toml): overflow wraps.
  Theorems quantify over `ck`.
* `u64`, `u128`, `u8`, `i8` values are integers in Z, with explicit range reduction.
  Bit operations are `Z.land`, `Z.lor`, `Z.lxor`, `Z.shiftl`, `Z.shiftr`.
* A `FieldElement` or `Scalar` is a record of five limbs. The five-step limb loops are unrolled.
  Field and scalar code are separate definitions, as they are separate code in the repository.
* `subtle::Choice` is `bool`; constant-time selection is `if`. Timing is modelled as the sequence of point operations (C87) and of branches taken (C94, C97, C98).
* Byte arrays are lists of Z with bytes in 0..255.
* The random generator is an arbitrary list of bytes or byte strings it will deliver.
* `curve25519_dalek::scalar::Scalar` is a 32-byte list. `from_canonical_bytes` and `from_bytes_mod_order` follow their documentation.

## Specification layer

Specifications do not use model helpers.
They are: the integer value of five limbs in radix 2^52, the little-endian value of bytes, arithmetic modulo p or L, the field F = Z/p,
affine points of the curve -x^2 + y^2 = 1 + d x^2 y^2 with the affine addition formulas, and n-fold sums.
`CodeSpec.v` specifies the preferred square root and the two point encodings.
`OffSpec.v` describes coordinates of pairs that need not satisfy the curve equation.
`ApiSpec.v` gives the mathematical meaning of expressions over the API and `ProgSpec.v` that of imperative programs.

## Plan per property

* **C01** Field addition, subtraction and negation are exact. FieldModel.fe_add/fe_sub/fe_neg (limb by limb, unrolled loops). Show carries and borrows bounded, value = a+b-p or a+b etc. by linear arithmetic.
* **C02** Field multiplication and squaring are exact. fe_mul/fe_square/mul_internal/montgomery_reduce. Each reduction column is divisible by 2^52; R*pre = T + N*p; bound pre < 2p, then one conditional subtraction.
* **C03** Field inversion always terminates and is correct. fe_inverse with fuel 600. Invariants a*r = -u*2^k, a*s = v*2^k (mod p), gcd(u,v)=1, size(u)+size(v) decreases each step; k bounds for the final shift.
* **C04** Division is multiplication by the inverse and panics exactly on zero divisors. fe_div_ref / fe_div_val on top of C02, C03.
* **C05** Halving is exact. fe_half, fe_half_without_mod: shift across limbs, floor by linear arithmetic; _refuted witness for the documented panic.
* **C06** Field exponentiation terminates and is exact. fe_pow with fuel; invariant res*base^e = a^exp.
* **C07** legendre_symbol decides quadratic residuosity. Euler criterion proved from primality of p (Pocklington certificates) and Fermat; constructive converse by Tonelli-Shanks.
* **C08** mod_sqrt finds a root exactly when one exists. fe_mod_sqrt modelled with its nested loops; invariant x^2 = a*t, order of t.
* **C09** The sign argument of mod_sqrt selects the documented sign. _refuted by a computed witness; true part (two signs give opposite roots) in C08.
* **C10** sqrt_ratio_i and inv_sqrt satisfy their four-case contract. fe_sqrt_ratio_i on C04, C07, C08; i is not a square.
* **C11** Field byte encoding round-trips. fe_from_bytes/fe_to_bytes with masks and shifts; little-endian value as independent spec.
* **C12** Ordering and sign of field elements. fe_cmp lexicographic from the top limb = Z comparison.
* **C13** Field equality. fe_eq compares bytes; injectivity of C11. _refuted witness 0 / p for the mod-p reading.
* **C14** Integer conversions into the field are exact. direct.
* **C15** Conversion to and from Ristretto255 scalars is value preserving. dalek scalar modelled as 32 bytes; from_canonical_bytes and from_bytes_mod_order are specified, not modelled.
* **C16** Random field elements. RNG = arbitrary byte list. _refuted for uniformity: 2^251 unreachable.
* **C17** Scalar addition, subtraction and negation are exact. as C01 with separate definitions for Scalar.
* **C18** Scalar multiplication and squaring are exact. as C02.
* **C19** Scalar halving and right shift. as C05; Shr by induction on the count.
* **C20** Scalar exponentiation terminates and is exact. as C06, with half() on an even value equal to integer half.
* **C21** Scalar decoding accepts exactly the canonical encodings. as C11 plus the assertion.
* **C22** Bit decomposition of scalars. bits of bytes.
* **C23** compute_NAF is a correct non-adjacent form. loop invariant sum + k*2^i; k never wraps because L-1 is even.
* **C24** compute_window_NAF is a correct width-w recoding. loop invariant modulo L and bound on the top digit; _refuted witnesses for other widths.
* **C25** mod_2_pow_k and mods_2_pow_k. direct.
* **C26** Signed conversion into scalars. direct by range split; _refuted for -128.
* **C27** Scalar integer conversions, powers of two, ordering and equality. direct.
* **C28** Random scalars. as C16.
* **C29** Edwards addition is complete. affine group law over an abstract field type F = Z/p; completeness from d non-square and -1 square.
* **C30** Edwards points form an abelian group under the API. associativity of the affine law by field arithmetic modulo the curve equations; transfer through C29, C34.
* **C31** Edwards negation and subtraction. separate formula modelled and checked.
* **C32** Projective arithmetic agrees with the affine law. separate formulas, F and J nonzero from completeness.
* **C33** Coordinate conversions preserve the point. direct, uses C03.
* **C34** Point equality is equality of affine points. cross-multiplication, C13.
* **C35** is_valid characterises curve membership. direct; _refuted witnesses.
* **C36** Scalar multiplication by double-and-add. induction on the scalar for a generic group action, then instantiated for three point types.
* **C37** Left-to-right binary multiplication. loop over bits 248..0; _partial below 2^249; _refuted at 2^249.
* **C38** NAF multiplication. C23 plus loop over 250 digits.
* **C39** Scalar multiplication laws. integer multiples in the affine group, order of B from C55.
* **C40** Cofactor and power-of-two multiplication. corollaries of C36.
* **C41** Construction from a y coordinate is sound and complete. C08, d*y^2+1 never 0.
* **C42** Edwards compression round trip. _partial for y<2^252; _refuted for (0,-1).
* **C43** Edwards decompression is total and sound. C41 after masking.
* **C44** Negating a compressed Edwards point. C42, C43.
* **C45** Random points are valid. fuelled recursion over an RNG stream.
* **C46** coset4 lists the 4-torsion coset of a point. _partial for three entries, _refuted for the second.
* **C47** Ristretto equality is the coset relation. over F: (x2,y2) proportional to (x1,y1) or swapped, non-squareness argument.
* **C48** Ristretto operations respect equality. C47 and group law.
* **C49** Ristretto decoding is total, sound and accepts only canonical strings. over F: decode formulas, then encode gives same s.
* **C50** Ristretto encoding round trip. inductive predicate Constructible, invariant "even" (1+d*y^2 is a square); encode/decode inverse up to coset.
* **C51** Ristretto encodings are equal exactly for equal points. C49, C50 and invariance of encode on cosets.
* **C52** Elligator map is total and lands on the curve. curve identities; non-squareness of d(d+1).
* **C53** from_uniform_bytes is total. C52 + C29.
* **C54** Ristretto group laws. C30, C47.
* **C55** The basepoint has prime order L. Pocklington certificates for p and L; L*B computed with the model.
* **C56** Windowed multiplication of the basepoint. _partial w=2; _refuted w=3 (scalar 3 gives 5B).
* **C57** The curve has 8L points and the Ristretto group has prime order L. pigeonhole: 16L exceeds the number of candidate points 2p.
* **C58** Ristretto is_valid. C36, C35; _refuted witness.
* **C59** Montgomery point equality. _refuted; equality iff bytes equal.
* **C60** Published constants have their documented values. vm_compute on closed constants; non-square by Euler criterion.
* **C61** Byte-slice constructors. direct.
* **C62** Unimplemented entry points always panic. direct.
* **C63** Debug and release builds agree. corollary: every operation lemma is uniform in the build-mode flag.
* **C64** Scalars act on the Ristretto group modulo L. C57: the even points modulo the torsion have order L, so (a+b)P = aP + bP and (ab)P = a(bP) with scalar arithmetic modulo L for every Ristretto point.
* **C65** The Montgomery domain. Conversions and Montgomery multiplication from the word-level reduction lemma, for every loadable value.
* **C66** Addition and subtraction outside the reduced range. Exact values on every limb vector from the machine-word lemmas; `_refuted` where congruence modulo p fails.
* **C67** Inversion, division and roots of nonzero multiples of p. Follow the loops: the result is 0 and the square root loop never ends.
* **C68** Field axioms of the API. Through the encoding `enc : F -> fe`.
* **C69** Scalar axioms of the API. Through `sval` modulo L.
* **C70** Identity, Default and selection. Direct; encodings through C42 and C50.
* **C71** Ristretto encodings are in bijection with the scalars. C50, C57 and the order of the basepoint; the count by enumerating the scalars.
* **C72** Key agreement and Schnorr verification. Corollaries of the multiplication and encoding theorems.
* **C73** Totality on arbitrary reduced coordinates. The formulas over F need no curve equation; induction over the loop with the invariant "reduced".
* **C74** The example program. From C21 and C73; the point by evaluation of the curve equation.
* **C75** Which square root. Tonelli-Shanks multiplies a^((q+1)/2) by powers of the fixed non-residue; follow the quartic character through the loop.
* **C76** Edwards encoding against CodeSpec.v. C75 with C41 to C44.
* **C77** Ristretto encoding against CodeSpec.v. C49, C50 and uniqueness of the canonical representative.
* **C78** Programs over the API. A typed expression language (ApiModel.v) with evaluation by the model and a relational meaning (ApiSpec.v); induction over the expression, one compatibility lemma per operation.
* **C79** The recodings are unique and of least weight. Uniqueness by residues modulo 2^w; least weight from "adding a small number costs at most one digit" by strong induction on an inductive characterisation of expansions.
* **C80** compute_window_NAF at every width. The digit depends on the scalar modulo 256 only, so each width is decided by enumeration of residues and lifted by two loop invariants (value kept, value never reaches zero).
* **C81** Imperative programs. A while language over the expressions of C78 with a fuelled evaluator (ProgModel.v) and a big-step relation on mathematical values (ProgSpec.v); simulation in both directions by induction over the relation and over the fuel. Repeated addition is worked out as an instance with up to L - 1 rounds.
* **C82** How often each value is drawn. Counting with duplicate-free lists (RandSpec.v): the preimages of a value under the mask are written down; for streams, induction over the number of draws.
* **C83** Indexing. Base 2^52 and base 256 digits of the value.
* **C84** Printing. Decimal notation is specified by a reader (AccessSpec.v); the texts are prefix codes, so they can be parsed from the left.
* **C85** The tools crate. Loop invariants over the digits, over the bits of the modulus (Montgomery reduction) and for phase1 the two linear congruences of the almost-inverse algorithm; the product of the two operands halves in every round. Text arguments: numerals are an inductive relation, matched with the reader by induction from the right end of the text.
* **C86** Preimages under Elligator. From the image (x,y) the parameter s is known up to sign, the sign decides the branch, and in each branch r is the solution of a linear equation (EllPre.v); counting by explicit lists. The element with sixteen preimages was found by search and is checked by its defining equations.
* **C87** Sequence of point operations. TraceModel.v repeats the four loops with a log of calls; each logging variant is proved to be the modelled function together with a trace that TraceSpec.v defines from the scalar alone. Counting uses C79; the trace is decoded back into the digits.
* **C88** Kaliski script. The loop invariant of C85 (`invariant`) with bounds on r, s, k gives the result for every odd modulus; a simulation by values shows that `phase1` of the field inversion takes the same branches.
* **C89** Tonelli–Shanks script. Tonelli.v: a monic polynomial of degree n has at most n roots modulo a prime (synthetic division), hence a non-residue exists; the outer loop keeps x² = a·t, c^(2^(m-1)) = -1, t^(2^(m-1)) = 1, the inner loop finds the order of t.
* **C90** Forms of the curve. DocModel.v transcribes the documents over F. Forms.v: with f² = −(A+2) the composed map is inverted explicitly; the homomorphism by reducing both sides to a common slope l (chord or tangent), after which every identity is polynomial modulo the two curve equations. The Weierstrass form by a general change of coordinates of cubics. Counting by mapping the list of C57. Orders of the points with u = 1..4 from the evenness character of the Ristretto chapter and the decomposition of C57.
* **C91** Safety criteria. DocPrimes.v: Pocklington certificates; exact multiplicative order from the prime factors of the exponent; square divisors stripped one prime at a time. Twists: for every u the numbers of v on the curve and on the twist add up to two, so the orders add up to 2p+2.
* **C92** Documentation examples. DocTestModel.v: one program per example with its literals as parameters; each step discharged by the operation's theorem, the panic cases from C76 and C14.
* **C93** Tests of the crate as programs over their inputs (TestModel.v). The second entry of coset4 is followed explicitly as the point with its coordinates exchanged; an even point never has x = 1, so that entry is never the identity.
* **C94** Branches of the field functions. BranchModel.v: the same functions with a log of every decision and its source line. Runs of `inverse` are decoded backwards: the arms of the `match` in line 882 are invertible on (u, v), and the loop always ends in (1, 0). Bounds on the rounds from u·s + v·r = p.
* **C95** The safe-curve verifier (SafeModel.v) over the integers, no reference to this curve. Certificates via Pocklington's criterion (`NumTheory.v`); the exact order from minimality at every prime of l − 1; the discriminant from the product of distinct primes being square-free. `is_prime` of Sage is an oracle. The files written and the numbers that need real logarithms (rho) are not modelled.
* **C96** The general programs of sage_codes (SageModel.v): Euclid by the halving of the remainder every second step; the square root by the order of the fudge factor, as for tonelli.py; the conversions by field identities over an arbitrary `field_theory`.
* **C97** Branches of the scalar functions and of the multiplications. LeakModel.v extends the log of C94 to scalar.rs, edwards.rs and ristretto.rs. The logs are computed as functions of the scalar (bits, signed digits) and these functions are shown injective.
* **C98** Branches of comparison, encoding and decoding. The log of an inversion is self-delimiting (line 881 ends with a 0), so a log with several inversions splits into them and each gives up its operand.
* **C99** Multiplication outside the reduced range. The first Montgomery reduction of a 520-bit product leaves 52-bit limbs; the second multiplies them by the reduced constant RR, so its value before the last subtraction is below 2p and the result is reduced. A power uses its base only through products, so an unreduced base may be replaced by its residue.
* **C100** `mod_2_pow_k` and `mods_2_pow_k` at every width. The outcome depends on the value modulo 256 and the width only: a finite table of 32 widths times 256 residues, checked once and read off.
* **C101** Debug and release builds on every point function. A compositional predicate (same outcome in both builds, result reduced) is closed under sequencing; each function follows from its field operations.
* **C102** The logs in both builds. The predicate of C101 lifted to logs; the logs of exponentiation and square root follow from the ones computed for C94. C94 and C98 compare runs of possibly different builds as well.
* **C103** What single decisions say: recodings (loop tests, parity tests and sign arms against the digits), `from_bytes`, `two_pow_k`, Ristretto encoding, decoding and the map from field elements.
* **C104** The benchmark programs. BenchModel.v transcribes each closure once; BenchStmt.v composes the contracts of the single functions. New is the signed-digit multiplication on Ristretto points, whose subtraction is not that of Edwards points.
* **C105** Points with unreduced coordinates. `alike_ext` (RawSpec.v) relates points with equal residues; RawStmt.v shows that a point and its reduced form give equal results, function by function.
* **C106** The search for the curve coefficient. SearchModel.v has the loop with an oracle for what Sage computes; the orders at A = 505186 come from C90 and C91. That no smaller coefficient is wanted is not shown: it would need the orders of 126295 other curves.
* **C107** Recoding scalars that are not reduced. The digit loop is followed on integers (OverStmt.v): a step with digit -1 from a value of L or more takes away L + 1 too much, and these errors cannot cancel modulo L.
* **C108** Points that are not on the curve. The formulas are followed over F without the curve equation (OffStmt.v); that 1 + d x^2 y^2 and 1 - d x^2 y^2 are never zero needs only that d is not a square.
* **C109** Ristretto equality on arbitrary coordinates. The relation compares the ratios X : Y up to inversion, which is an equivalence wherever the ratio exists (RelStmt.v).

Properties whose full statement is false of the code get a theorem `..._refuted` with a concrete witness and a theorem `..._partial` for the part that holds.

## Disagreements found between the code and its documentation

Each item names the theorem that records it.

1. `ltr_bin_mul` visits bits 248..0 only. Scalars from 2^249 up lose their top bit. `C37_ltr_refuted`, exact behaviour in `C37_ltr_low_bits`.
2. `window_naf_mul` indexes the table by the digit, but entry i of the table is (2i-1)B. Only width 2 computes kB. `C56_window_refuted`, exact behaviour in `C56_window`.
3. `compute_window_NAF` and `mods_2_pow_k` fail for some widths: width 1 and 8 and, with overflow checks, 7. Width 6 is wrong for the single scalar L-2. `C24_wnaf_one_refuted`, `C24_wnaf_six_refuted`, `C24_wnaf_seven_refuted`, `C24_wnaf_eight_refuted`, `C25_mods_range_refuted`. Every width is settled by the `C80_*` theorems.
4. `mod_2_pow_k` truncates to u8 for k above 8 and does not panic above 32 as documented. `C25_mod_range_refuted`, exact behaviour in `C25_mod_trunc`.
5. `Scalar::from(-128i8)` panics with overflow checks and yields +128 without. `C26_min_refuted`.
6. `CompressedEdwardsY::decompress` masks the last byte with 0x0F. Points with y >= 2^252 do not survive a round trip. `C42_round_trip_refuted`. Bits 4 to 6 of that byte are ignored and a sign bit on x = 0 is accepted, so encodings are not unique. `C43_unique_refuted`.
7. `Neg for CompressedEdwardsY` unwraps the decompression and panics on invalid encodings. `C44_panics`.
8. `coset4` adds `FOUR_COSET_GROUP[0]` = (1,0), which is not on the curve, and never uses `[3]` = (i,0). `C46_coset4_refuted`.
9. `is_valid` accepts tuples with Z = 0 and XY = 0. `EdwardsPoint::is_valid` never looks at T. `C35_zero_z_refuted`, `C35_t_refuted`.
10. `RistrettoPoint::is_valid` asks for order L on the Edwards representative. It rejects legitimate representatives, among them the decoding of the compressed basepoint. `C58_reject_refuted`.
11. `mod_sqrt`: the sign argument does not select the documented sign of the root. `C09_sign_refuted`.
12. `half_without_mod` does not panic on odd elements. `C05_odd_panics_refuted`.
13. `FieldElement::random` never reaches 2^251 or more and `Scalar::random` never reaches 2^249 or more, so neither is uniform. `C16_uniform_refuted`, `C28_uniform_refuted`. `gen_range(0u8, 1u8)` is always 0, so random points always have sign 0.
14. Equality of field elements compares bytes without reducing. p and 0 differ. `C13_unreduced_refuted`. Consequently `inverse(p)` does not panic but returns 0 (`C03_inverse_p`).
15. `MontgomeryPoint` equality is documented modulo p but is equality of byte strings. `C59_mod_p_refuted`.
16. constants.rs says that the basepoint has positive sign. Its x is above (p-1)/2. `C60_sign`.
17. Scalar arithmetic modulo L is not compatible with `EdwardsPoint` multiplication outside the subgroup generated by the basepoint. `C39_all_points_refuted`. It is on Ristretto points (C64).
18. `from_bytes_wide`, `to_montgomery` and `to_edwards` are `unimplemented!()`. `C62_panics`.
19. `from_bytes` of a field element does not reduce. The re-encoding test in the Ristretto decoder is always true; canonicity follows from the sign test (`C49_canonical`).
20. The comments in scalar.rs quote a modulus that is not the one in constants.rs. The model uses the constants.
21. Field subtraction and negation are wrong modulo p for some operands that were loaded unreduced. `C66_field_sub_refuted`.
22. `inverse` and division return 0 for a divisor that is a nonzero multiple of p (`C67_inverse`, `C67_div_multiple`). `sqrt_ratio_i` then reports a square (`C67_sqrt_ratio_multiple`). `mod_sqrt` of such a value never terminates (`C67_mod_sqrt_diverges`).
23. The point `G` in examples/basic_ops.rs and in the crate documentation is not on the curve. `C74_point_refuted`. The comment there also quotes the group order of curve25519 as L.
24. In the tools crate, `to_field_elem_51` prints base 2^51 limbs, which are not the limbs of this field (`C85_elem51_refuted`). Larger numbers than the limbs can hold are cut off silently (`C85_overflow_refuted`). The modulus in `phase1` is not the field modulus and is divisible by 5, so phase1 of 5 is no inverse times a power of two (`C85_phase1_modulus`, `C85_phase1_inverse_refuted`). The value printed as recovered is not the residue when the operand exceeds the modulus (`C85_recovered_refuted`).
25. The last line printed by `tools/kalinski_inv.py` is labelled `ainv` but is the inverse times 2^253 (`C88_ainv_refuted`, `C88_inverse`). `tools/tonelli.py` must not be used with a composite modulus: 4 has the root 2 modulo 15 but the list is empty (`C89_composite_refuted`; the script documents that p must be prime).
26. docs/main.tex applies the Edwards–Montgomery maps to the curve with a = −1 directly; the image lies on the curve with B = −(A+2), not B = 1 (`C90_direct`, `C90_direct_refuted`). The scaling by √(A+2)·i has to come first (`C90_montgomery`).
27. The equation printed in the definition of docs/main.tex lacks the minus sign of d (`C90_equation_refuted`). The prime r printed in README.md and docs/main.tex has two extra digits: it is not the order of the subgroup (`C90_r_refuted`; constants.rs has the right value). The formula for Y3 in a comment of "sage_codes/Point computation " has T1T2 for Z1Z2 (`C90_comment_refuted`). "sage_codes/Safe Curve code" prints a second hexadecimal basepoint that is not on the curve (`C90_hex_refuted`).
28. docs/main.tex defines the basepoint as eight times the generator with the smallest first coordinate. That generator has u = 2, and eight times it does not have u = 4 (`C90_generator`, `C90_generator_refuted`). The code's basepoint is the one of `findBasepoint` (least u of prime order, `C90_basepoint`), if the test `if not v2.is_square()` in that session is read without its `not`.
29. Both traces of Frobenius printed in "sage_codes/Safe Curve code" are wrong: one has the wrong sign, the other is q+1−P instead of P+1−q (`C91_trace_refuted`).
30. The scalar modulus printed in scalar.rs 2 and 71, lib.rs 138, basic_ops.rs 49 and backend/u64/scalar.rs 528, 2^249 − 15145038707218910765482344729778085401, is not the group order (`C92_modulus_refuted`).
31. `four_coset_eq_basepoint` (ristretto.rs 633-640) passes although the second entry of `coset4` is not a curve point (`C93_coset_refuted`); compressing that entry, as `decompress_id` does, panics for some elements of the group (`C93_coset_panic_refuted`).
32. `left_to_right_bin_mul` (edwards.rs 1603-1605) passes for 2^k with k ≤ 248 and fails for k = 249 at the base point (`C93_ltr_pow_refuted`).
33. docs/main.tex 395 says that operations on secret data run in constant time. The branches of field inversion determine the operand (`C94_inverse`), so everything that divides reveals its divisor to an observer of the control flow. The branches of the operator `*` of all three point types determine the scalar (`C97_mul`). Comparing two points gives away their Z coordinates (`C98_eq`), encoding a point gives away its coordinates up to the sign of y (`C98_compress`).
34. sage_codes/sage_weierstrass_code: `modinv` raises on negative numbers that have an inverse (`C96_modinv_refuted`), and the session leaves b_m out of the abscissa, so for b_m ≠ 1 a point need not go to a point (`C96_weierstrass_refuted`; both sessions have b_m = 1). The condition in curve_derivation skips a candidate with A^2 − 4 a square only if A + 2 is a square too; A = 30 passes although A^2 − 4 is a square (`C96_derivation_refuted`).
35. `mod_2_pow_k` is documented to panic above 32 bits; it panics from 64 bits on and only with overflow checks (`C100_doc_refuted`, `C100_mod_wide`). `mods_2_pow_k` is documented to panic at width 0; without overflow checks it returns −1 (`C100_mods_zero`).
36. Scalar `pow` halves odd exponents modulo L, so an exponent that was loaded unreduced gives a wrong power (`C99_scalar_exponent_refuted`). Field `pow` has no such limit (`C99_field_pow`).
37. benchmarks/dusk_benchmarks.rs 527 calls `old_half`, which no type of the crate has, so the benchmarks do not compile. The model leaves the call out. The benchmark called "Scalar mod 4" (line 198) reduces modulo 16 (`C104_mod4_refuted`).
38. The coordinates of points are public and `FieldElement::from_bytes` does not reduce. Negation, subtraction and Ristretto encoding are wrong on such coordinates (`C105_neg_refuted`, `C105_rist_compress_refuted`), and a third coordinate that is a nonzero multiple of p converts to (0,0) (`C105_zero`).
39. `compute_NAF` and `compute_window_NAF` are wrong for some scalars from L on (`C107_naf_exact`, `C107_window_refuted`). `binary_naf_mul` by `constants::L` negates the point; the operator `*` gives the identity on the subgroup (`C107_order`, `C107_order_refuted`).
40. Only `is_valid` looks at the curve equation, and no operation calls it. For pairs off the curve, P - P is not the identity and the doublings of `EdwardsPoint` and `ProjectivePoint` disagree (`C108_ext_self`, `C108_doublings`); the double of an off-curve mirror image (y, x) is a curve point (`C108_ext_double`). `compress` panics or encodes a different point (`C108_compress`).
41. `ct_eq` of `RistrettoPoint` answers true for every partner of a value with X = Y = 0, which can be written with the public fields (`C109_zero`, `C109_transitive_refuted`). `C47_equivalence` is about curve points, where this cannot occur.

## What is modelled

* `src/backend/u64/field.rs`: every function and trait impl.
* `src/field.rs`: equality, selection, conversions, `random`.
* `src/backend/u64/scalar.rs` and `src/scalar.rs`: the same.
* `src/backend/u64/constants.rs` and `src/constants.rs`: every constant, the 126-entry table included.
* `src/edwards.rs`: the generic multiplications, `CompressedEdwardsY`, `EdwardsPoint`, `ProjectivePoint`, `AffinePoint`.
* `src/ristretto.rs`: `CompressedRistretto` and `RistrettoPoint`.
* `src/montgomery.rs`: equality, default, `to_edwards`.
* Compositions: `ApiModel.v` has an expression language with 102 constructors over the API, and `ProgModel.v` adds assignment, branches, loops and random draws. They leave out raw constructors, `from_bytes` of the field on computed bytes, the operations with a refuted contract (`ltr_bin_mul`, `window_naf_mul`, `coset4`, `RistrettoPoint::is_valid`) and the coordinates of a `RistrettoPoint`.
* `Index`, `IndexMut`, `Debug` and `Display` of all types: `AccessModel.v`.
* `examples/basic_ops.rs`: the whole program; the random bytes are its input and the printed values its result.
* `tools/src/main.rs`: `main`, the translations, the Montgomery reduction with its printed table and `phase1`, on natural numbers of any size (`ToolsModel.v`). Arguments given as text are read digit by digit. The lines that print intermediate values are left out.
* `README.md`, `docs/main.tex`, `sage_codes`: the curve equations, maps, constants and the point arithmetic, over the field F (`DocModel.v`). The curve search (`curve_derivation`) is modelled with an oracle for the orders (`SearchModel.v`); C91 and C106 check what it asks of the result, not that A is the least. The verifying routines of "sage_codes/Safe Curve code" are modelled for all inputs (`SafeModel.v`). Euclid, the square root, the Weierstrass session, the skip condition and the curve conversions are in `SageModel.v`.
* Documentation examples of `field.rs`, `scalar.rs`, `edwards.rs` (`DocTestModel.v`) and the tests of `edwards.rs`, `ristretto.rs` that state laws (`TestModel.v`), as programs with their literals and draws as parameters.
* `benchmarks/dusk_benchmarks.rs`: every closure, run once, with the literals as parameters (`BenchModel.v`).
* `tools/kalinski_inv.py`, `tools/tonelli.py`: all functions and the calls at the end, read as Python 2, integers unbounded (`ScriptModel.v`). What is printed is returned as numbers.

## Not modelled

* `Clone` and `Copy`; the alternate form `{:#?}`; by-value operators that only forward to by-reference ones share one definition.
* Timing as such. C87 logs point operations, C94 the branches of the field functions, C97 those of scalar and point multiplication and C98 those of comparison, encoding and decoding; cache behaviour and the time of single machine instructions are not modelled.
* Probabilities: C82 counts generator outputs and assumes nothing about how likely they are. A generator that fails.
* Test modules, the repetition and timing of benchmarks, and of `sage_codes`: `findBasepoint` (its indentation is lost in the file; `C90_basepoint` covers what it looks for), file output and real logarithms. (The repository's unit tests are transcribed as vectors, see below.)

## Trusted base

* The Coq 8.16.1 kernel, including `vm_compute`.
* `Print Assumptions` stands under every property theorem. Every one of them answers "Closed under the global context": no axiom is used, neither ours nor the standard library's.
* `coqchk -o` lists seven constants `Coq.ssr.ssrunder.Under_rel.*` for the whole set of loaded libraries. They are parameters of a standard library module type that the tactic library loads. No theorem here depends on them.
* The translation by hand of the Rust source to Gallina, with file and line citations on every definition. As a check of it, the deterministic unit tests of the repository are transcribed and evaluated on the model: the quick ones in `Vectors.v`, the slow ones in `tools/heavy_vectors.txt` (outside the build, run once with `vm_compute`, all with the expected answer).
* The semantics assumed for external crates: `subtle` (selection, equality), `num` (`is_even`), `rand` (delivers bytes, `gen_range(0u8, 1u8)` is half-open), `curve25519-dalek` (`from_canonical_bytes` accepts exactly values below p, `from_bytes_mod_order` reduces modulo p).
* rustc's semantics of integer operators in the two build profiles, as written in `Machine.v`.
* The generators `tools/gentable.py`, `tools/gengroup.py` and `tools/genvectors.py` only write data files. What they write is checked by the kernel or is a transcription of constants.rs.
