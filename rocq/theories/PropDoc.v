(** * Properties proved in DocStmt.v, restated (written by tools/genprops.py) *)

From Coq Require Import ZArith List Bool Lia Ring Field Znumtheory.
From Verif Require Import Spec NumTheory Primes Fp Curve CurveGroup EdwardsY Rist RistSpec GroupCheck GroupOrder GroupStmt EllStmt EdwardsStmt
  DocModel Forms DocPrimes DocFacts.
Import ListNotations.
Open Scope F_scope.
From Verif Require Import DocStmt.

(** ** C90: The three forms of the curve in the documentation *)

(** The two maps of main.tex, for every Montgomery curve and the twisted Edwards curve with
    a = (A+2)/B and d = (A-2)/B. *)
Theorem C90_maps : forall A B, B <> 0 ->
  (forall u v, on_montgomery A B (u, v) -> v <> 0 -> u + 1 <> 0 ->
    on_edwards ((A + (1 + 1)) / B) ((A - (1 + 1)) / B) (mon_to_ted (u, v)) /\ (u <> 0 -> ted_to_mon (mon_to_ted (u, v)) = (u, v))) /\
  (forall x y, on_edwards ((A + (1 + 1)) / B) ((A - (1 + 1)) / B) (x, y) -> x <> 0 -> 1 - y <> 0 ->
    on_montgomery A B (ted_to_mon (x, y)) /\ (1 + y <> 0 -> mon_to_ted (ted_to_mon (x, y)) = (x, y))).
Proof. exact C90_maps_stmt. Qed.
Print Assumptions C90_maps.

(** Applied to the curve of the code itself the second map leads to the Montgomery curve
    with B = -(A+2), *)
Theorem C90_direct : forall x y, on_curve (x, y) -> x <> 0 -> on_montgomery mont_A (- (mont_A + (1 + 1))) (ted_to_mon (x, y)).
Proof. exact C90_direct_stmt. Qed.
Print Assumptions C90_direct.

(** not to the documented one with B = 1. *)
Theorem C90_direct_refuted : exists P, on_curve P /\ fst P <> 0 /\ ~ on_montgomery mont_A 1 (ted_to_mon P).
Proof. exact C90_direct_refuted_stmt. Qed.
Print Assumptions C90_direct_refuted.

(** The scaling of main.tex: substituting x/f for x, with f^2 = -a, turns the equation with
    parameters a and d into the one with parameters -1 and -d/a. *)
Theorem C90_scaling : forall a d f, f * f = - a -> f <> 0 ->
  forall P, on_edwards a d (rescale f P) <-> on_edwards (- (1)) (- d / a) P.
Proof. exact C90_scaling_stmt. Qed.
Print Assumptions C90_scaling.

(** The curve of the code and the Montgomery curve of the README are isomorphic: scaling
    followed by the map of main.tex, extended to the two points where it is undefined, is a
    bijection that takes the addition of the code's curve to the chord-and-tangent law. *)
Theorem C90_montgomery : exists (f : F) (phi : xy -> point) (psi : point -> xy),
  f * f = - (mont_A + (1 + 1)) /\
  (forall x y, x <> 0 -> phi (x, y) = Some (ted_to_mon (rescale f (x, y)))) /\
  phi origin = None /\ phi (0, - (1)) = Some (0, 0) /\
  (forall P, on_curve P -> on_cubic mont_A 1 0 (phi P) /\ psi (phi P) = P) /\
  (forall P, on_cubic mont_A 1 0 P -> on_curve (psi P) /\ phi (psi P) = P) /\
  (forall P Q, on_curve P -> on_curve Q -> phi (sum P Q) = cubic_add mont_A 1 (phi P) (phi Q)) /\
  (forall P, on_curve P -> phi (opposite P) = cubic_opp (phi P)).
Proof. exact C90_montgomery_stmt. Qed.
Print Assumptions C90_montgomery.

(** The Weierstrass curve of the README is isomorphic to the Montgomery curve by the affine
    change of coordinates (36 u + 12 A, 216 v). *)
Theorem C90_weierstrass : exists (phi psi : point -> point),
  phi None = None /\
  (forall u v, phi (Some (u, v)) = Some (toF 36 * u + toF 12 * mont_A, toF 216 * v)) /\
  (forall P, psi (phi P) = P /\ phi (psi P) = P) /\
  (forall P, on_cubic 0 wei_a wei_b (phi P) <-> on_cubic mont_A 1 0 P) /\
  (forall P Q, on_cubic mont_A 1 0 P -> on_cubic mont_A 1 0 Q ->
    phi (cubic_add mont_A 1 P Q) = cubic_add 0 wei_a (phi P) (phi Q)).
Proof. exact C90_weierstrass_stmt. Qed.
Print Assumptions C90_weierstrass.

(** The formulas of sage_weierstrass_code, for every A. *)
Theorem C90_shift : forall A u v, on_montgomery A 1 (u, v) <->
  on_cubic 0 ((toF 3 - A * A) / toF 3) ((toF 2 * (A * A * A) - toF 9 * A) / toF 27) (Some (u + A / toF 3, v)).
Proof. exact C90_shift_stmt. Qed.
Print Assumptions C90_shift.

(** The order printed in the documentation is the number of points, in all three forms. *)
Theorem C90_count :
  (exists l, NoDup l /\ Z.of_nat (length l) = doc_G /\ forall P, In P l <-> on_curve P) /\
  (exists l, NoDup l /\ Z.of_nat (length l) = doc_G /\ forall P, In P l <-> on_cubic mont_A 1 0 P) /\
  (exists l, NoDup l /\ Z.of_nat (length l) = doc_G /\ forall P, In P l <-> on_cubic 0 wei_a wei_b P).
Proof. exact C90_count_stmt. Qed.
Print Assumptions C90_count.

(** The chord-and-tangent law on the Montgomery curve is an abelian group law. *)
Theorem C90_laws : let C := on_cubic mont_A 1 0 in let add := cubic_add mont_A 1 in
  (forall P Q, C P -> C Q -> C (add P Q)) /\
  (forall P Q R, C P -> C Q -> C R -> add (add P Q) R = add P (add Q R)) /\
  (forall P Q, C P -> C Q -> add P Q = add Q P) /\
  (forall P, add None P = P) /\
  (forall P, C P -> C (cubic_opp P) /\ add P (cubic_opp P) = None).
Proof. exact C90_laws_stmt. Qed.
Print Assumptions C90_laws.

(** `mult` of the sage session computes the k-fold sum of every point, for every k. *)
Theorem C90_mult : forall fuel P k, on_cubic mont_A 1 0 P -> (0 <= k < 2 ^ Z.of_nat fuel)%Z ->
  sage_mult (S fuel) mont_A 1 P k = Some (Z.iter k (cubic_add mont_A 1 P) None).
Proof. exact C90_mult_stmt. Qed.
Print Assumptions C90_mult.

(** Of the points with first coordinate 1, 2, 3 and 4 exactly those with first coordinate 4
    are annihilated by L; they exist, and one is the image of the basepoint of the code. *)
Theorem C90_basepoint : (forall u v, In u [1; 2; 3; 4]%Z -> on_montgomery mont_A 1 (toF u, v) ->
    (Z.iter L (cubic_add mont_A 1 (Some (toF u, v))) None = None <-> u = 4%Z)) /\
  (let v := toF 2387694734969974503585694617203302024142786955946516383730480941479078023877 in
   on_montgomery mont_A 1 (toF 4, v) /\ v * v = toF 8083044 /\
   exists f, f * f = - (mont_A + (1 + 1)) /\ ted_to_mon (rescale f base) = (toF 4, v)).
Proof. exact C90_basepoint_stmt. Qed.
Print Assumptions C90_basepoint.

(** main.tex chooses as generator of the whole group the point with the smallest first
    coordinate that has order 8L: that coordinate is 2. *)
Theorem C90_generator : (forall v, on_montgomery mont_A 1 (toF 1, v) -> Z.iter 4 (cubic_add mont_A 1 (Some (toF 1, v))) None = None) /\
  (forall v n, on_montgomery mont_A 1 (toF 2, v) -> (0 <= n)%Z ->
    (Z.iter n (cubic_add mont_A 1 (Some (toF 2, v))) None = None <-> (doc_G | n)%Z)) /\
  (exists v, on_montgomery mont_A 1 (toF 2, v)).
Proof. exact C90_generator_stmt. Qed.
Print Assumptions C90_generator.

(** Its eightfold multiple, which main.tex names as the basepoint, is not the basepoint of the
    code or its negative: the first coordinate is not 4. *)
Theorem C90_generator_refuted : exists v, on_montgomery mont_A 1 (toF 2, v) /\
  forall w, Z.iter 8 (cubic_add mont_A 1 (Some (toF 2, v))) None <> Some (toF 4, w).
Proof. exact C90_generator_refuted_stmt. Qed.
Print Assumptions C90_generator_refuted.

(** The addition and doubling of the sage session in extended coordinates represent the sum,
    for every two representations of points of the curve. *)
Theorem C90_extended : forall P Q A B, quad_rep P A -> quad_rep Q B -> on_curve A -> on_curve B ->
  quad_rep (sage_add (- (1)) cd P Q) (sum A B) /\ quad_rep (sage_double (- (1)) P) (sum A A).
Proof. exact C90_extended_stmt. Qed.
Print Assumptions C90_extended.

(** The formula in the comment of the session does not. *)
Theorem C90_comment_refuted : exists P A, quad_rep P A /\ on_curve A /\ ~ quad_rep (sage_add_comment (- (1)) cd P P) (sum A A).
Proof. exact C90_comment_refuted_stmt. Qed.
Print Assumptions C90_comment_refuted.

(** The session's expression for the square of the second coordinate. *)
Theorem C90_second : forall x y, on_curve (x, y) <-> y * y = sage_Y cd x.
Proof. exact C90_second_stmt. Qed.
Print Assumptions C90_second.

(** The subgroup order printed in the documentation is not that of the code's subgroup: *)
Theorem C90_r_refuted : exists P, on_curve P /\ multiple L P = origin /\ multiple doc_r P <> origin.
Proof. exact C90_r_refuted_stmt. Qed.
Print Assumptions C90_r_refuted.

(** the equation printed in the definition of main.tex is not satisfied by its basepoint, *)
Theorem C90_equation_refuted : exists P, on_curve P /\ ~ on_main_tex P.
Proof. exact C90_equation_refuted_stmt. Qed.
Print Assumptions C90_equation_refuted.

(** and the second hexadecimal form of the basepoint is not a point of the curve. *)
Theorem C90_hex_refuted : exists v, v = 0x23E4A96ED9E13AF0600EA21DB1007D9FB6E47BDD233BBBD82EB8E634305E0B1%Z /\ ~ on_montgomery mont_A 1 (toF 4, toF v).
Proof. exact C90_hex_refuted_stmt. Qed.
Print Assumptions C90_hex_refuted.

Example C90_nonvacuous : doc_p = p /\ on_curve base /\ base <> origin /\ on_cubic mont_A 1 0 (Some (0, 0)) /\
  (exists A, quad_rep sage_P A /\ on_curve A) /\ (exists A, quad_rep sage_Q A /\ on_curve A) /\
  sage_add (- (1)) cd sage_P sage_Q = quad_of
    6071577539228590191219387911031602982956051495655581694654126271979753651722
    837202702872841412924343780706778248153230580612427863707303374823451692769
    3870569102798123767101920828945730089305537575358572428982223506408632563886
    5030678076965133398451320860257582818948884882165145613987735041289292101393 /\
  sage_double (- (1)) sage_P = quad_of
    149787030802898863214220589614787467360377956858885734134859441157998105502
    4114181249139963708922561672280278463269518807069632207462778037420327721750
    465221815300404819953157336686579853418396566040992296296754217912562254655
    3604554139948105518509753594085031057181477091926039562012636801913890184366.
Proof. exact C90_ex. Qed.

(** ** C91: The safety criteria of the documentation *)

(** The embedding degree of the subgroup: L divides p^k - 1 exactly for the multiples of
    (L-1)/15, so for no k below (L-1)/100. *)
Theorem C91_embedding : forall k, (0 < k)%Z ->
  ((L | p ^ k - 1)%Z <-> ((L - 1) / 15 | k)%Z) /\ ((L | p ^ k - 1)%Z -> ((L - 1) / 100 <= k)%Z).
Proof. exact C91_embedding_stmt. Qed.
Print Assumptions C91_embedding.

(** Every quadratic twist, affine points and the point at infinity, has order 4q for one and
    the same prime q of more than 2^249. *)
Theorem C91_twist : exists q, prime q /\ (2 ^ 249 < q)%Z /\ forall B, ~ (exists b, b * b = B) ->
  exists m, NoDup m /\ (Z.of_nat (length m) + 1 = 4 * q)%Z /\ forall P, In P m <-> on_montgomery mont_A B P.
Proof. exact C91_twist_stmt. Qed.
Print Assumptions C91_twist.

(** The trace t satisfies Hasse's bound, and dividing 4p - t^2 by any square that divides it
    leaves more than 2^100. *)
Theorem C91_discriminant : forall l t, NoDup l -> (forall P, In P l <-> on_curve P) -> t = (p + 1 - Z.of_nat (length l))%Z ->
  (t * t < 4 * p)%Z /\ forall s, (0 < s)%Z -> (s * s | 4 * p - t * t)%Z -> (2 ^ 100 < (4 * p - t * t) / (s * s))%Z.
Proof. exact C91_discriminant_stmt. Qed.
Print Assumptions C91_discriminant.

(** Both traces printed in the sage session differ from p + 1 minus the number of points. *)
Theorem C91_trace_refuted : exists l, NoDup l /\ (forall P, In P l <-> on_curve P) /\
  (p + 1 - Z.of_nat (length l) <> 88182086828089156368837628454358249258)%Z /\
  (p + 1 - Z.of_nat (length l) <> 88182086828089156368837628454358249260)%Z /\
  (p + 1 - Z.of_nat (length l) = - 88182086828089156368837628454358249258)%Z.
Proof. exact C91_trace_refuted_stmt. Qed.
Print Assumptions C91_trace_refuted.

(** The squares and nonsquares the derivation asks for: A+2 is a square, A-2 and A^2-4 are
    not; in particular the curve is not singular. *)
Theorem C91_parameters : (exists g, g * g = mont_A + (1 + 1)) /\ ~ (exists g, g * g = mont_A - (1 + 1)) /\
  ~ (exists g, g * g = mont_A * mont_A - toF 4).
Proof. exact C91_parameters_stmt. Qed.
Print Assumptions C91_parameters.

(** There is one point of order two and there are two of order four. *)
Theorem C91_torsion : exists j, j * j = - (1) /\ j <> - j /\
  (forall P, on_curve P -> (P <> origin /\ sum P P = origin <-> P = (0, - (1)))) /\
  (forall P, on_curve P -> (sum P P <> origin /\ sum (sum P P) (sum P P) = origin <-> P = (j, 0) \/ P = (- j, 0))).
Proof. exact C91_torsion_stmt. Qed.
Print Assumptions C91_torsion.

(** The remaining requirements: the rho method takes more than 2^100 steps on the subgroup,
    the subgroup order is not the characteristic, and on the Weierstrass form a root r with
    3r^2 + a a square exists and b is not zero. *)
Theorem C91_rho : (2 ^ 200 * 1000 * 1000 < 886 * 886 * L)%Z /\ prime L /\ prime p /\ rel_prime L p /\
  (exists r s, r * r * r + wei_a * r + wei_b = 0 /\ toF 3 * (r * r) + wei_a = s * s) /\ wei_b <> 0.
Proof. exact C91_rho_stmt. Qed.
Print Assumptions C91_rho.

Example C91_nonvacuous : (exists B, ~ (exists b, b * b = B)) /\ (exists k, (0 < k)%Z /\ (L | p ^ k - 1)%Z) /\
  (exists s, (1 < s)%Z /\ (s * s | 4 * p - (p + 1 - 8 * L) * (p + 1 - 8 * L))%Z) /\
  exists l : list xy, NoDup l /\ forall P, In P l <-> on_curve P.
Proof. exact C91_ex. Qed.
