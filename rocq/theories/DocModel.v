(** * The curve in the documentation

    README.md, docs/main.tex and the sage sessions in sage_codes describe the curve in
    three forms and state its order.  The definitions here transcribe those statements;
    they mention field elements only, not the limbs of the code. *)

From Coq Require Import ZArith List Bool.
From Verif Require Import Spec Fp Curve.
Import ListNotations.
Open Scope F_scope.

(** README.md 47-48, docs/main.tex 202: A of the Montgomery form. *)
Definition mont_A : F := toF 505186.
(** README.md 54: a of the Weierstrass form. *)
Definition wei_a : F := toF 7237005577332262213973186563042994240857116359379907606001950828033483786813.
(** README.md 55: b of the Weierstrass form. *)
Definition wei_b : F := toF 445582015604702849664.

(** README.md 59, docs/main.tex 184-188: the order of the curve, as printed. *)
Definition doc_G : Z := 2 ^ 252 + 115924404605461509904689566245241897752.
(** README.md 60: the prime of the field, as printed. *)
Definition doc_p : Z := 2 ^ 252 + 27742317777372353535851937790883648493.
(** README.md 61: the prime of the subgroup, as printed. *)
Definition doc_r : Z := 2 ^ 249 + 15114490550575682688738086195780655237219.

(** docs/main.tex 212: a twisted Edwards curve with parameters a and d. *)
Definition on_edwards (a d : F) (P : xy) : Prop :=
  let (x, y) := P in a * (x * x) + y * y = 1 + d * (x * x) * (y * y).
(** docs/main.tex 175: the equation of the definition, as printed. *)
Definition on_main_tex (P : xy) : Prop :=
  let (x, y) := P in - (x * x) + y * y = 1 + toF 126296 / toF 126297 * (x * x) * (y * y).
(** docs/main.tex 201: the Montgomery equation B v^2 = u^3 + A u^2 + u. *)
Definition on_montgomery (A B : F) (P : xy) : Prop :=
  let (u, v) := P in B * (v * v) = u * u * u + A * (u * u) + u.

(** docs/main.tex 234-238: from the Montgomery to the Edwards form. *)
Definition mon_to_ted (P : xy) : xy := let (u, v) := P in (u / v, (u - 1) / (u + 1)).
(** docs/main.tex 239-243: from the Edwards to the Montgomery form. *)
Definition ted_to_mon (P : xy) : xy := let (x, y) := P in ((1 + y) / (1 - y), (1 + y) / ((1 - y) * x)).
(** docs/main.tex 284: the scaling map, with the factor f. *)
Definition rescale (f : F) (P : xy) : xy := let (x, y) := P in (x / f, y).

(** Points of sage_codes/Point computation 198 `EllipticCurve(F, [0, a2, 0, a4, a6])`:
    affine ones and the point at infinity. *)
Definition point : Set := option xy.
(** The same line: y^2 = x^3 + a2 x^2 + a4 x + a6. *)
Definition on_cubic (a2 a4 a6 : F) (P : point) : Prop :=
  match P with
  | None => True
  | Some (x, y) => y * y = x * x * x + a2 * (x * x) + a4 * x + a6
  end.
(** `-` on the points of sage_codes/Point computation 198-205. *)
Definition cubic_opp (P : point) : point :=
  match P with None => None | Some (x, y) => Some (x, - y) end.
(** Third point of the chord or tangent, reflected (part of `+` below, line 203). *)
Definition third (a2 l x1 y1 x2 : F) : point :=
  let x3 := l * l - a2 - x1 - x2 in Some (x3, l * (x1 - x3) - y1).
(** The chord-and-tangent law: `+` on the points of sage_codes/Point computation 203-205. *)
Definition cubic_add (a2 a4 : F) (P Q : point) : point :=
  match P, Q with
  | None, _ => Q
  | _, None => P
  | Some (x1, y1), Some (x2, y2) =>
    if feqb x1 x2 then
      if feqb y1 (- y2) then None
      else third a2 (((1 + 1 + 1) * (x1 * x1) + (1 + 1) * a2 * x1 + a4) / ((1 + 1) * y1)) x1 y1 x1
    else third a2 ((y2 - y1) / (x2 - x1)) x1 y1 x2
  end.
(** sage_codes/Point computation 199-205 `mult`; Python's unbounded recursion takes fuel,
    [None] stands for fuel that did not suffice. *)
Fixpoint sage_mult (fuel : nat) (a2 a4 : F) (P : point) (k : Z) : option point :=
  match fuel with
  | O => None
  | S fuel' =>
    if (k =? 0)%Z then Some None
    else
      match sage_mult fuel' a2 a4 (cubic_add a2 a4 P P) (k / 2) with
      | None => None
      | Some R => Some (if (k mod 2 =? 1)%Z then cubic_add a2 a4 P R else R)
      end
  end.

(** sage_codes/Point computation 148-151: extended coordinates (X, Y, T, Z). *)
Definition quad : Set := (F * F * F * F)%type.
(** sage_codes/Point computation 148-151: addition in them. *)
Definition sage_add (a d : F) (P Q : quad) : quad :=
  let '(X1, Y1, T1, Z1) := P in
  let '(X2, Y2, T2, Z2) := Q in
  ((X1 * Y2 + Y1 * X2) * (Z1 * Z2 - d * T1 * T2),
   (Y1 * Y2 - a * X1 * X2) * (Z1 * Z2 + d * T1 * T2),
   (Y1 * Y2 - a * X1 * X2) * (X1 * Y2 + Y1 * X2),
   (Z1 * Z2 - d * T1 * T2) * (Z1 * Z2 + d * T1 * T2)).
(** sage_codes/Point computation 105: the formula for Y3 in the comment has T1T2 where the
    session has Z1Z2. *)
Definition sage_add_comment (a d : F) (P Q : quad) : quad :=
  let '(X1, Y1, T1, Z1) := P in
  let '(X2, Y2, T2, Z2) := Q in
  ((X1 * Y2 + Y1 * X2) * (Z1 * Z2 - d * T1 * T2),
   (Y1 * Y2 - a * X1 * X2) * (T1 * T2 + d * T1 * T2),
   (Y1 * Y2 - a * X1 * X2) * (X1 * Y2 + Y1 * X2),
   (Z1 * Z2 - d * T1 * T2) * (Z1 * Z2 + d * T1 * T2)).
(** sage_codes/Point computation 178-181: doubling. *)
Definition sage_double (a : F) (P : quad) : quad :=
  let '(X1, Y1, T1, Z1) := P in
  ((1 + 1) * X1 * Y1 * ((1 + 1) * (Z1 * Z1) - Y1 * Y1 - a * (X1 * X1)),
   (Y1 * Y1 + a * (X1 * X1)) * (Y1 * Y1 - a * (X1 * X1)),
   (1 + 1) * X1 * Y1 * (Y1 * Y1 - a * (X1 * X1)),
   (Y1 * Y1 + a * (X1 * X1)) * ((1 + 1) * (Z1 * Z1) - Y1 * Y1 - a * (X1 * X1))).
(** Such a quadruple (lines 148-151) stands for the affine point (x, y); used in statements. *)
Definition quad_rep (P : quad) (A : xy) : Prop :=
  let '(X, Y, T, Z) := P in Z <> 0 /\ X = fst A * Z /\ Y = snd A * Z /\ T = fst A * snd A * Z.
(** sage_codes/Point computation 48: the square of the second coordinate for a given first. *)
Definition sage_Y (d x : F) : F := (- (x * x) - 1) / (d * (x * x) - 1).
