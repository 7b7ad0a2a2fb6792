(** * Mathematical meaning of API programs

    [means e m]: the expression [e] of ApiModel.v has the meaning [m], an element of
    the prime field, an integer modulo L, a point of the curve, an element of the
    Ristretto group (given by any of its representatives), a string or a truth
    value.  An expression without meaning is one that must panic.               *)

From Coq Require Import ZArith List Bool.
From Verif Require Import Machine FieldModel ScalarModel EdwardsModel RistrettoModel Spec Fp Curve RistSpec CodeSpec ApiModel.
Import ListNotations.
Open Scope F_scope.

Definition mval (t : ty) : Type :=
  match t with
  | TF => F | TS => Z | TE => xy | TP => xy | TA => xy | TR => xy
  | TC => list Z | TX => list Z | TB => bool | TW => list Z
  end.

(** Elements of the Ristretto group are compared by class, everything else by equality. *)
Definition eqv (t : ty) : mval t -> mval t -> Prop :=
  match t return mval t -> mval t -> Prop with
  | TR => coset4
  | _ => eq
  end.

(** The value of the model represents the mathematical value. *)
Definition repr (t : ty) : val t -> mval t -> Prop :=
  match t return val t -> mval t -> Prop with
  | TF => fun v m => fcanon v /\ residue v = m
  | TS => fun v m => scanon v /\ sval v = m
  | TE => ext_rep
  | TP => proj_rep
  | TA => aff_rep
  | TR => fun v m => on_curve m /\ exists A, ext_rep v A /\ even_point A /\ coset4 A m
  | TC => fun v m => is_bytes 32 v /\ v = m
  | TX => fun v m => is_bytes 32 v /\ v = m
  | TB => eq
  | TW => fun v m => is_bytes 32 v /\ v = m
  end.

(** The mathematical values of the variables, and values of the model that represent them. *)
Definition menv : Type := forall t, nat -> mval t.
Definition agree_env (rho : env) (mu : menv) : Prop := forall t i, repr t (rho t i) (mu t i).

(** Literals have the type the Rust function asks for.  [from_bytes] of the field does
    not reduce, so its literals are required to be reduced. *)
Fixpoint wf {t : ty} (e : expr t) : Prop :=
  match e with
  | If c a b => wf c /\ wf a /\ wf b
  | FInt n | SInt n => (0 <= n < 2 ^ 128)%Z
  | FTwoPow k | STwoPow k => (0 <= k)%Z
  | EPow2 a k => wf a /\ (0 <= k)%Z
  | SShr a k => wf a /\ (0 <= k)%Z
  | SSigned n => (-127 <= n <= 127)%Z
  | FBytes b => is_bytes 32 b /\ (le_value b < p)%Z
  | WBytes b => is_bytes 32 b
  | SBytes b | CBytes b | XBytes b => wf b
  | RUniform b => is_bytes 64 b
  | Var _ => True
  | Lit _ | EIdentity | EBase | PIdentity | AIdentity | RIdentity | RBase => True
  | Not a => wf a
  | FNeg a | FSquare a | FHalf a | FInverse a | FPositive a | FSquareTest a => wf a
  | FEven a | FToBytes a | FInvSqrt a | FInvSqrtFlag a => wf a
  | SNeg a | SSquare a | SHalf a | SEven a | SToBytes a => wf a
  | ENeg a | EDouble a | ECofactor a | EValid a | POfE a | AOfE a | CCompress a => wf a
  | PNeg a | PDouble a | EOfP a | AOfP a | PValid a => wf a
  | ANeg a | EOfA a | POfA a | AValid a => wf a
  | EDecompress c | EDecodes c | CNeg c | CToBytes c => wf c
  | RNeg a | RDouble a | XCompress a => wf a
  | RElligator r => wf r
  | RDecompress c | RDecodes c | XToBytes c => wf c
  | FAdd a b | FSub a b | FMul a b | FDiv a b | FPow a b | FEq a b | FLess a b | FRatio a b | FRatioFlag a b => wf a /\ wf b
  | SAdd a b | SSub a b | SMul a b | SPow a b | SEq a b | SLess a b => wf a /\ wf b
  | EAdd a b | ESub a b | EEq a b => wf a /\ wf b
  | PAdd a b | PSub a b | PEq a b => wf a /\ wf b
  | AEq a b => wf a /\ wf b
  | CEq a b => wf a /\ wf b
  | RAdd a b | RSub a b | REq a b => wf a /\ wf b
  | XEq a b => wf a /\ wf b
  | WEq a b => wf a /\ wf b
  | EMul a n | ENaf a n => wf a /\ wf n
  | PMul a n => wf a /\ wf n
  | RMul a n => wf a /\ wf n
  | FSqrt a s | FHasSqrt a s | EFromY a s | EHasY a s | PFromY a s => wf a /\ wf s
  end.

Definition means1 {X Y : Type} (S : X -> Prop) (R : X -> Y -> Prop) (y : Y) : Prop :=
  exists x, S x /\ R x y.
Definition means2 {X Y W : Type} (S : X -> Prop) (T : Y -> Prop) (R : X -> Y -> W -> Prop) (w : W) : Prop :=
  exists x y, S x /\ T y /\ R x y w.

(** The pair returned by sqrt_ratio_i for u and v: r is the non-negative root of u/v with
    flag set, or of i*u/v with flag clear, where i is the non-negative square root of -1;
    zero operands are decided by the flag alone. *)
Definition ratio_root (u v : F) (s : bool) (r : F) : Prop :=
  nonneg r /\
  ((u = 0 /\ s = true /\ r = 0) \/ (u <> 0 /\ v = 0 /\ s = false /\ r = 0) \/
   (u <> 0 /\ v <> 0 /\ s = true /\ v * (r * r) = u) \/
   (u <> 0 /\ v <> 0 /\ s = false /\ (forall w, v * (w * w) <> u) /\
    exists i, i * i = - (1) /\ nonneg i /\ v * (r * r) = i * u)).

Fixpoint means (mu : menv) {t : ty} (e : expr t) : mval t -> Prop :=
  match e in expr t return mval t -> Prop with
  | Var i => fun m => eqv _ (mu _ i) m
  | If c a b => fun m => (means mu c true /\ means mu a m) \/ (means mu c false /\ means mu b m)
  | Lit b => fun m => m = b
  | Not a => means1 (means mu a) (fun x m => m = negb x)
  | FInt n => fun m => m = toF n
  | FBytes b => fun m => m = toF (le_value b)
  | FTwoPow k => fun m => (k <= 252)%Z /\ m = toF (2 ^ k)
  | FAdd a b => means2 (means mu a) (means mu b) (fun x y m => m = x + y)
  | FSub a b => means2 (means mu a) (means mu b) (fun x y m => m = x - y)
  | FMul a b => means2 (means mu a) (means mu b) (fun x y m => m = x * y)
  | FDiv a b => means2 (means mu a) (means mu b) (fun x y m => y <> 0 /\ m * y = x)
  | FNeg a => means1 (means mu a) (fun x m => m = - x)
  | FSquare a => means1 (means mu a) (fun x m => m = x * x)
  | FHalf a => means1 (means mu a) (fun x m => m + m = x)
  | FInverse a => means1 (means mu a) (fun x m => m * x = 1)
  | FPow a e => means2 (means mu a) (means mu e) (fun x y m => m = x ^ Fval y)
  | FSqrt a s => means2 (means mu a) (means mu s) (fun x y m => m * m = x /\ principal (if y : bool then - m else m))
  | FEq a b => means2 (means mu a) (means mu b) (fun x y m => m = true <-> x = y)
  | FPositive a => means1 (means mu a) (fun x m => m = true <-> nonneg x)
  | FSquareTest a => means1 (means mu a) (fun x m => m = true <-> exists r, r * r = x)
  | FLess a b => means2 (means mu a) (means mu b) (fun x y m => m = true <-> (Fval x < Fval y)%Z)
  | FEven a => means1 (means mu a) (fun x m => m = Z.even (Fval x))
  | FToBytes a => means1 (means mu a) (fun x m => is_bytes 32 m /\ le_value m = Fval x)
  | FHasSqrt a s => means2 (means mu a) (means mu s) (fun x _ m => m = true <-> exists r, r * r = x)
  | FRatio u v => means2 (means mu u) (means mu v) (fun x y m => exists s, ratio_root x y s m)
  | FRatioFlag u v => means2 (means mu u) (means mu v) (fun x y m => exists r, ratio_root x y m r)
  | FInvSqrt v => means1 (means mu v) (fun x m => exists s, ratio_root 1 x s m)
  | FInvSqrtFlag v => means1 (means mu v) (fun x m => exists r, ratio_root 1 x m r)
  | SInt n => fun m => m = n
  | SSigned n => fun m => m = (n mod L)%Z
  | SBytes b => means1 (means mu b) (fun x m => m = le_value x /\ (m < L)%Z)
  | STwoPow k => fun m => (k < 250)%Z /\ m = (2 ^ k)%Z
  | SAdd a b => means2 (means mu a) (means mu b) (fun x y m => m = ((x + y) mod L)%Z)
  | SSub a b => means2 (means mu a) (means mu b) (fun x y m => m = ((x - y) mod L)%Z)
  | SMul a b => means2 (means mu a) (means mu b) (fun x y m => m = ((x * y) mod L)%Z)
  | SNeg a => means1 (means mu a) (fun x m => m = ((- x) mod L)%Z)
  | SSquare a => means1 (means mu a) (fun x m => m = ((x * x) mod L)%Z)
  | SHalf a => means1 (means mu a) (fun x m => (0 <= m < L)%Z /\ ((m + m) mod L)%Z = x)
  | SPow a e => means2 (means mu a) (means mu e) (fun x y m => m = ((x ^ y) mod L)%Z)
  | SEq a b => means2 (means mu a) (means mu b) (fun x y m => m = true <-> x = y)
  | SLess a b => means2 (means mu a) (means mu b) (fun x y m => m = true <-> (x < y)%Z)
  | SEven a => means1 (means mu a) (fun x m => m = Z.even x)
  | SShr a k => means1 (means mu a) (fun x m => m = (x / 2 ^ k)%Z)
  | SToBytes a => means1 (means mu a) (fun x m => is_bytes 32 m /\ le_value m = x)
  | EIdentity => fun m => m = origin
  | EBase => fun m => m = base
  | EAdd a b => means2 (means mu a) (means mu b) (fun x y m => m = sum x y)
  | ESub a b => means2 (means mu a) (means mu b) (fun x y m => m = sum x (opposite y))
  | ENeg a => means1 (means mu a) (fun x m => m = opposite x)
  | EDouble a => means1 (means mu a) (fun x m => m = sum x x)
  | EMul a n => means2 (means mu a) (means mu n) (fun x y m => m = multiple y x)
  | ENaf a n => means2 (means mu a) (means mu n) (fun x y m => m = multiple y x)
  | ECofactor a => means1 (means mu a) (fun x m => m = multiple 8 x)
  | EPow2 a k => means1 (means mu a) (fun x m => (k < 250)%Z /\ m = multiple (2 ^ k) x)
  | EFromY y s => means2 (means mu y) (means mu s) has_y
  | EDecompress c => means1 (means mu c) edwards_decoded
  | EHasY y s => means2 (means mu y) (means mu s) (fun x _ m => m = true <-> exists A, on_curve A /\ snd A = x)
  | EDecodes c => means1 (means mu c) (fun x m => m = true <-> exists A, edwards_decoded x A)
  | EOfP a => means mu a
  | EOfA a => means mu a
  | EEq a b => means2 (means mu a) (means mu b) (fun x y m => m = true <-> x = y)
  | EValid a => means1 (means mu a) (fun _ m => m = true)
  | PValid a => means1 (means mu a) (fun _ m => m = true)
  | AValid a => means1 (means mu a) (fun _ m => m = true)
  | PIdentity => fun m => m = origin
  | PAdd a b => means2 (means mu a) (means mu b) (fun x y m => m = sum x y)
  | PSub a b => means2 (means mu a) (means mu b) (fun x y m => m = sum x (opposite y))
  | PNeg a => means1 (means mu a) (fun x m => m = opposite x)
  | PDouble a => means1 (means mu a) (fun x m => m = sum x x)
  | PMul a n => means2 (means mu a) (means mu n) (fun x y m => m = multiple y x)
  | PFromY y s => means2 (means mu y) (means mu s) has_y
  | POfE a => means mu a
  | POfA a => means mu a
  | PEq a b => means2 (means mu a) (means mu b) (fun x y m => m = true <-> x = y)
  | AIdentity => fun m => m = origin
  | ANeg a => means1 (means mu a) (fun x m => m = opposite x)
  | AOfE a => means mu a
  | AOfP a => means mu a
  | AEq a b => means2 (means mu a) (means mu b) (fun x y m => m = true <-> x = y)
  | CBytes b => means mu b
  | CToBytes c => means mu c
  | CCompress a => means1 (means mu a) edwards_code
  | CNeg c => means1 (means mu c) (fun x m => exists A, edwards_decoded x A /\ edwards_code (opposite A) m)
  | CEq a b => means2 (means mu a) (means mu b) (fun x y m => m = true <-> x = y)
  | RIdentity => fun m => m = origin
  | RBase => fun m => m = base
  | RAdd a b => means2 (means mu a) (means mu b) (fun x y m => m = sum x y)
  | RSub a b => means2 (means mu a) (means mu b) (fun x y m => m = sum x (opposite y))
  | RNeg a => means1 (means mu a) (fun x m => m = opposite x)
  | RDouble a => means1 (means mu a) (fun x m => m = sum x x)
  | RMul a n => means2 (means mu a) (means mu n) (fun x y m => m = multiple y x)
  | RElligator r => means1 (means mu r) elligator_image
  | RUniform b => fun m => exists A B, elligator_image (toF (le_value (firstn 32 b))) A /\
      elligator_image (toF (le_value (skipn 32 b))) B /\ m = sum A B
  | RDecompress c => means1 (means mu c) (fun x m => canonical m /\ canonical_code m x)
  | RDecodes c => means1 (means mu c) (fun x m => m = true <-> exists A, canonical A /\ canonical_code A x)
  | REq a b => means2 (means mu a) (means mu b) (fun x y m => m = true <-> coset4 x y)
  | XBytes b => means mu b
  | XToBytes c => means mu c
  | XCompress a => means1 (means mu a) (fun x m => exists B, canonical B /\ coset4 x B /\ canonical_code B m)
  | XEq a b => means2 (means mu a) (means mu b) (fun x y m => m = true <-> x = y)
  | WBytes b => fun m => m = b
  | WEq a b => means2 (means mu a) (means mu b) (fun x y m => m = true <-> x = y)
  end.
