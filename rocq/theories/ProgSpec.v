(** * Mathematical meaning of imperative programs

    [exec g c s o]: executed on mathematical values, the program [c] started in [s] has
    the outcome [o].  A program without outcome runs forever.                   *)

From Coq Require Import ZArith List Bool.
From Verif Require Import Machine Spec Fp Curve RistSpec CodeSpec ApiModel ApiSpec ProgModel.
Import ListNotations.
Open Scope F_scope.

Inductive outcome : Type :=
| Done (s : menv * nat)
| Fail.

Inductive exec (g : rng) : cmd -> menv * nat -> outcome -> Prop :=
| X_skip s : exec g Skip s (Done s)
| X_set t i (e : expr t) mu k m : means mu e m -> exec g (Set_ t i e) (mu, k) (Done (assign mu t i m, k))
| X_set_fail t i (e : expr t) mu k : (forall m, ~ means mu e m) -> exec g (Set_ t i e) (mu, k) Fail
| X_seq c d s s' o : exec g c s (Done s') -> exec g d s' o -> exec g (Seq c d) s o
| X_seq_fail c d s : exec g c s Fail -> exec g (Seq c d) s Fail
| X_cond_true (b : expr TB) c d mu k o : means mu b true -> exec g c (mu, k) o -> exec g (Cond b c d) (mu, k) o
| X_cond_false (b : expr TB) c d mu k o : means mu b false -> exec g d (mu, k) o -> exec g (Cond b c d) (mu, k) o
| X_cond_fail (b : expr TB) c d mu k : (forall m, ~ means mu b m) -> exec g (Cond b c d) (mu, k) Fail
| X_while_stop (b : expr TB) c mu k : means mu b false -> exec g (While b c) (mu, k) (Done (mu, k))
| X_while_next (b : expr TB) c mu k s' o : means mu b true -> exec g c (mu, k) (Done s') -> exec g (While b c) s' o ->
    exec g (While b c) (mu, k) o
| X_while_body_fail (b : expr TB) c mu k : means mu b true -> exec g c (mu, k) Fail -> exec g (While b c) (mu, k) Fail
| X_while_fail (b : expr TB) c mu k : (forall m, ~ means mu b m) -> exec g (While b c) (mu, k) Fail
(* the top five bits of a drawn field element are cleared, the top seven of a scalar *)
| X_randF i mu k : exec g (RandF i) (mu, k) (Done (assign mu TF i (toF (le_value (g k 32%nat) mod 2 ^ 251)), S k))
| X_randS i mu k : exec g (RandS i) (mu, k) (Done (assign mu TS i (le_value (g k 32%nat) mod 2 ^ 249)%Z, S k))
(* the first y coordinate on the curve is taken *)
| X_randE i mu k j A : (k <= j)%nat ->
    (forall n x, (k <= n < j)%nat -> ~ on_curve (x, toF (le_value (g n 32%nat) mod 2 ^ 251))) ->
    has_y (toF (le_value (g j 32%nat) mod 2 ^ 251)) false A -> exec g (RandE i) (mu, k) (Done (assign mu TE i A, S j))
| X_randP i mu k j A : (k <= j)%nat ->
    (forall n x, (k <= n < j)%nat -> ~ on_curve (x, toF (le_value (g n 32%nat) mod 2 ^ 251))) ->
    has_y (toF (le_value (g j 32%nat) mod 2 ^ 251)) false A -> exec g (RandP i) (mu, k) (Done (assign mu TP i A, S j))
| X_randR i mu k A B : elligator_image (toF (le_value (firstn 32 (g k 64%nat)))) A ->
    elligator_image (toF (le_value (skipn 32 (g k 64%nat)))) B ->
    exec g (RandR i) (mu, k) (Done (assign mu TR i (sum A B), S k)).

(** All literals of the program are well formed. *)
Fixpoint wf_cmd (c : cmd) : Prop :=
  match c with
  | Set_ _ _ e => wf e
  | Seq c d => wf_cmd c /\ wf_cmd d
  | Cond b c d => wf b /\ wf_cmd c /\ wf_cmd d
  | While b c => wf b /\ wf_cmd c
  | _ => True
  end.

(** The generator delivers bytes, as many as it is asked for. *)
Definition wf_rng (g : rng) : Prop := forall k n, is_bytes n (g k n).

(** The state of the code represents the mathematical state. *)
Definition agree (r : env * nat) (s : menv * nat) : Prop := agree_env (fst r) (fst s) /\ snd r = snd s.
