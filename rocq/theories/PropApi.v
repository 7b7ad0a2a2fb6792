(** * Properties proved in ApiStmt.v, restated (written by tools/genprops.py) *)

From Coq Require Import ZArith Znumtheory List Bool Lia Ring Field.
From Verif Require Import Machine FieldModel ScalarModel EdwardsModel TableModel RistrettoModel Spec MachineFacts
  FieldLimb FieldOps FieldBytes NumTheory Primes Fp FieldF FieldInv FieldStmt ScalarLimb ScalarOps ScalarBits ScalarStmt Curve CurveGroup EdwardsF
  PointMul EdwardsY EdwardsStmt RistSpec CodeSpec Rist RistF RistE RistrettoStmt GroupCheck GroupOrder GroupStmt CodeStmt ApiModel ApiSpec.
Import ListNotations.
Open Scope F_scope.
From Verif Require Import ApiStmt.

(** ** C78: Every program over the API computes its meaning *)

(** A program with a meaning returns, in both builds, one value that represents it. *)
Theorem C78_returns : forall rho mu t (e : expr t) m, agree_env rho mu -> wf e -> means mu e m ->
  exists v, (forall ck, eval ck rho e = Ok v) /\ repr t v m.
Proof. exact C78_returns_stmt. Qed.
Print Assumptions C78_returns.

(** A program without meaning panics in both builds. *)
Theorem C78_panics : forall rho mu t (e : expr t), agree_env rho mu -> wf e -> (forall m, ~ means mu e m) ->
  forall ck, eval ck rho e = Panic.
Proof. exact C78_panics_stmt. Qed.
Print Assumptions C78_panics.

(** What a run tells: a value represents a meaning, a panic says that there is none, and no
    loop runs out of its step budget. *)
Theorem C78_sound : forall rho mu t (e : expr t) ck, agree_env rho mu -> wf e ->
  match eval ck rho e with
  | Ok v => exists m, means mu e m /\ repr t v m
  | Panic => forall m, ~ means mu e m
  | NoFuel => False
  end.
Proof. exact C78_sound_stmt. Qed.
Print Assumptions C78_sound.

(** The meaning is unique; for Ristretto elements, as a class. *)
Theorem C78_unique : forall rho mu t (e : expr t) m m', agree_env rho mu -> wf e -> means mu e m -> means mu e m' -> eqv t m m'.
Proof. exact C78_unique_stmt. Qed.
Print Assumptions C78_unique.

(** The two builds agree on every program. *)
Theorem C78_builds : forall rho mu t (e : expr t), agree_env rho mu -> wf e -> eval true rho e = eval false rho e.
Proof. exact C78_builds_stmt. Qed.
Print Assumptions C78_builds.

(** Two programs for Ristretto points produce the same 32 bytes exactly when they mean the
    same element, however the points were computed. *)
Theorem C78_observe : forall rho mu (a b : expr TR) m n, agree_env rho mu -> wf a -> wf b -> means mu a m -> means mu b n ->
  exists x y, (forall ck, eval ck rho (XCompress a) = Ok x) /\ (forall ck, eval ck rho (XCompress b) = Ok y) /\ (x = y <-> coset4 m n).
Proof. exact C78_observe_stmt. Qed.
Print Assumptions C78_observe.

Example C78_nonvacuous : agree_env zero_env zero_menv /\ wf demo /\ (exists m, means zero_menv demo m) /\ wf demo_panic /\ (forall m, ~ means zero_menv demo_panic m) /\
  wf (RAdd RBase RBase) /\ wf (RDouble RBase) /\ means zero_menv (RAdd RBase RBase) (sum base base) /\ means zero_menv (RDouble RBase) (sum base base).
Proof. exact C78_ex. Qed.
