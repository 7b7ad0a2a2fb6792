(** * Properties proved in ProgStmt.v, restated (written by tools/genprops.py) *)

From Coq Require Import ZArith Znumtheory List Bool Lia Ring Field.
From Verif Require Import Machine FieldModel ScalarModel EdwardsModel TableModel RistrettoModel Spec MachineFacts
  FieldLimb FieldOps FieldBytes NumTheory Primes Fp FieldF FieldInv FieldStmt ScalarLimb ScalarOps ScalarBits ScalarStmt Curve CurveGroup EdwardsF
  PointMul EdwardsY EdwardsStmt RistSpec CodeSpec Rist RistF RistE RistrettoStmt GroupCheck GroupOrder GroupStmt CodeStmt ApiModel ApiSpec ApiStmt
  ProgModel ProgSpec.
Import ListNotations.
Open Scope F_scope.
From Verif Require Import ProgStmt.

(** ** C81: Imperative programs over the API compute their meaning *)

(** If the mathematical execution ends, both builds end in a state that represents the
    result; if it fails, both panic. *)
Theorem C81_adequate : forall g c s o r, wf_rng g -> wf_cmd c -> agree r s -> exec g c s o ->
  exists N x, (forall ck n, (N <= n)%nat -> run ck g n c r = x) /\
    match o with Done s' => exists r', x = Ok r' /\ agree r' s' | Fail => x = Panic end.
Proof. exact C81_adequate_stmt. Qed.
Print Assumptions C81_adequate.

(** Whatever the code does is what the mathematical execution does. *)
Theorem C81_sound : forall g c s r ck n, wf_rng g -> wf_cmd c -> agree r s ->
  match run ck g n c r with
  | Ok r' => exists s', exec g c s (Done s') /\ agree r' s'
  | Panic => exec g c s Fail
  | NoFuel => True
  end.
Proof. exact C81_sound_stmt. Qed.
Print Assumptions C81_sound.

(** The code runs forever exactly when the mathematical execution has no outcome. *)
Theorem C81_diverges : forall g c s r ck, wf_rng g -> wf_cmd c -> agree r s ->
  ((forall n, run ck g n c r = NoFuel) <-> (forall o, ~ exec g c s o)).
Proof. exact C81_diverges_stmt. Qed.
Print Assumptions C81_diverges.

(** The two builds take the same steps. *)
Theorem C81_builds : forall g c s r n, wf_rng g -> wf_cmd c -> agree r s -> run true g n c r = run false g n c r.
Proof. exact C81_builds_stmt. Qed.
Print Assumptions C81_builds.

(** The mathematical execution has at most one outcome; Ristretto variables up to class. *)
Theorem C81_unique : forall g c s r o o', wf_rng g -> wf_cmd c -> agree r s -> exec g c s o -> exec g c s o' ->
  match o, o' with
  | Done a, Done b => (forall t i, eqv t (fst a t i) (fst b t i)) /\ snd a = snd b
  | Fail, Fail => True
  | _, _ => False
  end.
Proof. exact C81_unique_stmt. Qed.
Print Assumptions C81_unique.

(** Sampling a point through the generator's request counter is the stream version of
    EdwardsModel.v. *)
Theorem C81_draw : forall ck g n k,
  (x <- draw_point ck g n k ;; Ok (fst x)) = ppt_new_random_point ck (map (fun i => g i 32%nat) (seq k n)).
Proof. exact C81_draw_stmt. Qed.
Print Assumptions C81_draw.

(** On every input it ends, in both builds, with the same point as scalar multiplication. *)
Theorem C81_loop : forall g rho k mu, wf_rng g -> agree_env rho mu ->
  exists N r Q, (forall ck n, (N <= n)%nat -> run ck g n mul_loop (rho, k) = Ok r) /\
    (forall ck, ept_mul ck (rho TE 0%nat) (rho TS 0%nat) = Ok Q) /\
    ext_rep (fst r TE 1%nat) (multiple (mu TS 0%nat) (mu TE 0%nat)) /\ ext_rep Q (multiple (mu TS 0%nat) (mu TE 0%nat)).
Proof. exact C81_loop_stmt. Qed.
Print Assumptions C81_loop.

Example C81_nonvacuous : wf_rng (fun _ n => repeat 6%Z n) /\ agree (zero_env, 0%nat) (zero_menv, 0%nat) /\ wf_cmd mul_loop /\
  (exists s, exec (fun _ n => repeat 6%Z n) mul_loop (zero_menv, 0%nat) (Done s)) /\
  exec (fun _ n => repeat 6%Z n) (Seq (RandF 0) (Set_ TF 1 (FInverse (FSub (Var 0) (Var 0))))) (zero_menv, 0%nat) Fail /\
  (forall o, ~ exec (fun _ n => repeat 6%Z n) (While (Lit true) Skip) (zero_menv, 0%nat) o).
Proof. exact C81_ex. Qed.
