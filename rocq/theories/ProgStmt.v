(** * Imperative programs over the public API compute their meaning

    Statement forms; PropProg.v restates each of them.                      *)

From Coq Require Import ZArith Znumtheory List Bool Lia Ring Field.
From Verif Require Import Machine FieldModel ScalarModel EdwardsModel TableModel RistrettoModel Spec MachineFacts
  FieldLimb FieldOps FieldBytes NumTheory Primes Fp FieldF FieldInv FieldStmt ScalarLimb ScalarOps ScalarBits ScalarStmt Curve CurveGroup EdwardsF
  PointMul EdwardsY EdwardsStmt RistSpec CodeSpec Rist RistF RistE RistrettoStmt GroupCheck GroupOrder GroupStmt CodeStmt ApiModel ApiSpec ApiStmt
  ProgModel ProgSpec.
Import ListNotations.
Open Scope F_scope.

(** lia without the equations between points and between results. *)
Ltac nlia :=
  repeat match goal with
  | H : @eq (option _) _ _ |- _ => clear H
  | H : @eq (res _) _ _ |- _ => clear H
  | H : has_y _ _ _ |- _ => clear H
  end;
  match goal with |- @eq (res _) _ _ => exfalso; lia | _ => lia end.

(** ** Assignment *)
Lemma assign_agree rho mu t i v m : agree_env rho mu -> repr t v m -> agree_env (assign rho t i v) (assign mu t i m).
Proof.
  intros A R u j. unfold assign. destruct (ty_dec t u) as [E|]; [|apply A].
  destruct E. cbn [eq_rect]. destruct (Nat.eqb i j); [exact R|apply A].
Qed.

(** ** Random draws *)
Definition drawn_y (g : rng) (k : nat) : F := toF (le_value (g k 32%nat) mod 2 ^ 251).
Definition drawn (g : rng) (k : nat) : option pt := lift (drawn_y g k) false.
#[local] Opaque drawn_y drawn.
Lemma drawn_lift g k : lift (toF (le_value (g k 32%nat) mod 2 ^ 251)) false = drawn g k.
Proof. reflexivity. Qed.
Lemma draw_step ck g n k : wf_rng g -> draw_point ck g (S n) k =
  match drawn g k with Some A => Ok (prj A 1, S k) | None => draw_point ck g n (S k) end.
Proof.
  intros G. cbn [draw_point]. rewrite (fe_random_enc _ (G k 32%nat)), bind_ok, ppt_new_from_y, bind_ok.
  rewrite drawn_lift. destruct (drawn g k); reflexivity.
Qed.
Lemma draw_builds g n k : wf_rng g -> forall ck, draw_point ck g n k = draw_point true g n k.
Proof.
  intros G ck. revert k. induction n as [|n IH]; intros k; [reflexivity|]. rewrite !draw_step by exact G.
  destruct (drawn g k); [reflexivity|apply IH].
Qed.
Lemma draw_some ck g : wf_rng g -> forall d n k A, (forall i, (i < d)%nat -> drawn g (k + i) = None) ->
  drawn g (k + d) = Some A -> (d < n)%nat -> draw_point ck g n k = Ok (prj A 1, S (k + d)).
Proof.
  intros G. induction d as [|d IH]; intros n k A N H K; (destruct n as [|n]; [nlia|]); rewrite draw_step by exact G.
  - rewrite Nat.add_0_r in *. rewrite H. reflexivity.
  - pose proof (N 0%nat ltac:(nlia)) as N0. rewrite Nat.add_0_r in N0. rewrite N0.
    rewrite <- Nat.add_succ_comm. apply IH; [|rewrite Nat.add_succ_comm; exact H|nlia].
    intros i Hi. rewrite Nat.add_succ_comm. apply N. nlia.
Qed.
Lemma draw_inv ck g : wf_rng g -> forall n k, match draw_point ck g n k with
  | Ok (P, k') => exists j A, (k <= j)%nat /\ (forall i, (k <= i < j)%nat -> drawn g i = None) /\
      drawn g j = Some A /\ P = prj A 1 /\ k' = S j
  | Panic => False
  | NoFuel => True end.
Proof.
  intros G. induction n as [|n IH]; intros k; [exact I|]. rewrite draw_step by exact G.
  destruct (drawn g k) as [A|] eqn:E.
  - exists k, A. split; [nlia|]. split; [intros i Hi; nlia|]. split; [exact E|]. split; reflexivity.
  - specialize (IH (S k)). destruct (draw_point ck g n (S k)) as [[P k']| |]; [|exact IH|exact I].
    destruct IH as (j & A & Hj & N & HA & HP & Hk). exists j, A. split; [nlia|]. split; [|split; [exact HA|split; [exact HP|exact Hk]]].
    intros i Hi. destruct (Nat.eq_dec i k) as [->|]; [exact E|apply N; nlia].
Qed.
(** The recursion with a counter returns the point of the stream version of EdwardsModel.v. *)
Lemma draw_stream ck g n k : match draw_point ck g n k with
  | Ok (P, _) => ppt_new_random_point ck (map (fun i => g i 32%nat) (seq k n)) = Ok P
  | Panic => ppt_new_random_point ck (map (fun i => g i 32%nat) (seq k n)) = Panic
  | NoFuel => ppt_new_random_point ck (map (fun i => g i 32%nat) (seq k n)) = NoFuel end.
Proof.
  revert k. induction n as [|n IH]; intros k; [reflexivity|]. cbn [draw_point seq map ppt_new_random_point].
  destruct (fe_random (g k 32%nat)) as [y| |]; cbn [bind]; try reflexivity.
  destruct (ppt_new_from_y_coord ck y false) as [[P|]| |]; cbn [bind]; try reflexivity. apply IH.
Qed.
Lemma none_lift y : (forall x, ~ on_curve (x, y)) -> lift y false = None.
Proof.
  intros H. destruct (lift y false) as [A|] eqn:E; [|reflexivity]. exfalso. apply lift_has_y in E.
  destruct E as (C & E & _). apply (H (fst (pxy A))). rewrite <- E. destruct (pxy A). exact C.
Qed.
Lemma prj_repr A : repr TP (prj A 1) (pxy A).
Proof. apply rprj_rep. exists 1. split; [exact one_neq_zero|reflexivity]. Qed.

(** One draw of a Ristretto point. *)
Lemma rand_ristretto b : is_bytes 64 b -> exists P A B, (forall ck, rp_new_random_point ck b = Ok P) /\
  elligator_image (toF (le_value (firstn 32 b))) A /\ elligator_image (toF (le_value (skipn 32 b))) B /\ repr TR P (sum A B) /\
  forall A' B', elligator_image (toF (le_value (firstn 32 b))) A' -> elligator_image (toF (le_value (skipn 32 b))) B' -> repr TR P (sum A' B').
Proof.
  intros H. destruct (api_uniform b H) as [(P & m & E & R & (A & B & HA & HB & ->) & _)|[_ N]].
  - exists P, A, B. split; [exact E|]. split; [exact HA|]. split; [exact HB|]. split; [exact R|].
    intros A' B' HA' HB'. rewrite (C52_image_unique_stmt _ _ _ HA' HA), (C52_image_unique_stmt _ _ _ HB' HB). exact R.
  - exfalso. apply (N (sum (pxy (el_pt (toF (le_value (firstn 32 b))))) (pxy (el_pt (toF (le_value (skipn 32 b))))))).
    eexists. eexists. split; [apply el_image|]. split; [apply el_image|reflexivity].
Qed.
Lemma sc_random_det d : is_bytes 32 d -> exists r, sc_random d = Ok r /\ repr TS r (le_value d mod 2 ^ 249)%Z.
Proof. intros B. destruct (C28_random_stmt d B) as (r & E & C & V). exists r. split; [exact E|split; [exact C|exact V]]. Qed.

(** ** From the mathematical execution to the code *)
Definition reaches (g : rng) (c : cmd) (r : env * nat) (o : outcome) : Prop :=
  exists N x, (forall ck n, (N <= n)%nat -> run ck g n c r = x) /\
    match o with Done s => exists r', x = Ok r' /\ agree r' s | Fail => x = Panic end.

Lemma reaches1 g c r o x : (forall ck n, (0 < n)%nat -> run ck g n c r = x) ->
  match o with Done s => exists r', x = Ok r' /\ agree r' s | Fail => x = Panic end -> reaches g c r o.
Proof. intros H K. exists 1%nat, x. split; [intros ck n Hn; apply H; nlia|exact K]. Qed.

Lemma value rho mu t (e : expr t) m : agree_env rho mu -> wf e -> means mu e m ->
  exists v, (forall ck, eval ck rho e = Ok v) /\ repr t v m.
Proof. exact (C78_returns_stmt rho mu t e m). Qed.
Lemma test rho mu (e : expr TB) b : agree_env rho mu -> wf e -> means mu e b -> forall ck, eval ck rho e = Ok b.
Proof. intros A W H. destruct (value rho mu TB e b A W H) as (v & E & R). cbn in R. subst v. exact E. Qed.

Theorem forward g : wf_rng g -> forall c s o, exec g c s o -> wf_cmd c -> forall r, agree r s -> reaches g c r o.
Proof.
  intros G c s o X. induction X; intros W [rho k0] [Ag Ek]; cbn [fst snd] in Ag, Ek; try subst k0.
  - apply (reaches1 _ _ _ _ (Ok (rho, snd s))); [intros ck [|n] Hn; [elim (Nat.nle_succ_0 _ Hn)|reflexivity]|]. exists (rho, snd s).
    split; [reflexivity|]. split; [exact Ag|reflexivity].
  - destruct (value rho mu t e m Ag W H) as (v & E & R).
    apply (reaches1 _ _ _ _ (Ok (assign rho t i v, k))).
    { intros ck [|n] Hn; [elim (Nat.nle_succ_0 _ Hn)|]. cbn [run]. rewrite E. reflexivity. }
    eexists. split; [reflexivity|]. split; [exact (assign_agree _ _ _ _ _ _ Ag R)|reflexivity].
  - apply (reaches1 _ _ _ _ Panic); [|reflexivity]. intros ck [|n] Hn; [elim (Nat.nle_succ_0 _ Hn)|]. cbn [run].
    rewrite (C78_panics_stmt rho mu t e Ag W H ck). reflexivity.
  - destruct W as [W1 W2]. destruct (IHX1 W1 (rho, snd s) (conj Ag eq_refl)) as (N1 & x1 & E1 & r1 & -> & A1).
    destruct (IHX2 W2 r1 A1) as (N2 & x2 & E2 & K2). exists (S (N1 + N2)), x2. split; [|exact K2].
    intros ck [|n] Hn; [elim (Nat.nle_succ_0 _ Hn)|]. cbn [run]. rewrite E1 by nlia. rewrite bind_ok. apply E2. nlia.
  - destruct W as [W1 W2]. destruct (IHX W1 (rho, snd s) (conj Ag eq_refl)) as (N1 & x1 & E1 & ->). exists (S N1), Panic. split; [|reflexivity].
    intros ck [|n] Hn; [elim (Nat.nle_succ_0 _ Hn)|]. cbn [run]. rewrite E1 by nlia. reflexivity.
  - destruct W as (Wb & W1 & W2). destruct (IHX W1 (rho, k) (conj Ag eq_refl)) as (N1 & x1 & E1 & K1). exists (S N1), x1. split; [|exact K1].
    intros ck [|n] Hn; [elim (Nat.nle_succ_0 _ Hn)|]. cbn [run]. rewrite (test rho mu b true Ag Wb H), bind_ok. apply E1. nlia.
  - destruct W as (Wb & W1 & W2). destruct (IHX W2 (rho, k) (conj Ag eq_refl)) as (N1 & x1 & E1 & K1). exists (S N1), x1. split; [|exact K1].
    intros ck [|n] Hn; [elim (Nat.nle_succ_0 _ Hn)|]. cbn [run]. rewrite (test rho mu b false Ag Wb H), bind_ok. apply E1. nlia.
  - destruct W as (Wb & W1 & W2). apply (reaches1 _ _ _ _ Panic); [|reflexivity]. intros ck [|n] Hn; [elim (Nat.nle_succ_0 _ Hn)|]. cbn [run].
    rewrite (C78_panics_stmt rho mu TB b Ag Wb H ck). reflexivity.
  - destruct W as (Wb & W1). apply (reaches1 _ _ _ _ (Ok (rho, k))).
    { intros ck [|n] Hn; [elim (Nat.nle_succ_0 _ Hn)|]. cbn [run]. rewrite (test rho mu b false Ag Wb H). reflexivity. }
    exists (rho, k). split; [reflexivity|]. split; [exact Ag|reflexivity].
  - pose proof W as (Wb & W1). destruct (IHX1 W1 (rho, k) (conj Ag eq_refl)) as (N1 & x1 & E1 & r1 & -> & A1).
    destruct (IHX2 W r1 A1) as (N2 & x2 & E2 & K2). exists (S (N1 + N2)), x2. split; [|exact K2].
    intros ck [|n] Hn; [elim (Nat.nle_succ_0 _ Hn)|]. cbn [run]. rewrite (test rho mu b true Ag Wb H), bind_ok, E1 by nlia. rewrite bind_ok. apply E2. nlia.
  - destruct W as (Wb & W1). destruct (IHX W1 (rho, k) (conj Ag eq_refl)) as (N1 & x1 & E1 & ->). exists (S N1), Panic. split; [|reflexivity].
    intros ck [|n] Hn; [elim (Nat.nle_succ_0 _ Hn)|]. cbn [run]. rewrite (test rho mu b true Ag Wb H), bind_ok, E1 by nlia. reflexivity.
  - destruct W as (Wb & W1). apply (reaches1 _ _ _ _ Panic); [|reflexivity]. intros ck [|n] Hn; [elim (Nat.nle_succ_0 _ Hn)|]. cbn [run].
    rewrite (C78_panics_stmt rho mu TB b Ag Wb H ck). reflexivity.
  - apply (reaches1 _ _ _ _ (Ok (assign rho TF i (enc (toF (le_value (g k 32%nat) mod 2 ^ 251))), S k))).
    { intros ck [|n] Hn; [elim (Nat.nle_succ_0 _ Hn)|]. cbn [run]. rewrite (fe_random_enc _ (G k 32%nat)). reflexivity. }
    eexists. split; [reflexivity|]. split; [exact (assign_agree _ _ TF _ _ _ Ag (frep_enc _))|reflexivity].
  - destruct (sc_random_det _ (G k 32%nat)) as (v & E & R). apply (reaches1 _ _ _ _ (Ok (assign rho TS i v, S k))).
    { intros ck [|n] Hn; [elim (Nat.nle_succ_0 _ Hn)|]. cbn [run]. rewrite E. reflexivity. }
    eexists. split; [reflexivity|]. split; [exact (assign_agree _ _ TS _ _ _ Ag R)|reflexivity].
  - destruct (has_y_pt _ _ _ H1) as (B & -> & E). exists (S (S (j - k))), (Ok (assign rho TE i (ext B (1 * 1)), S j)). split.
    + intros ck [|n] Hn; [elim (Nat.nle_succ_0 _ Hn)|]. cbn [run]. rewrite (draw_some ck g G (j - k) n k B).
      * rewrite bind_ok, prj_to_ext, bind_ok. replace (k + (j - k))%nat with j by nlia. reflexivity.
      * intros i0 Hi. rewrite <- drawn_lift. apply none_lift. intros x. apply H0. nlia.
      * replace (k + (j - k))%nat with j by nlia. rewrite <- drawn_lift. exact E.
      * nlia.
    + eexists. split; [reflexivity|]. split; [|reflexivity]. apply (assign_agree _ _ TE); [exact Ag|].
      apply rext_rep, rext_ext. apply F_mul_nz; exact one_neq_zero.
  - destruct (has_y_pt _ _ _ H1) as (B & -> & E). exists (S (S (j - k))), (Ok (assign rho TP i (prj B 1), S j)). split.
    + intros ck [|n] Hn; [elim (Nat.nle_succ_0 _ Hn)|]. cbn [run]. rewrite (draw_some ck g G (j - k) n k B).
      * rewrite bind_ok. replace (k + (j - k))%nat with j by nlia. reflexivity.
      * intros i0 Hi. rewrite <- drawn_lift. apply none_lift. intros x. apply H0. nlia.
      * replace (k + (j - k))%nat with j by nlia. rewrite <- drawn_lift. exact E.
      * nlia.
    + eexists. split; [reflexivity|]. split; [|reflexivity]. apply (assign_agree _ _ TP); [exact Ag|apply prj_repr].
  - destruct (rand_ristretto _ (G k 64%nat)) as (P & A0 & B0 & E & _ & _ & _ & U).
    apply (reaches1 _ _ _ _ (Ok (assign rho TR i P, S k))).
    { intros ck [|n] Hn; [elim (Nat.nle_succ_0 _ Hn)|]. cbn [run]. rewrite E. reflexivity. }
    eexists. split; [reflexivity|]. split; [exact (assign_agree _ _ TR _ _ _ Ag (U A B H H0))|reflexivity].
Qed.

(** ** From the code to the mathematical execution *)
Definition explained (g : rng) (c : cmd) (s : menv * nat) (x : res (env * nat)) : Prop :=
  match x with
  | Ok r' => exists s', exec g c s (Done s') /\ agree r' s'
  | Panic => exec g c s Fail
  | NoFuel => True
  end.

Lemma lift_free y : lift y false = None -> forall x, ~ on_curve (x, y).
Proof. intros E x. exact (lift_none y false x E). Qed.

Theorem backward g : wf_rng g -> forall ck n c r s, wf_cmd c -> agree r s -> explained g c s (run ck g n c r).
Proof.
  intros G ck. induction n as [|n IH]; intros c [rho k] [mu k'] W [Ag Ek]; [exact I|]. cbn [fst snd] in Ag, Ek. subst k'.
  destruct c; cbn [run wf_cmd] in *.
  - exists (mu, k). split; [constructor|split; [exact Ag|reflexivity]].
  - destruct (api_good rho mu Ag t e W) as [(v & m & E & R & H & _)|[E N]]; rewrite E; cbn [bind explained].
    + exists (assign mu t i m, k). split; [constructor; exact H|]. split; [exact (assign_agree _ _ _ _ _ _ Ag R)|reflexivity].
    + constructor. exact N.
  - destruct W as [W1 W2]. pose proof (IH c1 (rho, k) (mu, k) W1 (conj Ag eq_refl)) as H1.
    destruct (run ck g n c1 (rho, k)) as [r1| |]; cbn [bind explained] in *; [|constructor; exact H1|exact I].
    destruct H1 as (s1 & X1 & A1). pose proof (IH c2 r1 s1 W2 A1) as H2. unfold explained in *.
    destruct (run ck g n c2 r1) as [r2| |]; [|exact (X_seq g c1 c2 _ s1 _ X1 H2)|exact I].
    destruct H2 as (s2 & X2 & A2). exists s2. split; [exact (X_seq g c1 c2 _ s1 _ X1 X2)|exact A2].
  - destruct W as (Wb & W1 & W2).
    destruct (api_good rho mu Ag TB b Wb) as [(v & m & E & R & H & _)|[E N]]; rewrite E; cbn [bind].
    2: { apply X_cond_fail. exact N. }
    cbn in R. subst v. unfold explained. destruct m.
    + pose proof (IH c1 (rho, k) (mu, k) W1 (conj Ag eq_refl)) as H1. unfold explained in H1.
      destruct (run ck g n c1 (rho, k)) as [r1| |]; [|exact (X_cond_true g b c1 c2 mu k _ H H1)|exact I].
      destruct H1 as (s1 & X1 & A1). exists s1. split; [exact (X_cond_true g b c1 c2 mu k _ H X1)|exact A1].
    + pose proof (IH c2 (rho, k) (mu, k) W2 (conj Ag eq_refl)) as H1. unfold explained in H1.
      destruct (run ck g n c2 (rho, k)) as [r1| |]; [|exact (X_cond_false g b c1 c2 mu k _ H H1)|exact I].
      destruct H1 as (s1 & X1 & A1). exists s1. split; [exact (X_cond_false g b c1 c2 mu k _ H X1)|exact A1].
  - pose proof W as (Wb & W1).
    destruct (api_good rho mu Ag TB b Wb) as [(v & m & E & R & H & _)|[E N]]; rewrite E; cbn [bind].
    2: { apply X_while_fail. exact N. }
    cbn in R. subst v. unfold explained. destruct m.
    + pose proof (IH c (rho, k) (mu, k) W1 (conj Ag eq_refl)) as H1. unfold explained in H1.
      destruct (run ck g n c (rho, k)) as [r1| |]; cbn [bind]; [|exact (X_while_body_fail g b c mu k H H1)|exact I].
      destruct H1 as (s1 & X1 & A1). pose proof (IH (While b c) r1 s1 W A1) as H2. unfold explained in H2.
      destruct (run ck g n (While b c) r1) as [r2| |]; [|exact (X_while_next g b c mu k s1 _ H X1 H2)|exact I].
      destruct H2 as (s2 & X2 & A2). exists s2. split; [exact (X_while_next g b c mu k s1 _ H X1 X2)|exact A2].
    + exists (mu, k). split; [apply X_while_stop; exact H|]. split; [exact Ag|reflexivity].
  - rewrite (fe_random_enc _ (G k 32%nat)). cbn [bind explained]. eexists. split; [apply X_randF|].
    split; [exact (assign_agree _ _ TF _ _ _ Ag (frep_enc _))|reflexivity].
  - destruct (sc_random_det _ (G k 32%nat)) as (v & E & R). rewrite E. cbn [bind explained]. eexists. split; [apply X_randS|].
    split; [exact (assign_agree _ _ TS _ _ _ Ag R)|reflexivity].
  - pose proof (draw_inv ck g G n k) as D. destruct (draw_point ck g n k) as [[P k']| |]; cbn [bind]; [|elim D|exact I].
    destruct D as (j & A & Hj & N & HA & -> & ->). rewrite prj_to_ext, bind_ok. exists (assign mu TE i (pxy A), S j). split.
    + apply X_randE; [exact Hj| |apply lift_has_y; rewrite drawn_lift; exact HA]. intros i0 x Hi. specialize (N i0 Hi). rewrite <- drawn_lift in N. exact (lift_free _ N x).
    + split; [|reflexivity]. apply (assign_agree _ _ TE); [exact Ag|]. apply rext_rep, rext_ext. apply F_mul_nz; exact one_neq_zero.
  - pose proof (draw_inv ck g G n k) as D. destruct (draw_point ck g n k) as [[P k']| |]; cbn [bind]; [|elim D|exact I].
    destruct D as (j & A & Hj & N & HA & -> & ->). exists (assign mu TP i (pxy A), S j). split.
    + apply X_randP; [exact Hj| |apply lift_has_y; rewrite drawn_lift; exact HA]. intros i0 x Hi. specialize (N i0 Hi). rewrite <- drawn_lift in N. exact (lift_free _ N x).
    + split; [|reflexivity]. apply (assign_agree _ _ TP); [exact Ag|apply prj_repr].
  - destruct (rand_ristretto _ (G k 64%nat)) as (P & A & B & E & HA & HB & R & _). rewrite E, bind_ok.
    exists (assign mu TR i (sum A B), S k). split; [apply X_randR; assumption|].
    split; [exact (assign_agree _ _ TR _ _ _ Ag R)|reflexivity].
Qed.

Lemma repr_same t v m m' : repr t v m -> repr t v m' -> eqv t m m'.
Proof.
  assert (C : forall z a b : F, z <> 0 -> a * z = b * z -> a = b).
  { intros z a b N E. apply (F_mul_cancel_l z); [exact N|]. transitivity (a * z); [ring|]. rewrite E. ring. }
  destruct t; cbn [repr eqv].
  - intros [_ <-] [_ E]. exact E.
  - intros [_ <-] [_ E]. exact E.
  - intros (_ & _ & _ & _ & _ & N & X & Y & _) (_ & _ & _ & _ & _ & _ & X' & Y' & _). rewrite X in X'. rewrite Y in Y'.
    apply C in X', Y'; [|exact N|exact N]. destruct m, m'. cbn in X', Y'. rewrite X', Y'. reflexivity.
  - intros (_ & _ & _ & _ & N & X & Y) (_ & _ & _ & _ & _ & X' & Y'). rewrite X in X'. rewrite Y in Y'.
    apply C in X', Y'; [|exact N|exact N]. destruct m, m'. cbn in X', Y'. rewrite X', Y'. reflexivity.
  - intros (_ & _ & _ & X & Y) (_ & _ & _ & X' & Y'). destruct m, m'. cbn in X, Y, X', Y'. rewrite <- X, <- Y, <- X', <- Y'. reflexivity.
  - intros H H'. apply rrep in H, H'. destruct H as (A & M & -> & R & _ & K), H' as (A' & M' & -> & R' & _ & K').
    rewrite (rext_det _ _ _ R' R) in K'. apply coset4_iff. apply coset_trans with A; [apply coset_sym; exact K|exact K'].
  - intros [_ <-] [_ E]. exact E.
  - intros [_ <-] [_ E]. exact E.
  - intros <- E. exact E.
  - intros [_ <-] [_ E]. exact E.
Qed.

(** ** C81 *)
(** If the mathematical execution ends, both builds end in a state that represents the
    result; if it fails, both panic. *)
Lemma C81_adequate_stmt : forall g c s o r, wf_rng g -> wf_cmd c -> agree r s -> exec g c s o ->
  exists N x, (forall ck n, (N <= n)%nat -> run ck g n c r = x) /\
    match o with Done s' => exists r', x = Ok r' /\ agree r' s' | Fail => x = Panic end.
Proof. intros g c s o r G W A X. exact (forward g G c s o X W r A). Qed.
(** Whatever the code does is what the mathematical execution does. *)
Lemma C81_sound_stmt : forall g c s r ck n, wf_rng g -> wf_cmd c -> agree r s ->
  match run ck g n c r with
  | Ok r' => exists s', exec g c s (Done s') /\ agree r' s'
  | Panic => exec g c s Fail
  | NoFuel => True
  end.
Proof. intros g c s r ck n G W A. exact (backward g G ck n c r s W A). Qed.
(** The code runs forever exactly when the mathematical execution has no outcome. *)
Lemma C81_diverges_stmt : forall g c s r ck, wf_rng g -> wf_cmd c -> agree r s ->
  ((forall n, run ck g n c r = NoFuel) <-> (forall o, ~ exec g c s o)).
Proof.
  intros g c s r ck G W A. split.
  - intros H o X. destruct (forward g G c s o X W r A) as (N & x & E & K). specialize (E ck N (le_n N)). rewrite H in E. subst x.
    destruct o as [s'|]; [destruct K as (r' & K & _)|]; discriminate K.
  - intros H n. pose proof (backward g G ck n c r s W A) as B. unfold explained in B.
    destruct (run ck g n c r) as [r'| |]; [|elim (H _ B)|reflexivity]. destruct B as (s' & X & _). elim (H _ X).
Qed.
(** The two builds take the same steps. *)
Lemma C81_builds_stmt : forall g c s r n, wf_rng g -> wf_cmd c -> agree r s -> run true g n c r = run false g n c r.
Proof.
  intros g c s r n G. revert c r s. induction n as [|n IH]; intros c [rho k] [mu k'] W [Ag Ek]; [reflexivity|]. cbn [fst snd] in Ag, Ek. subst k'.
  assert (B : forall t (e : expr t), wf e -> eval false rho e = eval true rho e)
    by (intros t e We; symmetry; exact (C78_builds_stmt rho mu t e Ag We)).
  assert (Q : forall c d (s0 : menv * nat) r0, wf_cmd c -> wf_cmd d -> agree r0 s0 ->
    (s' <- run true g n c r0 ;; run true g n d s') = (s' <- run false g n c r0 ;; run false g n d s')).
  { intros c0 d s0 r0 W1 W2 A0. rewrite <- (IH c0 r0 s0 W1 A0). pose proof (backward g G true n c0 r0 s0 W1 A0) as X.
    destruct (run true g n c0 r0) as [r1| |]; cbn [bind]; [|reflexivity|reflexivity]. destruct X as (s1 & _ & A1). exact (IH d r1 s1 W2 A1). }
  destruct c; cbn [run wf_cmd] in *.
  - reflexivity.
  - rewrite (B t e W). reflexivity.
  - destruct W as [W1 W2]. exact (Q c1 c2 (mu, k) (rho, k) W1 W2 (conj Ag eq_refl)).
  - destruct W as (Wb & W1 & W2). rewrite (B TB b Wb). destruct (eval true rho b) as [[|]| |]; cbn [bind]; [| |reflexivity|reflexivity].
    + exact (IH c1 (rho, k) (mu, k) W1 (conj Ag eq_refl)).
    + exact (IH c2 (rho, k) (mu, k) W2 (conj Ag eq_refl)).
  - pose proof W as (Wb & W1). rewrite (B TB b Wb). destruct (eval true rho b) as [[|]| |]; cbn [bind]; [|reflexivity|reflexivity|reflexivity].
    exact (Q c (While b c) (mu, k) (rho, k) W1 W (conj Ag eq_refl)).
  - reflexivity.
  - reflexivity.
  - rewrite (draw_builds g n k G false). destruct (draw_point true g n k) as [[P k']| |] eqn:D; cbn [bind]; [|reflexivity|reflexivity].
    pose proof (draw_inv true g G n k) as V. rewrite D in V. destruct V as (j & A & _ & _ & _ & -> & _). rewrite !prj_to_ext. reflexivity.
  - rewrite (draw_builds g n k G false). reflexivity.
  - destruct (rand_ristretto _ (G k 64%nat)) as (P & A & A' & E & _). rewrite !E. reflexivity.
Qed.
(** The mathematical execution has at most one outcome; Ristretto variables up to class. *)
Lemma C81_unique_stmt : forall g c s r o o', wf_rng g -> wf_cmd c -> agree r s -> exec g c s o -> exec g c s o' ->
  match o, o' with
  | Done a, Done b => (forall t i, eqv t (fst a t i) (fst b t i)) /\ snd a = snd b
  | Fail, Fail => True
  | _, _ => False
  end.
Proof.
  intros g c s r o o' G W A X X'. destruct (forward g G c s o X W r A) as (N & x & E & K).
  destruct (forward g G c s o' X' W r A) as (N' & x' & E' & K').
  specialize (E true (N + N')%nat ltac:(nlia)). specialize (E' true (N + N')%nat ltac:(nlia)). rewrite E in E'. subst x'. clear E.
  destruct o as [a|], o' as [b|].
  - destruct K as (r1 & -> & A1 & K1), K' as (r2 & E2 & A2 & K2). apply Ok_inj in E2. subst r2.
    split; [|rewrite <- K1, <- K2; reflexivity]. intros t i. apply (repr_same t (fst r1 t i)); [apply A1|apply A2].
  - destruct K as (r1 & -> & _). discriminate K'.
  - destruct K' as (r1 & E2 & _). rewrite K in E2. discriminate E2.
  - exact I.
Qed.
(** Sampling a point through the generator's request counter is the stream version of
    EdwardsModel.v. *)
Lemma C81_draw_stmt : forall ck g n k,
  (x <- draw_point ck g n k ;; Ok (fst x)) = ppt_new_random_point ck (map (fun i => g i 32%nat) (seq k n)).
Proof.
  intros ck g n k. pose proof (draw_stream ck g n k) as H. destruct (draw_point ck g n k) as [[P k']| |]; cbn [bind fst]; symmetry; exact H.
Qed.

(** A program with a loop of up to L - 1 rounds: multiplication by repeated addition,
    `q = identity; while n != 0 { q = q + p; n = n - 1 }`. *)
Definition mul_body : cmd := Seq (Set_ TE 1 (EAdd (Var 1) (Var 0))) (Set_ TS 0 (SSub (Var 0) (SInt 1))).
Definition mul_test : expr TB := Not (SEq (Var 0) (SInt 0)).
Definition mul_loop : cmd := Seq (Set_ TE 1 EIdentity) (While mul_test mul_body).

Lemma mul_test_means mu : means mu mul_test (negb (mu TS 0%nat =? 0)%Z).
Proof.
  exists (mu TS 0%nat =? 0)%Z. split; [|reflexivity]. exists (mu TS 0%nat), 0%Z. split; [reflexivity|]. split; [reflexivity|]. apply Z.eqb_eq.
Qed.
Lemma mul_rounds g A : forall j (mu : menv) k B, mu TS 0%nat = Z.of_nat j -> (Z.of_nat j < L)%Z -> mu TE 0%nat = pxy A -> mu TE 1%nat = pxy B ->
  exists mu', exec g (While mul_test mul_body) (mu, k) (Done (mu', k)) /\ mu' TE 1%nat = pxy (padd B (smul (Z.of_nat j) A)).
Proof.
  induction j as [|j IH]; intros mu k B Hn Hl HA HB; pose proof (mul_test_means mu) as T; rewrite Hn in T.
  - exists mu. split; [apply X_while_stop; exact T|]. rewrite HB. apply f_equal. rewrite smul_0, padd_O_r. reflexivity.
  - rewrite Nat2Z.inj_succ in *. replace (Z.succ (Z.of_nat j) =? 0)%Z with false in T by (symmetry; apply Z.eqb_neq; lia). cbn [negb] in T.
    set (mu1 := assign mu TE 1%nat (pxy (padd B A))). set (mu2 := assign mu1 TS 0%nat (Z.of_nat j)).
    destruct (IH mu2 k (padd B A)) as (mu' & X & E).
    { reflexivity. } { lia. } { exact HA. } { reflexivity. }
    exists mu'. split.
    + apply (X_while_next g mul_test mul_body mu k (mu2, k)); [exact T| |exact X].
      apply (X_seq g _ _ _ (mu1, k)).
      * apply X_set. exists (pxy B), (pxy A). split; [exact HB|]. split; [exact HA|]. symmetry. apply api_sum.
      * apply X_set. exists (Z.succ (Z.of_nat j)), 1%Z. split; [exact Hn|]. split; [reflexivity|].
        rewrite Z.mod_small by lia. lia.
    + rewrite E. apply f_equal. rewrite padd_assoc. apply f_equal. symmetry. apply smul_succ.
Qed.
(** On every input it ends, in both builds, with the same point as scalar multiplication. *)
Lemma C81_loop_stmt : forall g rho k mu, wf_rng g -> agree_env rho mu ->
  exists N r Q, (forall ck n, (N <= n)%nat -> run ck g n mul_loop (rho, k) = Ok r) /\
    (forall ck, ept_mul ck (rho TE 0%nat) (rho TS 0%nat) = Ok Q) /\
    ext_rep (fst r TE 1%nat) (multiple (mu TS 0%nat) (mu TE 0%nat)) /\ ext_rep Q (multiple (mu TS 0%nat) (mu TE 0%nat)).
Proof.
  intros g rho k mu G Ag. pose proof (Ag TE 0%nat) as RA. cbn [repr] in RA. apply ext_rep_rext in RA. destruct RA as (A & EA & RA).
  pose proof (srep_range _ _ (Ag TS 0%nat)) as Rn. set (m := mu TS 0%nat) in *.
  set (mu0 := assign mu TE 1%nat origin : menv).
  destruct (mul_rounds g A (Z.to_nat m) mu0 k pO) as (mu' & X & E).
  { rewrite Z2Nat.id by lia. reflexivity. } { rewrite Z2Nat.id by lia. lia. } { exact EA. } { symmetry. apply pxy_of. }
  assert (X' : exec g mul_loop (mu, k) (Done (mu', k))).
  { apply (X_seq g _ _ _ (mu0, k)); [|exact X]. apply X_set. reflexivity. }
  assert (W : wf_cmd mul_loop) by (cbn; repeat split; lia).
  destruct (forward g G mul_loop _ _ X' W (rho, k) (conj Ag eq_refl)) as (N & x & EN & r & -> & Ar & _).
  destruct (value rho mu TE (EMul (Var 0) (Var 0)) (multiple m (mu TE 0%nat)) Ag (conj I I)) as (Q & EQ & RQ).
  { exists (mu TE 0%nat), m. split; [reflexivity|]. split; reflexivity. }
  exists N, r, Q. split; [exact EN|]. split; [exact EQ|]. split; [|exact RQ].
  pose proof (Ar TE 1%nat) as H. cbn [fst repr] in H. rewrite E, padd_O_l, Z2Nat.id in H by lia. rewrite EA, multiple_smul by lia. exact H.
Qed.

Lemma C81_ex : wf_rng (fun _ n => repeat 6%Z n) /\ agree (zero_env, 0%nat) (zero_menv, 0%nat) /\ wf_cmd mul_loop /\
  (exists s, exec (fun _ n => repeat 6%Z n) mul_loop (zero_menv, 0%nat) (Done s)) /\
  exec (fun _ n => repeat 6%Z n) (Seq (RandF 0) (Set_ TF 1 (FInverse (FSub (Var 0) (Var 0))))) (zero_menv, 0%nat) Fail /\
  (forall o, ~ exec (fun _ n => repeat 6%Z n) (While (Lit true) Skip) (zero_menv, 0%nat) o).
Proof.
  assert (G : wf_rng (fun _ n => repeat 6%Z n)).
  { intros k n. split; [apply repeat_length|]. apply Forall_forall. intros x H. apply (repeat_spec n 6%Z) in H. subst. split; [discriminate|reflexivity]. }
  split; [exact G|]. split; [split; [exact zero_agree|reflexivity]|]. split; [cbn; repeat split; lia|].
  split.
  { destruct (mul_rounds (fun _ n => repeat 6%Z n) pO 0 (assign zero_menv TE 1%nat origin) 0%nat pO) as (mu' & X & _);
      [reflexivity|rewrite L_num; reflexivity|symmetry; apply pxy_of|symmetry; apply pxy_of|].
    exists (mu', 0%nat). apply (X_seq _ _ _ _ (assign zero_menv TE 1%nat origin, 0%nat)); [|exact X]. apply X_set. reflexivity. }
  split.
  { eapply X_seq; [apply X_randF|]. apply X_set_fail. intros m (x & (y & z & Y & Z & ->) & H). rewrite <- Y, <- Z in H.
    apply one_neq_zero. rewrite <- H. ring. }
  intros o X. remember (While (Lit true) Skip) as c eqn:C. induction X; try discriminate C; injection C as -> ->.
  - discriminate H.
  - apply IHX2. reflexivity.
  - inversion X.
  - exact (H true eq_refl).
Qed.
