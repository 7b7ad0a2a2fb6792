(** * Programs over the public API compute their meaning

    Statement forms; PropApi.v restates each of them.                      *)

From Coq Require Import ZArith Znumtheory List Bool Lia Ring Field.
From Verif Require Import Machine FieldModel ScalarModel EdwardsModel TableModel RistrettoModel Spec MachineFacts
  FieldLimb FieldOps FieldBytes NumTheory Primes Fp FieldF FieldInv FieldStmt ScalarLimb ScalarOps ScalarBits ScalarStmt Curve CurveGroup EdwardsF
  PointMul EdwardsY EdwardsStmt RistSpec CodeSpec Rist RistF RistE RistrettoStmt GroupCheck GroupOrder GroupStmt CodeStmt ApiModel ApiSpec.
Import ListNotations.
Open Scope F_scope.

(** ** Combinators *)
Definition good (t : ty) (o : bool -> res (val t)) (S : mval t -> Prop) : Prop :=
  (exists v m, (forall ck, o ck = Ok v) /\ repr t v m /\ S m /\ forall m', S m' -> eqv t m m') \/
  ((forall ck, o ck = Panic) /\ forall m, ~ S m).

Definition op1 (t u : ty) (f : bool -> val t -> res (val u)) (R : mval t -> mval u -> Prop) : Prop :=
  forall v m, repr t v m ->
  (exists w n, (forall ck, f ck v = Ok w) /\ repr u w n /\ R m n /\
     forall m' n', eqv t m m' -> R m' n' -> eqv u n n') \/
  ((forall ck, f ck v = Panic) /\ forall m' n', eqv t m m' -> ~ R m' n').

Definition op2 (t t' u : ty) (f : bool -> val t -> val t' -> res (val u)) (R : mval t -> mval t' -> mval u -> Prop) : Prop :=
  forall v m v' m', repr t v m -> repr t' v' m' ->
  (exists w n, (forall ck, f ck v v' = Ok w) /\ repr u w n /\ R m m' n /\
     forall a b n', eqv t m a -> eqv t' m' b -> R a b n' -> eqv u n n') \/
  ((forall ck, f ck v v' = Panic) /\ forall a b n', eqv t m a -> eqv t' m' b -> ~ R a b n').

Lemma good1 t u f R o S : op1 t u f R -> good t o S ->
  good u (fun ck => x <- o ck ;; f ck x) (means1 S R).
Proof.
  intros H [(v & m & E & Rp & Sm & U)|[E N]].
  - destruct (H v m Rp) as [(w & n & Ew & Rw & Rn & Un)|[Ew Un]].
    + left. exists w, n. split; [intros ck; rewrite E; exact (Ew ck)|]. split; [exact Rw|].
      split; [exists m; split; [exact Sm|exact Rn]|]. intros n' (x & Sx & Rx). exact (Un x n' (U x Sx) Rx).
    + right. split; [intros ck; rewrite E; exact (Ew ck)|]. intros n' (x & Sx & Rx). exact (Un x n' (U x Sx) Rx).
  - right. split; [intros ck; rewrite E; reflexivity|]. intros n (x & Sx & _). exact (N x Sx).
Qed.
Lemma good2 t t' u f R o S o' S' : op2 t t' u f R -> good t o S -> good t' o' S' ->
  good u (fun ck => x <- o ck ;; y <- o' ck ;; f ck x y) (means2 S S' R).
Proof.
  intros H [(v & m & E & Rp & Sm & U)|[E N]].
  2: { intros _. right. split; [intros ck; rewrite E; reflexivity|]. intros n (x & y & Sx & _). exact (N x Sx). }
  intros [(v' & m' & E' & Rp' & Sm' & U')|[E' N']].
  2: { right. split; [intros ck; rewrite E, bind_ok, E'; reflexivity|]. intros n (x & y & _ & Sy & _). exact (N' y Sy). }
  destruct (H v m v' m' Rp Rp') as [(w & n & Ew & Rw & Rn & Un)|[Ew Un]].
  - left. exists w, n. split; [intros ck; rewrite E, bind_ok, E'; exact (Ew ck)|]. split; [exact Rw|].
    split; [exists m, m'; split; [exact Sm|split; [exact Sm'|exact Rn]]|].
    intros n' (x & y & Sx & Sy & Rx). exact (Un x y n' (U x Sx) (U' y Sy) Rx).
  - right. split; [intros ck; rewrite E, bind_ok, E'; exact (Ew ck)|].
    intros n' (x & y & Sx & Sy & Rx). exact (Un x y n' (U x Sx) (U' y Sy) Rx).
Qed.
Lemma good0 t (o : bool -> res (val t)) (S : mval t -> Prop) v m : (forall ck, o ck = Ok v) -> repr t v m -> S m ->
  (forall m', S m' -> eqv t m m') -> good t o S.
Proof. intros E R H U. left. exists v, m. split; [exact E|]. split; [exact R|]. split; [exact H|exact U]. Qed.
Lemma good_if t oc Sc oa Sa ob Sb : good TB oc Sc -> good t oa Sa -> good t ob Sb ->
  good t (fun ck => x <- oc ck ;; if x : bool then oa ck else ob ck) (fun m => (Sc true /\ Sa m) \/ (Sc false /\ Sb m)).
Proof.
  intros [(v & c & E & Rp & Sm & U)|[E N]] Ga Gb.
  2: { right. split; [intros ck; rewrite E; reflexivity|]. intros m [[H _]|[H _]]; exact (N _ H). }
  cbn in Rp. subst v. destruct c.
  - destruct Ga as [(v & m & E' & R' & S' & U')|[E' N']].
    + left. exists v, m. split; [intros ck; rewrite E, bind_ok; apply E'|]. split; [exact R'|].
      split; [left; split; assumption|]. intros m' [[_ H]|[H _]]; [exact (U' _ H)|]. apply U in H. cbn in H. discriminate H.
    + right. split; [intros ck; rewrite E, bind_ok; apply E'|]. intros m' [[_ H]|[H _]]; [exact (N' _ H)|].
      apply U in H. cbn in H. discriminate H.
  - destruct Gb as [(v & m & E' & R' & S' & U')|[E' N']].
    + left. exists v, m. split; [intros ck; rewrite E, bind_ok; apply E'|]. split; [exact R'|].
      split; [right; split; assumption|]. intros m' [[H _]|[_ H]]; [|exact (U' _ H)]. apply U in H. cbn in H. discriminate H.
    + right. split; [intros ck; rewrite E, bind_ok; apply E'|]. intros m' [[H _]|[_ H]]; [|exact (N' _ H)].
      apply U in H. cbn in H. discriminate H.
Qed.

(** ** Field operations *)
Lemma frep v m : repr TF v m -> v = enc m.
Proof. intros [C E]. rewrite <- (enc_fF v C). apply f_equal. exact E. Qed.
Lemma frep_enc m : repr TF (enc m) m.
Proof. split; [apply enc_c|apply residue_enc]. Qed.

Lemma op1_F f (g : F -> F) : (forall ck x, f ck (enc x) = Ok (enc (g x))) -> op1 TF TF f (fun x m => m = g x).
Proof.
  intros H v m Rv. apply frep in Rv. subst v. left. exists (enc (g m)), (g m).
  split; [intros ck; apply H|]. split; [apply frep_enc|]. split; [reflexivity|].
  intros m' n' E ->. cbn in E. subst m'. reflexivity.
Qed.
Lemma op2_F f (g : F -> F -> F) : (forall ck x y, f ck (enc x) (enc y) = Ok (enc (g x y))) -> op2 TF TF TF f (fun x y m => m = g x y).
Proof.
  intros H v m v' m' Rv Rv'. apply frep in Rv, Rv'. subst v v'. left. exists (enc (g m m')), (g m m').
  split; [intros ck; apply H|]. split; [apply frep_enc|]. split; [reflexivity|].
  intros a b n' E E' ->. cbn in E, E'. subst a b. reflexivity.
Qed.
(** Tests: the specification determines the truth value. *)
Lemma iff_bool (a b : bool) (P : Prop) : (a = true <-> P) -> (b = true <-> P) -> a = b.
Proof. intros H K. apply eq_iff_eq_true. rewrite H, K. reflexivity. Qed.
Lemma op1_test t (f : bool -> val t -> res bool) (P : mval t -> Prop) :
  (forall m m', eqv t m m' -> (P m <-> P m')) ->
  (forall v m, repr t v m -> exists r, (forall ck, f ck v = Ok r) /\ (r = true <-> P m)) ->
  op1 t TB f (fun x m => m = true <-> P x).
Proof.
  intros I H v m Rv. destruct (H v m Rv) as (r & E & K). left. exists r, r. split; [exact E|]. split; [reflexivity|].
  split; [exact K|]. intros m' n' Q Hn. apply (iff_bool r n' (P m) K). rewrite Hn. symmetry. exact (I m m' Q).
Qed.
Lemma op2_test t t' (f : bool -> val t -> val t' -> res bool) (P : mval t -> mval t' -> Prop) :
  (forall m m' a b, eqv t m a -> eqv t' m' b -> (P m m' <-> P a b)) ->
  (forall v m v' m', repr t v m -> repr t' v' m' -> exists r, (forall ck, f ck v v' = Ok r) /\ (r = true <-> P m m')) ->
  op2 t t' TB f (fun x y m => m = true <-> P x y).
Proof.
  intros I H v m v' m' Rv Rv'. destruct (H v m v' m' Rv Rv') as (r & E & K). left. exists r, r. split; [exact E|].
  split; [reflexivity|]. split; [exact K|]. intros a b n' Q Q' Hn. apply (iff_bool r n' (P m m') K). rewrite Hn.
  symmetry. exact (I m m' a b Q Q').
Qed.

Lemma api_fdiv : op2 TF TF TF fe_div (fun x y m => y <> 0 /\ m * y = x).
Proof.
  intros v m v' m' Rv Rv'. apply frep in Rv, Rv'. subst v v'. destruct (F_dec m' 0) as [->|N].
  - right. split; [intros ck; apply fe_div_zero|]. intros a b n' _ Q [H _]. cbn in Q. subst b. apply H. reflexivity.
  - left. exists (enc (m / m')), (m / m'). split; [intros ck; apply fe_div_F; exact N|]. split; [apply frep_enc|].
    split; [split; [exact N|field; exact N]|]. intros a b n' Q Q' [_ H]. cbn in Q, Q'. subst a b. cbn.
    rewrite <- H. field. exact N.
Qed.
Lemma api_finv : op1 TF TF fe_inverse (fun x m => m * x = 1).
Proof.
  intros v m Rv. apply frep in Rv. subst v. destruct (F_dec m 0) as [->|N].
  - right. split; [intros ck; apply fe_inverse_zero|]. intros a n' Q H. cbn in Q. subst a.
    apply one_neq_zero. rewrite <- H. ring.
  - left. exists (enc (/ m)), (/ m). split; [intros ck; apply fe_inverse_F; exact N|]. split; [apply frep_enc|].
    split; [field; exact N|]. intros a n' Q H. cbn in Q. subst a. cbn. transitivity (n' * m * / m); [rewrite H; ring|field; exact N].
Qed.
Lemma api_fhalf : op1 TF TF fe_half (fun x m => m + m = x).
Proof.
  intros v m Rv. apply frep in Rv. subst v. pose proof two_nz as N2.
  assert (E : forall z : F, z + z = ftwo * z) by (intros z; unfold ftwo; ring).
  left. exists (enc (m / ftwo)), (m / ftwo). split; [intros ck; apply fe_half_F|]. split; [apply frep_enc|].
  split; [rewrite E; field; exact N2|]. intros a n' Q H. cbn in Q. subst a. cbn. rewrite <- H, E. field. exact N2.
Qed.
Lemma api_fsqrt : op2 TF TB TF (fun ck x y => o <- fe_mod_sqrt ck x y ;; unwrap o)
  (fun x y m => m * m = x /\ principal (if y : bool then - m else m)).
Proof.
  intros v m s' s Rv Rs. apply frep in Rv. subst v. cbn in Rs. subst s'.
  destruct (sqb_F_spec m) as [Sq|Sq].
  - left. exists (enc (if s then - ts_root m else ts_root m)), (if s then - ts_root m else ts_root m).
    pose proof (ts_root_principal m Sq) as Pr. pose proof (ts_root_ok m Sq) as R2.
    split. { intros ck. rewrite fe_mod_sqrt_F', bind_ok. destruct (sqb_F_spec m) as [_|K]; [reflexivity|elim (K Sq)]. }
    split; [apply frep_enc|].
    split. { split; [destruct s; [transitivity (ts_root m * ts_root m); [ring|]|]; exact R2|].
             destruct s; [rewrite opp_opp|]; exact Pr. }
    intros a b n' Q Q' [H K]. cbn in Q, Q'. subst a b. cbn. destruct s.
    + rewrite (sq_eq_root m (- n')); [apply opp_opp|rewrite <- H; ring|exact K].
    + apply sq_eq_root; [exact H|exact K].
  - right. split. { intros ck. rewrite fe_mod_sqrt_F', bind_ok. destruct (sqb_F_spec m) as [K|_]; [elim (Sq K)|reflexivity]. }
    intros a b n' Q Q' [H _]. cbn in Q. subst a. apply Sq. exists n'. exact H.
Qed.

(** ** Scalar operations *)
Lemma snn v : scanon v -> (0 <= sval v)%Z.
Proof. intros [C _]. apply (sval_nonneg v C). Qed.
Lemma srep_inj a b m : repr TS a m -> repr TS b m -> a = b.
Proof. intros [[A _] E] [[B _] E']. apply (sval_inj a b A B). rewrite E, E'. reflexivity. Qed.
Lemma srep_range v m : repr TS v m -> (0 <= m < L)%Z.
Proof. intros [C <-]. split; [exact (snn v C)|apply C]. Qed.
(** Both builds return the scalar with the same value, hence the same limbs. *)
Lemma both_sc (o : bool -> res sc) m : (forall ck, exists r, o ck = Ok r /\ repr TS r m) ->
  exists r, (forall ck, o ck = Ok r) /\ repr TS r m.
Proof.
  intros H. destruct (H true) as (r & E & R). exists r. split; [|exact R]. intros [|]; [exact E|].
  destruct (H false) as (r' & E' & R'). rewrite E'. apply f_equal. exact (srep_inj _ _ _ R' R).
Qed.
Lemma op1_S f (g : Z -> Z) : (forall ck v, scanon v -> exists r, f ck v = Ok r /\ scanon r /\ sval r = g (sval v)) ->
  op1 TS TS f (fun x m => m = g x).
Proof.
  intros H v m Rv. left. destruct (both_sc (fun ck => f ck v) (g m)) as (r & E & R).
  { intros ck. destruct Rv as [C <-]. destruct (H ck v C) as (r & E & C' & V). exists r. split; [exact E|]. split; [exact C'|exact V]. }
  exists r, (g m). split; [exact E|]. split; [exact R|]. split; [reflexivity|].
  intros m' n' Q ->. cbn in Q. subst m'. reflexivity.
Qed.
Lemma op2_S f (g : Z -> Z -> Z) : (forall ck v v', scanon v -> scanon v' -> exists r, f ck v v' = Ok r /\ scanon r /\ sval r = g (sval v) (sval v')) ->
  op2 TS TS TS f (fun x y m => m = g x y).
Proof.
  intros H v m v' m' Rv Rv'. left. destruct (both_sc (fun ck => f ck v v') (g m m')) as (r & E & R).
  { intros ck. destruct Rv as [C <-], Rv' as [C' <-]. destruct (H ck v v' C C') as (r & E & Cr & V). exists r.
    split; [exact E|]. split; [exact Cr|exact V]. }
  exists r, (g m m'). split; [exact E|]. split; [exact R|]. split; [reflexivity|].
  intros a b n' Q Q' ->. cbn in Q, Q'. subst a b. reflexivity.
Qed.
Lemma api_shalf : op1 TS TS sc_half (fun x m => (0 <= m < L)%Z /\ ((m + m) mod L)%Z = x).
Proof.
  intros v m Rv. left. pose proof (srep_range v m Rv) as Rm. destruct Rv as [[Cl Cb] V].
  destruct (sc_half_ok true v Cl) as (r & E & C & D).
  assert (Rr : (0 <= sval r < L)%Z) by (split; [apply snn; exact C|apply C]). pose proof L_num as LN.
  rewrite V, (Z.mod_small m) in D by exact Rm.
  assert (U : forall a b, (0 <= a < L -> 0 <= b < L -> (2 * a) mod L = (2 * b) mod L -> a = b)%Z).
  { intros a b Ha Hb K. pose proof (Z.div_mod (2 * a) L ltac:(lia)) as Da. pose proof (Z.div_mod (2 * b) L ltac:(lia)) as Db.
    rewrite K in Da. set (qa := (2 * a / L)%Z) in *. set (qb := (2 * b / L)%Z) in *. clearbody qa qb.
    set (r0 := (2 * b mod L)%Z) in *. clearbody r0. rewrite LN in *. lia. }
  exists r, (sval r). split.
  { intros ck. destruct ck; [exact E|]. destruct (sc_half_ok false v Cl) as (r' & E' & C' & D'). cbn. rewrite E'. apply f_equal.
    apply sval_inj; [apply C'|apply C|]. apply U; [split; [apply snn; exact C'|apply C']|exact Rr|]. rewrite D', D, V. apply Z.mod_small. exact Rm. }
  split; [split; [exact C|reflexivity]|]. split; [split; [exact Rr|]|].
  { rewrite <- D. apply (f_equal (fun z => (z mod L)%Z)). lia. }
  intros m' n' Q [Hn Hm]. cbn in Q. subst m'. cbn. apply U; [exact Rr|exact Hn|]. rewrite D, <- Hm.
  apply (f_equal (fun z => (z mod L)%Z)). lia.
Qed.

(** ** Points *)
Lemma op1_E f h (g : pt -> pt) : (forall P A, rext P A -> exists R, (forall ck, f ck P = Ok R) /\ rext R (g A)) ->
  (forall A, h (pxy A) = pxy (g A)) -> op1 TE TE f (fun x m => m = h x).
Proof.
  intros H K v m Rv. cbn in Rv. apply ext_rep_rext in Rv. destruct Rv as (A & -> & Rv). destruct (H v A Rv) as (R & E & HR).
  left. exists R, (pxy (g A)). split; [exact E|]. split; [apply rext_rep; exact HR|]. split; [symmetry; apply K|].
  intros m' n' Q ->. cbn in Q. subst m'. cbn. symmetry. apply K.
Qed.
Lemma op2_E f h (g : pt -> pt -> pt) :
  (forall P Q A B, rext P A -> rext Q B -> exists R, (forall ck, f ck P Q = Ok R) /\ rext R (g A B)) ->
  (forall A B, h (pxy A) (pxy B) = pxy (g A B)) -> op2 TE TE TE f (fun x y m => m = h x y).
Proof.
  intros H K v m v' m' Rv Rv'. cbn in Rv, Rv'. apply ext_rep_rext in Rv, Rv'. destruct Rv as (A & -> & Rv), Rv' as (B & -> & Rv').
  destruct (H v v' A B Rv Rv') as (R & E & HR).
  left. exists R, (pxy (g A B)). split; [exact E|]. split; [apply rext_rep; exact HR|]. split; [symmetry; apply K|].
  intros a b n' Q Q' ->. cbn in Q, Q'. subst a b. cbn. symmetry. apply K.
Qed.
Lemma op2_EM f : (forall n P A, scanon n -> rext P A -> exists R, (forall ck, f ck P n = Ok R) /\ rext R (smul (sval n) A)) ->
  op2 TE TS TE f (fun x y m => m = multiple y x).
Proof.
  intros H v m v' m' Rv [Cn <-]. cbn in Rv. apply ext_rep_rext in Rv. destruct Rv as (A & -> & Rv).
  destruct (H v' v A Cn Rv) as (R & E & HR). assert (K : multiple (sval v') (pxy A) = pxy (smul (sval v') A)) by (apply multiple_smul, snn, Cn).
  left. exists R, (pxy (smul (sval v') A)). split; [exact E|]. split; [apply rext_rep; exact HR|]. split; [symmetry; exact K|].
  intros a b n' Q Q' ->. cbn in Q, Q'. subst a b. cbn. symmetry. exact K.
Qed.
Lemma op1_P f h (g : pt -> pt) : (forall P A, rprj P A -> exists R, (forall ck, f ck P = Ok R) /\ rprj R (g A)) ->
  (forall A, h (pxy A) = pxy (g A)) -> op1 TP TP f (fun x m => m = h x).
Proof.
  intros H K v m Rv. cbn in Rv. apply proj_rep_rprj in Rv. destruct Rv as (A & -> & Rv). destruct (H v A Rv) as (R & E & HR).
  left. exists R, (pxy (g A)). split; [exact E|]. split; [apply rprj_rep; exact HR|]. split; [symmetry; apply K|].
  intros m' n' Q ->. cbn in Q. subst m'. cbn. symmetry. apply K.
Qed.
Lemma op2_P f h (g : pt -> pt -> pt) :
  (forall P Q A B, rprj P A -> rprj Q B -> exists R, (forall ck, f ck P Q = Ok R) /\ rprj R (g A B)) ->
  (forall A B, h (pxy A) (pxy B) = pxy (g A B)) -> op2 TP TP TP f (fun x y m => m = h x y).
Proof.
  intros H K v m v' m' Rv Rv'. cbn in Rv, Rv'. apply proj_rep_rprj in Rv, Rv'. destruct Rv as (A & -> & Rv), Rv' as (B & -> & Rv').
  destruct (H v v' A B Rv Rv') as (R & E & HR).
  left. exists R, (pxy (g A B)). split; [exact E|]. split; [apply rprj_rep; exact HR|]. split; [symmetry; apply K|].
  intros a b n' Q Q' ->. cbn in Q, Q'. subst a b. cbn. symmetry. apply K.
Qed.
Lemma op2_PM : op2 TP TS TP ppt_mul (fun x y m => m = multiple y x).
Proof.
  intros v m v' m' Rv [Cn <-]. cbn in Rv. apply proj_rep_rprj in Rv. destruct Rv as (A & -> & Rv).
  destruct (ppt_mul_rprj v' v A (scanon_loadable v' Cn) Rv) as (R & E & HR).
  assert (K : multiple (sval v') (pxy A) = pxy (smul (sval v') A)) by (apply multiple_smul, snn, Cn).
  left. exists R, (pxy (smul (sval v') A)). split; [exact E|]. split; [apply rprj_rep; exact HR|]. split; [symmetry; exact K|].
  intros a b n' Q Q' ->. cbn in Q, Q'. subst a b. cbn. symmetry. exact K.
Qed.

Lemma api_sum A B : sum (pxy A) (pxy B) = pxy (padd A B). Proof. unfold padd. rewrite pxy_of. reflexivity. Qed.
Lemma api_opp A : opposite (pxy A) = pxy (popp A). Proof. unfold popp. rewrite pxy_of. reflexivity. Qed.
Lemma api_sub A B : sum (pxy A) (opposite (pxy B)) = pxy (padd A (popp B)). Proof. rewrite api_opp, api_sum. reflexivity. Qed.
Lemma api_from_y : op2 TF TB TE (fun ck y s => o <- ept_new_from_y_coord ck y s ;; unwrap o) has_y.
Proof.
  intros v m s' s Rv Rs. apply frep in Rv. subst v. cbn in Rs. subst s'. destruct (lift m s) as [A|] eqn:E.
  - left. exists (ext A 1), (pxy A). split; [intros ck; rewrite ept_new_from_y, bind_ok, E; reflexivity|].
    split; [apply rext_rep, rext_ext; exact one_neq_zero|]. apply lift_has_y in E. split; [exact E|].
    intros a b n' Q Q' H. cbn in Q, Q'. subst a b. exact (C76_unique_stmt _ _ _ _ E H).
  - right. split; [intros ck; rewrite ept_new_from_y, bind_ok, E; reflexivity|].
    intros a b n' Q Q' H. cbn in Q, Q'. subst a b. destruct (has_y_pt _ _ _ H) as (A' & _ & E'). rewrite E in E'.
    symmetry in E'. exact (Some_None _ E').
Qed.
Lemma api_from_y_p : op2 TF TB TP (fun ck y s => o <- ppt_new_from_y_coord ck y s ;; unwrap o) has_y.
Proof.
  intros v m s' s Rv Rs. apply frep in Rv. subst v. cbn in Rs. subst s'. destruct (lift m s) as [A|] eqn:E.
  - left. exists (prj A 1), (pxy A). split; [intros ck; rewrite ppt_new_from_y, bind_ok, E; reflexivity|].
    split; [apply rprj_rep; exists 1; split; [exact one_neq_zero|reflexivity]|]. apply lift_has_y in E. split; [exact E|].
    intros a b n' Q Q' H. cbn in Q, Q'. subst a b. exact (C76_unique_stmt _ _ _ _ E H).
  - right. split; [intros ck; rewrite ppt_new_from_y, bind_ok, E; reflexivity|].
    intros a b n' Q Q' H. cbn in Q, Q'. subst a b. destruct (has_y_pt _ _ _ H) as (A' & _ & E'). rewrite E in E'.
    symmetry in E'. exact (Some_None _ E').
Qed.
Lemma api_decompress : op1 TC TE (fun ck c => o <- cey_decompress ck c ;; unwrap o) edwards_decoded.
Proof.
  intros v m [B E]. subst m. unfold edwards_decoded. destruct (lift (toF (le_value v mod 2 ^ 252)) (2 ^ 255 <=? le_value v)%Z) as [A|] eqn:E.
  - left. exists (ext A 1), (pxy A). split; [intros ck; rewrite (decompress_lift v B), bind_ok, E; reflexivity|].
    split; [apply rext_rep, rext_ext; exact one_neq_zero|]. apply lift_has_y in E. split; [exact E|].
    intros a n' Q H. cbn in Q. subst a. exact (C76_unique_stmt _ _ _ _ E H).
  - right. split; [intros ck; rewrite (decompress_lift v B), bind_ok, E; reflexivity|].
    intros a n' Q H. cbn in Q. subst a. destruct (has_y_pt _ _ _ H) as (A' & _ & E'). rewrite E in E'.
    symmetry in E'. exact (Some_None _ E').
Qed.
Lemma api_compress : op1 TE TC ept_compress edwards_code.
Proof.
  intros v m Rv. cbn in Rv. apply ext_rep_rext in Rv. destruct Rv as (A & -> & z & N & ->).
  destruct (code_pt A) as (b & C & E). left. exists b, b. split; [intros ck; apply E; exact N|].
  split; [split; [apply C|reflexivity]|]. split; [exact C|]. intros a n' Q H. cbn in Q. subst a. cbn.
  apply (C76_code_stmt (pxy A) (pxy A) b n' (pt_on A) (pt_on A) C H). reflexivity.
Qed.
Lemma api_cneg : op1 TC TC cey_neg (fun x m => exists A, edwards_decoded x A /\ edwards_code (opposite A) m).
Proof.
  intros v m Rv. destruct (api_decompress v m Rv) as [(w & n & E & R & D & U)|[E U]].
  - cbn in R. apply ext_rep_rext in R. destruct R as (A & -> & R). destruct (rext_neg w A R) as (N & EN & HN).
    destruct (api_compress N _ (rext_rep _ _ HN)) as [(c & n & Ec & Rc & Cc & Uc)|[Ec Uc]].
    + left. exists c, n. split.
      { intros ck. unfold cey_neg. specialize (E ck). revert E. destruct (cey_decompress ck v) as [o| |]; cbn [bind]; intros E; try discriminate E.
        rewrite E, bind_ok, EN, bind_ok. apply Ec. }
      split; [exact Rc|]. rewrite <- api_opp in Cc. split; [exists (pxy A); split; [exact D|exact Cc]|].
      intros a n' Q (A' & D' & C'). pose proof (U a A' Q D') as K. cbn in K. subst A'.
      apply (Uc (opposite (pxy A)) n'); [cbn; symmetry; apply api_opp|exact C'].
    + exfalso. destruct (code_pt (popp A)) as (b & C & _). exact (Uc _ b eq_refl C).
  - right. split.
    { intros ck. unfold cey_neg. specialize (E ck). revert E. destruct (cey_decompress ck v) as [o| |]; cbn [bind]; intros E; try discriminate E; [|reflexivity].
      destruct o; cbn [unwrap] in *; [discriminate E|reflexivity]. }
    intros a n' Q (A' & D' & _). exact (U a A' Q D').
Qed.
Lemma api_pow2 k : (0 <= k)%Z -> op1 TE TE (fun ck x => mul_by_pow_2 ck (ept_mul ck) x k) (fun x m => (k < 250)%Z /\ m = multiple (2 ^ k) x).
Proof.
  intros Hk v m Rv. cbn in Rv. apply ext_rep_rext in Rv. destruct Rv as (A & -> & Rv). destruct (Z_lt_le_dec k 250) as [K|K].
  - destruct (both_sc (fun ck => sc_two_pow_k ck k) (2 ^ k)%Z) as (s & Es & Cs & Vs).
    { intros ck. destruct (sc_two_pow_k_ok ck k (conj Hk K)) as (r & E & C & V). exists r. split; [exact E|]. split; [exact C|exact V]. }
    destruct (ept_mul_rext s v A (scanon_loadable s Cs) Rv) as (R & E & HR). rewrite Vs in HR.
    assert (M : multiple (2 ^ k) (pxy A) = pxy (smul (2 ^ k) A)) by (apply multiple_smul; rewrite <- Vs; exact (snn s Cs)).
    left. exists R, (pxy (smul (2 ^ k) A)). split; [intros ck; unfold mul_by_pow_2; rewrite Es, bind_ok; apply E|].
    split; [apply rext_rep; exact HR|]. split; [split; [exact K|symmetry; exact M]|].
    intros a n' Q [_ ->]. cbn in Q. subst a. cbn. symmetry. exact M.
  - right. split; [intros ck; unfold mul_by_pow_2; rewrite sc_two_pow_k_panic by exact K; reflexivity|].
    intros a n' Q [H _]. lia.
Qed.

(** ** Ristretto *)
Lemma coset4_pt M m : coset4 (pxy M) m -> exists N, m = pxy N /\ coset M N.
Proof.
  intros H. destruct H as (T & C & K & ->). exists (padd M (pt_of T C)).
  assert (E : sum (pxy M) T = pxy (padd M (pt_of T C))) by (rewrite <- api_sum, pxy_of; reflexivity).
  split; [exact E|]. apply coset4_iff. exists T. split; [exact C|]. split; [exact K|]. rewrite E. reflexivity.
Qed.
Lemma rrep v m : repr TR v m -> exists A M, m = pxy M /\ rext v A /\ even A /\ coset A M.
Proof.
  intros (C & A & HA & Ev & K). apply ext_rep_rext in HA. destruct HA as (A' & -> & HA). exists A', (pt_of m C).
  split; [symmetry; apply pxy_of|]. split; [exact HA|]. split; [apply even_even; exact Ev|].
  apply coset4_iff. rewrite pxy_of. exact K.
Qed.
Lemma rrep_intro v A M : rext v A -> even A -> coset A M -> repr TR v (pxy M).
Proof.
  intros H E K. split; [apply pt_on|]. exists (pxy A). split; [apply rext_rep; exact H|].
  split; [apply even_even; exact E|apply coset4_iff; exact K].
Qed.
Lemma op1_R f h (g : pt -> pt) : (forall P A, rext P A -> exists R, (forall ck, f ck P = Ok R) /\ rext R (g A)) ->
  (forall A, h (pxy A) = pxy (g A)) -> (forall A, even A -> even (g A)) -> (forall A B, coset A B -> coset (g A) (g B)) ->
  op1 TR TR f (fun x m => m = h x).
Proof.
  intros H K Ge Gc v m Rv. apply rrep in Rv. destruct Rv as (A & M & -> & Rv & Ev & Co). destruct (H v A Rv) as (R & E & HR).
  left. exists R, (pxy (g M)). split; [exact E|]. split; [exact (rrep_intro R (g A) (g M) HR (Ge A Ev) (Gc A M Co))|].
  split; [symmetry; apply K|]. intros m' n' Q ->. apply coset4_pt in Q. destruct Q as (N & -> & Q). rewrite K.
  apply coset4_iff. exact (Gc M N Q).
Qed.
Lemma op2_R f h (g : pt -> pt -> pt) : (forall P Q A B, rext P A -> rext Q B -> exists R, (forall ck, f ck P Q = Ok R) /\ rext R (g A B)) ->
  (forall A B, h (pxy A) (pxy B) = pxy (g A B)) -> (forall A B, even A -> even B -> even (g A B)) ->
  (forall A B C D, coset A B -> coset C D -> coset (g A C) (g B D)) ->
  op2 TR TR TR f (fun x y m => m = h x y).
Proof.
  intros H K Ge Gc v m v' m' Rv Rv'. apply rrep in Rv. destruct Rv as (A & M & -> & Rv & Ev & Co).
  apply rrep in Rv'. destruct Rv' as (A' & M' & -> & Rv' & Ev' & Co'). destruct (H v v' A A' Rv Rv') as (R & E & HR).
  left. exists R, (pxy (g M M')). split; [exact E|].
  split; [exact (rrep_intro R _ _ HR (Ge A A' Ev Ev') (Gc A M A' M' Co Co'))|].
  split; [symmetry; apply K|]. intros a b n' Q Q' ->. apply coset4_pt in Q, Q'. destruct Q as (N & -> & Q), Q' as (N' & -> & Q').
  rewrite K. apply coset4_iff. exact (Gc M N M' N' Q Q').
Qed.
Lemma api_rmul : op2 TR TS TR rp_mul (fun x y m => m = multiple y x).
Proof.
  intros v m v' m' Rv [Cn <-]. apply rrep in Rv. destruct Rv as (A & M & -> & Rv & Ev & Co).
  destruct (rp_mul_rext v' v A (scanon_loadable v' Cn) Rv) as (R & E & HR).
  assert (K : forall B, multiple (sval v') (pxy B) = pxy (smul (sval v') B)) by (intros B; apply multiple_smul, snn, Cn).
  left. exists R, (pxy (smul (sval v') M)). split; [exact E|].
  split; [exact (rrep_intro R _ _ HR (even_smul _ A Ev) (coset_smul _ A M Co))|]. split; [symmetry; apply K|].
  intros a b n' Q Q' ->. apply coset4_pt in Q. destruct Q as (N & -> & Q). cbn in Q'. subst b. rewrite K.
  apply coset4_iff. exact (coset_smul _ M N Q).
Qed.
Lemma coset4_refl_eq A B : on_curve A -> A = B -> coset4 A B.
Proof. intros C <-. rewrite <- (pxy_of A C). apply coset4_iff, coset_refl. Qed.
Lemma api_elligator : op1 TF TR rp_elligator elligator_image.
Proof.
  intros v m Rv. apply frep in Rv. subst v. destruct (rp_elligator_ok (enc m) (enc_ld m)) as (z & N & E). rewrite fF_enc in E.
  left. exists (ext (el_pt m) z), (pxy (el_pt m)). split; [exact E|].
  split; [exact (rrep_intro _ _ _ (rext_ext _ z N) (el_even m) (coset_refl _))|]. split; [apply el_image|].
  intros a n' Q H. cbn in Q. subst a. apply coset4_refl_eq; [apply pt_on|].
  exact (C52_image_unique_stmt m _ _ (el_image m) H).
Qed.
Lemma api_uniform b : is_bytes 64 b -> good TR (fun ck => rp_from_uniform_bytes ck b)
  (fun m => exists A B, elligator_image (toF (le_value (firstn 32 b))) A /\
      elligator_image (toF (le_value (skipn 32 b))) B /\ m = sum A B).
Proof.
  intros B. destruct (rp_from_uniform_bytes_ok b B) as (z & N & E).
  set (r1 := toF (le_value (firstn 32 b))) in *. set (r2 := toF (le_value (skipn 32 b))) in *.
  apply (good0 TR _ _ _ (pxy (padd (el_pt r1) (el_pt r2))) E).
  - exact (rrep_intro _ _ _ (rext_ext _ z N) (even_padd _ _ (el_even r1) (el_even r2)) (coset_refl _)).
  - exists (pxy (el_pt r1)), (pxy (el_pt r2)). split; [apply el_image|]. split; [apply el_image|]. symmetry. apply api_sum.
  - intros m' (A & A' & HA & HA' & ->). apply coset4_refl_eq; [apply pt_on|]. rewrite <- api_sum.
    rewrite (C52_image_unique_stmt r1 _ _ HA (el_image r1)), (C52_image_unique_stmt r2 _ _ HA' (el_image r2)). reflexivity.
Qed.
Lemma api_rdecompress : op1 TX TR (fun ck c => o <- cr_decompress ck c ;; unwrap o) (fun x m => canonical m /\ canonical_code m x).
Proof.
  intros v m [B E]. subst m. destruct (cr_decompress_spec v B) as (o & E & H). destruct o as [P|].
  - destruct H as (A & s & -> & C & Ev & S & V). left. exists (ext A 1), (pxy A).
    split; [intros ck; rewrite E; reflexivity|].
    split; [exact (rrep_intro _ _ _ (rext_ext _ 1 one_neq_zero) Ev (coset_refl _))|].
    assert (D : canonical (pxy A) /\ canonical_code (pxy A) v).
    { split; [apply canonical_iff; exact C|]. apply (code_esc_iff A v C B). exists s. split; [exact S|exact V]. }
    split; [exact D|]. intros a n' Q [C' D']. cbn in Q. subst a. apply coset4_refl_eq; [apply pt_on|].
    apply (proj2 (C77_code_stmt (pxy A) (proj1 D)) n' v v C' (proj2 D) D'). reflexivity.
  - right. split; [intros ck; rewrite E; reflexivity|]. intros a n' Q [C' D']. cbn in Q. subst a.
    destruct (canonical_pt n' C') as (A & -> & C). apply (code_esc_iff A v C B) in D'. destruct D' as (s & S & V).
    exact (H A s C (esc_even A s C S) S V).
Qed.
Lemma api_rcompress : op1 TR TX rp_compress (fun x m => exists B, canonical B /\ coset4 x B /\ canonical_code B m).
Proof.
  intros v m Rv. apply rrep in Rv. destruct Rv as (A & M & -> & (z & N & ->) & Ev & Co).
  destruct (rp_compress_ok A z N Ev) as (s & S & E). destruct (enc_bytes s) as [Bb V].
  assert (D : canonical_code (pxy (pick A)) (fe_to_bytes (enc s))).
  { apply (code_esc_iff _ _ (pick_canonp A) Bb). exists s. split; [exact S|exact V]. }
  assert (C : canonical (pxy (pick A))) by apply canonical_iff, pick_canonp.
  left. exists (fe_to_bytes (enc s)), (fe_to_bytes (enc s)). split; [exact E|]. split; [split; [exact Bb|reflexivity]|].
  split.
  - exists (pxy (pick A)). split; [exact C|]. split; [|exact D]. apply coset4_iff.
    apply coset_trans with A; [apply coset_sym; exact Co|apply pick_coset].
  - intros m' n' Q (B & CB & K & DB). apply coset4_pt in Q. destruct Q as (M' & -> & Q).
    destruct (canonical_pt B CB) as (B' & -> & CB'). apply coset4_iff in K.
    apply (proj2 (C77_code_stmt (pxy (pick A)) C) (pxy B') _ n' CB D DB). apply f_equal.
    apply canonp_unique; [|apply pick_canonp|exact CB'].
    apply coset_trans with A; [apply coset_sym, pick_coset|]. apply coset_trans with M; [exact Co|].
    apply coset_trans with M'; [exact Q|exact K].
Qed.
Lemma api_req : op2 TR TR TB rp_eqb (fun x y m => m = true <-> coset4 x y).
Proof.
  intros v m v' m' Rv Rv'. apply rrep in Rv. destruct Rv as (A & M & -> & Rv & Ev & Co).
  apply rrep in Rv'. destruct Rv' as (A' & M' & -> & Rv' & Ev' & Co').
  assert (X : exists r, (forall ck, rp_eqb ck v v' = Ok r) /\ (r = true <-> coset A A')).
  { destruct (rp_eqb_spec true v v' A A' Rv Rv') as (r & E & K). exists r. split; [|exact K]. intros [|]; [exact E|].
    destruct (rp_eqb_spec false v v' A A' Rv Rv') as (r' & E' & K'). rewrite E'. apply f_equal. exact (iff_bool _ _ _ K' K). }
  destruct X as (r & E & K). left. exists r, r. split; [exact E|]. split; [reflexivity|].
  assert (G : forall N N', coset M N -> coset M' N' -> (r = true <-> coset4 (pxy N) (pxy N'))).
  { intros N N' Q Q'. rewrite K, coset4_iff. split; intros H.
    - apply coset_trans with M; [apply coset_sym; exact Q|]. apply coset_trans with A; [apply coset_sym; exact Co|].
      apply coset_trans with A'; [exact H|]. apply coset_trans with M'; [exact Co'|exact Q'].
    - apply coset_trans with M; [exact Co|]. apply coset_trans with N; [exact Q|]. apply coset_trans with N'; [exact H|].
      apply coset_trans with M'; [apply coset_sym; exact Q'|apply coset_sym; exact Co']. }
  split; [apply G; apply coset_refl|]. intros a b n' Q Q' H. apply coset4_pt in Q, Q'.
  destruct Q as (N & -> & Q), Q' as (N' & -> & Q'). exact (iff_bool r n' _ (G N N' Q Q') H).
Qed.

(** ** Induction over programs *)
Ltac conv G H :=
  let v := fresh in let m := fresh in let E := fresh in let R := fresh in let S := fresh in let U := fresh in
  let w := fresh in let Ew := fresh in let Rw := fresh in
  destruct G as [(v & m & E & R & S & U)|[E U]];
  [ destruct (H v m R) as (w & Ew & Rw); left; exists w, m;
    split; [intros ck; cbn [eval]; rewrite E, bind_ok; exact (Ew ck)|split; [exact Rw|split; [exact S|exact U]]]
  | right; split; [intros ck; cbn [eval]; rewrite E; reflexivity|exact U] ].
Lemma conv_ep v m : repr TP v m -> exists w, (forall ck, ept_of_ppt ck v = Ok w) /\ repr TE w m.
Proof.
  intros H. cbn in H. apply proj_rep_iff in H. destruct H as (Q & z & -> & N & ->). exists (ext Q (z * z)).
  split; [intros ck; apply prj_to_ext|]. apply rext_rep, rext_ext. apply F_mul_nz; exact N.
Qed.
Lemma conv_ea v m : repr TA v m -> exists w, (forall ck, ept_of_apt ck v = Ok w) /\ repr TE w m.
Proof.
  intros H. cbn in H. apply aff_rep_iff in H. destruct H as (Q & -> & ->). exists (ext Q 1).
  split; [intros ck; apply aff_to_ext|]. apply rext_rep, rext_ext. exact one_neq_zero.
Qed.
Lemma conv_pe v m : repr TE v m -> exists w, (forall ck : bool, Ok (ppt_of_ept v) = Ok w) /\ repr TP w m.
Proof. intros H. exists (ppt_of_ept v). split; [reflexivity|]. exact (C33_ext_to_proj_stmt v m H). Qed.
Lemma conv_pa v m : repr TA v m -> exists w, (forall ck : bool, Ok (ppt_of_apt v) = Ok w) /\ repr TP w m.
Proof. intros H. exists (ppt_of_apt v). split; [reflexivity|]. exact (C33_aff_to_proj_stmt v m H). Qed.
Lemma conv_ae v m : repr TE v m -> exists w, (forall ck, apt_of_ept ck v = Ok w) /\ repr TA w m.
Proof.
  intros H. cbn in H. apply ext_rep_iff in H. destruct H as (Q & z & -> & N & ->). exists (aff Q).
  split; [intros ck; apply ext_affine; exact N|]. apply aff_rep_iff. exists Q. split; reflexivity.
Qed.
Lemma conv_ap v m : repr TP v m -> exists w, (forall ck, apt_of_ppt ck v = Ok w) /\ repr TA w m.
Proof.
  intros H. cbn in H. apply proj_rep_iff in H. destruct H as (Q & z & -> & N & ->). exists (aff Q).
  split; [intros ck; apply prj_affine; exact N|]. apply aff_rep_iff. exists Q. split; reflexivity.
Qed.
Lemma api_aneg : op1 TA TA apt_neg (fun x m => m = opposite x).
Proof.
  intros v m H. cbn in H. apply aff_rep_iff in H. destruct H as (Q & -> & ->). left. exists (aff (popp Q)), (pxy (popp Q)).
  split. { intros ck. unfold aff. rewrite apt_neg_enc. unfold popp. rewrite pxy_of. destruct (pxy Q) as [x y]. reflexivity. }
  split; [apply aff_rep_iff; exists (popp Q); split; reflexivity|]. split; [symmetry; apply api_opp|].
  intros a n' K ->. cbn in K. subst a. cbn. symmetry. apply api_opp.
Qed.
Lemma test_iff2 (t t' : ty) (P : mval t -> mval t' -> Prop) : (eqv t = @eq _) -> (eqv t' = @eq _) ->
  forall m m' a b, eqv t m a -> eqv t' m' b -> (P m m' <-> P a b).
Proof. intros -> ->. intros m m' a b -> ->. reflexivity. Qed.
Lemma pt_eqb_iff A B : pt_eqb A B = true <-> pxy A = pxy B.
Proof. destruct (pt_eqb_spec A B) as [->|N]; [tauto|]. split; [discriminate|]. intros H. elim N. apply pt_eq. exact H. Qed.
Lemma bytes_test (a b : list Z) : exists r, (forall ck : bool, Ok (bytes_eqb a b) = Ok r) /\ (r = true <-> a = b).
Proof. exists (bytes_eqb a b). split; [reflexivity|apply bytes_eqb_spec]. Qed.
Lemma cslice b : is_bytes 32 b -> cey_from_slice b = Ok b /\ cr_copy_from_slice b = Ok b.
Proof. intros [H _]. unfold cey_from_slice, cr_copy_from_slice, copy_from_slice. rewrite H. split; reflexivity. Qed.

Lemma less_iff x y : match (x ?= y)%Z with Lt => true | _ => false end = true <-> (x < y)%Z.
Proof. unfold Z.lt. destruct (x ?= y)%Z; split; intros H; try discriminate H; reflexivity. Qed.
Lemma api_feven : op1 TF TB (fun _ x => Ok (fe_is_even x)) (fun x m => m = Z.even (Fval x)).
Proof.
  intros v m Rv. apply frep in Rv. subst v. left. exists (fe_is_even (enc m)), (Z.even (Fval m)).
  split; [reflexivity|]. split; [cbn [repr]; rewrite fe_is_even_ok, fval_enc; reflexivity|]. split; [reflexivity|].
  intros a n' Q ->. cbn in Q. subst a. reflexivity.
Qed.
(** 32 bytes are determined by their value. *)
Lemma bytes_value_inj a b : is_bytes 32 a -> is_bytes 32 b -> le_value a = le_value b -> a = b.
Proof.
  intros A B E. rewrite <- (fe_to_from_bytes a A), <- (fe_to_from_bytes b B). apply f_equal.
  destruct (fe_from_bytes_ok a A) as [[LA _] VA], (fe_from_bytes_ok b B) as [[LB _] VB].
  apply fval_inj; [exact LA|exact LB|]. rewrite VA, VB. exact E.
Qed.
Lemma api_fbytes : op1 TF TW (fun _ x => Ok (fe_to_bytes x)) (fun x m => is_bytes 32 m /\ le_value m = Fval x).
Proof.
  intros v m Rv. apply frep in Rv. subst v. left. exists (fe_to_bytes (enc m)), (fe_to_bytes (enc m)).
  destruct (enc_bytes m) as [B V]. split; [reflexivity|]. split; [split; [exact B|reflexivity]|]. split; [split; [exact B|exact V]|].
  intros a n' Q [B' V']. cbn in Q. subst a. apply bytes_value_inj; [exact B|exact B'|]. rewrite V, V'. reflexivity.
Qed.
Lemma api_sc_bytes : op1 TS TW (fun _ x => Ok (sc_to_bytes x)) (fun x m => is_bytes 32 m /\ le_value m = x).
Proof.
  intros v m [C <-]. left. destruct (C21_to_bytes_stmt v C) as (B & V & _). exists (sc_to_bytes v), (sc_to_bytes v).
  split; [reflexivity|]. split; [split; [exact B|reflexivity]|]. split; [split; [exact B|exact V]|].
  intros a n' Q [B' V']. cbn in Q. subst a. apply bytes_value_inj; [exact B|exact B'|]. rewrite V, V'. reflexivity.
Qed.
Lemma api_sbytes : op1 TW TS (fun _ x => sc_from_bytes x) (fun x m => m = le_value x /\ (m < L)%Z).
Proof.
  intros b m [W <-]. pose proof (sc_from_bytes_ok b W) as K. destruct (Z.ltb_spec (le_value b) L) as [K'|K'].
  - destruct K as (r & E & C & V). left. exists r, (le_value b). split; [intros ck; exact E|]. split; [split; [exact C|exact V]|].
    split; [split; [reflexivity|exact K']|]. intros a m' Q [-> _]. cbn in Q. subst a. reflexivity.
  - right. split; [intros ck; exact K|]. intros a m Q [-> Hm]. cbn in Q. subst a. lia.
Qed.
Lemma ratio_spec u v : ratio_root u v (fst (sqrt_ratio_spec u v)) (snd (sqrt_ratio_spec u v)).
Proof.
  assert (X : sqrt_ratio_spec u v = if feqb u 0 then (true, 0) else if feqb v 0 then (false, 0) else
    if sqb_F (u / v) then (true, froot (u / v)) else (false, froot (FI * (u / v))))
    by (with_strategy transparent [sqrt_ratio_spec] (unfold sqrt_ratio_spec; reflexivity)).
  unfold ratio_root. rewrite X. clear X.
  assert (N0 : nonneg 0) by (apply nonneg_fposb; vm_compute; reflexivity).
  destruct (feqb_spec u 0) as [->|Nu].
  { split; [exact N0|]. left. split; [reflexivity|]. split; reflexivity. }
  destruct (feqb_spec v 0) as [->|Nv].
  { split; [exact N0|]. right. left. split; [exact Nu|]. split; [reflexivity|]. split; reflexivity. }
  destruct (sqb_F_spec (u / v)) as [S|S]; cbn [fst snd].
  - split; [apply nonneg_fposb, froot_pos|]. right. right. left. split; [exact Nu|]. split; [exact Nv|].
    split; [reflexivity|]. rewrite froot_ok by exact S. field. exact Nv.
  - split; [apply nonneg_fposb, froot_pos|]. right. right. right. split; [exact Nu|]. split; [exact Nv|].
    split; [reflexivity|]. split.
    { intros w E. apply S. exists w. rewrite <- E. field. exact Nv. }
    exists FI. split; [exact FI_sq|]. split; [exact FI_nonneg|]. rewrite froot_ok by (apply i_times_nonsq; exact S). field. exact Nv.
Qed.
Lemma nonneg_root a b : nonneg a -> nonneg b -> a * a = b * b -> a = b.
Proof.
  intros A B E. apply nonneg_fposb in A, B.
  apply F_sq_eq in E. destruct E as [E|E]; [exact E|].
  destruct (F_dec b 0) as [->|N]; [rewrite E; ring|]. rewrite E, (fposb_opp b N), B in A. discriminate A.
Qed.
Lemma ratio_unique u v s r s' r' : ratio_root u v s r -> ratio_root u v s' r' -> s = s' /\ r = r'.
Proof.
  intros [N H] [N' H'].
  destruct H as [(U & -> & ->)|[(U & V & -> & ->)|[(U & V & -> & E)|(U & V & -> & X & i & I & Ni & E)]]];
  destruct H' as [(U' & -> & ->)|[(U' & V' & -> & ->)|[(U' & V' & -> & E')|(U' & V' & -> & X' & i' & I' & Ni' & E')]]];
  try (split; reflexivity); try (exfalso; exact (U U')); try (exfalso; exact (U' U));
  try (exfalso; exact (V V')); try (exfalso; exact (V' V)).
  - split; [reflexivity|]. apply nonneg_root; [exact N|exact N'|]. apply (F_mul_cancel_l v); [exact V|]. rewrite E, E'. reflexivity.
  - elim (X' r E).
  - elim (X r' E').
  - split; [reflexivity|]. assert (Ei : i = i') by (apply nonneg_root; [exact Ni|exact Ni'|rewrite I, I'; reflexivity]). subst i'.
    apply nonneg_root; [exact N|exact N'|]. apply (F_mul_cancel_l v); [exact V|]. rewrite E, E'. reflexivity.
Qed.
Lemma lift_some_has y s : is_some (lift y s) = true <-> exists A, has_y y s A.
Proof.
  destruct (lift y s) as [A|] eqn:E.
  - split; [intros _; exists (pxy A); apply lift_has_y; exact E|reflexivity].
  - split; [discriminate|]. intros (A & H). destruct (has_y_pt _ _ _ H) as (A' & _ & E'). rewrite E in E'.
    symmetry in E'. elim (Some_None _ E').
Qed.
Lemma lift_some_iff y s : is_some (lift y s) = true <-> exists A, on_curve A /\ snd A = y.
Proof.
  rewrite lift_some_has. split; [intros (A & C & E & _); exists A; split; [exact C|exact E]|].
  intros (A & C & E). destruct (lift y s) as [B|] eqn:K; [exists (pxy B); apply lift_has_y; exact K|].
  exfalso. apply (lift_none y s (fst A) K). rewrite <- E. destruct A. exact C.
Qed.
Lemma api_avalid ck v m : repr TA v m -> apt_is_valid ck v = Ok true.
Proof.
  intros H. destruct H as (C & C1 & C2 & E1 & E2). destruct (C35_aff_stmt ck v C1 C2) as (b & E & K). rewrite E. apply f_equal.
  apply K. rewrite E1, E2. destruct m. exact C.
Qed.
Lemma conv_cw v m : repr TW v m -> exists w, (forall ck : bool, cey_from_slice v = Ok w) /\ repr TC w m.
Proof. intros [B <-]. exists v. split; [intros _; exact (proj1 (cslice v B))|split; [exact B|reflexivity]]. Qed.
Lemma conv_xw v m : repr TW v m -> exists w, (forall ck : bool, cr_copy_from_slice v = Ok w) /\ repr TX w m.
Proof. intros [B <-]. exists v. split; [intros _; exact (proj2 (cslice v B))|split; [exact B|reflexivity]]. Qed.
Lemma repr_refl t v m : repr t v m -> eqv t m m.
Proof.
  destruct t; cbn [eqv]; intros H; try reflexivity.
  apply rrep in H. destruct H as (A & M & -> & _). apply coset4_iff, coset_refl.
Qed.

Theorem api_good rho mu : agree_env rho mu -> forall t (e : expr t), wf e -> good t (fun ck => eval ck rho e) (means mu e).
Proof.
  intros Hrho. induction e; cbn [wf]; intros W;
    repeat match goal with H : _ /\ _ |- _ => destruct H end;
    repeat match goal with IH : wf ?e -> good _ _ _, H : wf ?e |- _ => specialize (IH H) end.
  (* Var, If, Lit, Not *)
  - pose proof (Hrho t i) as R. apply (good0 t _ _ (rho t i) (mu t i)); [reflexivity|exact R|exact (repr_refl _ _ _ R)|].
    intros m' H. exact H.
  - exact (good_if t _ _ _ _ _ _ IHe1 IHe2 IHe3).
  - apply (good0 TB _ _ b b); [reflexivity|reflexivity|reflexivity|]. intros m' ->. reflexivity.
  - refine (good1 TB TB (fun _ x => Ok (negb x)) _ _ _ _ IHe). intros v m ->. left. exists (negb m), (negb m).
    split; [reflexivity|]. split; [reflexivity|]. split; [reflexivity|]. intros m' n' <- ->. reflexivity.
  (* field *)
  - destruct (fe_from_u128_ok n (conj H H0)) as [C V]. apply (good0 TF _ _ (fe_from_u128 n) (toF n)); [reflexivity| |reflexivity|intros m' ->; reflexivity].
    split; [exact C|]. rewrite V. reflexivity.
  - destruct (fe_from_bytes_ok b H) as [[C C'] V]. apply (good0 TF _ _ (fe_from_bytes b) (toF (le_value b))); [reflexivity| |reflexivity|intros m' ->; reflexivity].
    split; [split; [exact C|rewrite V; exact H0]|]. rewrite V. reflexivity.
  - destruct (Z_lt_le_dec k 253) as [K|K].
    + assert (E : forall ck, fe_two_pow_k ck k = Ok (enc (toF (2 ^ k)))).
      { intros ck. destruct (fe_two_pow_k_ok ck k (conj W K)) as (r & E & C & V). rewrite E. apply f_equal.
        rewrite <- (enc_fF r C). apply f_equal. unfold fF. rewrite V. reflexivity. }
      apply (good0 TF _ _ _ (toF (2 ^ k)) E); [apply frep_enc|split; [lia|reflexivity]|]. intros m' [_ ->]. reflexivity.
    + right. split; [intros ck; apply fe_two_pow_k_panic; exact K|]. intros m [Hm _]. lia.
  - exact (good2 TF TF TF fe_add _ _ _ _ _ (op2_F fe_add fadd fe_add_F) IHe1 IHe2).
  - exact (good2 TF TF TF fe_sub _ _ _ _ _ (op2_F fe_sub fsub fe_sub_F) IHe1 IHe2).
  - exact (good2 TF TF TF fe_mul _ _ _ _ _ (op2_F fe_mul fmul fe_mul_F) IHe1 IHe2).
  - exact (good2 TF TF TF fe_div _ _ _ _ _ api_fdiv IHe1 IHe2).
  - exact (good1 TF TF fe_neg _ _ _ (op1_F fe_neg fopp fe_neg_F) IHe).
  - exact (good1 TF TF fe_square _ _ _ (op1_F fe_square (fun x => x * x) fe_square_F) IHe).
  - exact (good1 TF TF fe_half _ _ _ api_fhalf IHe).
  - exact (good1 TF TF fe_inverse _ _ _ api_finv IHe).
  - exact (good2 TF TF TF fe_pow _ _ _ _ _ (op2_F fe_pow (fun x y => x ^ Fval y) fe_pow_F) IHe1 IHe2).
  - exact (good2 TF TB TF _ _ _ _ _ _ api_fsqrt IHe1 IHe2).
  - refine (good2 TF TF TB (fun _ x y => Ok (fe_eqb x y)) _ _ _ _ _ (op2_test TF TF _ (fun x y => x = y) (test_iff2 TF TF _ eq_refl eq_refl) _) IHe1 IHe2).
    intros v m v' m' Rv Rv'. apply frep in Rv, Rv'. subst v v'. exists (feqb m m').
    split; [intros ck; rewrite fe_eqb_F; reflexivity|apply feqb_eq].
  - refine (good1 TF TB (fun _ x => Ok (fe_is_positive x)) _ _ _ (op1_test TF _ nonneg _ _) IHe); [intros m m' ->; reflexivity|].
    intros v m Rv. apply frep in Rv. subst v. exists (fposb m). split; [intros ck; rewrite fe_is_positive_F; reflexivity|].
    symmetry. apply nonneg_fposb.
  - refine (good1 TF TB fe_legendre_symbol _ _ _ (op1_test TF _ is_sq _ _) IHe); [intros m m' ->; reflexivity|].
    intros v m Rv. apply frep in Rv. subst v. exists (sqb_F m). split; [intros ck; apply fe_legendre_F|].
    destruct (sqb_F_spec m) as [Sq|Sq]; [tauto|]. split; [discriminate|]. intros K. elim (Sq K).
  - refine (good2 TF TF TB (fun _ x y => Ok (match fe_cmp x y with Lt => true | _ => false end)) _ _ _ _ _
      (op2_test TF TF _ (fun x y => (Fval x < Fval y)%Z) (test_iff2 TF TF _ eq_refl eq_refl) _) IHe1 IHe2).
    intros v m v' m' Rv Rv'. apply frep in Rv, Rv'. subst v v'. eexists. split; [intros ck; reflexivity|].
    rewrite (C12_cmp_stmt _ _ (proj1 (enc_c m)) (proj1 (enc_c m'))), !fval_enc. apply less_iff.
  - exact (good1 TF TB (fun _ x => Ok (fe_is_even x)) _ _ _ api_feven IHe).
  - exact (good1 TF TW (fun _ x => Ok (fe_to_bytes x)) _ _ _ api_fbytes IHe).
  - refine (good2 TF TB TB (fun ck x y => o <- fe_mod_sqrt ck x y ;; Ok (is_some o)) _ _ _ _ _
      (op2_test TF TB _ (fun x _ => is_sq x) (test_iff2 TF TB _ eq_refl eq_refl) _) IHe1 IHe2).
    intros v m s' s Rv _. apply frep in Rv. subst v. exists (sqb_F m). split.
    { intros ck. rewrite fe_mod_sqrt_F', bind_ok. destruct (sqb_F m); reflexivity. }
    destruct (sqb_F_spec m) as [Sq|Sq]; [tauto|]. split; [discriminate|]. intros K. elim (Sq K).
  - refine (good2 TF TF TF (fun ck x y => r <- fe_sqrt_ratio_i ck x y ;; Ok (snd r)) _ _ _ _ _ _ IHe1 IHe2).
    intros v m v' m' Rv Rv'. apply frep in Rv, Rv'. subst v v'. left. exists (enc (snd (sqrt_ratio_spec m m'))), (snd (sqrt_ratio_spec m m')).
    split; [intros ck; rewrite fe_sqrt_ratio_i_F; reflexivity|]. split; [apply frep_enc|].
    split; [eexists; apply ratio_spec|]. intros a b n' Q Q' (s & Hr). cbn in Q, Q'. subst a b. apply (ratio_unique m m' _ _ _ _ (ratio_spec m m') Hr).
  - refine (good2 TF TF TB (fun ck x y => r <- fe_sqrt_ratio_i ck x y ;; Ok (fst r)) _ _ _ _ _ _ IHe1 IHe2).
    intros v m v' m' Rv Rv'. apply frep in Rv, Rv'. subst v v'. left. exists (fst (sqrt_ratio_spec m m')), (fst (sqrt_ratio_spec m m')).
    split; [intros ck; rewrite fe_sqrt_ratio_i_F; reflexivity|]. split; [reflexivity|].
    split; [eexists; apply ratio_spec|]. intros a b n' Q Q' (s & Hr). cbn in Q, Q'. subst a b. apply (ratio_unique m m' _ _ _ _ (ratio_spec m m') Hr).
  - refine (good1 TF TF (fun ck x => r <- fe_inv_sqrt ck x ;; Ok (snd r)) _ _ _ _ IHe).
    intros v m Rv. apply frep in Rv. subst v. left. exists (enc (snd (sqrt_ratio_spec 1 m))), (snd (sqrt_ratio_spec 1 m)).
    split; [intros ck; rewrite fe_inv_sqrt_F; reflexivity|]. split; [apply frep_enc|].
    split; [eexists; apply ratio_spec|]. intros a n' Q (s & Hr). cbn in Q. subst a. apply (ratio_unique 1 m _ _ _ _ (ratio_spec 1 m) Hr).
  - refine (good1 TF TB (fun ck x => r <- fe_inv_sqrt ck x ;; Ok (fst r)) _ _ _ _ IHe).
    intros v m Rv. apply frep in Rv. subst v. left. exists (fst (sqrt_ratio_spec 1 m)), (fst (sqrt_ratio_spec 1 m)).
    split; [intros ck; rewrite fe_inv_sqrt_F; reflexivity|]. split; [reflexivity|].
    split; [eexists; apply ratio_spec|]. intros a n' Q (s & Hr). cbn in Q. subst a. apply (ratio_unique 1 m _ _ _ _ (ratio_spec 1 m) Hr).
  (* scalars *)
  - destruct (sc_from_u128_ok n (conj H H0)) as [C V]. apply (good0 TS _ _ (sc_from_u128 n) n); [reflexivity| |reflexivity|intros m' ->; reflexivity].
    split; [exact C|exact V].
  - destruct (both_sc (fun ck => sc_from_i8 ck n) (n mod L)%Z) as (r & E & R).
    { intros ck. destruct (sc_from_i8_ok ck n (conj H H0)) as (r & E & C & V). exists r. split; [exact E|]. split; [exact C|exact V]. }
    apply (good0 TS _ _ r _ E R); [reflexivity|]. intros m' ->. reflexivity.
  - exact (good1 TW TS (fun _ x => sc_from_bytes x) _ _ _ api_sbytes IHe).
  - destruct (Z_lt_le_dec k 250) as [K|K].
    + destruct (both_sc (fun ck => sc_two_pow_k ck k) (2 ^ k)%Z) as (r & E & R).
      { intros ck. destruct (sc_two_pow_k_ok ck k (conj W K)) as (r & E & C & V). exists r. split; [exact E|]. split; [exact C|exact V]. }
      apply (good0 TS _ _ _ _ E R); [split; [exact K|reflexivity]|]. intros m' [_ ->]. reflexivity.
    + right. split; [intros ck; apply sc_two_pow_k_panic; exact K|]. intros m [Hm _]. lia.
  - exact (good2 TS TS TS sc_add _ _ _ _ _ (op2_S sc_add (fun x y => (x + y) mod L)%Z sc_add_ok) IHe1 IHe2).
  - exact (good2 TS TS TS sc_sub _ _ _ _ _ (op2_S sc_sub (fun x y => (x - y) mod L)%Z sc_sub_ok) IHe1 IHe2).
  - exact (good2 TS TS TS sc_mul _ _ _ _ _ (op2_S sc_mul (fun x y => (x * y) mod L)%Z (fun ck v v' C C' => sc_mul_ok ck v v' (proj1 C) C')) IHe1 IHe2).
  - exact (good1 TS TS sc_neg _ _ _ (op1_S sc_neg (fun x => (- x) mod L)%Z sc_neg_ok) IHe).
  - exact (good1 TS TS sc_square _ _ _ (op1_S sc_square (fun x => (x * x) mod L)%Z sc_square_ok) IHe).
  - exact (good1 TS TS sc_half _ _ _ api_shalf IHe).
  - exact (good2 TS TS TS sc_pow _ _ _ _ _ (op2_S sc_pow (fun x y => (x ^ y) mod L)%Z sc_pow_ok) IHe1 IHe2).
  - refine (good2 TS TS TB (fun _ x y => Ok (sc_eqb x y)) _ _ _ _ _ (op2_test TS TS _ (fun x y => x = y) (test_iff2 TS TS _ eq_refl eq_refl) _) IHe1 IHe2).
    intros v m v' m' [C <-] [C' <-]. exists (sc_eqb v v'). split; [reflexivity|].
    apply C27_eq_stmt; apply scanon_loadable; assumption.
  - refine (good2 TS TS TB (fun _ x y => Ok (match sc_cmp x y with Lt => true | _ => false end)) _ _ _ _ _
      (op2_test TS TS _ (fun x y => (x < y)%Z) (test_iff2 TS TS _ eq_refl eq_refl) _) IHe1 IHe2).
    intros v m v' m' [C <-] [C' <-]. eexists. split; [intros ck; reflexivity|].
    rewrite (C27_cmp_stmt _ _ (proj1 C) (proj1 C')). apply less_iff.
  - refine (good1 TS TB (fun _ x => Ok (sc_is_even x)) _ _ _ _ IHe). intros v m [C <-]. left.
    exists (sc_is_even v), (Z.even (sval v)). split; [reflexivity|]. split; [exact (C27_is_even_stmt v (proj1 C))|]. split; [reflexivity|].
    intros a n' Q ->. cbn in Q. subst a. reflexivity.
  - refine (good1 TS TS (fun _ x => Ok (sc_shr x k)) _ _ _ (op1_S _ (fun x => x / 2 ^ k)%Z _) IHe).
    intros ck v C. destruct (sc_shr_ok v k (proj1 C) H0) as [C' V]. exists (sc_shr v k). split; [reflexivity|].
    split; [|exact V]. split; [exact C'|]. rewrite V. pose proof (snn v C) as N. destruct C as [_ C].
    apply Z.le_lt_trans with (sval v); [|exact C]. apply Z.div_le_upper_bound; [apply Z.pow_pos_nonneg; lia|].
    rewrite <- (Z.mul_1_l (sval v)) at 1. apply Z.mul_le_mono_nonneg_r; [exact N|]. apply (Z.pow_le_mono_r 2 0 k); lia.
  - exact (good1 TS TW (fun _ x => Ok (sc_to_bytes x)) _ _ _ api_sc_bytes IHe).
  (* Edwards *)
  - apply (good0 TE _ _ ept_identity origin); [reflexivity|exact (proj2 C32_identity_stmt)|reflexivity|]. intros m' ->. reflexivity.
  - apply (good0 TE _ _ BASEPOINT base); [reflexivity|exact base_rep|reflexivity|]. intros m' ->. reflexivity.
  - exact (good2 TE TE TE ept_add _ _ _ _ _ (op2_E ept_add sum padd rext_add api_sum) IHe1 IHe2).
  - exact (good2 TE TE TE ept_sub _ _ _ _ _ (op2_E ept_sub (fun A B => sum A (opposite B)) (fun A B => padd A (popp B)) rext_sub api_sub) IHe1 IHe2).
  - exact (good1 TE TE ept_neg _ _ _ (op1_E ept_neg opposite popp rext_neg api_opp) IHe).
  - exact (good1 TE TE ept_double _ _ _ (op1_E ept_double (fun A => sum A A) (fun A => padd A A) rext_dbl (fun A => api_sum A A)) IHe).
  - exact (good2 TE TS TE ept_mul _ _ _ _ _ (op2_EM ept_mul (fun n P A C => ept_mul_rext n P A (scanon_loadable n C))) IHe1 IHe2).
  - exact (good2 TE TS TE _ _ _ _ _ _ (op2_EM _ (binary_naf_mul_ok ept rext ept_add ept_sub ept_double ept_identity rext_id rext_add rext_sub rext_dbl)) IHe1 IHe2).
  - refine (good1 TE TE (fun ck => mul_by_cofactor (ept_mul ck)) _ _ _ (op1_E _ (multiple 8) (smul 8) _ _) IHe).
    + intros P A R. exact (ept_mul_rext (sc_from_u8 8) P A ltac:(vm_compute; intuition discriminate) R).
    + intros A. apply multiple_smul. discriminate.
  - exact (good1 TE TE _ _ _ _ (api_pow2 k H0) IHe).
  - exact (good2 TF TB TE _ _ _ _ _ _ api_from_y IHe1 IHe2).
  - exact (good1 TC TE _ _ _ _ api_decompress IHe).
  - refine (good2 TF TB TB (fun ck x y => o <- ept_new_from_y_coord ck x y ;; Ok (is_some o)) _ _ _ _ _
      (op2_test TF TB _ (fun x _ => exists A, on_curve A /\ snd A = x) (test_iff2 TF TB _ eq_refl eq_refl) _) IHe1 IHe2).
    intros v m s' s Rv Rs. apply frep in Rv. subst v. cbn in Rs. subst s'. exists (is_some (lift m s)). split.
    { intros ck. rewrite ept_new_from_y, bind_ok. destruct (lift m s); reflexivity. }
    apply lift_some_iff.
  - refine (good1 TC TB (fun ck c => o <- cey_decompress ck c ;; Ok (is_some o)) _ _ _ (op1_test TC _ (fun x => exists A, edwards_decoded x A) _ _) IHe);
      [intros m m' ->; reflexivity|].
    intros v m [B E]. subst m. unfold edwards_decoded. set (y := toF _). set (s := (_ <=? _)%Z).
    exists (is_some (lift y s)). split.
    { intros ck. rewrite (decompress_lift v B), bind_ok. fold y s. destruct (lift y s); reflexivity. }
    apply lift_some_has.
  - conv IHe conv_ep.
  - conv IHe conv_ea.
  - refine (good2 TE TE TB ept_eqb _ _ _ _ _ (op2_test TE TE _ (fun x y => x = y) (test_iff2 TE TE _ eq_refl eq_refl) _) IHe1 IHe2).
    intros v m v' m' Rv Rv'. cbn in Rv, Rv'. apply ext_rep_rext in Rv, Rv'. destruct Rv as (A & -> & Rv), Rv' as (B & -> & Rv').
    exists (pt_eqb A B). split; [exact (rext_eqb v v' A B Rv Rv')|apply pt_eqb_iff].
  - refine (good1 TE TB ept_is_valid _ _ _ _ IHe). intros v m Rv. cbn in Rv. apply ext_rep_rext in Rv. destruct Rv as (A & -> & Rv).
    left. exists true, true. split; [intros ck; exact (rext_valid ck v A Rv)|]. split; [reflexivity|]. split; [reflexivity|].
    intros m' n' _ ->. reflexivity.
  - refine (good1 TP TB ppt_is_valid _ _ _ _ IHe). intros v m Rv. cbn in Rv. apply proj_rep_rprj in Rv. destruct Rv as (A & -> & z & N & ->).
    left. exists true, true. split; [intros ck; exact (rext_valid ck (ext A z) A (rext_ext A z N))|]. split; [reflexivity|]. split; [reflexivity|].
    intros m' n' _ ->. reflexivity.
  - refine (good1 TA TB apt_is_valid _ _ _ _ IHe). intros v m Rv. cbn in Rv. left. exists true, true.
    split; [intros ck; exact (api_avalid ck v m Rv)|]. split; [reflexivity|]. split; [reflexivity|].
    intros m' n' _ ->. reflexivity.
  (* projective *)
  - apply (good0 TP _ _ ppt_identity origin); [reflexivity|exact (proj1 C32_identity_stmt)|reflexivity|]. intros m' ->. reflexivity.
  - exact (good2 TP TP TP ppt_add _ _ _ _ _ (op2_P ppt_add sum padd rprj_add api_sum) IHe1 IHe2).
  - exact (good2 TP TP TP ppt_sub _ _ _ _ _ (op2_P ppt_sub (fun A B => sum A (opposite B)) (fun A B => padd A (popp B)) rprj_sub api_sub) IHe1 IHe2).
  - exact (good1 TP TP ppt_neg _ _ _ (op1_P ppt_neg opposite popp rprj_neg api_opp) IHe).
  - exact (good1 TP TP ppt_double _ _ _ (op1_P ppt_double (fun A => sum A A) (fun A => padd A A) rprj_dbl (fun A => api_sum A A)) IHe).
  - exact (good2 TP TS TP ppt_mul _ _ _ _ _ op2_PM IHe1 IHe2).
  - exact (good2 TF TB TP _ _ _ _ _ _ api_from_y_p IHe1 IHe2).
  - conv IHe conv_pe.
  - conv IHe conv_pa.
  - refine (good2 TP TP TB ppt_eqb _ _ _ _ _ (op2_test TP TP _ (fun x y => x = y) (test_iff2 TP TP _ eq_refl eq_refl) _) IHe1 IHe2).
    intros v m v' m' Rv Rv'. cbn in Rv, Rv'. apply proj_rep_rprj in Rv, Rv'. destruct Rv as (A & -> & Rv), Rv' as (B & -> & Rv').
    exists (pt_eqb A B). split; [exact (rprj_eqb v v' A B Rv Rv')|apply pt_eqb_iff].
  (* affine *)
  - apply (good0 TA _ _ apt_identity origin); [reflexivity| |reflexivity|intros m' ->; reflexivity].
    split; [exact origin_on_curve|]. split; [apply canon_check; reflexivity|]. split; [apply canon_check; reflexivity|].
    split; apply Feq; vm_compute; reflexivity.
  - exact (good1 TA TA apt_neg _ _ _ api_aneg IHe).
  - conv IHe conv_ae.
  - conv IHe conv_ap.
  - refine (good2 TA TA TB (fun _ x y => Ok (apt_eqb x y)) _ _ _ _ _ (op2_test TA TA _ (fun x y => x = y) (test_iff2 TA TA _ eq_refl eq_refl) _) IHe1 IHe2).
    intros v m v' m' Rv Rv'. cbn in Rv, Rv'. apply aff_rep_iff in Rv, Rv'. destruct Rv as (A & -> & ->), Rv' as (B & -> & ->).
    exists (pt_eqb A B). split; [intros ck; rewrite aff_eqb; reflexivity|apply pt_eqb_iff].
  (* encodings of Edwards points *)
  - conv IHe conv_cw.
  - exact IHe.
  - exact (good1 TE TC _ _ _ _ api_compress IHe).
  - exact (good1 TC TC _ _ _ _ api_cneg IHe).
  - refine (good2 TC TC TB (fun _ x y => Ok (cey_eqb x y)) _ _ _ _ _ (op2_test TC TC _ (fun x y => x = y) (test_iff2 TC TC _ eq_refl eq_refl) _) IHe1 IHe2).
    intros v m v' m' [_ <-] [_ <-]. apply bytes_test.
  (* Ristretto *)
  - apply (good0 TR _ _ rp_identity origin); [reflexivity|exact (rrep_intro _ pO pO rext_id even_pO (coset_refl _))|reflexivity|].
    intros m' ->. apply coset4_refl_eq; [exact origin_on_curve|reflexivity].
  - apply (good0 TR _ _ RISTRETTO_BASEPOINT base); [reflexivity| |reflexivity|].
    + destruct (proj1 (ext_rep_rext _ _) base_rep) as (A & E & R). rewrite E. apply (rrep_intro _ A A R); [|apply coset_refl].
      assert (K : pB = A) by (apply pt_eq; exact E). rewrite <- K. exact even_B.
    + intros m' ->. apply coset4_refl_eq; [exact base_on|reflexivity].
  - exact (good2 TR TR TR rp_add _ _ _ _ _ (op2_R rp_add sum padd rext_add api_sum even_padd coset_padd) IHe1 IHe2).
  - exact (good2 TR TR TR rp_sub _ _ _ _ _ (op2_R rp_sub (fun A B => sum A (opposite B)) (fun A B => padd A (popp B)) rp_sub_rext api_sub
      (fun A B EA EB => even_padd A (popp B) EA (even_popp B EB)) (fun A B C D H K => coset_padd _ _ _ _ H (coset_popp _ _ K))) IHe1 IHe2).
  - exact (good1 TR TR rp_neg _ _ _ (op1_R rp_neg opposite popp rext_neg api_opp even_popp coset_popp) IHe).
  - exact (good1 TR TR rp_double _ _ _ (op1_R rp_double (fun A => sum A A) (fun A => padd A A) rext_dbl (fun A => api_sum A A)
      (fun A H => even_padd A A H H) (fun A B H => coset_padd A B A B H H)) IHe).
  - exact (good2 TR TS TR rp_mul _ _ _ _ _ api_rmul IHe1 IHe2).
  - exact (good1 TF TR _ _ _ _ api_elligator IHe).
  - exact (api_uniform b W).
  - exact (good1 TX TR _ _ _ _ api_rdecompress IHe).
  - refine (good1 TX TB (fun ck c => o <- cr_decompress ck c ;; Ok (is_some o)) _ _ _ (op1_test TX _ (fun x => exists A, canonical A /\ canonical_code A x) _ _) IHe);
      [intros m m' ->; reflexivity|].
    intros v m [B E]. subst m. destruct (cr_decompress_spec v B) as (o & E & _). exists (is_some o).
    split; [intros ck; rewrite E; reflexivity|].
    destruct (api_rdecompress v v (conj B eq_refl)) as [(w & n & E' & _ & K & _)|[E' K]]; specialize (E' true); rewrite E, bind_ok in E';
      destruct o; cbn [unwrap is_some] in *; try discriminate E'.
    + split; [intros _; exists n; exact K|reflexivity].
    + split; [discriminate|]. intros (A & HA). elim (K v A eq_refl HA).
  - exact (good2 TR TR TB _ _ _ _ _ _ api_req IHe1 IHe2).
  - conv IHe conv_xw.
  - exact IHe.
  - exact (good1 TR TX _ _ _ _ api_rcompress IHe).
  - refine (good2 TX TX TB (fun _ x y => Ok (cr_eqb x y)) _ _ _ _ _ (op2_test TX TX _ (fun x y => x = y) (test_iff2 TX TX _ eq_refl eq_refl) _) IHe1 IHe2).
    intros v m v' m' [_ <-] [_ <-]. apply bytes_test.
  (* byte arrays *)
  - apply (good0 TW _ _ b b); [reflexivity|split; [exact W|reflexivity]|reflexivity|]. intros m' ->. reflexivity.
  - refine (good2 TW TW TB (fun _ x y => Ok (bytes_eqb x y)) _ _ _ _ _ (op2_test TW TW _ (fun x y => x = y) (test_iff2 TW TW _ eq_refl eq_refl) _) IHe1 IHe2).
    intros v m v' m' [_ <-] [_ <-]. apply bytes_test.
Qed.

Lemma repr_eqv t v m m' : repr t v m -> eqv t m m' -> repr t v m'.
Proof.
  destruct t; cbn [eqv]; intros H E; try (rewrite <- E; exact H).
  apply rrep in H. destruct H as (A & M & -> & HA & Ev & Co). apply coset4_pt in E. destruct E as (N & -> & E).
  apply (rrep_intro v A N HA Ev). apply coset_trans with M; [exact Co|exact E].
Qed.
Lemma eqv_tr t v n m m' : repr t v n -> eqv t n m -> eqv t n m' -> eqv t m m'.
Proof.
  destruct t; cbn [eqv]; intros H E E'; try (rewrite <- E; exact E').
  apply rrep in H. destruct H as (A & M & -> & _). apply coset4_pt in E, E'. destruct E as (N & -> & E), E' as (N' & -> & E').
  apply coset4_iff. apply coset_trans with M; [apply coset_sym; exact E|exact E'].
Qed.

(** ** C78 *)
(** A program with a meaning returns, in both builds, one value that represents it. *)
Lemma C78_returns_stmt : forall rho mu t (e : expr t) m, agree_env rho mu -> wf e -> means mu e m ->
  exists v, (forall ck, eval ck rho e = Ok v) /\ repr t v m.
Proof.
  intros rho mu t e m Ag W H. destruct (api_good rho mu Ag t e W) as [(v & m0 & E & R & _ & U)|[_ N]]; [|elim (N m H)].
  exists v. split; [exact E|]. exact (repr_eqv t v m0 m R (U m H)).
Qed.
(** A program without meaning panics in both builds. *)
Lemma C78_panics_stmt : forall rho mu t (e : expr t), agree_env rho mu -> wf e -> (forall m, ~ means mu e m) ->
  forall ck, eval ck rho e = Panic.
Proof.
  intros rho mu t e Ag W N. destruct (api_good rho mu Ag t e W) as [(v & m & _ & _ & H & _)|[E _]]; [elim (N m H)|exact E].
Qed.
(** What a run tells: a value represents a meaning, a panic says that there is none, and no
    loop runs out of its step budget. *)
Lemma C78_sound_stmt : forall rho mu t (e : expr t) ck, agree_env rho mu -> wf e ->
  match eval ck rho e with
  | Ok v => exists m, means mu e m /\ repr t v m
  | Panic => forall m, ~ means mu e m
  | NoFuel => False
  end.
Proof.
  intros rho mu t e ck Ag W. destruct (api_good rho mu Ag t e W) as [(v & m & E & R & H & _)|[E N]]; rewrite E; [exists m; split; [exact H|exact R]|exact N].
Qed.
(** The meaning is unique; for Ristretto elements, as a class. *)
Lemma C78_unique_stmt : forall rho mu t (e : expr t) m m', agree_env rho mu -> wf e -> means mu e m -> means mu e m' -> eqv t m m'.
Proof.
  intros rho mu t e m m' Ag W H H'. destruct (api_good rho mu Ag t e W) as [(v & n & _ & R & _ & U)|[_ N]]; [|elim (N m H)].
  exact (eqv_tr t v n m m' R (U m H) (U m' H')).
Qed.
(** The two builds agree on every program. *)
Lemma C78_builds_stmt : forall rho mu t (e : expr t), agree_env rho mu -> wf e -> eval true rho e = eval false rho e.
Proof.
  intros rho mu t e Ag W. destruct (api_good rho mu Ag t e W) as [(v & m & E & _)|[E _]]; rewrite !E; reflexivity.
Qed.
(** Two programs for Ristretto points produce the same 32 bytes exactly when they mean the
    same element, however the points were computed. *)
Lemma C78_observe_stmt : forall rho mu (a b : expr TR) m n, agree_env rho mu -> wf a -> wf b -> means mu a m -> means mu b n ->
  exists x y, (forall ck, eval ck rho (XCompress a) = Ok x) /\ (forall ck, eval ck rho (XCompress b) = Ok y) /\ (x = y <-> coset4 m n).
Proof.
  intros rho mu a b m n Ag Wa Wb Ha Hb.
  assert (X : forall (e : expr TR) k, wf e -> means mu e k -> exists x B, (forall ck, eval ck rho (XCompress e) = Ok x) /\
    canonical B /\ coset4 k B /\ canonical_code B x).
  { intros e k We Hk. assert (Wx : wf (XCompress e)) by exact We.
    destruct (api_good rho mu Ag TX (XCompress e) Wx) as [(x & x' & E & [_ Rx] & Hx & _)|[_ N]].
    - cbn in Rx. subst x'. destruct Hx as (k' & Hk' & B & CB & KB & DB). exists x, B. split; [exact E|]. split; [exact CB|].
      split; [|exact DB]. destruct (C78_returns_stmt rho mu TR e k Ag We Hk) as (v & _ & Rv).
      pose proof (C78_unique_stmt rho mu TR e k k' Ag We Hk Hk') as Q. cbn [eqv] in Q.
      apply rrep in Rv. destruct Rv as (A & M & -> & _). apply coset4_pt in Q. destruct Q as (M' & -> & Q).
      apply coset4_pt in KB. destruct KB as (B' & -> & KB). apply coset4_iff. exact (coset_trans _ _ _ Q KB).
    - exfalso. destruct (C78_returns_stmt rho mu TR e k Ag We Hk) as (v & E & Rv). destruct (api_rcompress v k Rv) as [(w & y & _ & _ & Hy & _)|[_ Ny]].
      + apply (N y). exists k. split; [exact Hk|exact Hy].
      + apply rrep in Rv. destruct Rv as (A & M & -> & (z & Nz & ->) & Ev & Co).
        destruct (rp_compress_ok A z Nz Ev) as (s & S & _). destruct (enc_bytes s) as [Bb V].
        apply (Ny (pxy M) (fe_to_bytes (enc s))); [apply coset4_iff, coset_refl|].
        exists (pxy (pick A)). split; [apply canonical_iff, pick_canonp|]. split.
        * apply coset4_iff. apply coset_trans with A; [apply coset_sym; exact Co|apply pick_coset].
        * apply (code_esc_iff _ _ (pick_canonp A) Bb). exists s. split; [exact S|exact V]. }
  destruct (X a m Wa Ha) as (x & B & Ex & CB & KB & DB). destruct (X b n Wb Hb) as (y & B' & Ey & CB' & KB' & DB').
  exists x, y. split; [exact Ex|]. split; [exact Ey|]. rewrite (proj2 (C77_code_stmt B CB) B' x y CB' DB DB').
  destruct (C78_returns_stmt rho mu TR a m Ag Wa Ha) as (v & _ & Rv). destruct (C78_returns_stmt rho mu TR b n Ag Wb Hb) as (v' & _ & Rv').
  apply rrep in Rv, Rv'. destruct Rv as (A & M & -> & _), Rv' as (A' & M' & -> & _).
  destruct (canonical_pt B CB) as (C & -> & CC). destruct (canonical_pt B' CB') as (C' & -> & CC').
  apply coset4_iff in KB, KB'. rewrite coset4_iff. split; intros H.
  - apply pt_eq in H. subst C'. apply coset_trans with C; [exact KB|apply coset_sym; exact KB'].
  - apply f_equal. apply canonp_unique; [|exact CC|exact CC']. apply coset_trans with M; [apply coset_sym; exact KB|].
    apply coset_trans with M'; [exact H|exact KB'].
Qed.
(** A program that uses most of the types, with its meaning; and one without meaning. *)
Definition demo_scalar : expr TS := SSub (SInt 5) (SInt 7).
Definition demo : expr TX :=
  If (CEq (CCompress (EMul EBase demo_scalar)) (CCompress (ENeg (EDouble EBase))))
     (XCompress (RAdd RBase (RMul RBase demo_scalar))) (XBytes (WBytes (repeat 7%Z 32))).
Definition demo_panic : expr TF := FInverse (FSub (FInt 5) (FInt 5)).
Definition zero_env : env := fun t _ => match t return val t with
  | TF => fe_zero | TS => sc_zero | TE => ept_identity | TP => ppt_identity | TA => apt_identity | TR => rp_identity
  | TC => repeat 0%Z 32 | TX => repeat 0%Z 32 | TB => false | TW => repeat 0%Z 32 end.
Definition zero_menv : menv := fun t _ => match t return mval t with
  | TF => 0 | TS => 0%Z | TE => origin | TP => origin | TA => origin | TR => origin
  | TC => repeat 0%Z 32 | TX => repeat 0%Z 32 | TB => false | TW => repeat 0%Z 32 end.
Lemma zero_agree : agree_env zero_env zero_menv.
Proof.
  assert (B : is_bytes 32 (repeat 0%Z 32)).
  { split; [reflexivity|]. apply Forall_forall. intros x H. apply (repeat_spec 32 0%Z) in H. subst. split; [discriminate|reflexivity]. }
  intros [] i; cbn [zero_env zero_menv repr].
  - split; [apply canon_check; reflexivity|apply Feq; vm_compute; reflexivity].
  - split; [apply scanon_check; reflexivity|reflexivity].
  - exact (proj2 C32_identity_stmt).
  - exact (proj1 C32_identity_stmt).
  - split; [exact origin_on_curve|]. split; [apply canon_check; reflexivity|]. split; [apply canon_check; reflexivity|].
    split; apply Feq; vm_compute; reflexivity.
  - exact (rrep_intro _ pO pO rext_id even_pO (coset_refl _)).
  - split; [exact B|reflexivity].
  - split; [exact B|reflexivity].
  - reflexivity.
  - split; [exact B|reflexivity].
Qed.
Lemma C78_ex : agree_env zero_env zero_menv /\ wf demo /\ (exists m, means zero_menv demo m) /\ wf demo_panic /\ (forall m, ~ means zero_menv demo_panic m) /\
  wf (RAdd RBase RBase) /\ wf (RDouble RBase) /\ means zero_menv (RAdd RBase RBase) (sum base base) /\ means zero_menv (RDouble RBase) (sum base base).
Proof.
  split; [exact zero_agree|].
  split. { split; [|split; [|]]; cbn; try (repeat split; lia || discriminate). split; [reflexivity|].
           apply Forall_forall. intros x H. apply (repeat_spec 32 7%Z) in H. subst. split; [discriminate|reflexivity]. }
  split.
  { assert (PB : base = pxy pB) by (symmetry; apply pxy_of). set (k := ((5 - 7) mod L)%Z).
    assert (K0 : (0 <= k)%Z) by (apply Z.mod_pos_bound; rewrite L_num; reflexivity).
    assert (Mk : means zero_menv demo_scalar k) by (exists 5%Z, 7%Z; split; [reflexivity|split; reflexivity]).
    assert (M1 : means zero_menv (EMul EBase demo_scalar) (pxy (smul k pB))).
    { exists base, k. split; [reflexivity|]. split; [exact Mk|]. rewrite PB. symmetry. apply multiple_smul. exact K0. }
    assert (M2 : means zero_menv (ENeg (EDouble EBase)) (pxy (popp (padd pB pB)))).
    { exists (sum base base). split; [exists base; split; reflexivity|]. rewrite PB, api_sum, api_opp. reflexivity. }
    destruct (code_pt (smul k pB)) as (b1 & C1 & _). destruct (code_pt (popp (padd pB pB))) as (b2 & C2 & _).
    assert (M3 : means zero_menv (RAdd RBase (RMul RBase demo_scalar)) (pxy (padd pB (smul k pB)))).
    { exists base, (multiple k base). split; [reflexivity|]. split; [exists base, k; split; [reflexivity|split; [exact Mk|reflexivity]]|].
      rewrite PB, multiple_smul, api_sum by exact K0. reflexivity. }
    assert (M4 : exists x, means zero_menv (XCompress (RAdd RBase (RMul RBase demo_scalar))) x).
    { set (A := padd pB (smul k pB)) in *. assert (Ev : even A) by (apply even_padd; [exact even_B|apply even_smul; exact even_B]).
      clearbody A.
      destruct (rp_compress_ok A 1 one_neq_zero Ev) as (s & S & _). destruct (enc_bytes s) as [Bb V].
      exists (fe_to_bytes (enc s)), (pxy A). split; [exact M3|]. exists (pxy (pick A)).
      split; [apply canonical_iff, pick_canonp|]. split; [apply coset4_iff, pick_coset|].
      apply (code_esc_iff _ _ (pick_canonp A) Bb). exists s. split; [exact S|exact V]. }
    assert (ME : means zero_menv (CEq (CCompress (EMul EBase demo_scalar)) (CCompress (ENeg (EDouble EBase)))) (bytes_eqb b1 b2)).
    { exists b1, b2. split; [exists (pxy (smul k pB)); split; [exact M1|exact C1]|].
      split; [exists (pxy (popp (padd pB pB))); split; [exact M2|exact C2]|]. apply bytes_eqb_spec. }
    destruct M4 as (x & M4). destruct (bytes_eqb b1 b2); [exists x; left|exists (repeat 7%Z 32); right]; (split; [exact ME|]); [exact M4|reflexivity]. }
  split; [repeat split; lia|].
  split. { intros m (x & (y & z & -> & -> & ->) & H). apply one_neq_zero. rewrite <- H. ring. }
  split; [exact (conj I I)|]. split; [exact I|]. split; [|exists base; split; reflexivity].
  exists base, base. split; [reflexivity|]. split; reflexivity.
Qed.
