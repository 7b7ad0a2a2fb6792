(** * How random draws are distributed

    Statement forms; PropRand.v restates each of them and closes it with the
    lemma of the same name.                                                  *)

From Coq Require Import ZArith List Bool Lia Ring.
From Verif Require Import Machine FieldModel ScalarModel EdwardsModel Spec MachineFacts FieldLimb FieldOps FieldBytes
  Primes Fp FieldF FieldStmt ScalarOps ScalarBits ScalarNaf ScalarStmt Curve CurveGroup EdwardsF PointMul EdwardsY
  EdwardsStmt RistrettoStmt ApiStmt RandSpec.
Import ListNotations.
Open Scope Z_scope.

(** ** Counting *)
Section Counting.
Context {A B : Type}.
Lemma exactly_ext n (P Q : A -> Prop) : (forall x, P x <-> Q x) -> exactly n P -> exactly n Q.
Proof. intros E (l & N & E' & H). exists l. split; [exact N|]. split; [exact E'|]. intros x. rewrite H. apply E. Qed.
Lemma exactly_zero (P : A -> Prop) : (forall x, ~ P x) -> exactly 0 P.
Proof.
  intros H. exists []. split; [constructor|]. split; [reflexivity|]. intros x. split; [intros []|intros K; exact (H x K)].
Qed.
Lemma NoDup_app_intro (l l' : list A) : NoDup l -> NoDup l' -> (forall x, In x l -> In x l' -> False) -> NoDup (l ++ l').
Proof.
  intros N N' D. induction N as [|x l H N IH]; [exact N'|]. cbn [app]. constructor.
  - rewrite in_app_iff. intros [K|K]; [exact (H K)|]. exact (D x (or_introl eq_refl) K).
  - apply IH. intros y K K'. exact (D y (or_intror K) K').
Qed.
Lemma exactly_union n m (P Q : A -> Prop) : (forall x, P x -> Q x -> False) -> exactly n P -> exactly m Q ->
  exactly (n + m) (fun x => P x \/ Q x).
Proof.
  intros D (l & N & E & H) (l' & N' & E' & H'). exists (l ++ l'). split; [|split].
  - apply NoDup_app_intro; [exact N|exact N'|]. intros x K K'. apply H in K. apply H' in K'. exact (D x K K').
  - rewrite app_length, E, E'. reflexivity.
  - intros x. rewrite in_app_iff, H, H'. reflexivity.
Qed.
Lemma exactly_image n (f : A -> B) (P : A -> Prop) (Q : B -> Prop) :
  (forall x y, P x -> P y -> f x = f y -> x = y) -> (forall y, Q y <-> exists x, P x /\ f x = y) ->
  exactly n P -> exactly n Q.
Proof.
  intros I S (l & N & E & H). exists (map f l). split; [|split].
  - assert (K : forall x, In x l -> P x) by (intros x; apply H). clear H E. induction N as [|x l H N IH]; [constructor|].
    cbn [map]. constructor.
    + rewrite in_map_iff. intros (y & Ey & Hy). assert (y = x); [|subst; exact (H Hy)].
      apply I; [apply K; right; exact Hy|apply K; left; reflexivity|exact Ey].
    + apply IH. intros y Hy. apply K. right. exact Hy.
  - rewrite map_length. exact E.
  - intros y. rewrite S, in_map_iff. split.
    + intros (x & Ex & K). exists x. split; [apply H; exact K|exact Ex].
    + intros (x & K & Ex). exists x. split; [exact Ex|apply H; exact K].
Qed.
Lemma exactly_part n (P Q : A -> Prop) : (forall x, Q x \/ ~ Q x) -> exactly n P -> exists m, exactly m (fun x => P x /\ Q x).
Proof.
  intros D (l & N & _ & H). assert (K : exists l', NoDup l' /\ forall x, In x l' <-> In x l /\ Q x).
  { clear H. induction N as [|a l H N IH]; [exists []; split; [constructor|]; intros x; split; [intros []|intros [[] _]]|].
    destruct IH as (l' & N' & H'). destruct (D a) as [Qa|Qa].
    - exists (a :: l'). split; [constructor; [rewrite H'; intros [K _]; exact (H K)|exact N']|].
      intros x. cbn [In]. rewrite H'. split; [intros [<-|[K K']]|intros [[<-|K] K']]; tauto.
    - exists l'. split; [exact N'|]. intros x. cbn [In]. rewrite H'.
      split; [intros [K K']; tauto|intros [[<-|K] K']; [elim (Qa K')|tauto]]. }
  destruct K as (l' & N' & H'). exists (length l'), l'. split; [exact N'|]. split; [reflexivity|].
  intros x. rewrite H', H. reflexivity.
Qed.
End Counting.

Lemma list_prod_nodup {A B} (l : list A) (l' : list B) : NoDup l -> NoDup l' -> NoDup (list_prod l l').
Proof.
  intros N N'. induction N as [|a l H N IH]; [constructor|]. cbn [list_prod]. apply NoDup_app_intro.
  - clear - N'. induction N' as [|b l' H N' IH]; [constructor|]. cbn [map]. constructor; [|exact IH].
    rewrite in_map_iff. intros (b' & E & K). injection E as ->. exact (H K).
  - exact IH.
  - intros [x y] K K'. apply in_map_iff in K. destruct K as (y' & E & _). injection E as <- _.
    apply in_prod_iff in K'. exact (H (proj1 K')).
Qed.
Lemma exactly_cons {A} n m (P : A -> Prop) (Q : list A -> Prop) : exactly n P -> exactly m Q ->
  exactly (n * m) (fun l => exists x l', l = x :: l' /\ P x /\ Q l').
Proof.
  intros (l & N & E & H) (l' & N' & E' & H').
  apply (exactly_image (A := A * list A) (n * m) (fun c => fst c :: snd c) (fun c => P (fst c) /\ Q (snd c))).
  - intros [a b] [a' b'] _ _ K. cbn in K. injection K as -> ->. reflexivity.
  - intros y. split.
    + intros (x & t & -> & K & K'). exists (x, t). split; [split; assumption|reflexivity].
    + intros ([x t] & [K K'] & <-). exists x, t. split; [reflexivity|split; assumption].
  - exists (list_prod l l'). split; [apply list_prod_nodup; assumption|]. split; [rewrite prod_length, E, E'; reflexivity|].
    intros [a b]. rewrite in_prod_iff, H, H'. reflexivity.
Qed.

(** All byte strings of a length. *)
Lemma exactly_byte : exactly 256 (fun x => 0 <= x < 256).
Proof.
  exists (map Z.of_nat (seq 0 256)). split; [|split].
  - apply FinFun.Injective_map_NoDup; [intros x y; apply Nat2Z.inj|apply seq_NoDup].
  - rewrite map_length. apply seq_length.
  - intros x. rewrite in_map_iff. split.
    + intros (k & <- & K). apply in_seq in K. lia.
    + intros K. exists (Z.to_nat x). split; [lia|]. apply in_seq. lia.
Qed.
Lemma exactly_bytes n : exists m, exactly m (is_bytes n).
Proof.
  induction n as [|n (m & IH)].
  - exists 1%nat, [[]]. split; [constructor; [intros []|constructor]|]. split; [reflexivity|]. intros b. split.
    + intros [<-|[]]. split; [reflexivity|constructor].
    + intros [E _]. left. symmetry. apply length_zero_iff_nil. exact E.
  - exists (256 * m)%nat. refine (exactly_ext _ _ _ _ (exactly_cons _ _ _ _ exactly_byte IH)). intros b. split.
    + intros (x & l & -> & X & E & F). split; [cbn [length]; rewrite E; reflexivity|constructor; assumption].
    + intros [E F]. destruct b as [|x l]; [discriminate E|]. exists x, l. split; [reflexivity|].
      inversion F as [|? ? X F']. subst. split; [exact X|]. split; [injection E as E; exact E|exact F'].
Qed.

(** The 32-byte strings with a given value modulo 2^k. *)
Lemma exactly_residue k v n : 0 <= k <= 256 -> 0 <= v < 2 ^ k -> Z.of_nat n = 2 ^ (256 - k) ->
  exactly n (fun d => is_bytes 32 d /\ le_value d mod 2 ^ k = v).
Proof.
  intros Hk Hv Hn.
  assert (E : 2 ^ 256 = 2 ^ k * 2 ^ (256 - k)) by (rewrite <- Z.pow_add_r by lia; apply f_equal; lia).
  assert (Q : 0 < 2 ^ k) by (apply Z.pow_pos_nonneg; lia).
  assert (Rg : forall j, (j < n)%nat -> 0 <= v + 2 ^ k * Z.of_nat j < 2 ^ 256) by (intros j Hj; nia).
  assert (OK : forall j, (j < n)%nat -> is_bytes 32 (dalek_le_bytes 32 (v + 2 ^ k * Z.of_nat j)) /\
    le_value (dalek_le_bytes 32 (v + 2 ^ k * Z.of_nat j)) = v + 2 ^ k * Z.of_nat j).
  { intros j Hj. apply (dalek_le_bytes_ok 32). change (256 ^ Z.of_nat 32) with (2 ^ 256). apply Rg. exact Hj. }
  apply (exactly_image (A := nat) n (fun j => dalek_le_bytes 32 (v + 2 ^ k * Z.of_nat j)) (fun j => (j < n)%nat)).
  - intros i j Hi Hj Eq. apply (f_equal le_value) in Eq. rewrite (proj2 (OK i Hi)), (proj2 (OK j Hj)) in Eq. nia.
  - intros d. split.
    + intros [D V]. pose proof (le_value_bound 32 d D) as Bd. change (256 ^ Z.of_nat 32) with (2 ^ 256) in Bd.
      pose proof (Z.div_mod (le_value d) (2 ^ k) ltac:(lia)) as DM. rewrite V in DM.
      assert (Dv : 0 <= le_value d / 2 ^ k < 2 ^ (256 - k)) by (split; [apply Z.div_pos; lia|apply Z.div_lt_upper_bound; lia]).
      exists (Z.to_nat (le_value d / 2 ^ k)). assert (Hj : (Z.to_nat (le_value d / 2 ^ k) < n)%nat) by lia.
      split; [exact Hj|]. apply bytes_value_inj; [apply OK; exact Hj|exact D|]. rewrite (proj2 (OK _ Hj)). lia.
    + intros (j & Hj & <-). destruct (OK j Hj) as [B V]. split; [exact B|]. rewrite V.
      rewrite Z.mul_comm, Z.mod_add by lia. apply Z.mod_small. exact Hv.
  - exists (seq 0 n). split; [apply seq_NoDup|]. split; [apply seq_length|]. intros j. rewrite in_seq. lia.
Qed.

(** ** C82 *)
(** Every reduced element below 2^251 is returned for exactly 32 of the 2^256 outputs. *)
Lemma C82_field_stmt : forall a, fcanon a -> fval a < 2 ^ 251 ->
  exactly 32 (fun d => is_bytes 32 d /\ fe_random d = Ok a).
Proof.
  intros a C H. assert (V : 0 <= fval a) by (apply (fval_nonneg a (proj1 C))).
  refine (exactly_ext _ _ _ _ (exactly_residue 251 (fval a) 32 _ _ _)); [|lia|lia|reflexivity].
  intros d. split; intros [D E]; (split; [exact D|]); destruct (C16_random_stmt d D) as (r & E' & C' & V').
  - rewrite E'. apply f_equal. apply fval_inj; [exact (proj1 C')|exact (proj1 C)|]. rewrite V'. exact E.
  - rewrite E in E'. apply Ok_inj in E'. subst r. symmetry. exact V'.
Qed.
(** The others are never returned. *)
Lemma C82_field_above_stmt : forall a, fcanon a -> 2 ^ 251 <= fval a ->
  exactly 0 (fun d => is_bytes 32 d /\ fe_random d = Ok a).
Proof.
  intros a C H. apply exactly_zero. intros d [D E]. destruct (C16_random_stmt d D) as (r & E' & C' & V').
  rewrite E in E'. apply Ok_inj in E'. subst r. pose proof (Z.mod_pos_bound (le_value d) (2 ^ 251) ltac:(lia)). lia.
Qed.
(** Every reduced scalar below 2^249 is returned for exactly 128 of the 2^256 outputs. *)
Lemma C82_scalar_stmt : forall a, scanon a -> sval a < 2 ^ 249 ->
  exactly 128 (fun d => is_bytes 32 d /\ sc_random d = Ok a).
Proof.
  intros a C H. assert (V : 0 <= sval a) by (apply (sval_nonneg a (proj1 C))).
  refine (exactly_ext _ _ _ _ (exactly_residue 249 (sval a) 128 _ _ _)); [|lia|lia|reflexivity].
  intros d. split; intros [D E]; (split; [exact D|]); destruct (C28_random_stmt d D) as (r & E' & C' & V').
  - rewrite E'. apply f_equal. apply sval_inj; [exact (proj1 C')|exact (proj1 C)|]. rewrite V'. exact E.
  - rewrite E in E'. apply Ok_inj in E'. subst r. symmetry. exact V'.
Qed.
Lemma C82_scalar_above_stmt : forall a, scanon a -> 2 ^ 249 <= sval a ->
  exactly 0 (fun d => is_bytes 32 d /\ sc_random d = Ok a).
Proof.
  intros a C H. apply exactly_zero. intros d [D E]. destruct (C28_random_stmt d D) as (r & E' & C' & V').
  rewrite E in E'. apply Ok_inj in E'. subst r. pose proof (Z.mod_pos_bound (le_value d) (2 ^ 249) ltac:(lia)). lia.
Qed.

(** The point a single draw leads to. *)
Definition hit (d : list Z) : option pt := lift (toF (le_value d mod 2 ^ 251)) false.
Lemma Fval_small z : 0 <= z < 2 ^ 251 -> Fval (toF z) = z.
Proof. intros H. rewrite Fval_toF. apply Z.mod_small. pose proof p_253. unfold p in *. lia. Qed.
Lemma hit_y d A : hit d = Some A -> Fval (snd (pxy A)) = le_value d mod 2 ^ 251.
Proof.
  intros H. apply lift_some in H. apply (f_equal snd) in H. cbn [snd] in H. rewrite H. apply Fval_small.
  apply Z.mod_pos_bound. lia.
Qed.
Lemma hit_count A d0 : is_bytes 32 d0 -> hit d0 = Some A -> exactly 32 (fun d => is_bytes 32 d /\ hit d = Some A).
Proof.
  intros D0 H0. pose proof (hit_y d0 A H0) as Y. pose proof (Z.mod_pos_bound (le_value d0) (2 ^ 251) ltac:(lia)) as R.
  refine (exactly_ext _ _ _ _ (exactly_residue 251 (Fval (snd (pxy A))) 32 _ _ _)); [|lia|lia|reflexivity].
  intros d. split; intros [D E]; (split; [exact D|]).
  - unfold hit. rewrite E, Y. exact H0.
  - symmetry. apply hit_y. exact E.
Qed.

Lemma ext_at_one A B : ext_rep (ext A 1) B <-> B = pxy A.
Proof.
  assert (R : rext (ext A 1) A) by (exists 1%F; split; [exact one_neq_zero|reflexivity]). split.
  - intros H. apply ext_rep_rext in H. destruct H as (Q & -> & H). apply f_equal. exact (rext_det _ _ _ H R).
  - intros ->. apply rext_rep. exact R.
Qed.
Lemma PPF_inj x y z x' y' z' : PPF x y z = PPF x' y' z' -> x = x' /\ y = y' /\ z = z'.
Proof.
  unfold PPF. intros H. assert (A := f_equal pX H). assert (B := f_equal pY H). assert (C := f_equal pZ H).
  cbn [pX pY pZ] in A, B, C. split; [exact (enc_inj _ _ A)|]. split; [exact (enc_inj _ _ B)|exact (enc_inj _ _ C)].
Qed.
Lemma rprj_det P A B : rprj P A -> rprj P B -> A = B.
Proof.
  intros (z1 & N1 & ->) (z2 & N2 & E). unfold prj in E. apply PPF_inj in E. destruct E as (E1 & E2 & E3). subst z2.
  apply pt_eq. rewrite (surjective_pairing (pxy A)), (surjective_pairing (pxy B)).
  apply f_equal2.
  - apply (F_mul_cancel_l z1); [exact N1|]. transitivity (fst (pxy A) * z1)%F; [ring|]. rewrite E1. ring.
  - apply (F_mul_cancel_l z1); [exact N1|]. transitivity (snd (pxy A) * z1)%F; [ring|]. rewrite E2. ring.
Qed.
Lemma prj_at_one A B : proj_rep (prj A 1) B <-> B = pxy A.
Proof.
  assert (R : rprj (prj A 1) A) by (exists 1%F; split; [exact one_neq_zero|reflexivity]). split.
  - intros H. apply proj_rep_rprj in H. destruct H as (Q & -> & H). apply f_equal. exact (rprj_det _ _ _ H R).
  - intros ->. apply rprj_rep. exact R.
Qed.
Lemma ext_stream ck ds B : Forall (is_bytes 32) ds ->
  (returns_ext (ept_new_random_point ck ds) B <-> exists A, first_lift ds = Some A /\ pxy A = B).
Proof.
  intros H. unfold returns_ext. rewrite ept_random by exact H. destruct (first_lift ds) as [A|]; split.
  - intros (R & E & K). apply Ok_inj in E. subst R. apply ext_at_one in K. exists A. split; [reflexivity|]. symmetry. exact K.
  - intros (A' & E & K). apply Some_inj in E. subst A'. exists (ext A 1). split; [reflexivity|]. apply ext_at_one.
    symmetry. exact K.
  - intros (R & E & _). discriminate E.
  - intros (A' & E & _). symmetry in E. elim (Some_None _ E).
Qed.
Lemma prj_stream ck ds B : Forall (is_bytes 32) ds ->
  (returns_proj (ppt_new_random_point ck ds) B <-> exists A, first_lift ds = Some A /\ pxy A = B).
Proof.
  intros H. unfold returns_proj. rewrite ppt_random by exact H. destruct (first_lift ds) as [A|]; split.
  - intros (R & E & K). apply Ok_inj in E. subst R. apply prj_at_one in K. exists A. split; [reflexivity|]. symmetry. exact K.
  - intros (A' & E & K). apply Some_inj in E. subst A'. exists (prj A 1). split; [reflexivity|]. apply prj_at_one.
    symmetry. exact K.
  - intros (R & E & _). discriminate E.
  - intros (A' & E & _). symmetry in E. elim (Some_None _ E).
Qed.
Lemma first_one d : first_lift [d] = hit d.
Proof. cbn [first_lift]. fold (hit d). destruct (hit d) as [A|]; reflexivity. Qed.

(** All streams, and the streams leading to a point. *)
Definition stream (n : nat) (ds : list (list Z)) : Prop := length ds = n /\ Forall (is_bytes 32) ds.
Lemma stream_cons n ds : stream (S n) ds <-> exists d ds', ds = d :: ds' /\ is_bytes 32 d /\ stream n ds'.
Proof.
  split.
  - intros [E F]. destruct ds as [|d ds]; [discriminate E|]. exists d, ds. split; [reflexivity|]. inversion F as [|? ? D F']. subst.
    split; [exact D|]. split; [injection E as E; exact E|exact F'].
  - intros (d & ds' & -> & D & E & F). split; [cbn [length]; rewrite E; reflexivity|constructor; assumption].
Qed.
Lemma exactly_stream n : exists m, exactly m (stream n).
Proof.
  destruct (exactly_bytes 32) as (b & Hb). induction n as [|n (m & IH)].
  - exists 1%nat, [[]]. split; [constructor; [intros []|constructor]|]. split; [reflexivity|]. intros ds. split.
    + intros [<-|[]]. split; [reflexivity|constructor].
    + intros [E _]. left. symmetry. apply length_zero_iff_nil. exact E.
  - exists (b * m)%nat. refine (exactly_ext _ _ _ _ (exactly_cons _ _ _ _ Hb IH)). intros ds. rewrite stream_cons. reflexivity.
Qed.
Lemma exactly_pos {A} n (P : A -> Prop) x : exactly n P -> P x -> (0 < n)%nat.
Proof. intros (l & _ & <- & H) K. apply H in K. destruct l; [destruct K|]. cbn [length]. apply Nat.lt_0_succ. Qed.
Lemma hit_dec d : hit d = None \/ ~ hit d = None.
Proof. destruct (hit d) as [A|]; [right; intros E; exact (Some_None _ E)|left; reflexivity]. Qed.
Lemma stream_count n : exists m, (n <> 0%nat -> (0 < m)%nat) /\
  forall A d0, is_bytes 32 d0 -> hit d0 = Some A -> exactly m (fun ds => stream n ds /\ first_lift ds = Some A).
Proof.
  destruct (exactly_bytes 32) as (b & Hb). destruct (exactly_part b _ (fun d => hit d = None) hit_dec Hb) as (f & Hf).
  induction n as [|n (m & _ & IH)].
  - exists 0%nat. split; [intros K; elim (K eq_refl)|]. intros A d0 _ _. apply exactly_zero. intros ds [[E _] K].
    apply length_zero_iff_nil in E. subst ds. cbn [first_lift] in K. symmetry in K. elim (Some_None _ K).
  - destruct (exactly_stream n) as (t & Ht). exists (32 * t + f * m)%nat. split.
    + intros _. assert (T : (0 < t)%nat).
      { apply (exactly_pos t _ (repeat (repeat 0 32) n) Ht). split; [apply repeat_length|]. apply Forall_forall. intros x K.
        apply repeat_spec in K. subst x. split; [reflexivity|]. apply Forall_forall. intros x K. apply repeat_spec in K. lia. }
      lia.
    + intros A d0 D0 H0. refine (exactly_ext _ _ _ _ (exactly_union _ _ _ _ _ (exactly_cons _ _ _ _ (hit_count A d0 D0 H0) Ht)
        (exactly_cons _ _ _ _ Hf (IH A d0 D0 H0)))).
      * intros ds. rewrite stream_cons. split.
        { intros [(d & ds' & -> & [D H] & S)|(d & ds' & -> & [D H] & S & E)].
          - split; [exists d, ds'; split; [reflexivity|split; assumption]|]. cbn [first_lift]. fold (hit d). rewrite H. reflexivity.
          - split; [exists d, ds'; split; [reflexivity|split; assumption]|]. cbn [first_lift]. fold (hit d). rewrite H. exact E. }
        { intros [(d & ds' & -> & D & S) E]. cbn [first_lift] in E. fold (hit d) in E. destruct (hit d) as [A'|] eqn:H.
          - left. exists d, ds'. split; [reflexivity|]. split; [split; [exact D|]|exact S]. rewrite H. exact E.
          - right. exists d, ds'. split; [reflexivity|]. split; [split; [exact D|exact H]|]. split; [exact S|exact E]. }
      * intros ds (d & ds' & -> & [_ H] & _) (d' & ds'' & E & [_ H'] & _). injection E as <- _. rewrite H in H'.
        exact (Some_None _ H').
Qed.

(** A single draw: of the points above one y below 2^251 exactly one can come out, and it
    does so for exactly 32 draws; no draw leads to a point with a larger y. *)
Lemma C82_point_draw_stmt : forall ck x y, on_curve (x, y) ->
  (Fval y < 2 ^ 251 -> exists x', on_curve (x', y) /\
     exactly 32 (fun d => is_bytes 32 d /\ returns_ext (ept_new_random_point ck [d]) (x', y)) /\
     exactly 32 (fun d => is_bytes 32 d /\ returns_proj (ppt_new_random_point ck [d]) (x', y)) /\
     forall z, z <> x' -> exactly 0 (fun d => is_bytes 32 d /\ returns_ext (ept_new_random_point ck [d]) (z, y)) /\
       exactly 0 (fun d => is_bytes 32 d /\ returns_proj (ppt_new_random_point ck [d]) (z, y))) /\
  (2 ^ 251 <= Fval y -> exactly 0 (fun d => is_bytes 32 d /\ returns_ext (ept_new_random_point ck [d]) (x, y)) /\
     exactly 0 (fun d => is_bytes 32 d /\ returns_proj (ppt_new_random_point ck [d]) (x, y))).
Proof.
  assert (OneE : forall ck d B, is_bytes 32 d -> (returns_ext (ept_new_random_point ck [d]) B <-> exists A, hit d = Some A /\ pxy A = B)).
  { intros ck d B D. rewrite ext_stream by (constructor; [exact D|constructor]). rewrite first_one. reflexivity. }
  assert (OneP : forall ck d B, is_bytes 32 d -> (returns_proj (ppt_new_random_point ck [d]) B <-> exists A, hit d = Some A /\ pxy A = B)).
  { intros ck d B D. rewrite prj_stream by (constructor; [exact D|constructor]). rewrite first_one. reflexivity. }
  intros ck x y C. split; intros Y.
  - destruct (lift y false) as [A|] eqn:LA; [|elim (lift_none _ _ x LA C)].
    pose proof (lift_some _ _ _ LA) as PA. pose proof (Frange y) as Ry.
    destruct (dalek_le_bytes_ok 32 (Fval y)) as [D0 V0]; [change (256 ^ Z.of_nat 32) with (2 ^ 256); lia|].
    set (d0 := dalek_le_bytes 32 (Fval y)) in *.
    assert (H0 : hit d0 = Some A). { unfold hit. rewrite V0, Z.mod_small, toF_Fval by lia. exact LA. }
    assert (Un : forall z d, is_bytes 32 d -> (exists B, hit d = Some B /\ pxy B = (z, y)) -> hit d = Some A /\ z = lx y false).
    { intros z d D (B & E & PB). pose proof (hit_y d B E) as K. rewrite PB in K. cbn [snd] in K. unfold hit in E.
      rewrite <- K, toF_Fval, LA in E. apply Some_inj in E. subst B. rewrite PA in PB. apply (f_equal fst) in PB. cbn [fst] in PB.
      split; [unfold hit; rewrite <- K, toF_Fval; exact LA|symmetry; exact PB]. }
    assert (Fr : forall d, hit d = Some A -> exists B, hit d = Some B /\ pxy B = (lx y false, y)).
    { intros d E. exists A. split; [exact E|exact PA]. }
    exists (lx y false). split; [rewrite <- PA; apply pt_on|]. split; [|split].
    + refine (exactly_ext _ _ _ _ (hit_count A d0 D0 H0)). intros d. split; intros [D E]; (split; [exact D|]).
      * apply OneE; [exact D|]. exact (Fr d E).
      * apply OneE in E; [|exact D]. exact (proj1 (Un _ d D E)).
    + refine (exactly_ext _ _ _ _ (hit_count A d0 D0 H0)). intros d. split; intros [D E]; (split; [exact D|]).
      * apply OneP; [exact D|]. exact (Fr d E).
      * apply OneP in E; [|exact D]. exact (proj1 (Un _ d D E)).
    + intros z N. split; apply exactly_zero; intros d [D E].
      * apply OneE in E; [|exact D]. exact (N (proj2 (Un _ d D E))).
      * apply OneP in E; [|exact D]. exact (N (proj2 (Un _ d D E))).
  - assert (No : forall d, ~ exists A, hit d = Some A /\ pxy A = (x, y)).
    { intros d (A & E & PA). apply hit_y in E. rewrite PA in E. cbn [snd] in E.
      pose proof (Z.mod_pos_bound (le_value d) (2 ^ 251) ltac:(lia)). lia. }
    split; apply exactly_zero; intros d [D E].
    + apply OneE in E; [|exact D]. exact (No d E).
    + apply OneP in E; [|exact D]. exact (No d E).
Qed.
(** Streams of n draws: however many retries happen, all points that can come out come out
    for the same number of streams. *)
Lemma C82_point_stream_stmt : forall n, exists m, (n <> 0%nat -> (0 < m)%nat) /\
  forall ck A, (exists d, is_bytes 32 d /\ returns_ext (ept_new_random_point ck [d]) A) ->
    exactly m (fun ds => (length ds = n /\ Forall (is_bytes 32) ds) /\ returns_ext (ept_new_random_point ck ds) A) /\
    exactly m (fun ds => (length ds = n /\ Forall (is_bytes 32) ds) /\ returns_proj (ppt_new_random_point ck ds) A).
Proof.
  intros n. destruct (stream_count n) as (m & Pm & H). exists m. split; [exact Pm|]. intros ck A (d & D & E).
  apply ext_stream in E; [|constructor; [exact D|constructor]]. rewrite first_one in E. destruct E as (B & E & <-).
  assert (Q : forall ds, first_lift ds = Some B <-> exists A, first_lift ds = Some A /\ pxy A = pxy B).
  { intros ds. split; [intros K; exists B; split; [exact K|reflexivity]|]. intros (A & K & P). apply pt_eq in P. subst A. exact K. }
  split; refine (exactly_ext _ _ _ _ (H B d D E)); intros ds; split; intros [S K]; (split; [exact S|]).
  - apply ext_stream; [exact (proj2 S)|]. apply Q. exact K.
  - apply ext_stream in K; [|exact (proj2 S)]. apply Q. exact K.
  - apply prj_stream; [exact (proj2 S)|]. apply Q. exact K.
  - apply prj_stream in K; [|exact (proj2 S)]. apply Q. exact K.
Qed.
(** Both sides of each bound are inhabited, and some draw leads to a point. *)
Lemma C82_ex : (fcanon (FE 7 0 0 0 0) /\ fval (FE 7 0 0 0 0) < 2 ^ 251) /\
  (fcanon fe_minus_one /\ 2 ^ 251 <= fval fe_minus_one) /\
  (scanon (SC 7 0 0 0 0) /\ sval (SC 7 0 0 0 0) < 2 ^ 249) /\
  (scanon sc_minus_one /\ 2 ^ 249 <= sval sc_minus_one) /\
  (on_curve (0, 1)%F /\ Fval 1 < 2 ^ 251) /\ (on_curve (0, - (1))%F /\ 2 ^ 251 <= Fval (- (1))) /\
  exists d A, is_bytes 32 d /\ returns_ext (ept_new_random_point true [d]) A.
Proof.
  split; [split; [apply canon_check; vm_compute; reflexivity|reflexivity]|].
  split; [split; [apply canon_check; vm_compute; reflexivity|discriminate]|].
  split; [split; [apply scanon_check; vm_compute; reflexivity|reflexivity]|].
  split; [split; [apply scanon_check; vm_compute; reflexivity|discriminate]|].
  assert (C : on_curve (0, 1)%F) by exact origin_on_curve. assert (V : Fval 1 < 2 ^ 251) by reflexivity.
  split; [split; [exact C|exact V]|].
  split; [split; [apply order2_on|vm_compute; discriminate]|].
  destruct (C82_point_draw_stmt true 0%F 1%F C) as [H _]. destruct (H V) as (x' & _ & (l & _ & E & K) & _).
  destruct l as [|d l]; [discriminate E|]. exists d, (x', 1%F). apply K. left. reflexivity.
Qed.
