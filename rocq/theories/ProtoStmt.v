(** * Identities, encodings as a whole, protocols, invalid points and the example program

    Statement forms; PropProto.v restates each of them.                      *)

From Coq Require Import ZArith Znumtheory List Bool Lia Ring Field.
From Verif Require Import Machine FieldModel ScalarModel EdwardsModel TableModel RistrettoModel ExampleModel Spec MachineFacts
  FieldLimb FieldOps FieldBytes NumTheory Primes Fp FieldF FieldInv FieldStmt ScalarOps ScalarBits ScalarNaf ScalarStmt Curve CurveGroup EdwardsF
  PointMul EdwardsY EdwardsStmt RistSpec Rist RistF RistE RistrettoStmt GroupCheck GroupOrder GroupStmt LawsStmt.
Import ListNotations.
Open Scope Z_scope.

(** ** C70 *)
Lemma C70_field_stmt : forall ck a b c, fcanon a ->
  fe_mul ck a fe_identity = Ok a /\ fe_add ck a fe_default = Ok a /\
  fe_select a b c = (if c then b else a) /\
  fe_conditional_negate ck a c = (if c then fe_neg ck a else Ok a).
Proof.
  intros ck a b c A. destruct (C68_mul_stmt ck a a a A A A) as (_ & _ & M & _).
  destruct (C68_add_stmt ck a a a A A A) as (_ & _ & D & _).
  split; [exact M|]. split; [exact D|]. split; [apply fe_select_if|].
  clear M D. tof a A. rewrite fe_conditional_negate_F, fe_neg_F. destruct c; reflexivity.
Qed.
Lemma C70_scalar_stmt : forall ck a, scanon a -> sc_mul ck a sc_identity = Ok a.
Proof. intros ck a A. apply (C69_mul_stmt ck a a a A A A). Qed.
Lemma C70_points_stmt : aff_rep apt_identity origin /\ proj_rep ppt_identity origin /\
  ext_rep ept_identity origin /\ ext_rep rp_identity origin.
Proof.
  split; [|split; [apply C32_identity_stmt|split; apply C32_identity_stmt]].
  apply aff_rep_iff. exists pO. split; reflexivity.
Qed.
(** The encodings of the neutral elements, both ways. *)
Lemma rp_compress_identity ck : rp_compress ck rp_identity = Ok cr_identity.
Proof.
  destruct rext_id as (z & N & E). change rp_identity with ept_identity. rewrite E.
  destruct (rp_compress_ok pO z N) as (s & S & K); [apply even_pO|].
  rewrite K, <- (K true), <- E. apply C51_ex.
Qed.
Lemma psign_O : psign pO = false.
Proof. reflexivity. Qed.
Lemma C70_edwards_encoding_stmt : forall ck, ept_compress ck ept_identity = Ok cey_identity /\
  exists P, cey_decompress ck cey_identity = Ok (Some P) /\ ext_rep P origin.
Proof.
  intros ck.
  assert (E : ept_compress ck ept_identity = Ok cey_identity).
  { destruct rext_id as (z & N & E). rewrite E. destruct (compress_ext pO z N) as (b & Eb & B & V).
    rewrite Eb. apply f_equal. destruct B as [L1 F1].
    apply le_value_inj; [exact L1|exact F1|repeat (constructor; [lia|]); constructor|].
    rewrite V, psign_O. reflexivity. }
  split; [exact E|].
  apply (C42_round_trip_partial_stmt ck ept_identity origin cey_identity); [apply C32_identity_stmt|exact E|reflexivity].
Qed.
Lemma C70_ristretto_encoding_stmt : forall ck, rp_compress ck rp_identity = Ok cr_identity /\
  exists P, cr_decompress ck cr_identity = Ok (Some P) /\ rp_eqb ck P rp_identity = Ok true.
Proof.
  intros ck. split; [apply rp_compress_identity|].
  destruct (C50_round_trip_stmt ck rp_identity (ob_identity ck)) as (b & Q & E & _ & D & H).
  rewrite rp_compress_identity in E. apply Ok_inj in E. subst b. exists Q. split; [exact D|exact H].
Qed.
Lemma C70_ex : fcanon fe_minus_one /\ scanon sc_minus_one /\ fe_identity <> fe_default.
Proof. split; [apply canon_check; reflexivity|]. split; [vm_compute; intuition discriminate|discriminate]. Qed.

(** ** C71 *)
(** Equal classes have equal encodings, and conversely. *)
Lemma compress_coset P Q A B : rext P A -> rext Q B -> even A -> coset A B ->
  exists b, is_bytes 32 b /\ (forall ck, rp_compress ck P = Ok b) /\ (forall ck, rp_compress ck Q = Ok b).
Proof.
  intros (z & N & ->) (w & M & ->) E C.
  destruct (rp_compress_ok A z N E) as (s & S & K).
  destruct (rp_compress_ok B w M (coset_even _ _ C E)) as (t & T & K').
  apply pick_eq in C. rewrite <- C in T. rewrite (esc_unique _ _ _ (pick_canonp A) T S) in K'.
  exists (fe_to_bytes (enc s)). split; [apply enc_bytes|]. split; [exact K|exact K'].
Qed.
Lemma compress_inj ck P Q A B b : rext P A -> rext Q B -> even A -> even B ->
  rp_compress ck P = Ok b -> rp_compress ck Q = Ok b -> coset A B.
Proof.
  intros (z & N & ->) (w & M & ->) EA EB.
  destruct (rp_compress_ok A z N EA) as (s & S & K). destruct (rp_compress_ok B w M EB) as (t & T & K').
  rewrite K, K'. intros E E'. apply Ok_inj in E, E'. subst b. apply pick_eq.
  apply (esc_inj _ _ s); [apply pick_canonp|apply pick_canonp|exact S|].
  assert (V : s = t).
  { apply Feq. rewrite <- (proj2 (enc_bytes s)), <- (proj2 (enc_bytes t)), E'. reflexivity. }
  rewrite V. exact T.
Qed.
(** The encoding of n times the basepoint. *)
Definition encode_multiple (ck : bool) (n : sc) : res (list Z) :=
  P <- rp_mul ck RISTRETTO_BASEPOINT n ;; rp_compress ck P.
Lemma encode_rext n : sloadable n -> exists R b, (forall ck, rp_mul ck RISTRETTO_BASEPOINT n = Ok R) /\
  rext R (smul (sval n) pB) /\ is_bytes 32 b /\ (forall ck, rp_compress ck R = Ok b) /\
  (forall ck, encode_multiple ck n = Ok b).
Proof.
  intros Hn. destruct (rp_mul_rext n RISTRETTO_BASEPOINT pB Hn rext_B) as (R & E & H).
  destruct (compress_coset R R _ _ H H (even_smul _ _ even_B) (coset_refl _)) as (b & B & K & _).
  exists R, b. split; [exact E|]. split; [exact H|]. split; [exact B|]. split; [exact K|].
  intros ck. unfold encode_multiple. rewrite E, bind_ok. apply K.
Qed.
(** n -> encoding of n times the basepoint is a bijection from the reduced scalars onto the
    32-byte strings the decoder accepts. *)
Lemma C71_encode_stmt : forall ck n, scanon n -> exists b P, encode_multiple ck n = Ok b /\ is_bytes 32 b /\
  cr_decompress ck b = Ok (Some P).
Proof.
  intros ck n C. destruct (encode_rext n (scanon_loadable _ C)) as (R & b & E & H & B & K & Q).
  destruct (C50_even_stmt ck R) as (b' & P & E' & _ & D & _).
  { apply even_ext_iff. exists (smul (sval n) pB). split; [exact H|]. apply even_smul, even_B. }
  rewrite K in E'. apply Ok_inj in E'. subst b'. exists b, P. split; [apply Q|]. split; [exact B|exact D].
Qed.
Lemma C71_injective_stmt : forall ck m n b, scanon m -> scanon n ->
  encode_multiple ck m = Ok b -> encode_multiple ck n = Ok b -> m = n.
Proof.
  intros ck m n b Cm Cn.
  destruct (encode_rext m (scanon_loadable _ Cm)) as (R & c & E & H & B & K & Q).
  destruct (encode_rext n (scanon_loadable _ Cn)) as (R' & c' & E' & H' & B' & K' & Q').
  rewrite Q, Q'. intros X X'. apply Ok_inj in X, X'. subst c c'.
  pose proof (compress_inj ck R R' _ _ b H H' (even_smul _ _ even_B) (even_smul _ _ even_B) (K ck) (K' ck)) as C.
  apply coset_B in C. pose proof (sval_nonneg _ (proj1 Cm)). pose proof (sval_nonneg _ (proj1 Cn)).
  apply sval_inj; [apply Cm|apply Cn|]. destruct Cm as [_ Bm], Cn as [_ Bn].
  apply div_small_zero in C; lia.
Qed.
Lemma C71_surjective_stmt : forall ck b P, is_bytes 32 b -> cr_decompress ck b = Ok (Some P) ->
  exists n, scanon n /\ encode_multiple ck n = Ok b.
Proof.
  intros ck b P B D. destruct (C49_decode_stmt ck b B) as (o & E & H). rewrite E in D. apply Ok_inj in D. subst o.
  destruct H as (Ev & K & _). apply even_ext_iff in Ev. destruct Ev as (A & HP & Ev).
  destruct (even_coset A Ev) as (v & Hv & C). destruct (sc_of_Z_ok v Hv) as [Cn Vn].
  exists (sc_of_Z v). split; [exact Cn|]. unfold encode_multiple.
  destruct (rp_mul_rext _ _ _ (scanon_loadable _ Cn) rext_B) as (R & ER & HR). rewrite Vn in HR.
  destruct (compress_coset P R _ _ HP HR Ev C) as (c & _ & K1 & K2).
  rewrite K1 in K. apply Ok_inj in K. subst c.
  change RISTRETTO_BASEPOINT with BASEPOINT. rewrite ER, bind_ok. apply K2.
Qed.
(** Exactly L of the 2^256 strings are accepted. *)
Lemma C71_count_stmt : forall ck, exists l : list (list Z), NoDup l /\ Z.of_nat (length l) = L /\
  forall b, In b l <-> is_bytes 32 b /\ exists P, cr_decompress ck b = Ok (Some P).
Proof.
  intros ck.
  assert (G : forall M, M = L -> exists l : list (list Z), NoDup l /\ Z.of_nat (length l) = M /\
    forall b, In b l <-> is_bytes 32 b /\ exists P, cr_decompress ck b = Ok (Some P)).
  { intros M HM. assert (HL : 0 <= M) by (rewrite HM; pose proof L_pos; lia).
    set (f := fun i => match encode_multiple ck (sc_of_Z (Z.of_nat i)) with Ok b => b | _ => [] end).
    assert (Ff : forall v, 0 <= v < L -> encode_multiple ck (sc_of_Z v) = Ok (f (Z.to_nat v))).
    { intros v Hv. unfold f. rewrite Z2Nat.id by lia.
      destruct (C71_encode_stmt ck (sc_of_Z v) (proj1 (sc_of_Z_ok v Hv))) as (b & _ & E & _). rewrite E. reflexivity. }
    assert (X : forall i, In i (seq 0 (Z.to_nat M)) -> 0 <= Z.of_nat i < L).
    { intros i Hi. apply in_seq in Hi. rewrite <- HM. lia. }
    exists (map f (seq 0 (Z.to_nat M))). split; [|split].
    - pose proof (seq_NoDup (Z.to_nat M) 0) as ND. revert X ND. generalize (seq 0 (Z.to_nat M)). clear HM HL. clearbody f.
      induction l as [|i l IH]; intros X ND; cbn [map]; [constructor|]. apply NoDup_cons_iff in ND. destruct ND as [NA ND].
      constructor; [|apply IH; [intros j Hj; apply X; right; exact Hj|exact ND]].
      intros H. apply in_map_iff in H. destruct H as (j & E & Hj). apply NA.
      assert (Xj : 0 <= Z.of_nat j < L) by (apply X; right; exact Hj).
      assert (Xi : 0 <= Z.of_nat i < L) by (apply X; left; reflexivity).
      pose proof (Ff _ Xj) as Ej. pose proof (Ff _ Xi) as Ei. rewrite Nat2Z.id in Ej, Ei. rewrite E in Ej.
      destruct (sc_of_Z_ok _ Xj) as [Cj Vj]. destruct (sc_of_Z_ok _ Xi) as [Ci Vi].
      pose proof (C71_injective_stmt ck _ _ _ Cj Ci Ej Ei) as Q. apply (f_equal sval) in Q. rewrite Vj, Vi in Q.
      apply Nat2Z.inj in Q. rewrite <- Q. exact Hj.
    - rewrite map_length, seq_length. apply Z2Nat.id. exact HL.
    - intros b. rewrite in_map_iff. split.
      + intros (i & <- & Hi). apply X in Hi. pose proof (Ff _ Hi) as Ei. rewrite Nat2Z.id in Ei.
        destruct (C71_encode_stmt ck _ (proj1 (sc_of_Z_ok _ Hi))) as (b & P & E & B & D).
        rewrite E in Ei. apply Ok_inj in Ei. rewrite <- Ei. split; [exact B|]. exists P. exact D.
      + intros (B & P & D). destruct (C71_surjective_stmt ck b P B D) as (n & C & E).
        pose proof (sval_nonneg _ (proj1 C)) as N0.
        assert (Hv : 0 <= sval n < L) by (split; [apply N0|apply C]).
        assert (En : sc_of_Z (sval n) = n).
        { destruct (sc_of_Z_ok _ Hv) as [C' V']. apply sval_inj; [apply C'|apply C|exact V']. }
        exists (Z.to_nat (sval n)). split.
        * pose proof (Ff _ Hv) as F0. rewrite En, E in F0. apply Ok_inj in F0. symmetry. exact F0.
        * apply in_seq. rewrite HM. lia. }
  apply G. reflexivity.
Qed.
Lemma C71_ex : scanon sc_minus_one /\ scanon sc_one /\ is_bytes 32 RISTRETTO_BASEPOINT_COMPRESSED /\
  (exists P, cr_decompress true RISTRETTO_BASEPOINT_COMPRESSED = Ok (Some P)) /\
  cr_decompress true (255 :: repeat 255 31) = Ok None.
Proof.
  split; [vm_compute; intuition discriminate|]. split; [exact scanon_one|]. split; [exact rbc_bytes|].
  split.
  - destruct C49_ex as (_ & (P & D & _) & _). exists P. exact D.
  - apply C49_canonical_stmt; [|reflexivity]. split; [reflexivity|]. repeat (constructor; [lia|]); constructor.
Qed.

(** ** C72 *)
(** One side of a Diffie-Hellman exchange over the wire: the peer's public value [w] is
    decoded, multiplied by the own secret and the result encoded. *)
Definition dh_public (ck : bool) (P : ept) (a : sc) : res (list Z) :=
  A <- rp_mul ck P a ;; rp_compress ck A.
Definition dh_shared (ck : bool) (a : sc) (w : list Z) : res (list Z) :=
  o <- cr_decompress ck w ;; Q <- unwrap o ;; S <- rp_mul ck Q a ;; rp_compress ck S.

Lemma dh_side P A a b : rext P A -> even A -> sloadable a -> sloadable b ->
  exists w Q R, (forall ck, dh_public ck P b = Ok w) /\ is_bytes 32 w /\
    (forall ck, cr_decompress ck w = Ok (Some Q)) /\ (forall ck, rp_mul ck Q a = Ok R) /\
    rext R (smul (sval a) (pick (smul (sval b) A))) /\ even (smul (sval a) (pick (smul (sval b) A))) /\
    coset (smul (sval a) (pick (smul (sval b) A))) (smul (sval a * sval b) A).
Proof.
  intros HP Ev Ha Hb. destruct (rp_mul_rext b P A Hb HP) as (B & EB & HB).
  pose proof (even_smul (sval b) A Ev) as EvB. destruct HB as (z & N & ->).
  destruct (rp_compress_ok _ z N EvB) as (s & S & K). destruct (enc_bytes s) as [Bs V].
  assert (EP : even (pick (smul (sval b) A))) by exact (coset_even _ _ (pick_coset _) EvB).
  destruct (rp_mul_rext a (ext (pick (smul (sval b) A)) 1) _ Ha (rext_ext _ _ one_neq_zero)) as (R & ER & HR).
  exists (fe_to_bytes (enc s)), (ext (pick (smul (sval b) A)) 1), R.
  split; [intros ck; unfold dh_public; rewrite EB, bind_ok; apply K|]. split; [exact Bs|].
  split; [intros ck; apply (cr_decompress_some (pick (smul (sval b) A)) s); [exact Bs|apply pick_canonp|exact EP|exact S|exact V]|].
  split; [exact ER|]. split; [exact HR|]. split; [apply even_smul; exact EP|].
  rewrite smul_mul. apply coset_smul, coset_sym, pick_coset.
Qed.
(** Both sides obtain the same bytes, for every point and every pair of secrets. *)
Lemma C72_diffie_hellman_stmt : forall ck P a b, even_ext P -> sloadable a -> sloadable b ->
  exists wa wb k, dh_public ck P a = Ok wa /\ dh_public ck P b = Ok wb /\
    dh_shared ck a wb = Ok k /\ dh_shared ck b wa = Ok k /\ is_bytes 32 k.
Proof.
  intros ck P a b HP Ha Hb. apply even_ext_iff in HP. destruct HP as (A & HP & Ev).
  destruct (dh_side P A a b HP Ev Ha Hb) as (wb & Q & R & Eb & _ & D & M & HR & EvR & C).
  destruct (dh_side P A b a HP Ev Hb Ha) as (wa & Q' & R' & Ea & _ & D' & M' & HR' & EvR' & C').
  rewrite (Z.mul_comm (sval b)) in C'.
  destruct (compress_coset R R' _ _ HR HR' EvR (coset_trans _ _ _ C (coset_sym _ _ C'))) as (k & Bk & K & K').
  exists wa, wb, k. split; [apply Ea|]. split; [apply Eb|]. unfold dh_shared.
  rewrite D, D', !bind_ok. cbn [unwrap]. rewrite !bind_ok, M, M', !bind_ok.
  split; [apply K|]. split; [apply K'|exact Bk].
Qed.
(** The shared value is the encoding of (ab mod L) times the point, and with nonzero secrets and a
    point other than the identity it is never the encoding of the identity. *)
Lemma C72_nontrivial_stmt : forall ck P a b w k, even_ext P -> rp_eqb ck P rp_identity = Ok false ->
  scanon a -> scanon b -> sval a <> 0 -> sval b <> 0 ->
  dh_public ck P b = Ok w -> dh_shared ck a w = Ok k -> k <> cr_identity.
Proof.
  intros ck P a b w k HP HN Ca Cb Na Nb Ew Ek EK. subst k.
  assert (HP' := HP). apply even_ext_iff in HP. destruct HP as (A & HP & Ev).
  destruct (dh_side P A a b HP Ev (scanon_loadable _ Ca) (scanon_loadable _ Cb)) as (wb & Q & R & Eb & _ & D & M & HR & EvR & C).
  rewrite Eb in Ew. apply Ok_inj in Ew. subst wb. unfold dh_shared in Ek. rewrite D, bind_ok in Ek. cbn [unwrap] in Ek.
  rewrite bind_ok, M, bind_ok in Ek.
  pose proof (compress_inj ck R rp_identity _ pO cr_identity HR rext_id EvR even_pO Ek (rp_compress_identity ck)) as X.
  pose proof (coset_trans _ _ _ (coset_sym _ _ C) X) as Y.
  destruct (sc_mul_ok ck a b (proj1 Ca) Cb) as (s & Es & Cs & Vs).
  destruct (even_rep P HP') as (A' & m & HPm & Cm). pose proof (rext_det _ _ _ HP HPm) as E1. subst A'.
  destruct (C64_prime_order_stmt ck P s HP' HN (scanon_loadable _ Cs)) as (R1 & r & E2 & E3 & K).
  destruct (rp_mul_rext s P A (scanon_loadable _ Cs) HP) as (R1' & E2' & H1). rewrite E2' in E2. apply Ok_inj in E2. subst R1'.
  assert (T : r = true).
  { assert (T : rp_eqb ck R1 rp_identity = Ok true).
    { apply (rp_eqb_true ck R1 rp_identity _ pO H1 rext_id).
      apply coset_trans with (smul (sval a * sval b) A); [exact (coset_mod A m _ _ Cm Vs)|exact Y]. }
    rewrite T in E3. apply Ok_inj in E3. symmetry. exact E3. }
  apply K in T. rewrite Vs in T. apply Z.mod_divide in T; [|discriminate]. rewrite Zmod_mod in T.
  apply Zmod_divide in T; [|discriminate]. apply (prime_mult L prime_L) in T.
  pose proof (sval_nonneg _ (proj1 Ca)). pose proof (sval_nonneg _ (proj1 Cb)). destruct Ca as [_ Ba], Cb as [_ Bb].
  destruct T as [T|T]; apply Z.mod_divide in T; try discriminate; rewrite Z.mod_small in T by lia; lia.
Qed.
(** The same on Edwards points, for every valid point and every scalar below 2^256. *)
Lemma C72_edwards_stmt : forall ck P a b, valid_ext P -> sloadable a -> sloadable b ->
  same_ext ck (Q <- ept_mul ck P b ;; ept_mul ck Q a) (Q <- ept_mul ck P a ;; ept_mul ck Q b).
Proof.
  intros ck P a b HP Ha Hb. apply valid_rext in HP. destruct HP as (A & HP).
  destruct (ept_mul_rext b P A Hb HP) as (Q & E & H). destruct (ept_mul_rext a Q _ Ha H) as (R & E' & H').
  destruct (ept_mul_rext a P A Ha HP) as (Q2 & E2 & H2). destruct (ept_mul_rext b Q2 _ Hb H2) as (R2 & E2' & H2').
  rewrite <- smul_mul in H', H2'. rewrite (Z.mul_comm (sval b)) in H2'.
  apply (same_rext ck _ _ R R2 _ _) with (3 := H') (4 := H2'); [rewrite E, bind_ok; apply E'|rewrite E2, bind_ok; apply E2'|reflexivity].
Qed.
(** Schnorr: with s = r + c x modulo L the verification equation s B == R + c X holds. *)
Lemma C72_schnorr_stmt : forall ck P r c x, even_ext P -> scanon r -> scanon c -> scanon x ->
  same_rist ck (cx <- sc_mul ck c x ;; s <- sc_add ck r cx ;; rp_mul ck P s)
    (R <- rp_mul ck P r ;; X <- rp_mul ck P x ;; cX <- rp_mul ck X c ;; rp_add ck R cX).
Proof.
  intros ck P r c x HP Cr Cc Cx. destruct (even_rep P HP) as (A & n & HA & C).
  destruct (sc_mul_ok ck c x (proj1 Cc) Cx) as (cx & E1 & C1 & V1).
  destruct (sc_add_ok ck r cx Cr C1) as (s & E2 & C2 & V2).
  destruct (rp_mul_rext s P A (scanon_loadable _ C2) HA) as (S & E3 & H3).
  destruct (rp_mul_rext r P A (scanon_loadable _ Cr) HA) as (R & E4 & H4).
  destruct (rp_mul_rext x P A (scanon_loadable _ Cx) HA) as (X & E5 & H5).
  destruct (rp_mul_rext c X _ (scanon_loadable _ Cc) H5) as (cX & E6 & H6).
  destruct (rext_add R cX _ _ H4 H6) as (V & E7 & H7).
  apply (same_coset ck _ _ S V _ _) with (3 := H3) (4 := H7).
  - rewrite E1, bind_ok, E2, bind_ok. apply E3.
  - rewrite E4, bind_ok, E5, bind_ok, E6, bind_ok. apply E7.
  - rewrite <- smul_mul, <- smul_add. apply (coset_mod A n _ _ C). rewrite V2, V1. apply Zplus_mod_idemp_r.
Qed.
Lemma C72_ex : even_ext RISTRETTO_BASEPOINT /\ rp_eqb true RISTRETTO_BASEPOINT rp_identity = Ok false /\
  scanon sc_minus_one /\ sval sc_minus_one <> 0 /\ sloadable max_scalar.
Proof.
  split; [apply C64_ex|]. split; [apply C64_ex|]. split; [apply C64_ex|]. split; [discriminate|apply C36_ex].
Qed.

(** ** C73 *)
Lemma reduced_EPF P : reduced_ext P -> exists x y z t, P = EPF x y z t.
Proof.
  destruct P as [x y z t]. intros (A & B & C & D). cbn [eX eY eZ eT] in *.
  exists (fF x), (fF y), (fF z), (fF t). unfold EPF. rewrite !enc_fF by assumption. reflexivity.
Qed.
Lemma EPF_reduced x y z t : reduced_ext (EPF x y z t).
Proof. unfold reduced_ext, EPF. cbn [eX eY eZ eT]. split; [apply enc_c|split; [apply enc_c|split; apply enc_c]]. Qed.
Lemma reduced_PPF P : reduced_proj P -> exists x y z, P = PPF x y z.
Proof.
  destruct P as [x y z]. intros (A & B & C). cbn [pX pY pZ] in *.
  exists (fF x), (fF y), (fF z). unfold PPF. rewrite !enc_fF by assumption. reflexivity.
Qed.
Lemma PPF_reduced x y z : reduced_proj (PPF x y z).
Proof. unfold reduced_proj, PPF. cbn [pX pY pZ]. split; [apply enc_c|split; apply enc_c]. Qed.

Definition tot_ext (P : ept) (_ : pt) : Prop := reduced_ext P.
Lemma tot_add P Q A B : tot_ext P A -> tot_ext Q B -> exists R, (forall ck, ept_add ck P Q = Ok R) /\ tot_ext R (padd A B).
Proof.
  intros HP HQ. apply reduced_EPF in HP, HQ. destruct HP as (x & y & z & t & ->), HQ as (x' & y' & z' & t' & ->).
  eexists. split; [intros ck; apply ept_add_enc|]. apply EPF_reduced.
Qed.
Lemma tot_sub P Q A B : tot_ext P A -> tot_ext Q B -> exists R, (forall ck, ept_sub ck P Q = Ok R) /\ tot_ext R (padd A (popp B)).
Proof.
  intros HP HQ. apply reduced_EPF in HP, HQ. destruct HP as (x & y & z & t & ->), HQ as (x' & y' & z' & t' & ->).
  eexists. split; [intros ck; apply ept_sub_enc|]. apply EPF_reduced.
Qed.
Lemma tot_dbl P A : tot_ext P A -> exists R, (forall ck, ept_double ck P = Ok R) /\ tot_ext R (padd A A).
Proof. intros H. exact (tot_add P P A A H H). Qed.
Lemma tot_id : tot_ext ept_identity pO.
Proof. exact (EPF_reduced 0 1 1 0). Qed.
(** Coordinates that satisfy no equation at all: every operation still returns, with
    reduced coordinates, in both build modes and the same result in both. *)
Lemma C73_ext_stmt : forall P Q n, reduced_ext P -> reduced_ext Q -> sloadable n ->
  (exists R, reduced_ext R /\ forall ck, ept_add ck P Q = Ok R) /\
  (exists R, reduced_ext R /\ forall ck, ept_sub ck P Q = Ok R) /\
  (exists R, reduced_ext R /\ forall ck, ept_neg ck P = Ok R) /\
  (exists R, reduced_ext R /\ forall ck, ept_double ck P = Ok R) /\
  (exists R, reduced_ext R /\ forall ck, ept_mul ck P n = Ok R).
Proof.
  intros P Q n HP HQ Hn.
  split; [destruct (tot_add P Q pO pO HP HQ) as (R & E & H); exists R; split; [exact H|exact E]|].
  split; [destruct (tot_sub P Q pO pO HP HQ) as (R & E & H); exists R; split; [exact H|exact E]|].
  split.
  { apply reduced_EPF in HP. destruct HP as (x & y & z & t & ->).
    eexists. split; [|intros ck; apply ept_neg_enc]. apply EPF_reduced. }
  split; [destruct (tot_dbl P pO HP) as (R & E & H); exists R; split; [exact H|exact E]|].
  destruct (double_and_add_ok ept tot_ext ept_add ept_sub ept_double ept_identity tot_id tot_add tot_sub tot_dbl n P pO Hn HP)
    as (R & E & H).
  exists R. split; [exact H|exact E].
Qed.
Definition tot_prj (P : ppt) (_ : pt) : Prop := reduced_proj P.
Lemma totp_add P Q A B : tot_prj P A -> tot_prj Q B -> exists R, (forall ck, ppt_add ck P Q = Ok R) /\ tot_prj R (padd A B).
Proof.
  intros HP HQ. apply reduced_PPF in HP, HQ. destruct HP as (x & y & z & ->), HQ as (x' & y' & z' & ->).
  eexists. split; [intros ck; apply ppt_add_enc|]. apply PPF_reduced.
Qed.
Lemma totp_neg P : reduced_proj P -> exists R, (forall ck, ppt_neg ck P = Ok R) /\ reduced_proj R.
Proof.
  intros HP. apply reduced_PPF in HP. destruct HP as (x & y & z & ->).
  eexists. split; [intros ck; apply ppt_neg_enc|]. apply PPF_reduced.
Qed.
Lemma totp_sub P Q A B : tot_prj P A -> tot_prj Q B -> exists R, (forall ck, ppt_sub ck P Q = Ok R) /\ tot_prj R (padd A (popp B)).
Proof.
  intros HP HQ. apply reduced_PPF in HP, HQ. destruct HP as (x & y & z & ->), HQ as (x' & y' & z' & ->).
  eexists. split; [intros ck; rewrite ppt_sub_enc; apply ppt_add_enc|]. apply PPF_reduced.
Qed.
Lemma totp_dbl P A : tot_prj P A -> exists R, (forall ck, ppt_double ck P = Ok R) /\ tot_prj R (padd A A).
Proof.
  intros HP. apply reduced_PPF in HP. destruct HP as (x & y & z & ->).
  eexists. split; [intros ck; apply ppt_double_enc|]. apply PPF_reduced.
Qed.
Lemma totp_id : tot_prj ppt_identity pO.
Proof. exact (PPF_reduced 0 1 1). Qed.
Lemma C73_proj_stmt : forall P Q n, reduced_proj P -> reduced_proj Q -> sloadable n ->
  (exists R, reduced_proj R /\ forall ck, ppt_add ck P Q = Ok R) /\
  (exists R, reduced_proj R /\ forall ck, ppt_sub ck P Q = Ok R) /\
  (exists R, reduced_proj R /\ forall ck, ppt_neg ck P = Ok R) /\
  (exists R, reduced_proj R /\ forall ck, ppt_double ck P = Ok R) /\
  (exists R, reduced_proj R /\ forall ck, ppt_mul ck P n = Ok R).
Proof.
  intros P Q n HP HQ Hn.
  split; [destruct (totp_add P Q pO pO HP HQ) as (R & E & H); exists R; split; [exact H|exact E]|].
  split; [destruct (totp_sub P Q pO pO HP HQ) as (R & E & H); exists R; split; [exact H|exact E]|].
  split; [destruct (totp_neg P HP) as (R & E & H); exists R; split; [exact H|exact E]|].
  split; [destruct (totp_dbl P pO HP) as (R & E & H); exists R; split; [exact H|exact E]|].
  destruct (double_and_add_ok ppt tot_prj ppt_add ppt_sub ppt_double ppt_identity totp_id totp_add totp_sub totp_dbl n P pO Hn HP)
    as (R & E & H).
  exists R. split; [exact H|exact E].
Qed.
(** Comparing with ==, encoding and conversion to affine coordinates panic when Z = 0. *)
Lemma C73_zero_z_stmt : forall ck P Q, reduced_ext P -> fval (eZ P) = 0 ->
  ept_eqb ck P Q = Panic /\ ept_compress ck P = Panic /\ apt_of_ept ck P = Panic.
Proof.
  intros ck P Q HP HZ. assert (E : apt_of_ept ck P = Panic) by (apply (C33_ext_to_aff_panics_stmt ck P HP); exact HZ).
  split; [unfold ept_eqb; rewrite E; reflexivity|]. split; [unfold ept_compress; rewrite E; reflexivity|exact E].
Qed.
Lemma example_G_invalid : ~ valid_ext example_G /\ forall ck, ept_is_valid ck example_G = Ok false.
Proof.
  assert (E : forall ck, ept_is_valid ck example_G = Ok false) by (intros []; vm_compute; reflexivity).
  split; [|exact E]. intros V.
  destruct (C35_ext_with_T_stmt true example_G) as (b & E1 & H).
  - split; [|split; [|split]]; apply canon_check; vm_compute; reflexivity.
  - vm_compute. discriminate.
  - apply Feq. vm_compute. reflexivity.
  - apply H in V. rewrite E, V in E1. inversion E1.
Qed.
Lemma C73_ex : reduced_ext example_G /\ ~ valid_ext example_G /\ sloadable max_scalar /\
  reduced_ext (EP fe_zero fe_zero fe_zero fe_zero) /\ reduced_proj (PP fe_one fe_zero fe_zero).
Proof.
  split. { split; [|split; [|split]]; apply canon_check; vm_compute; reflexivity. }
  split; [apply example_G_invalid|].
  split; [apply C36_ex|]. split; [exact (EPF_reduced 0 0 0 0)|exact (PPF_reduced 1 0 0)].
Qed.

(** ** C74 *)
Lemma le_value_snoc b x : le_value (b ++ [x]) = le_value b + 256 ^ Z.of_nat (length b) * x.
Proof.
  induction b as [|y b IH].
  - cbn [app le_value length]. change (256 ^ Z.of_nat 0) with 1. ring.
  - cbn [app le_value length]. rewrite IH, Nat2Z.inj_succ, Z.pow_succ_r by lia. ring.
Qed.
Lemma le_value_lt n b : is_bytes n b -> 0 <= le_value b < 256 ^ Z.of_nat n.
Proof.
  intros [<- H]. induction H as [|y b Hy Hb IH].
  - cbn. lia.
  - cbn [le_value length]. rewrite Nat2Z.inj_succ, Z.pow_succ_r by lia. lia.
Qed.
Lemma pow31 : 256 ^ Z.of_nat 31 = 2 ^ 248.
Proof. vm_compute. reflexivity. Qed.
Lemma pow31_L : 2 ^ 248 < L.
Proof. with_strategy transparent [L] (vm_compute; reflexivity). Qed.
(** The generator never panics, and returns exactly the scalars below 2^248. *)
Lemma C74_rand_stmt : forall b, is_bytes 31 b ->
  exists s, rand_scalar_generation b = Ok s /\ scanon s /\ sval s = le_value b /\ sval s < 2 ^ 248.
Proof.
  intros b B. unfold rand_scalar_generation.
  assert (B' : is_bytes 32 (b ++ [0])).
  { destruct B as [B1 B2]. split; [rewrite app_length, B1; reflexivity|].
    apply Forall_app. split; [exact B2|]. constructor; [lia|constructor]. }
  pose proof (le_value_lt 31 b B) as Hlt. rewrite pow31 in Hlt.
  assert (V : le_value (b ++ [0]) = le_value b) by (rewrite le_value_snoc; lia).
  destruct (C21_from_bytes_stmt (b ++ [0]) B') as [H _].
  destruct H as (r & E & C & S & _); [rewrite V; pose proof pow31_L; lia|].
  exists r. rewrite V in S. split; [exact E|]. split; [exact C|]. split; [exact S|]. rewrite S. apply Hlt.
Qed.
Lemma C74_rand_range_stmt : forall s, scanon s ->
  ((exists b, is_bytes 31 b /\ rand_scalar_generation b = Ok s) <-> sval s < 2 ^ 248).
Proof.
  intros s C. split.
  - intros (b & B & E). destruct (C74_rand_stmt b B) as (s' & E' & _ & _ & H). rewrite E in E'.
    apply Ok_inj in E'. subst s'. exact H.
  - intros H. destruct (C21_to_bytes_stmt s C) as (B & V & E).
    remember (sc_to_bytes s) as t eqn:Ht. clear Ht. destruct B as [B1 B2].
    assert (N : t <> []) by (intros ->; discriminate B1).
    pose proof (app_removelast_last 0 N) as D. set (b := removelast t) in *. set (x := last t 0) in *.
    clearbody b x. subst t. rewrite app_length in B1. cbn [length] in B1.
    apply Forall_app in B2. destruct B2 as [B2 B3]. inversion B3 as [|? ? B4 _]; subst.
    assert (Lb : length b = 31%nat) by lia. rewrite le_value_snoc, Lb, pow31 in V.
    assert (Bb : is_bytes 31 b) by (split; assumption).
    pose proof (le_value_lt 31 b Bb) as Hlt.
    assert (x = 0) by nia. subst x.
    exists b. split; [exact Bb|exact E].
Qed.
(** The program always prints a scalar and a point with reduced coordinates. *)
Lemma C74_main_stmt : forall b, is_bytes 31 b ->
  exists s R, (forall ck, example_main ck b = Ok (s, R)) /\ sval s = le_value b /\ reduced_ext R.
Proof.
  intros b B. destruct (C74_rand_stmt b B) as (s & E & C & V & _).
  assert (HG : reduced_ext example_G) by apply C73_ex.
  destruct (C73_ext_stmt example_G example_G s HG HG) as (_ & _ & _ & _ & R & HR & ER).
  { apply scanon_loadable, C. }
  exists s, R. split; [|split; [exact V|exact HR]].
  intros ck. unfold example_main. rewrite E. cbn [bind]. rewrite ER. reflexivity.
Qed.
(** Its point `G` is not on the curve, nor need the printed point be. *)
Lemma C74_point_refuted_stmt : exists b, is_bytes 31 b /\ ~ valid_ext example_G /\
  forall ck, ept_is_valid ck example_G = Ok false /\
    exists s R, example_main ck b = Ok (s, R) /\ ~ valid_ext R /\ ept_is_valid ck R = Ok false.
Proof.
  exists (1 :: repeat 0 30).
  split. { split; [reflexivity|]. repeat constructor; lia. }
  split; [apply example_G_invalid|].
  assert (I : forall ck R, valid_ext R -> ept_is_valid ck R = Ok false -> False).
  { intros ck R [A HR] E.
    assert (NZ : fval (eZ R) <> 0).
    { destruct HR as (_ & _ & _ & _ & _ & N & _). intros Z0. apply N. apply fF_zero. rewrite Z0. reflexivity. }
    destruct (C35_ext_with_T_stmt ck R) as (b & E' & Hb).
    - destruct HR as (_ & C1 & C2 & C3 & C4 & _). split; [exact C1|split; [exact C2|split; [exact C3|exact C4]]].
    - exact NZ.
    - destruct HR as (_ & _ & _ & _ & _ & _ & HX & HY & HT). rewrite HX, HY, HT. ring.
    - rewrite E in E'. apply Ok_inj in E'. subst b.
      assert (T : false = true) by (apply Hb; exists A; exact HR). discriminate T. }
  intros ck. split; [apply example_G_invalid|].
  assert (X : exists s R, example_main ck (1 :: repeat 0 30) = Ok (s, R) /\ ept_is_valid ck R = Ok false).
  { destruct ck; eexists; eexists; (split; [vm_compute; reflexivity|vm_compute; reflexivity]). }
  destruct X as (s & R & E & V). exists s, R. split; [exact E|]. split; [|exact V].
  intros HR. exact (I ck R HR V).
Qed.
Lemma C74_ex : is_bytes 31 (repeat 255 31) /\ le_value (repeat 255 31) = 2 ^ 248 - 1 /\
  scanon sc_minus_one /\ ~ sval sc_minus_one < 2 ^ 248.
Proof.
  split. { split; [reflexivity|]. apply Forall_forall. intros x Hx. apply repeat_spec in Hx. subst x. lia. }
  split; [vm_compute; reflexivity|]. split; [apply C69_ex|].
  change (~ L - 1 < 2 ^ 248). pose proof pow31_L. lia.
Qed.
