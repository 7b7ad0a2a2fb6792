(** * Statements about points whose coordinates are not reduced: C105 *)

From Coq Require Import ZArith Znumtheory List Bool Lia Ring Field.
From Verif Require Import Machine FieldModel ScalarModel EdwardsModel TableModel RistrettoModel Spec RawSpec MachineFacts
  FieldLimb FieldOps FieldBytes NumTheory Primes Fp FieldF FieldInv FieldStmt ScalarLimb ScalarOps ScalarBits ScalarStmt Curve CurveGroup EdwardsF
  PointMul EdwardsY EdwardsStmt Rist RistF RistSpec RistrettoStmt LawsStmt MiscStmt ProtoStmt WideStmt.
Import ListNotations.
Open Scope Z_scope.

Lemma alike_fF a b : alike a b -> fF a = fF b.
Proof. intros (_ & _ & E). unfold fF. apply toF_eq. exact E. Qed.

(** What multiplication, addition and the others give, as encodings. *)
Lemma mul_any_F ck a b : flimbs a -> flimbs b -> fe_mul ck a b = Ok (enc (fF a * fF b)%F).
Proof.
  intros A B. destruct (C99_field_mul_stmt ck a b A B) as (r & -> & C & V).
  rewrite <- (enc_fF r C). f_equal. f_equal. unfold fF. rewrite V, toF_mod. apply toF_mul.
Qed.
Lemma square_any_F ck a : flimbs a -> fe_square ck a = Ok (enc (fF a * fF a)%F).
Proof.
  intros A. destruct (C99_field_square_stmt ck a A) as (r & -> & C & V).
  rewrite <- (enc_fF r C). f_equal. f_equal. unfold fF. rewrite V, toF_mod. apply toF_mul.
Qed.
Lemma add_ld_F ck a b : floadable a -> floadable b ->
  exists r, fe_add ck a b = Ok r /\ flimbs r /\ fF r = (fF a + fF b)%F.
Proof.
  intros A B. destruct (C66_field_add_stmt ck a b (proj1 A) (proj1 B)) as (r & E & R & _).
  destruct (C66_field_add_mod_stmt ck a b A B) as (r' & E' & V). rewrite E in E'. injection E' as <-.
  exists r. split; [exact E|]. split; [exact R|]. unfold fF. rewrite <- toF_add. apply toF_eq. exact V.
Qed.
Lemma inverse_ld_F ck a : floadable a -> fval a mod p <> 0 -> fe_inverse ck a = Ok (enc (/ fF a)%F).
Proof.
  intros A N. destruct (C03_inverse_stmt ck a A N) as (r & E & C & V). rewrite E. f_equal.
  rewrite <- (enc_fF r C). f_equal.
  assert (H : (fF a * fF r)%F = 1%F).
  { unfold fF. rewrite <- toF_mul. change 1%F with (toF 1). apply toF_eq. rewrite V. reflexivity. }
  assert (Z : fF a <> 0%F).
  { unfold fF. change 0%F with (toF 0). intros Z. apply N. apply toF_eq in Z. exact Z. }
  generalize dependent (fF r). generalize dependent (fF a). clear. intros x N y H.
  transitivity (/ x * (x * y))%F; [field; exact N|]. rewrite H. field. exact N.
Qed.

Lemma ld_limbs a : floadable a -> flimbs a. Proof. intros H. exact (proj1 H). Qed.
Lemma fF_enc' x : fF (enc x) = x. Proof. unfold fF. rewrite fval_enc. apply toF_Fval. Qed.

(** A point with the same residues and reduced coordinates. *)
Definition red_e (P : ept) : ept := EPF (fF (eX P)) (fF (eY P)) (fF (eZ P)) (fF (eT P)).
Definition red_p (P : ppt) : ppt := PPF (fF (pX P)) (fF (pY P)) (fF (pZ P)).
Definition red_a (P : apt) : apt := APF (fF (aX P)) (fF (aY P)).
Definition ld_e (P : ept) : Prop := floadable (eX P) /\ floadable (eY P) /\ floadable (eZ P) /\ floadable (eT P).
Definition ld_p (P : ppt) : Prop := floadable (pX P) /\ floadable (pY P) /\ floadable (pZ P).
Definition ld_a (P : apt) : Prop := floadable (aX P) /\ floadable (aY P).

Lemma alike_red_e P Q : alike_ext P Q -> ld_e P /\ ld_e Q /\ red_e P = red_e Q.
Proof.
  intros (X & Y & Z & T). split; [|split].
  - exact (conj (proj1 X) (conj (proj1 Y) (conj (proj1 Z) (proj1 T)))).
  - exact (conj (proj1 (proj2 X)) (conj (proj1 (proj2 Y)) (conj (proj1 (proj2 Z)) (proj1 (proj2 T))))).
  - unfold red_e. rewrite (alike_fF _ _ X), (alike_fF _ _ Y), (alike_fF _ _ Z), (alike_fF _ _ T). reflexivity.
Qed.
Lemma alike_red_p P Q : alike_proj P Q -> ld_p P /\ ld_p Q /\ red_p P = red_p Q.
Proof.
  intros (X & Y & Z). split; [|split].
  - exact (conj (proj1 X) (conj (proj1 Y) (proj1 Z))).
  - exact (conj (proj1 (proj2 X)) (conj (proj1 (proj2 Y)) (proj1 (proj2 Z)))).
  - unfold red_p. rewrite (alike_fF _ _ X), (alike_fF _ _ Y), (alike_fF _ _ Z). reflexivity.
Qed.
Lemma alike_red_a P Q : alike_aff P Q -> ld_a P /\ ld_a Q /\ red_a P = red_a Q.
Proof.
  intros (X & Y). split; [|split].
  - exact (conj (proj1 X) (proj1 Y)).
  - exact (conj (proj1 (proj2 X)) (proj1 (proj2 Y))).
  - unfold red_a. rewrite (alike_fF _ _ X), (alike_fF _ _ Y). reflexivity.
Qed.

Ltac lim := first [apply enc_limbs | assumption | apply ld_limbs; assumption].
Ltac rstep := first
  [ rewrite bind_ok
  | match goal with |- context [fe_mul ?ck (enc ?x) (enc ?y)] => rewrite (fe_mul_F ck x y) end
  | match goal with |- context [fe_square ?ck (enc ?x)] => rewrite (fe_square_F ck x) end
  | match goal with |- context [fe_add ?ck (enc ?x) (enc ?y)] => rewrite (fe_add_F ck x y) end
  | match goal with |- context [fe_sub ?ck (enc ?x) (enc ?y)] => rewrite (fe_sub_F ck x y) end
  | match goal with |- context [fe_mul ?ck ?a ?b] => rewrite (mul_any_F ck a b) by lim end
  | match goal with |- context [fe_square ?ck ?a] => rewrite (square_any_F ck a) by lim end ].

Lemma add_red_e ck P Q : ld_e P -> ld_e Q -> ept_add ck P Q = ept_add ck (red_e P) (red_e Q).
Proof.
  intros (X & Y & Z & T) (X' & Y' & Z' & T'). unfold red_e. rewrite ept_add_enc.
  destruct (add_ld_F ck _ _ X Y) as (s1 & E1 & L1 & V1). destruct (add_ld_F ck _ _ X' Y') as (s2 & E2 & L2 & V2).
  unfold ept_add. rewrite E1, E2. fconst. repeat rstep. rewrite !fF_enc', V1, V2. reflexivity.
Qed.
Lemma add_red_p ck P Q : ld_p P -> ld_p Q -> ppt_add ck P Q = ppt_add ck (red_p P) (red_p Q).
Proof.
  intros (X & Y & Z) (X' & Y' & Z'). unfold red_p. rewrite ppt_add_enc.
  destruct (add_ld_F ck _ _ X Y) as (s1 & E1 & L1 & V1). destruct (add_ld_F ck _ _ X' Y') as (s2 & E2 & L2 & V2).
  unfold ppt_add. rewrite E1, E2. fconst. repeat rstep. rewrite ?fF_enc', V1, V2. reflexivity.
Qed.
Lemma dbl_red_p ck P : ld_p P -> ppt_double ck P = ppt_double ck (red_p P).
Proof.
  intros (X & Y & Z). unfold red_p. rewrite ppt_double_enc.
  destruct (add_ld_F ck _ _ X Y) as (s1 & E1 & L1 & V1).
  unfold ppt_double. rewrite E1, fe_from_u8_2. fconst. repeat rstep. rewrite ?fF_enc', V1. reflexivity.
Qed.

Lemma of_red_p ck P : ld_p P -> ept_of_ppt ck P = ept_of_ppt ck (red_p P).
Proof.
  intros (X & Y & Z). unfold red_p. rewrite ept_of_ppt_enc. unfold ept_of_ppt. repeat rstep. reflexivity.
Qed.
Lemma fF_nz a : fval a mod p <> 0 -> fF a <> 0%F.
Proof. intros N Z. apply N. unfold fF in Z. change 0%F with (toF 0) in Z. apply toF_eq in Z. exact Z. Qed.
Lemma aff_red_e ck P : ld_e P -> fval (eZ P) mod p <> 0 -> apt_of_ept ck P = apt_of_ept ck (red_e P).
Proof.
  intros (X & Y & Z & T) N. unfold red_e. rewrite apt_of_ept_enc by (apply fF_nz; exact N).
  unfold apt_of_ept. rewrite (inverse_ld_F ck _ Z N). repeat rstep. rewrite !fF_enc'. reflexivity.
Qed.
Lemma aff_red_p ck P : ld_p P -> fval (pZ P) mod p <> 0 -> apt_of_ppt ck P = apt_of_ept ck (EPF (fF (pX P)) (fF (pY P)) (fF (pZ P)) 0).
Proof.
  intros (X & Y & Z) N. rewrite apt_of_ept_enc by (apply fF_nz; exact N).
  unfold apt_of_ppt. rewrite (inverse_ld_F ck _ Z N). repeat rstep. rewrite !fF_enc'. reflexivity.
Qed.
Lemma valid_red_p ck P : ld_p P -> ppt_is_valid ck P = ppt_is_valid ck (red_p P).
Proof.
  intros (X & Y & Z). unfold red_p. rewrite ppt_is_valid_enc. unfold ppt_is_valid. fconst. repeat rstep.
  rewrite fe_eqb_F. reflexivity.
Qed.
Lemma valid_red_a ck P : ld_a P -> apt_is_valid ck P = apt_is_valid ck (red_a P).
Proof.
  intros (X & Y). unfold red_a. rewrite apt_is_valid_enc. unfold apt_is_valid. fconst. repeat rstep.
  rewrite fe_eqb_F. reflexivity.
Qed.

Lemma red_ld_e P : reduced_ext P -> ld_e P.
Proof. intros (X & Y & Z & T). repeat split; apply fcanon_loadable; assumption || apply X || apply Y || apply Z || apply T. Qed.
Lemma red_ld_p P : reduced_proj P -> ld_p P.
Proof. intros (X & Y & Z). exact (conj (fcanon_loadable _ X) (conj (fcanon_loadable _ Y) (fcanon_loadable _ Z))). Qed.
Lemma alike_refl_e P : ld_e P -> alike_ext P P.
Proof. intros (X & Y & Z & T). exact (conj (conj X (conj X eq_refl)) (conj (conj Y (conj Y eq_refl)) (conj (conj Z (conj Z eq_refl)) (conj T (conj T eq_refl))))). Qed.
Lemma alike_refl_p P : ld_p P -> alike_proj P P.
Proof. intros (X & Y & Z). exact (conj (conj X (conj X eq_refl)) (conj (conj Y (conj Y eq_refl)) (conj Z (conj Z eq_refl)))). Qed.

(** The multiplications only look at their point through additions and doublings. *)
Section Loops.
Variable T : Type.
Variables (add : T -> T -> res T) (dbl : T -> res T) (alk : T -> T -> Prop) (red : T -> Prop).
Hypothesis red_alk : forall P, red P -> alk P P.
Hypothesis add_alk : forall P P' Q Q', alk P P' -> alk Q Q' -> exists R, add P Q = Ok R /\ add P' Q' = Ok R /\ red R.
Hypothesis dbl_alk : forall P P', alk P P' -> exists R, dbl P = Ok R /\ dbl P' = Ok R /\ red R.

Lemma daa_alk fuel : forall N N' n Q, alk N N' -> red Q ->
  double_and_add_loop add dbl fuel N n Q = double_and_add_loop add dbl fuel N' n Q.
Proof using red_alk add_alk dbl_alk.
  induction fuel as [|fuel IH]; intros N N' n Q HN HQ; [reflexivity|]. cbn [double_and_add_loop].
  destruct (negb (sc_eqb n sc_zero)); [|reflexivity].
  destruct (dbl_alk N N' HN) as (D & E1 & E2 & RD). rewrite E1, E2.
  destruct (negb (sc_is_even n)).
  - destruct (add_alk Q Q N N' (red_alk Q HQ) HN) as (S & E3 & E4 & RS). rewrite E3, E4, !bind_ok.
    apply IH; [apply red_alk, RD|exact RS].
  - rewrite !bind_ok. apply IH; [apply red_alk, RD|exact HQ].
Qed.
Lemma ltr_alk P P' bits i : alk P P' -> forall Q, red Q -> ltr_bin_mul_loop add dbl P bits i Q = ltr_bin_mul_loop add dbl P' bits i Q.
Proof using red_alk add_alk dbl_alk.
  intros HP. induction i as [|i IH]; intros Q HQ; [reflexivity|]. cbn [ltr_bin_mul_loop].
  destruct (dbl_alk Q Q (red_alk Q HQ)) as (D & E1 & _ & RD). rewrite E1, bind_ok.
  destruct (unwrap (nth_error bits i)) as [b| |]; [|reflexivity..]. rewrite !bind_ok.
  destruct (b =? 1).
  - destruct (add_alk D D P P' (red_alk D RD) HP) as (S & E3 & E4 & RS). rewrite E3, E4, !bind_ok. apply IH, RS.
  - rewrite !bind_ok. apply IH, RD.
Qed.
End Loops.

(** The base point with p added to one coordinate. *)
Definition raw_x : ept :=
  EP (FE 948632918433333 1059600755195963 2704687246968114 2630386667454967 31068334271485) (eY BASEPOINT) (eZ BASEPOINT) (eT BASEPOINT).
Definition raw_y : ept :=
  EP (eX BASEPOINT) (FE 1975783658810543 2663783218271643 2702159778610780 2702159776422297 28147497671065) (eZ BASEPOINT) (eT BASEPOINT).
Definition ldb (a : fe) : bool :=
  (0 <=? f0 a) && (f0 a <? 2 ^ 52) && ((0 <=? f1 a) && (f1 a <? 2 ^ 52)) && ((0 <=? f2 a) && (f2 a <? 2 ^ 52)) &&
  ((0 <=? f3 a) && (f3 a <? 2 ^ 52)) && ((0 <=? f4 a) && (f4 a <? 2 ^ 52)) && (fval a <? 2 ^ 256).
Lemma ldb_ok a : ldb a = true -> floadable a.
Proof. unfold ldb. rewrite !andb_true_iff, !Z.leb_le, !Z.ltb_lt. unfold floadable, flimbs. tauto. Qed.
Definition alkb (a b : fe) : bool := ldb a && ldb b && (fval a mod p =? fval b mod p).
Lemma alkb_ok a b : alkb a b = true -> alike a b.
Proof. unfold alkb. rewrite !andb_true_iff, Z.eqb_eq. intros [[A B] C]. exact (conj (ldb_ok _ A) (conj (ldb_ok _ B) C)). Qed.
Lemma raw_x_alike : alike_ext raw_x BASEPOINT.
Proof. unfold alike_ext. refine (conj _ (conj _ (conj _ _))); apply alkb_ok; vm_compute; reflexivity. Qed.
Lemma raw_y_alike : alike_ext raw_y BASEPOINT.
Proof. unfold alike_ext. refine (conj _ (conj _ (conj _ _))); apply alkb_ok; vm_compute; reflexivity. Qed.

(** Ristretto encoding when the second coordinate is reduced. *)
Lemma sub_ld_F ck a y : floadable a -> exists r, fe_sub ck a (enc y) = Ok r /\ flimbs r /\ fF r = (fF a - y)%F.
Proof.
  intros A. destruct (C66_field_sub_stmt ck a (enc y) (proj1 A) (enc_limbs y)) as (r & E & R & V).
  exists r. split; [exact E|]. split; [exact R|].
  assert (K : fval r mod p = (fval a - fval (enc y)) mod p).
  { rewrite V. destruct (Z.ltb_spec (fval a) (fval (enc y))) as [C|C]; [|reflexivity].
    rewrite (Z.mod_small (fval a - fval (enc y) + p) (2 ^ 260)).
    - rewrite <- (Z.mod_add (fval a - fval (enc y)) 1 p) by discriminate. rewrite Z.mul_1_l. reflexivity.
    - rewrite fval_enc in *. pose proof (Frange y) as Ry. pose proof (fval_nonneg _ (proj1 A)) as A0. pose proof p_num as Pn.
      clear - C Ry A0 Pn. change (2 ^ 260) with 1852673427797059126777135760139006525652319754650249024631321344126610074238976. lia. }
  unfold fF. apply toF_eq in K. rewrite K, toF_sub, fval_enc, toF_Fval. reflexivity.
Qed.
Ltac fstp := repeat first [rewrite bind_ok | rewrite fe_mul_F | rewrite fe_square_F | rewrite fe_sub_F | rewrite fe_add_F].
Lemma rp_compress_ld ck P : ld_e P -> fcanon (eY P) ->
  rp_compress ck P = Ok (fe_to_bytes (enc (cfun (fF (eX P)) (fF (eY P)) (fF (eZ P)) (fF (eT P))))).
Proof.
  intros (LX & _ & LZ & LT) CY. rewrite <- (rp_compress_enc ck). unfold EPF, rp_compress.
  cbn [eX eY eZ eT]. rewrite <- (enc_fF _ CY). rewrite !fF_enc'. set (y := fF (eY P)).
  destruct (add_ld_F ck (eZ P) (enc y) LZ (fcanon_loadable _ (proj1 (enc_canon y)))) as (a & -> & La & Va).
  destruct (sub_ld_F ck (eZ P) y LZ) as (b & -> & Lb & Vb).
  rewrite fF_enc' in Va.
  rewrite fe_add_F, !bind_ok, fe_sub_F, !bind_ok, (mul_any_F ck a b La Lb), fe_mul_F, !bind_ok,
    (mul_any_F ck (eX P) (enc y) (proj1 LX) (enc_limbs y)), fF_enc', Va, Vb, fe_mul_F, !bind_ok.
  set (u1 := ((fF (eZ P) + y) * (fF (eZ P) - y))%F). set (u2 := (fF (eX P) * y)%F). fstp.
  rewrite fe_inv_sqrt_F. fstp. set (r := snd _).
  rewrite (mul_any_F ck _ (eT P) (enc_limbs _) (proj1 LT)). fstp. rewrite fF_enc'.
  set (zi := (u1 * r * (u2 * r) * fF (eT P))%F).
  rewrite (mul_any_F ck (eT P) (enc zi) (proj1 LT) (enc_limbs _)), fF_enc'. fstp.
  destruct (negb (fe_is_positive (enc (fF (eT P) * zi)))).
  - rewrite FI_enc, FA_enc. fstp. rewrite (mul_any_F ck (enc FI) (eX P) (enc_limbs _) (proj1 LX)), fF_enc'. fstp.
    rewrite fe_conditional_negate_F. fstp.
    match goal with |- context [fe_sub ck (eZ P) (enc ?v)] => destruct (sub_ld_F ck (eZ P) v LZ) as (c & -> & Lc & Vc) end.
    fstp. rewrite (mul_any_F ck c _ Lc (enc_limbs _)), fF_enc', Vc. fstp. reflexivity.
  - fstp. rewrite (mul_any_F ck (eX P) (enc zi) (proj1 LX) (enc_limbs _)), fF_enc'. fstp. rewrite fe_conditional_negate_F. fstp.
    match goal with |- context [fe_sub ck (eZ P) (enc ?v)] => destruct (sub_ld_F ck (eZ P) v LZ) as (c & -> & Lc & Vc) end.
    fstp. rewrite (mul_any_F ck c _ Lc (enc_limbs _)), fF_enc', Vc. fstp. reflexivity.
Qed.
Lemma inv_sqrt_known ck v r : fcanon v -> fcanon r -> fval r * fval r * fval v mod p = 1 -> fval r <= (p - 1) / 2 ->
  fe_inv_sqrt ck v = Ok (true, r).
Proof.
  intros Cv Cr E L. rewrite <- (enc_fF v Cv), fe_inv_sqrt_F.
  assert (H : (fF r * fF r * fF v)%F = 1%F).
  { unfold fF. rewrite <- !toF_mul. change 1%F with (toF 1). apply toF_eq. rewrite E. reflexivity. }
  assert (N : fF v <> 0%F).
  { intros K. rewrite K in H. apply one_neq_zero. rewrite <- H. ring. }
  assert (P : fposb (fF r) = true).
  { unfold fposb, fF. rewrite Fval_toF, (Z.mod_small (fval r) p) by exact (conj (proj1 (fval_nonneg _ (proj1 Cr))) (proj2 Cr)). apply Z.leb_le. exact L. }
  pose proof (sr_cases 1%F (fF v) one_neq_zero N _ _ (surjective_pairing _)) as [Q [(O & _ & S)|(_ & S & _)]].
  - rewrite O. f_equal. f_equal. rewrite <- (enc_fF r Cr). f_equal.
    generalize dependent (snd (sqrt_ratio_spec 1%F (fF v))). intros s Q S.
    rewrite <- (froot_unique (fF r * fF r)%F (fF r) P eq_refl). symmetry. apply froot_unique; [exact Q|].
    transitivity (s * s * (fF r * fF r * fF v))%F; [rewrite H; ring|]. transitivity (s * s * fF v * (fF r * fF r))%F; [ring|].
    rewrite S. ring.
  - exfalso. apply S. exists (fF r). transitivity (fF r * fF r * fF v / fF v)%F; [field; exact N|]. rewrite H. reflexivity.
Qed.
Lemma canb_ok a : ldb a && (fval a <? p) = true -> fcanon a.
Proof. rewrite andb_true_iff, Z.ltb_lt. intros [A B]. exact (conj (proj1 (ldb_ok _ A)) B). Qed.
Ltac stp := match goal with |- bind ?e ?f = _ => let r := eval vm_compute in e in replace e with r by (vm_compute; reflexivity); rewrite bind_ok; cbv beta end.
Definition raw_w := FE 2378304143940900 1426200561242640 2251744512147124 1306695912889601 15847292039002.
Definition raw_r := FE 3230031018408503 38191417681074 4225106086283624 1272420275580651 5556995714679.
Lemma raw_wr ck : fe_inv_sqrt ck raw_w = Ok (true, raw_r).
Proof.
  apply inv_sqrt_known; [apply canb_ok; vm_compute; reflexivity|apply canb_ok; vm_compute; reflexivity|vm_compute; reflexivity|vm_compute; discriminate].
Qed.
Lemma rp_compress_raw_y ck : rp_compress ck raw_y =
  Ok [37; 231; 73; 32; 138; 66; 102; 94; 126; 166; 196; 97; 235; 33; 157; 141;
      101; 194; 168; 62; 47; 105; 76; 168; 254; 32; 56; 2; 107; 20; 85; 0].
Proof.
  destruct ck; unfold rp_compress; do 6 stp;
    change (FE 2378304143940900 1426200561242640 2251744512147124 1306695912889601 15847292039002) with raw_w;
    [rewrite (raw_wr true)|rewrite (raw_wr false)]; rewrite bind_ok; vm_compute; reflexivity.
Qed.

Lemma sub_add ck P Q N : ld_e P -> ld_e N -> ept_neg ck Q = Ok N -> ept_sub ck P Q = ept_add ck P N.
Proof.
  intros (X & Y & Z & T) (X' & Y' & Z' & T') E. unfold ept_sub. rewrite E, bind_ok.
  destruct (add_ld_F ck _ _ X Y) as (s1 & E1 & L1 & V1). destruct (add_ld_F ck _ _ X' Y') as (s2 & E2 & L2 & V2).
  unfold ept_add. rewrite E1, E2. fconst. repeat rstep.
  assert (K : forall a b, (b - - (1) * a = b + a)%F) by (intros a b; ring).
  rewrite (K (fF (eX P) * fF (eX N))%F (fF (eY P) * fF (eY N))%F). reflexivity.
Qed.

(** ** C105 *)
(** Adding and doubling look only at the residues of the coordinates, and the result is
    reduced.  No curve equation is needed. *)
Lemma C105_add_stmt : forall ck P P' Q Q', alike_ext P P' -> alike_ext Q Q' ->
  exists R, ept_add ck P Q = Ok R /\ ept_add ck P' Q' = Ok R /\ reduced_ext R.
Proof.
  intros ck P P' Q Q' HP HQ. destruct (alike_red_e _ _ HP) as (L1 & L1' & E1), (alike_red_e _ _ HQ) as (L2 & L2' & E2).
  rewrite (add_red_e ck P Q L1 L2), (add_red_e ck P' Q' L1' L2'), E1, E2. unfold red_e. rewrite ept_add_enc.
  cbv zeta. eexists. split; [reflexivity|]. split; [reflexivity|]. apply EPF_reduced.
Qed.
Lemma C105_double_stmt : forall ck P P', alike_ext P P' ->
  exists R, ept_double ck P = Ok R /\ ept_double ck P' = Ok R /\ reduced_ext R.
Proof. intros ck P P' HP. exact (C105_add_stmt ck P P' P P' HP HP). Qed.
Lemma C105_proj_add_stmt : forall ck P P' Q Q', alike_proj P P' -> alike_proj Q Q' ->
  exists R, ppt_add ck P Q = Ok R /\ ppt_add ck P' Q' = Ok R /\ reduced_proj R.
Proof.
  intros ck P P' Q Q' HP HQ. destruct (alike_red_p _ _ HP) as (L1 & L1' & E1), (alike_red_p _ _ HQ) as (L2 & L2' & E2).
  rewrite (add_red_p ck P Q L1 L2), (add_red_p ck P' Q' L1' L2'), E1, E2. unfold red_p. rewrite ppt_add_enc.
  cbv zeta. eexists. split; [reflexivity|]. split; [reflexivity|]. apply PPF_reduced.
Qed.
Lemma C105_proj_double_stmt : forall ck P P', alike_proj P P' ->
  exists R, ppt_double ck P = Ok R /\ ppt_double ck P' = Ok R /\ reduced_proj R.
Proof.
  intros ck P P' HP. destruct (alike_red_p _ _ HP) as (L1 & L1' & E1).
  rewrite (dbl_red_p ck P L1), (dbl_red_p ck P' L1'), E1. unfold red_p. rewrite ppt_double_enc.
  cbv zeta. eexists. split; [reflexivity|]. split; [reflexivity|]. apply PPF_reduced.
Qed.
(** So do the operator for scalar multiplication and the left-to-right multiplication. *)
Lemma C105_mul_stmt : forall ck n,
  (forall P P', alike_ext P P' -> ept_mul ck P n = ept_mul ck P' n /\ rp_mul ck P n = rp_mul ck P' n /\
     ltr_bin_mul (ept_add ck) (ept_double ck) ept_identity P n = ltr_bin_mul (ept_add ck) (ept_double ck) ept_identity P' n) /\
  (forall P P', alike_proj P P' -> ppt_mul ck P n = ppt_mul ck P' n /\
     ltr_bin_mul (ppt_add ck) (ppt_double ck) ppt_identity P n = ltr_bin_mul (ppt_add ck) (ppt_double ck) ppt_identity P' n).
Proof.
  intros ck n.
  assert (I : reduced_ext ept_identity) by (repeat split; apply fcanon_zero || (vm_compute; intuition discriminate)).
  assert (J : reduced_proj ppt_identity) by (repeat split; apply fcanon_zero || (vm_compute; intuition discriminate)).
  assert (RE : forall P, reduced_ext P -> alike_ext P P) by (intros P H; apply alike_refl_e, red_ld_e, H).
  assert (RP : forall P, reduced_proj P -> alike_proj P P) by (intros P H; apply alike_refl_p, red_ld_p, H).
  split; intros P P' H.
  - assert (M : ept_mul ck P n = ept_mul ck P' n).
    { exact (daa_alk ept (ept_add ck) (ept_double ck) alike_ext reduced_ext RE (C105_add_stmt ck) (C105_double_stmt ck) _ P P' n ept_identity H I). }
    split; [exact M|]. split; [exact M|].
    exact (ltr_alk ept (ept_add ck) (ept_double ck) alike_ext reduced_ext RE (C105_add_stmt ck) (C105_double_stmt ck) P P' _ _ H ept_identity I).
  - split.
    + exact (daa_alk ppt (ppt_add ck) (ppt_double ck) alike_proj reduced_proj RP (C105_proj_add_stmt ck) (C105_proj_double_stmt ck) _ P P' n ppt_identity H J).
    + exact (ltr_alk ppt (ppt_add ck) (ppt_double ck) alike_proj reduced_proj RP (C105_proj_add_stmt ck) (C105_proj_double_stmt ck) P P' _ _ H ppt_identity J).
Qed.
(** Conversions, equality, curve membership and compression look only at the residues when Z
    is not divisible by p. *)
Lemma C105_convert_stmt : forall ck,
  (forall P P', alike_ext P P' -> fval (eZ P) mod p <> 0 -> exists R, apt_of_ept ck P = Ok R /\ apt_of_ept ck P' = Ok R) /\
  (forall P P', alike_proj P P' -> fval (pZ P) mod p <> 0 -> exists R, apt_of_ppt ck P = Ok R /\ apt_of_ppt ck P' = Ok R) /\
  (forall P P', alike_proj P P' -> exists R, ept_of_ppt ck P = Ok R /\ ept_of_ppt ck P' = Ok R /\ reduced_ext R) /\
  (forall P P', alike_aff P P' -> exists R R', ept_of_apt ck P = Ok R /\ ept_of_apt ck P' = Ok R' /\ alike_ext R R').
Proof.
  intros ck. split; [|split; [|split]]; intros P P' H.
  - intros N. destruct (alike_red_e _ _ H) as (L1 & L1' & E1).
    assert (N' : fval (eZ P') mod p <> 0) by (rewrite <- (proj2 (proj2 (proj1 (proj2 (proj2 H))))); exact N).
    rewrite (aff_red_e ck P L1 N), (aff_red_e ck P' L1' N'), E1. unfold red_e.
    rewrite apt_of_ept_enc by (apply fF_nz; exact N'). eexists. split; reflexivity.
  - intros N. destruct (alike_red_p _ _ H) as (L1 & L1' & _). destruct H as (HX & HY & HZ).
    assert (N' : fval (pZ P') mod p <> 0) by (rewrite <- (proj2 (proj2 HZ)); exact N).
    rewrite (aff_red_p ck P L1 N), (aff_red_p ck P' L1' N'), (alike_fF _ _ HX), (alike_fF _ _ HY), (alike_fF _ _ HZ).
    rewrite apt_of_ept_enc by (apply fF_nz; exact N'). eexists. split; reflexivity.
  - destruct (alike_red_p _ _ H) as (L1 & L1' & E1). rewrite (of_red_p ck P L1), (of_red_p ck P' L1'), E1.
    unfold red_p. rewrite ept_of_ppt_enc. eexists. split; [reflexivity|]. split; [reflexivity|]. apply EPF_reduced.
  - destruct H as (HX & HY). unfold ept_of_apt.
    rewrite (mul_any_F ck (aX P) (aY P)), (mul_any_F ck (aX P') (aY P')), !bind_ok by (apply ld_limbs; (apply HX || apply HY)).
    eexists. eexists. split; [reflexivity|]. split; [reflexivity|]. unfold alike_ext. cbn [eX eY eZ eT].
    split; [exact HX|]. split; [exact HY|]. rewrite (alike_fF _ _ HX), (alike_fF _ _ HY).
    rewrite <- enc_one. split; (split; [apply enc_ld|split; [apply enc_ld|reflexivity]]).
Qed.
Lemma C105_eq_stmt : forall ck,
  (forall P P' Q Q', alike_ext P P' -> alike_ext Q Q' -> rp_eqb ck P Q = rp_eqb ck P' Q' /\
     (fval (eZ P) mod p <> 0 -> fval (eZ Q) mod p <> 0 -> ept_eqb ck P Q = ept_eqb ck P' Q')) /\
  (forall P P' Q Q', alike_proj P P' -> alike_proj Q Q' ->
     fval (pZ P) mod p <> 0 -> fval (pZ Q) mod p <> 0 -> ppt_eqb ck P Q = ppt_eqb ck P' Q').
Proof.
  intros ck. split; intros P P' Q Q' HP HQ.
  - split.
    + destruct HP as (X & Y & _), HQ as (X' & Y' & _). unfold rp_eqb.
      rewrite (mul_any_F ck (eX P) (eY Q)), (mul_any_F ck (eY P) (eX Q)), (mul_any_F ck (eX P) (eX Q)), (mul_any_F ck (eY P) (eY Q)),
        (mul_any_F ck (eX P') (eY Q')), (mul_any_F ck (eY P') (eX Q')), (mul_any_F ck (eX P') (eX Q')), (mul_any_F ck (eY P') (eY Q'))
        by (apply ld_limbs; first [apply X|apply Y|apply X'|apply Y']).
      rewrite (alike_fF _ _ X), (alike_fF _ _ Y), (alike_fF _ _ X'), (alike_fF _ _ Y'). reflexivity.
    + intros N M. unfold ept_eqb. destruct (proj1 (C105_convert_stmt ck) P P' HP N) as (R & -> & ->).
      destruct (proj1 (C105_convert_stmt ck) Q Q' HQ M) as (S & -> & ->). reflexivity.
  - intros N M. unfold ppt_eqb. destruct (proj1 (proj2 (C105_convert_stmt ck)) P P' HP N) as (R & -> & ->).
    destruct (proj1 (proj2 (C105_convert_stmt ck)) Q Q' HQ M) as (S & -> & ->). reflexivity.
Qed.
Lemma C105_valid_stmt : forall ck,
  (forall P P', alike_ext P P' -> ept_is_valid ck P = ept_is_valid ck P' /\ rp_is_valid ck P = rp_is_valid ck P') /\
  (forall P P', alike_proj P P' -> ppt_is_valid ck P = ppt_is_valid ck P') /\
  (forall P P', alike_aff P P' -> apt_is_valid ck P = apt_is_valid ck P').
Proof.
  intros ck.
  assert (V : forall P P', alike_proj P P' -> ppt_is_valid ck P = ppt_is_valid ck P').
  { intros P P' H. destruct (alike_red_p _ _ H) as (L1 & L1' & E1). rewrite (valid_red_p ck P L1), (valid_red_p ck P' L1'), E1. reflexivity. }
  split; [|split; [exact V|]]; intros P P' H.
  - assert (W : ept_is_valid ck P = ept_is_valid ck P').
    { apply V. destruct H as (X & Y & Z & _). exact (conj X (conj Y Z)). }
    split; [exact W|]. unfold rp_is_valid. rewrite W, (proj1 (proj1 (C105_mul_stmt ck SC_L) P P' H)). reflexivity.
  - destruct (alike_red_a _ _ H) as (L1 & L1' & E1). rewrite (valid_red_a ck P L1), (valid_red_a ck P' L1'), E1. reflexivity.
Qed.
Lemma C105_compress_stmt : forall ck P P', alike_ext P P' -> fval (eZ P) mod p <> 0 -> ept_compress ck P = ept_compress ck P'.
Proof.
  intros ck P P' H N. unfold ept_compress. destruct (proj1 (C105_convert_stmt ck) P P' H N) as (R & -> & ->). reflexivity.
Qed.
(** With the meaning of the points: sums and multiples of points loaded from bytes are right. *)
Lemma C105_meaning_stmt : forall ck P P' Q Q' A B n, alike_ext P P' -> ext_rep P' A -> alike_ext Q Q' -> ext_rep Q' B -> sloadable n ->
  returns_ext (ept_add ck P Q) (sum A B) /\ returns_ext (ept_double ck P) (sum A A) /\ returns_ext (ept_mul ck P n) (multiple (sval n) A).
Proof.
  intros ck P P' Q Q' A B n HP RP HQ RQ Hn.
  destruct (C105_add_stmt ck P P' Q Q' HP HQ) as (R & -> & E & _). destruct (C105_double_stmt ck P P' HP) as (D & -> & E' & _).
  rewrite (proj1 (proj1 (C105_mul_stmt ck n) P P' HP)), <- E, <- E'.
  split; [exact (C29_add_stmt ck _ _ _ _ RP RQ)|]. split; [exact (C29_double_stmt ck _ _ RP)|exact (C36_ext_mul_stmt ck _ _ _ RP Hn)].
Qed.
(** If Z is a nonzero multiple of p the affine point is (0, 0), and such points are all equal. *)
Lemma C105_zero_stmt : forall ck P Q,
  flimbs (eX P) -> flimbs (eY P) -> flimbs (eX Q) -> flimbs (eY Q) ->
  floadable (eZ P) -> fval (eZ P) mod p = 0 -> fval (eZ P) <> 0 -> floadable (eZ Q) -> fval (eZ Q) mod p = 0 -> fval (eZ Q) <> 0 ->
  apt_of_ept ck P = Ok (AP fe_zero fe_zero) /\ ept_eqb ck P Q = Ok true.
Proof.
  intros ck P Q X Y X' Y' L1 M1 N1 L2 M2 N2.
  assert (G : forall P, flimbs (eX P) -> flimbs (eY P) -> floadable (eZ P) -> fval (eZ P) mod p = 0 -> fval (eZ P) <> 0 ->
    apt_of_ept ck P = Ok (AP fe_zero fe_zero)).
  { clear. intros P X Y L1 M1 N1. unfold apt_of_ept. rewrite (C67_inverse_stmt ck _ L1 M1 N1), bind_ok.
    rewrite (mul_any_F ck (eX P) fe_zero X flimbs_zero), (mul_any_F ck (eY P) fe_zero Y flimbs_zero), !bind_ok.
    change (fF fe_zero) with 0%F. generalize (fF (eX P)), (fF (eY P)). intros x y.
    replace (x * 0)%F with 0%F by ring. replace (y * 0)%F with 0%F by ring. rewrite enc_zero. reflexivity. }
  unfold ept_eqb. rewrite (G P X Y L1 M1 N1), (G Q X' Y' L2 M2 N2), !bind_ok. split; reflexivity.
Qed.
(** Subtraction of loaded elements is right exactly up to one p, negation exactly up to p. *)
Lemma C105_field_sub_stmt : forall ck a b, floadable a -> floadable b ->
  (exists r, fe_sub ck a b = Ok r /\ (fval r mod p = (fval a - fval b) mod p <-> fval b <= fval a + p)) /\
  (exists r, fe_neg ck b = Ok r /\ (fval r mod p = (- fval b) mod p <-> fval b <= p)).
Proof.
  assert (G : forall ck a b, floadable a -> floadable b ->
    exists r, fe_sub ck a b = Ok r /\ (fval r mod p = (fval a - fval b) mod p <-> fval b <= fval a + p)).
  { intros ck a b [A A'] [B B']. destruct (C66_field_sub_stmt ck a b A B) as (r & E & _ & V). exists r. split; [exact E|].
    pose proof (fval_nonneg _ A) as A0. pose proof (fval_nonneg _ B) as B0. pose proof p_num as Pn.
    destruct (Z.ltb_spec (fval a) (fval b)) as [C|C].
    2: { rewrite V. split; [intros _; clear - C Pn A0 B0; lia|reflexivity]. }
    rewrite V. clear V E. split.
    - intros H. destruct (Z_le_dec (fval b) (fval a + p)) as [D|D]; [exact D|]. exfalso.
      rewrite (Z.mod_eq (fval a - fval b + p) (2 ^ 260)) in H by discriminate.
      assert (Q : (fval a - fval b + p) / 2 ^ 260 = -1).
      { symmetry. apply Z.div_unique_pos with (fval a - fval b + p + 2 ^ 260); [|ring].
        clear - A0 B0 A' B' D Pn. change (2 ^ 256) with 115792089237316195423570985008687907853269984665640564039457584007913129639936 in *.
        change (2 ^ 260) with 1852673427797059126777135760139006525652319754650249024631321344126610074238976. lia. }
      rewrite Q in H. replace (fval a - fval b + p - 2 ^ 260 * -1) with ((fval a - fval b + 2 ^ 260) + 1 * p) in H by ring.
      rewrite Z_mod_plus_full in H.
      assert (K : ((fval a - fval b + 2 ^ 260) - (fval a - fval b)) mod p = 0).
      { rewrite Zminus_mod, H, Z.sub_diag. reflexivity. }
      replace (fval a - fval b + 2 ^ 260 - (fval a - fval b)) with (2 ^ 260) in K by ring. vm_compute in K. discriminate K.
    - intros D. rewrite (Z.mod_small (fval a - fval b + p) (2 ^ 260)).
      + replace (fval a - fval b + p) with (fval a - fval b + 1 * p) by ring. apply Z_mod_plus_full.
      + clear - A0 B0 A' B' D C Pn. change (2 ^ 256) with 115792089237316195423570985008687907853269984665640564039457584007913129639936 in *.
        change (2 ^ 260) with 1852673427797059126777135760139006525652319754650249024631321344126610074238976. lia. }
  intros ck a b A B. split; [exact (G ck a b A B)|].
  destruct (G ck fe_zero b (fcanon_loadable _ fcanon_zero) B) as (r & E & V). exists r. split; [exact E|]. exact V.
Qed.
(** Negation looks at the representation of the first coordinate and of T, and at nothing else:
    when those are reduced it too respects residues, and so does subtraction. *)
Lemma C105_neg_stmt : forall ck P P' Q Q', alike_ext P P' -> alike_ext Q Q' ->
  fcanon (eX Q) -> fcanon (eT Q) -> fcanon (eX Q') -> fcanon (eT Q') ->
  (exists N N', ept_neg ck Q = Ok N /\ ept_neg ck Q' = Ok N' /\ alike_ext N N') /\
  (exists R, rp_sub ck P Q = Ok R /\ rp_sub ck P' Q' = Ok R /\ reduced_ext R) /\
  (exists R, ept_sub ck P Q = Ok R /\ ept_sub ck P' Q' = Ok R /\ reduced_ext R).
Proof.
  intros ck P P' Q Q' HP HQ X T X' T'.
  assert (H : exists N N', ept_neg ck Q = Ok N /\ ept_neg ck Q' = Ok N' /\ alike_ext N N').
  { destruct HQ as (AX & AY & AZ & AT). apply alike_fF in AX. apply alike_fF in AT.
    unfold ept_neg. rewrite <- (enc_fF _ X), <- (enc_fF _ T), <- (enc_fF _ X'), <- (enc_fF _ T'), AX, AT, !fe_neg_F, !bind_ok.
    eexists. eexists. split; [reflexivity|]. split; [reflexivity|]. unfold alike_ext. cbn [eX eY eZ eT].
    refine (conj _ (conj AY (conj AZ _))).
    - refine (conj _ (conj _ eq_refl)); apply fcanon_loadable, (proj1 (enc_canon _)).
    - refine (conj _ (conj _ eq_refl)); apply fcanon_loadable, (proj1 (enc_canon _)). }
  split; [exact H|]. destruct H as (N & N' & E & E' & A). unfold rp_sub, rp_neg. rewrite E, E', !bind_ok.
  destruct (C105_add_stmt ck P P' N N' HP A) as (R & E1 & E2 & RR). split; [exists R; exact (conj E1 (conj E2 RR))|].
  exists R. destruct (alike_red_e _ _ HP) as (L1 & L1' & _), (alike_red_e _ _ A) as (L2 & L2' & _).
  rewrite (sub_add ck P Q N L1 L2 E), (sub_add ck P' Q' N' L1' L2' E'). exact (conj E1 (conj E2 RR)).
Qed.
Lemma C105_proj_neg_stmt : forall ck P P' Q Q', alike_proj P P' -> alike_proj Q Q' -> fcanon (pX Q) -> fcanon (pX Q') ->
  (exists N N', ppt_neg ck Q = Ok N /\ ppt_neg ck Q' = Ok N' /\ alike_proj N N') /\
  (exists R, ppt_sub ck P Q = Ok R /\ ppt_sub ck P' Q' = Ok R /\ reduced_proj R).
Proof.
  intros ck P P' Q Q' HP HQ X X'.
  assert (H : exists N N', ppt_neg ck Q = Ok N /\ ppt_neg ck Q' = Ok N' /\ alike_proj N N').
  { destruct HQ as (AX & AY & AZ). apply alike_fF in AX.
    unfold ppt_neg. rewrite <- (enc_fF _ X), <- (enc_fF _ X'), AX, !fe_neg_F, !bind_ok.
    eexists. eexists. split; [reflexivity|]. split; [reflexivity|]. unfold alike_proj. cbn [pX pY pZ].
    refine (conj _ (conj AY AZ)). refine (conj _ (conj _ eq_refl)); apply fcanon_loadable, (proj1 (enc_canon _)). }
  split; [exact H|]. destruct H as (N & N' & E & E' & A). unfold ppt_sub. rewrite E, E', !bind_ok.
  exact (C105_proj_add_stmt ck P P' N N' HP A).
Qed.
(** Ristretto encoding looks at the representation of the second coordinate only. *)
Lemma C105_rist_compress_stmt : forall ck P P', alike_ext P P' -> fcanon (eY P) -> fcanon (eY P') -> rp_compress ck P = rp_compress ck P'.
Proof.
  intros ck P P' H Y Y'. destruct (alike_red_e _ _ H) as (L & L' & E).
  rewrite (rp_compress_ld ck P L Y), (rp_compress_ld ck P' L' Y').
  destruct H as (AX & AY & AZ & AT). rewrite (alike_fF _ _ AX), (alike_fF _ _ AY), (alike_fF _ _ AZ), (alike_fF _ _ AT). reflexivity.
Qed.
(** Without those restrictions negation and subtraction are wrong: here P - P is not the
    neutral element. *)
Lemma C105_neg_refuted_stmt : exists P, alike_ext P BASEPOINT /\ ext_rep BASEPOINT base /\ forall ck,
  ~ returns_ext (ept_neg ck P) (opposite base) /\
  (exists N S, ept_neg ck P = Ok N /\ ept_add ck P N = Ok S /\ fval (eX S) mod p <> 0) /\
  (exists S, ept_sub ck P P = Ok S /\ fval (eX S) mod p <> 0).
Proof.
  exists raw_x. split; [exact raw_x_alike|]. split; [exact base_rep|]. intros ck.
  assert (H : exists N S, ept_neg ck raw_x = Ok N /\ ept_add ck raw_x N = Ok S /\ fval (eX S) mod p <> 0).
  { destruct ck; eexists; eexists; (split; [vm_compute; reflexivity|]); (split; [vm_compute; reflexivity|]); vm_compute; discriminate. }
  split; [|split; [exact H|]].
  - intros (N & E & RN). destruct H as (N' & S & E' & ES & EE). rewrite E in E'. injection E' as <-.
    assert (LN : alike_ext N N) by (apply alike_refl_e, red_ld_e; destruct RN as (_ & X & Y & Z & T & _); exact (conj X (conj Y (conj Z T)))).
    destruct (C105_meaning_stmt ck raw_x BASEPOINT N N base (opposite base) sc_zero raw_x_alike base_rep LN RN) as ((S' & E1 & R1) & _).
    { apply scanon_loadable, scanon_zero. }
    rewrite ES in E1. injection E1 as <-.
    rewrite (sum_opposite_r base (proj1 base_rep)) in R1. destruct R1 as (_ & CX & _ & _ & _ & _ & X0 & _).
    apply EE. assert (K : residue (eX S) = toF 0).
    { rewrite X0. unfold origin. cbn [fst]. change (toF 0) with 0%F. ring. }
    apply toF_eq in K. exact K.
  - destruct ck; eexists; (split; [vm_compute; reflexivity|]); vm_compute; discriminate.
Qed.
(** The encoding of a Ristretto point: two forms the code itself calls equal, with different bytes. *)
Lemma C105_rist_compress_refuted_stmt : exists P, alike_ext P RISTRETTO_BASEPOINT /\ forall ck,
  exists b c, rp_compress ck P = Ok b /\ rp_compress ck RISTRETTO_BASEPOINT = Ok c /\ b <> c /\ rp_eqb ck P RISTRETTO_BASEPOINT = Ok true.
Proof.
  exists raw_y. split; [exact raw_y_alike|].
  intros ck. eexists. exists RISTRETTO_BASEPOINT_COMPRESSED. split; [exact (rp_compress_raw_y ck)|].
  split; [exact (proj2 (proj2 (proj2 (proj2 (C60_basepoint_stmt ck)))))|]. split; [vm_compute; discriminate|].
  destruct ck; vm_compute; reflexivity.
Qed.
(** Two loaded forms that are not reduced, and a multiple of p that is not zero. *)
Lemma C105_ex : alike_ext raw_x BASEPOINT /\ ~ fcanon (eX raw_x) /\ alike_ext raw_y BASEPOINT /\ ~ fcanon (eY raw_y) /\
  fval (eZ raw_x) mod p <> 0 /\ floadable FIELD_L /\ fval FIELD_L mod p = 0 /\ fval FIELD_L <> 0.
Proof.
  split; [exact raw_x_alike|]. split; [intros [_ H]; vm_compute in H; discriminate H|].
  split; [exact raw_y_alike|]. split; [intros [_ H]; vm_compute in H; discriminate H|].
  split; [vm_compute; discriminate|]. split; [apply ldb_ok; vm_compute; reflexivity|]. split; [reflexivity|vm_compute; discriminate].
Qed.
