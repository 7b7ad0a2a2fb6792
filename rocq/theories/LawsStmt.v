(** * Laws of the field and scalar interfaces, the Montgomery domain, and unreduced operands

    Statement forms; PropLaws.v restates each of them.                       *)

From Coq Require Import ZArith Znumtheory List Bool Lia Ring Field.
From Verif Require Import Machine FieldModel ScalarModel Spec MachineFacts FieldLimb FieldMul FieldOps FieldBytes
  NumTheory Primes Fp FieldF FieldInv FieldStmt ScalarLimb ScalarOps ScalarBits ScalarStmt LimbFull.
Import ListNotations.
Open Scope Z_scope.

(** ** C65 *)
Lemma C65_field_to_stmt : forall ck a, floadable a ->
  returns_field (fe_to_montgomery ck a) (fval a * 2 ^ 260).
Proof. exact fe_to_montgomery_ok. Qed.

Lemma mod_of_mult x k : (x + k * p) mod p = x mod p.
Proof. apply Z_mod_plus_full. Qed.

Lemma C65_field_from_stmt : forall ck a, flimbs a ->
  exists r, fe_from_montgomery ck a = Ok r /\ fcanon r /\ (fval r * 2 ^ 260) mod p = fval a mod p.
Proof.
  intros ck a A. destruct (fe_from_montgomery_ok ck a A) as (r & k & E & C & V).
  exists r. split; [exact E|]. split; [exact C|]. rewrite V. apply mod_of_mult.
Qed.

Lemma C65_field_mul_stmt : forall ck a b, floadable a -> floadable b ->
  exists r, fe_montgomery_mul ck a b = Ok r /\ fcanon r /\
    (fval r * 2 ^ 260) mod p = (fval a * fval b) mod p.
Proof.
  intros ck a b [A1 A2] [B1 B2]. pose proof (fval_nonneg _ A1). pose proof (fval_nonneg _ B1).
  destruct (fe_montgomery_mul_ok ck a b A1 B1) as (r & k & E & C & V); [apply mul_bound; lia|].
  exists r. split; [exact E|]. split; [exact C|]. rewrite V. apply mod_of_mult.
Qed.

Lemma cancel_R_mod x y : (x * 2 ^ 260) mod p = (y * 2 ^ 260) mod p -> x mod p = y mod p.
Proof.
  intros H. destruct (cancel_R (x - y) ((x * 2 ^ 260) / p - (y * 2 ^ 260) / p)) as (m & Hm).
  { pose proof (Z_div_mod_eq_full (x * 2 ^ 260) p). pose proof (Z_div_mod_eq_full (y * 2 ^ 260) p). lia. }
  replace x with (y + m * p) by lia. apply mod_of_mult.
Qed.

(** Converting there and back reduces modulo p and changes nothing else. *)
Lemma C65_field_roundtrip_stmt : forall ck a, floadable a ->
  exists m r, fe_to_montgomery ck a = Ok m /\ fe_from_montgomery ck m = Ok r /\
    fcanon r /\ fval r = fval a mod p.
Proof.
  intros ck a A. destruct (C65_field_to_stmt ck a A) as (m & Em & Cm & Vm).
  destruct (C65_field_from_stmt ck m) as (r & Er & Cr & Vr); [apply Cm|].
  exists m, r. split; [exact Em|]. split; [exact Er|]. split; [exact Cr|].
  rewrite Vm, Zmod_mod in Vr. apply cancel_R_mod in Vr. rewrite <- Vr. symmetry. now apply canon_small.
Qed.

(** Montgomery multiplication is multiplication in the Montgomery domain. *)
Lemma C65_field_hom_stmt : forall ck a b, floadable a -> floadable b ->
  exists ma mb m r, fe_to_montgomery ck a = Ok ma /\ fe_to_montgomery ck b = Ok mb /\
    fe_montgomery_mul ck ma mb = Ok m /\ fe_from_montgomery ck m = Ok r /\ fe_mul ck a b = Ok r.
Proof.
  intros ck a b A B. destruct (C65_field_to_stmt ck a A) as (ma & Ea & Ca & Va).
  destruct (C65_field_to_stmt ck b B) as (mb & Eb & Cb & Vb).
  destruct (C65_field_mul_stmt ck ma mb) as (m & Em & Cm & Vm); [now apply fcanon_loadable..|].
  destruct (C65_field_from_stmt ck m) as (r & Er & Cr & Vr); [apply Cm|].
  destruct (C02_mul_stmt ck a b A B) as (r' & Er' & Cr' & Vr').
  exists ma, mb, m, r. split; [exact Ea|]. split; [exact Eb|]. split; [exact Em|]. split; [exact Er|].
  rewrite Er'. f_equal. apply fval_inj; [apply Cr'|apply Cr|].
  rewrite Vr', <- (canon_small r Cr). apply cancel_R_mod, cancel_R_mod.
  rewrite Va, Vb in Vm. rewrite <- Zmult_mod in Vm.
  replace (fval a * fval b * 2 ^ 260 * 2 ^ 260) with (fval a * 2 ^ 260 * (fval b * 2 ^ 260)) by ring.
  rewrite <- Vm. rewrite <- (Zmult_mod_idemp_l (fval r * 2 ^ 260)), Vr, Zmult_mod_idemp_l. reflexivity.
Qed.

Lemma mod_of_multL x k : (x + k * L) mod L = x mod L.
Proof. apply Z_mod_plus_full. Qed.

Lemma C65_scalar_to_stmt : forall ck a, slimbs a ->
  returns_scalar (sc_to_montgomery ck a) (sval a * 2 ^ 260).
Proof. exact sc_to_montgomery_ok. Qed.
Lemma C65_scalar_from_stmt : forall ck a, slimbs a ->
  exists r, sc_from_montgomery ck a = Ok r /\ scanon r /\ (sval r * 2 ^ 260) mod L = sval a mod L.
Proof.
  intros ck a A. destruct (sc_from_montgomery_ok ck a A) as (r & k & E & C & V).
  exists r. split; [exact E|]. split; [exact C|]. rewrite V. apply mod_of_multL.
Qed.
Lemma C65_scalar_mul_stmt : forall ck a b, slimbs a -> scanon b ->
  exists r, sc_montgomery_mul ck a b = Ok r /\ scanon r /\
    (sval r * 2 ^ 260) mod L = (sval a * sval b) mod L.
Proof.
  intros ck a b A1 [B1 B2]. pose proof (sval_nonneg _ A1). pose proof (sval_nonneg _ B1).
  destruct (sc_montgomery_mul_ok ck a b A1 B1) as (r & k & E & C & V); [apply smul_bound; lia|].
  exists r. split; [exact E|]. split; [exact C|]. rewrite V. apply mod_of_multL.
Qed.
Lemma cancel_SR_mod x y : (x * 2 ^ 260) mod L = (y * 2 ^ 260) mod L -> x mod L = y mod L.
Proof.
  intros H. destruct (cancel_SR (x - y) ((x * 2 ^ 260) / L - (y * 2 ^ 260) / L)) as (m & Hm).
  { pose proof (Z_div_mod_eq_full (x * 2 ^ 260) L). pose proof (Z_div_mod_eq_full (y * 2 ^ 260) L). lia. }
  replace x with (y + m * L) by lia. apply mod_of_multL.
Qed.
Lemma scanon_small a : scanon a -> sval a mod L = sval a.
Proof. intros [A B]. apply sval_nonneg in A. apply Z.mod_small. lia. Qed.
Lemma C65_scalar_roundtrip_stmt : forall ck a, slimbs a ->
  exists m r, sc_to_montgomery ck a = Ok m /\ sc_from_montgomery ck m = Ok r /\
    scanon r /\ sval r = sval a mod L.
Proof.
  intros ck a A. destruct (C65_scalar_to_stmt ck a A) as (m & Em & Cm & Vm).
  destruct (C65_scalar_from_stmt ck m) as (r & Er & Cr & Vr); [apply Cm|].
  exists m, r. split; [exact Em|]. split; [exact Er|]. split; [exact Cr|].
  rewrite Vm, Zmod_mod in Vr. apply cancel_SR_mod in Vr. rewrite <- Vr. symmetry. now apply scanon_small.
Qed.
Lemma C65_ex : floadable max_loadable /\ slimbs sc_minus_one /\ scanon sc_minus_one /\
  fe_to_montgomery true fe_zero = Ok fe_zero /\
  fe_montgomery_mul true RR_FIELD fe_one <> Ok fe_one /\
  fe_montgomery_mul false RR_FIELD INV_RR <> Ok fe_zero.
Proof.
  split; [apply C02_ex|]. split; [apply C17_ex|]. split; [apply C17_ex|].
  split; [reflexivity|]. split; intros H; vm_compute in H; discriminate H.
Qed.

(** ** C66 *)
(** Addition of any 52-bit limbs: the sum wraps modulo 2^260 and p is subtracted at most once. *)
Lemma C66_field_add_stmt : forall ck a b, flimbs a -> flimbs b ->
  exists r, fe_add ck a b = Ok r /\ flimbs r /\
    let s := (fval a + fval b) mod 2 ^ 260 in fval r = if s <? p then s else s - p.
Proof. exact fe_add_full. Qed.
Lemma C66_field_sub_stmt : forall ck a b, flimbs a -> flimbs b ->
  exists r, fe_sub ck a b = Ok r /\ flimbs r /\
    fval r = if fval a <? fval b then (fval a - fval b + p) mod 2 ^ 260 else fval a - fval b.
Proof. exact fe_sub_full. Qed.
(** On anything loadable from 32 bytes the sum is still right modulo p. *)
Lemma C66_field_add_mod_stmt : forall ck a b, floadable a -> floadable b ->
  exists r, fe_add ck a b = Ok r /\ fval r mod p = (fval a + fval b) mod p.
Proof.
  intros ck a b [A1 A2] [B1 B2]. destruct (fe_add_full ck a b A1 B1) as (r & E & _ & V).
  exists r. split; [exact E|]. pose proof (fval_nonneg _ A1). pose proof (fval_nonneg _ B1).
  rewrite Z.mod_small in V by lia. destruct (fval a + fval b <? p); rewrite V; [reflexivity|].
  replace (fval a + fval b - p) with (fval a + fval b + (-1) * p) by ring. apply mod_of_mult.
Qed.
(** The difference and the negative are not. *)
Lemma C66_field_sub_refuted_stmt : exists a b r, floadable a /\ floadable b /\
  (forall ck, fe_sub ck a b = Ok r) /\ (forall ck, fe_neg ck b = Ok r) /\
  fval r mod p <> (fval a - fval b) mod p.
Proof.
  exists fe_zero, max_loadable.
  exists (FE 671914833335278 3916664325105025 1367801 0 4239716836704256).
  split; [apply fcanon_loadable, fcanon_zero|]. split; [apply C02_ex|].
  split; [intros []; vm_compute; reflexivity|]. split; [intros []; vm_compute; reflexivity|].
  vm_compute. discriminate.
Qed.
Lemma C66_scalar_add_stmt : forall ck a b, slimbs a -> slimbs b ->
  exists r, sc_add ck a b = Ok r /\ slimbs r /\
    let s := (sval a + sval b) mod 2 ^ 260 in sval r = if s <? L then s else s - L.
Proof. exact sc_add_full. Qed.
Lemma C66_scalar_sub_stmt : forall ck a b, slimbs a -> slimbs b ->
  exists r, sc_sub ck a b = Ok r /\ slimbs r /\
    sval r = if sval a <? sval b then (sval a - sval b + L) mod 2 ^ 260 else sval a - sval b.
Proof. exact sc_sub_full. Qed.
Lemma C66_ex : flimbs max_loadable /\ floadable max_loadable /\ slimbs SC_L /\ ~ fcanon max_loadable.
Proof. split; [apply C02_ex|]. split; [apply C02_ex|]. split; [exact slimbs_SC_L|apply C02_ex]. Qed.

(** ** C67 *)
Lemma multiples_of_p a : floadable a -> fval a mod p = 0 -> fval a <> 0 ->
  exists k, 1 <= k <= 15 /\ fval a = k * p.
Proof.
  intros [A1 A2] M N. pose proof (fval_nonneg _ A1) as [A3 _].
  exists (fval a / p). pose proof (Z_div_mod_eq_full (fval a) p) as D. rewrite M in D.
  assert (E : fval a = fval a / p * p) by lia. split; [|exact E].
  rewrite E in A2, A3, N. rewrite p_num in *. change (2 ^ 256) with
    115792089237316195423570985008687907853269984665640564039457584007913129639936 in A2. lia.
Qed.

Definition lm (v : Z) : fe := FE (v mod 2 ^ 52) (v / 2 ^ 52 mod 2 ^ 52) (v / 2 ^ 104 mod 2 ^ 52)
  (v / 2 ^ 156 mod 2 ^ 52) (v / 2 ^ 208 mod 2 ^ 52).
Definition multiples : list fe := Eval vm_compute in map (fun k => lm (k * p)) [1;2;3;4;5;6;7;8;9;10;11;12;13;14;15].
Lemma multiple_in a : floadable a -> fval a mod p = 0 -> fval a <> 0 -> In a multiples.
Proof.
  intros A M N. destruct (multiples_of_p a A M N) as (k & K & E).
  assert (X : forall b, In b multiples -> flimbs b).
  { intros b H. vm_compute in H.
    repeat (destruct H as [<-|H]; [vm_compute; intuition discriminate|]). destruct H. }
  assert (Y : forall b, In b multiples -> fval a = fval b -> In a multiples).
  { intros b H V. replace a with b; [exact H|]. symmetry. apply fval_inj; [apply A|now apply X|exact V]. }
  rewrite E in Y. clear E N M A X.
  assert (K2 : In k [1;2;3;4;5;6;7;8;9;10;11;12;13;14;15]) by (cbn; lia). clear K.
  assert (G : forall j, In j [1;2;3;4;5;6;7;8;9;10;11;12;13;14;15] ->
    existsb (fun b => fval b =? j * p) multiples = true).
  { intros j H. cbn in H. repeat (destruct H as [<-|H]; [vm_compute; reflexivity|]). destruct H. }
  specialize (G k K2). apply existsb_exists in G. destruct G as (b & B1 & B2).
  apply (Y b B1). symmetry. now apply Z.eqb_eq.
Qed.
Lemma multiples_inverse ck : forall a, In a multiples -> fe_inverse ck a = Ok fe_zero.
Proof.
  intros a H. unfold multiples in H. cbn in H.
  repeat (destruct H as [<-|H]; [destruct ck; vm_compute; reflexivity|]). destruct H.
Qed.

(** Inversion of a nonzero multiple of p returns 0; only the reduced zero panics. *)
Lemma C67_inverse_stmt : forall ck a, floadable a -> fval a mod p = 0 -> fval a <> 0 ->
  fe_inverse ck a = Ok fe_zero.
Proof. intros ck a A M N. apply multiples_inverse. now apply multiple_in. Qed.

Lemma eqb_zero_ld a : floadable a -> fe_eqb a fe_zero = (fval a =? 0).
Proof. intros A. rewrite fe_eqb_ok; [reflexivity|exact A|apply fcanon_loadable, fcanon_zero]. Qed.

(** Division of loadable operands. *)
Lemma C67_div_stmt : forall ck a b, floadable a -> floadable b -> fval b mod p <> 0 ->
  exists q, fe_div ck a b = Ok q /\ fe_div_val ck a b = Ok q /\ fcanon q /\
    (fval q * fval b) mod p = fval a mod p.
Proof.
  intros ck a b A B N. assert (N' : fF b <> 0%F) by now rewrite fF_zero.
  exists (enc (fF a * / fF b)). unfold fe_div, fe_div_val.
  rewrite eqb_zero_ld by assumption.
  destruct (Z.eqb_spec (fval b) 0) as [Z0|_]; [rewrite Z0 in N; elim N; reflexivity|].
  cbn [negb rassert]. rewrite bind_ok, fe_inverse_ld by assumption. rewrite bind_ok.
  rewrite fe_mul_ld by (assumption || apply enc_ld). rewrite fF_enc.
  split; [reflexivity|]. split; [reflexivity|]. split; [apply enc_c|].
  rewrite fval_enc. rewrite <- Zmult_mod_idemp_r.
  refine (Fval_mul_eq (fF a * / fF b) (fF b) (fF a) _). field. exact N'.
Qed.
(** Division by a nonzero multiple of p gives 0 instead of panicking. *)
Lemma C67_div_multiple_stmt : forall ck a b, floadable a -> floadable b -> fval b mod p = 0 -> fval b <> 0 ->
  fe_div ck a b = Ok fe_zero /\ fe_div_val ck a b = Ok fe_zero.
Proof.
  intros ck a b A B M N. unfold fe_div, fe_div_val.
  rewrite eqb_zero_ld by assumption. destruct (Z.eqb_spec (fval b) 0) as [Z0|_]; [elim N; exact Z0|].
  cbn [negb rassert]. rewrite bind_ok, C67_inverse_stmt by assumption. rewrite bind_ok.
  rewrite <- enc_zero, fe_mul_ld by (assumption || apply enc_ld). rewrite fF_enc.
  replace (fF a * 0)%F with 0%F by ring. split; reflexivity.
Qed.

Lemma enc_toF_ld a : floadable a -> toF (fval (enc (fF a))) = fF a.
Proof. intros _. rewrite fval_enc. apply toF_Fval. Qed.

(** On an operand that is not 0 modulo p the square root is that of its reduction. *)
Lemma C67_mod_sqrt_stmt : forall ck a sign, floadable a -> fval a mod p <> 0 ->
  (square_mod_p (fval a) ->
     exists r, fe_mod_sqrt ck a sign = Ok (Some r) /\ fcanon r /\ (fval r * fval r) mod p = fval a mod p) /\
  (~ square_mod_p (fval a) -> fe_mod_sqrt ck a sign = Ok None).
Proof.
  intros ck a sign A N. assert (N' : fF a <> 0%F) by now rewrite fF_zero.
  assert (E : fe_mod_sqrt ck a sign = fe_mod_sqrt ck (enc (fF a)) sign).
  { unfold fe_mod_sqrt, fe_mod_sqrt_fuel. rewrite eqb_zero_ld by assumption.
    destruct (Z.eqb_spec (fval a) 0) as [Z0|_]; [rewrite Z0 in N; elim N; reflexivity|].
    rewrite <- enc_zero, fe_eqb_F. destruct (feqb_spec (fF a) 0) as [Z0|_]; [elim N'; exact Z0|].
    rewrite fe_legendre_ld by assumption. rewrite fe_legendre_F, !bind_ok.
    destruct (negb (sqb_F (fF a))); [reflexivity|]. cbv zeta.
    rewrite enc_zero, fe_factor_minus_one, !bind_ok.
    assert (E6 : FE 6 0 0 0 0 = enc (toF 6)) by reflexivity. rewrite E6.
    rewrite fe_pow_F, !bind_ok. rewrite <- enc_one, fe_add_F, !bind_ok.
    assert (Eh : fe_half_without_mod (enc (toF q4 + 1)%F) = enc (toF ((q4 + 1) / 2))) by reflexivity.
    rewrite Eh, !fe_pow_F. rewrite !fe_pow_ld by (assumption || apply enc_limbs).
    rewrite !fval_enc. reflexivity. }
  rewrite E. pose proof (C08_mod_sqrt_stmt ck (enc (fF a)) sign (enc_c _)) as H.
  rewrite <- !is_sq_Z in *. rewrite enc_toF_ld in H by assumption.
  rewrite fval_enc in H. exact H.
Qed.

(** On a nonzero multiple of p the outer loop runs forever: no number of rounds is enough. *)
Lemma sqrt_loop_stuck ck n : forall x c,
  fe_sqrt_loop n ck (enc x) (enc 0) (enc c) (enc (toF 2)) = NoFuel.
Proof.
  induction n as [|n IH]; intros x c; [reflexivity|].
  cbn [fe_sqrt_loop]. rewrite <- enc_one, fe_eqb_F.
  destruct (feqb_spec 0 1) as [E|_]; [apply (f_equal Fval) in E; discriminate E|]. cbn [negb].
  assert (Ord : fe_order_loop loop_fuel ck (enc 0) (enc (toF 2)) fe_zero (fe_from_u8 2) = Ok (enc (toF 2))).
  { destruct ck; vm_compute; reflexivity. }
  rewrite Ord, bind_ok, fe_sub_F, bind_ok, fe_sub_F, bind_ok.
  assert (E2 : fe_two = enc (toF 2)) by reflexivity.
  assert (M1 : Fval (toF 2 - toF 2 - 1) = p - 1) by (vm_compute; reflexivity).
  rewrite E2, fe_pow_F, bind_ok, M1, fpow_fermat by (intros H; apply (f_equal Fval) in H; vm_compute in H; discriminate H).
  rewrite fe_pow_F, bind_ok. change (Fval 1) with 1. rewrite fpow_1.
  rewrite fe_mul_F, bind_ok, fe_square_F, !bind_ok, fe_mul_F, bind_ok.
  replace (0 * (c * c))%F with 0%F by ring. apply IH.
Qed.
Lemma C67_mod_sqrt_diverges_stmt : forall ck a sign, floadable a -> fval a mod p = 0 -> fval a <> 0 ->
  forall n, fe_mod_sqrt_fuel n ck a sign = NoFuel.
Proof.
  intros ck a sign A M N n. assert (Z0 : fF a = 0%F) by now apply fF_zero.
  unfold fe_mod_sqrt_fuel. rewrite eqb_zero_ld by assumption.
  destruct (Z.eqb_spec (fval a) 0) as [E|_]; [elim N; exact E|].
  rewrite fe_legendre_ld by assumption. rewrite Z0, bind_ok.
  destruct (sqb_F_spec 0) as [_|H]; [|elim H; apply is_sq_zero]. cbn [negb]. cbv zeta.
  rewrite fe_factor_minus_one, !bind_ok.
  assert (E6 : FE 6 0 0 0 0 = enc (toF 6)) by reflexivity. rewrite E6.
  rewrite fe_pow_F, !bind_ok. rewrite <- enc_one, fe_add_F, !bind_ok.
  assert (Eh : fe_half_without_mod (enc (toF q4 + 1)%F) = enc (toF ((q4 + 1) / 2))) by reflexivity.
  rewrite Eh. rewrite !fe_pow_ld by (assumption || apply enc_limbs). rewrite !bind_ok, Z0, !fval_enc.
  assert (Fq : Fval (toF q4) = q4) by reflexivity. rewrite Fq, fpow_zero by reflexivity.
  rewrite sqrt_loop_stuck. reflexivity.
Qed.
(** sqrt_ratio_i with the denominator a nonzero multiple of p reports success. *)
Lemma C67_sqrt_ratio_multiple_stmt : forall ck u v, floadable u -> fval u mod p <> 0 ->
  floadable v -> fval v mod p = 0 -> fval v <> 0 ->
  fe_sqrt_ratio_i ck u v = Ok (true, fe_zero) /\ fe_sqrt_ratio_i ck u fe_zero = Ok (false, fe_zero).
Proof.
  intros ck u v U NU V M N. unfold fe_sqrt_ratio_i. rewrite !eqb_zero_ld by assumption.
  destruct (Z.eqb_spec (fval u) 0) as [E|_]; [rewrite E in NU; elim NU; reflexivity|].
  destruct (Z.eqb_spec (fval v) 0) as [E|_]; [elim N; exact E|].
  split; [|reflexivity].
  destruct (C67_div_multiple_stmt ck u v U V M N) as [D _]. rewrite D, !bind_ok.
  rewrite <- enc_zero, fe_legendre_F, bind_ok.
  destruct (sqb_F_spec 0) as [_|H]; [|elim H; apply is_sq_zero].
  rewrite fe_mod_sqrt_F, feqb_refl, bind_ok. cbn [unwrap].
  rewrite bind_ok, fe_is_positive_F, fe_conditional_negate_F, bind_ok.
  replace (fposb 0) with true by reflexivity. reflexivity.
Qed.
Lemma C67_ex : floadable FIELD_L /\ fval FIELD_L mod p = 0 /\ fval FIELD_L <> 0 /\
  floadable max_loadable /\ fval max_loadable mod p <> 0 /\
  floadable (FE 9 0 0 0 0) /\ square_mod_p 9 /\ fval (FE 9 0 0 0 0) mod p <> 0.
Proof.
  split; [vm_compute; intuition discriminate|]. split; [reflexivity|].
  split; [vm_compute; discriminate|]. split; [apply C02_ex|]. split; [vm_compute; discriminate|].
  split; [vm_compute; intuition discriminate|]. split; [exists 3; reflexivity|]. vm_compute; discriminate.
Qed.

(** ** C68 *)
(** Both computations succeed with the same result. *)
Definition agree {A} (o o' : res A) : Prop := exists r, o = Ok r /\ o' = Ok r.

Lemma agree_enc o o' x y : o = Ok (enc x) -> o' = Ok (enc y) -> x = y -> agree o o'.
Proof. intros -> -> ->. exists (enc y). split; reflexivity. Qed.

Ltac fops := rewrite ?fe_add_F, ?bind_ok, ?fe_sub_F, ?bind_ok, ?fe_neg_F, ?bind_ok, ?fe_mul_F, ?bind_ok,
  ?fe_square_F, ?bind_ok, ?fe_add_F, ?bind_ok, ?fe_sub_F, ?bind_ok, ?fe_neg_F, ?bind_ok, ?fe_mul_F, ?bind_ok.
Ltac tof a A := rewrite <- (enc_fF a A); generalize (fF a); clear a A; intros a.
Ltac okenc := apply (f_equal (fun z => Ok (enc z))).

Lemma C68_add_stmt : forall ck a b c, fcanon a -> fcanon b -> fcanon c ->
  agree (fe_add ck a b) (fe_add ck b a) /\
  agree (x <- fe_add ck a b ;; fe_add ck x c) (x <- fe_add ck b c ;; fe_add ck a x) /\
  fe_add ck a fe_zero = Ok a /\
  (x <- fe_neg ck a ;; fe_add ck a x) = Ok fe_zero /\
  agree (fe_sub ck a b) (x <- fe_neg ck b ;; fe_add ck a x) /\
  fe_sub ck a a = Ok fe_zero /\ fe_sub ck a fe_zero = Ok a /\
  agree (fe_sub ck fe_zero a) (fe_neg ck a) /\
  (x <- fe_neg ck a ;; fe_neg ck x) = Ok a /\
  (x <- fe_sub ck a b ;; fe_add ck x b) = Ok a.
Proof.
  intros ck a b c A B C. tof a A. tof b B. tof c C. rewrite <- enc_zero.
  split; [eapply agree_enc; [fops; reflexivity..|ring]|].
  split; [eapply agree_enc; [fops; reflexivity..|ring]|].
  split; [fops; okenc; ring|]. split; [fops; okenc; ring|].
  split; [eapply agree_enc; [fops; reflexivity..|ring]|].
  split; [fops; okenc; ring|]. split; [fops; okenc; ring|].
  split; [eapply agree_enc; [fops; reflexivity..|ring]|].
  split; fops; okenc; ring.
Qed.
Lemma C68_mul_stmt : forall ck a b c, fcanon a -> fcanon b -> fcanon c ->
  agree (fe_mul ck a b) (fe_mul ck b a) /\
  agree (x <- fe_mul ck a b ;; fe_mul ck x c) (x <- fe_mul ck b c ;; fe_mul ck a x) /\
  fe_mul ck a fe_one = Ok a /\ fe_mul ck a fe_zero = Ok fe_zero /\
  agree (x <- fe_add ck b c ;; fe_mul ck a x) (x <- fe_mul ck a b ;; y <- fe_mul ck a c ;; fe_add ck x y) /\
  agree (x <- fe_neg ck a ;; fe_mul ck x b) (x <- fe_mul ck a b ;; fe_neg ck x) /\
  agree (fe_square ck a) (fe_mul ck a a) /\
  agree (fe_mul ck fe_minus_one a) (fe_neg ck a).
Proof.
  intros ck a b c A B C. tof a A. tof b B. tof c C. rewrite <- enc_zero, <- enc_one, <- enc_m1.
  split; [eapply agree_enc; [fops; reflexivity..|ring]|].
  split; [eapply agree_enc; [fops; reflexivity..|ring]|].
  split; [fops; okenc; ring|]. split; [fops; okenc; ring|].
  split; [eapply agree_enc; [fops; reflexivity|rewrite !fe_mul_F, !bind_ok, fe_add_F; reflexivity|ring]|].
  split; [eapply agree_enc; [fops; reflexivity|rewrite fe_mul_F, bind_ok, fe_neg_F; reflexivity|ring]|].
  split; (eapply agree_enc; [fops; reflexivity..|ring]).
Qed.
Lemma enc_zero_iff x : enc x = fe_zero <-> x = 0%F.
Proof.
  split; [|intros ->; exact enc_zero]. intros H. rewrite <- enc_zero in H.
  apply (f_equal fF) in H. rewrite !fF_enc in H. exact H.
Qed.
Lemma C68_domain_stmt : forall ck a b, fcanon a -> fcanon b ->
  fe_mul ck a b = Ok fe_zero -> a = fe_zero \/ b = fe_zero.
Proof.
  intros ck a b A B. tof a A. tof b B. rewrite fe_mul_F. intros H.
  assert (H' : enc (a * b)%F = fe_zero) by congruence. apply enc_zero_iff in H'.
  rewrite !enc_zero_iff. destruct (F_dec a 0) as [E|E]; [left; exact E|]. destruct (F_dec b 0) as [G|G]; [right; exact G|].
  elim (F_mul_nz a b E G H').
Qed.
Lemma C68_field_stmt : forall ck a b, fcanon a -> fcanon b -> b <> fe_zero ->
  (q <- fe_div ck a b ;; fe_mul ck q b) = Ok a /\
  (x <- fe_mul ck a b ;; fe_div ck x b) = Ok a /\
  (x <- fe_inverse ck b ;; fe_mul ck b x) = Ok fe_one /\
  (x <- fe_inverse ck b ;; fe_inverse ck x) = Ok b /\
  agree (fe_div ck a b) (x <- fe_inverse ck b ;; fe_mul ck a x) /\
  agree (fe_inverse ck b) (e <- fe_sub ck fe_minus_one fe_one ;; fe_pow ck b e).
Proof.
  intros ck a b A B N. revert N. tof a A. tof b B. rewrite enc_zero_iff. intros N.
  rewrite fe_div_F by exact N. rewrite fe_inverse_F by exact N. rewrite !bind_ok, !fe_mul_F.
  split; [okenc; field; exact N|]. split; [rewrite bind_ok, fe_div_F by exact N; okenc; field; exact N|].
  split; [rewrite <- enc_one; okenc; field; exact N|].
  split. { rewrite fe_inverse_F by (apply F_inv_nz; exact N). okenc. field.
           split; [exact N|exact one_neq_zero]. }
  split; [eapply agree_enc; [reflexivity..|field; exact N]|].
  eapply agree_enc; [reflexivity| |].
  { rewrite <- enc_one, <- enc_m1, fe_sub_F, bind_ok, fe_pow_F. reflexivity. }
  assert (E : Fval (- (1) - 1) = p - 2) by reflexivity. rewrite E.
  apply (F_mul_cancel_l b); [exact N|]. assert (X : (b * b ^ (p - 2) = b ^ (p - 2) * b)%F) by ring.
  rewrite X, <- fpow_succ by discriminate.
  replace (p - 2 + 1) with (p - 1) by ring. rewrite fpow_fermat by exact N. field. exact N.
Qed.
Lemma C68_ex : fcanon EDWARDS_D /\ fcanon fe_minus_one /\ EDWARDS_D <> fe_zero /\
  fe_mul true EDWARDS_D fe_zero = Ok fe_zero.
Proof.
  split; [apply canon_check; reflexivity|]. split; [apply canon_check; reflexivity|].
  split; [discriminate|]. reflexivity.
Qed.

(** ** C69 *)
Lemma rs_agree o o' v v' : returns_scalar o v -> returns_scalar o' v' -> v mod L = v' mod L -> agree o o'.
Proof.
  intros (r & E & C & V) (r' & E' & C' & V') H. exists r. split; [exact E|]. rewrite E'. f_equal.
  apply sval_inj; [apply C'|apply C|]. rewrite V, V'. symmetry. exact H.
Qed.
Lemma rs_is o v a : returns_scalar o v -> scanon a -> v mod L = sval a -> o = Ok a.
Proof.
  intros (r & E & C & V) A H. rewrite E. f_equal. apply sval_inj; [apply C|apply A|]. rewrite V. exact H.
Qed.
Lemma rs_bind o v f g : returns_scalar o v ->
  (forall r, scanon r -> sval r = v mod L -> returns_scalar (f r) g) -> returns_scalar (r <- o ;; f r) g.
Proof. intros (r & E & C & V) H. rewrite E, bind_ok. now apply H. Qed.
Lemma rs_eq o v v' : returns_scalar o v -> v mod L = v' mod L -> returns_scalar o v'.
Proof. intros (r & E & C & V) H. exists r. rewrite <- H. auto. Qed.

Ltac scadd := apply sc_add_ok; assumption.
Lemma C69_add_stmt : forall ck a b c, scanon a -> scanon b -> scanon c ->
  agree (sc_add ck a b) (sc_add ck b a) /\
  agree (x <- sc_add ck a b ;; sc_add ck x c) (x <- sc_add ck b c ;; sc_add ck a x) /\
  sc_add ck a sc_zero = Ok a /\
  (x <- sc_neg ck a ;; sc_add ck a x) = Ok sc_zero /\
  agree (sc_sub ck a b) (x <- sc_neg ck b ;; sc_add ck a x) /\
  sc_sub ck a a = Ok sc_zero /\
  (x <- sc_neg ck a ;; sc_neg ck x) = Ok a /\
  (x <- sc_sub ck a b ;; sc_add ck x b) = Ok a.
Proof.
  intros ck a b c A B C.
  split. { eapply rs_agree; [scadd..|]. f_equal. ring. }
  split.
  { eapply rs_agree.
    - eapply rs_bind; [scadd|]. intros r R V. eapply rs_eq; [scadd|]. rewrite V. apply Zplus_mod_idemp_l.
    - eapply rs_bind; [scadd|]. intros r R V. eapply rs_eq; [scadd|]. rewrite V. apply Zplus_mod_idemp_r.
    - f_equal. ring. }
  split.
  { eapply rs_is; [apply sc_add_ok; [assumption|exact scanon_zero]|assumption|].
    change (sval sc_zero) with 0. rewrite Z.add_0_r. now apply scanon_small. }
  split.
  { eapply rs_is; [|exact scanon_zero|].
    - eapply rs_bind; [now apply sc_neg_ok|]. intros r R V. eapply rs_eq; [scadd|].
      rewrite V, Zplus_mod_idemp_r. reflexivity.
    - rewrite Z.add_opp_diag_r. reflexivity. }
  split.
  { eapply rs_agree.
    - now apply sc_sub_ok.
    - eapply rs_bind; [now apply sc_neg_ok|]. intros r R V. eapply rs_eq; [scadd|].
      rewrite V, Zplus_mod_idemp_r. reflexivity.
    - f_equal. }
  split.
  { eapply rs_is; [now apply sc_sub_ok|exact scanon_zero|]. rewrite Z.sub_diag. reflexivity. }
  split.
  { eapply rs_is; [|exact A|].
    - eapply rs_bind; [now apply sc_neg_ok|]. intros r R V. eapply rs_eq; [now apply sc_neg_ok|].
      rewrite V. rewrite <- (Z.sub_0_l (_ mod L)), Zminus_mod_idemp_r, Z.sub_0_l. reflexivity.
    - rewrite Z.opp_involutive. now apply scanon_small. }
  eapply rs_is; [|exact A|].
  - eapply rs_bind; [now apply sc_sub_ok|]. intros r R V. eapply rs_eq; [scadd|].
    rewrite V. apply Zplus_mod_idemp_l.
  - replace (sval a - sval b + sval b) with (sval a) by ring. now apply scanon_small.
Qed.
Lemma sc_mul_cc ck a b : scanon a -> scanon b -> returns_scalar (sc_mul ck a b) (sval a * sval b).
Proof. intros [A _] B. now apply sc_mul_ok. Qed.
Ltac scmul := apply sc_mul_cc; assumption.
Lemma C69_mul_stmt : forall ck a b c, scanon a -> scanon b -> scanon c ->
  agree (sc_mul ck a b) (sc_mul ck b a) /\
  agree (x <- sc_mul ck a b ;; sc_mul ck x c) (x <- sc_mul ck b c ;; sc_mul ck a x) /\
  sc_mul ck a sc_one = Ok a /\ sc_mul ck a sc_zero = Ok sc_zero /\
  agree (x <- sc_add ck b c ;; sc_mul ck a x) (x <- sc_mul ck a b ;; y <- sc_mul ck a c ;; sc_add ck x y) /\
  agree (sc_square ck a) (sc_mul ck a a) /\
  agree (sc_mul ck sc_minus_one a) (sc_neg ck a).
Proof.
  intros ck a b c A B C.
  split. { eapply rs_agree; [scmul..|]. f_equal. ring. }
  split.
  { eapply rs_agree.
    - eapply rs_bind; [scmul|]. intros r R V. eapply rs_eq; [scmul|]. rewrite V. apply Zmult_mod_idemp_l.
    - eapply rs_bind; [scmul|]. intros r R V. eapply rs_eq; [scmul|]. rewrite V. apply Zmult_mod_idemp_r.
    - f_equal. ring. }
  split.
  { eapply rs_is; [apply sc_mul_cc; [assumption|exact scanon_one]|assumption|].
    change (sval sc_one) with 1. rewrite Z.mul_1_r. now apply scanon_small. }
  split.
  { eapply rs_is; [apply sc_mul_cc; [assumption|exact scanon_zero]|exact scanon_zero|].
    change (sval sc_zero) with 0. rewrite Z.mul_0_r. reflexivity. }
  split.
  { eapply rs_agree.
    - eapply rs_bind; [scadd|]. intros r R V. eapply rs_eq; [scmul|]. rewrite V. apply Zmult_mod_idemp_r.
    - eapply rs_bind; [scmul|]. intros r R V. eapply rs_bind; [apply sc_mul_cc; [exact A|exact C]|].
      intros t T W. eapply rs_eq; [scadd|]. rewrite V, W. symmetry. apply Zplus_mod.
    - f_equal. ring. }
  split. { eapply rs_agree; [now apply sc_square_ok|scmul|reflexivity]. }
  eapply rs_agree; [apply sc_mul_cc; [apply C17_ex|assumption]|now apply sc_neg_ok|].
  change (sval sc_minus_one) with (L - 1).
  replace ((L - 1) * sval a) with (- sval a + sval a * L) by ring. apply Z_mod_plus_full.
Qed.
Lemma scanon_zero_iff a : scanon a -> (a = sc_zero <-> sval a = 0).
Proof.
  intros A. split; [intros ->; reflexivity|]. intros H.
  apply sval_inj; [apply A|apply scanon_zero|exact H].
Qed.
Lemma scanon_div a : scanon a -> (L | sval a) -> a = sc_zero.
Proof.
  intros A D. apply scanon_zero_iff; [exact A|]. rewrite <- (scanon_small a A).
  now apply Zdivide_mod.
Qed.
Lemma C69_domain_stmt : forall ck a b, scanon a -> scanon b ->
  sc_mul ck a b = Ok sc_zero -> a = sc_zero \/ b = sc_zero.
Proof.
  intros ck a b A B H. destruct (sc_mul_cc ck a b A B) as (r & E & _ & V). rewrite E in H.
  injection H as ->. change (sval sc_zero) with 0 in V. symmetry in V.
  apply Zmod_divide in V; [|discriminate]. apply prime_mult in V; [|exact prime_L].
  destruct V; [left|right]; now apply scanon_div.
Qed.
(** Exponentiation by L - 2 inverts. *)
Lemma C69_inverse_stmt : forall ck a, scanon a -> a <> sc_zero ->
  (e <- sc_sub ck sc_minus_one sc_one ;; x <- sc_pow ck a e ;; sc_mul ck a x) = Ok sc_one.
Proof.
  intros ck a A N.
  eapply rs_is; [|exact scanon_one|].
  - eapply rs_bind; [apply sc_sub_ok; [apply C17_ex|exact scanon_one]|]. intros e Ee Ve.
    eapply rs_bind; [now apply sc_pow_ok|]. intros x X Vx.
    eapply rs_eq; [scmul|]. rewrite Vx. rewrite Zmult_mod_idemp_r.
    assert (E : sval e = L - 2) by (rewrite Ve; reflexivity).
    rewrite E. rewrite <- Z.pow_succ_r by discriminate. reflexivity.
  - replace (Z.succ (L - 2)) with (L - 1) by lia. rewrite fermat; [reflexivity|exact prime_L|].
    intros D. apply N. now apply scanon_div.
Qed.
Lemma C69_ex : scanon sc_minus_one /\ scanon SC_RR /\ SC_RR <> sc_zero /\
  sc_mul true SC_RR sc_zero = Ok sc_zero.
Proof. split; [apply C17_ex|]. split; [apply C17_ex|]. split; [discriminate|]. reflexivity. Qed.
