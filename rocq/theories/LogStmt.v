(** * Statements about the branches of the two builds (C102) and about single decisions (C103) *)

From Coq Require Import ZArith Znumtheory List Bool Lia Ring Field.
From Verif Require Import Machine FieldModel ScalarModel EdwardsModel TableModel RistrettoModel Spec MachineFacts FieldLimb
  FieldMul FieldOps FieldBytes ScalarLimb ScalarOps ScalarBits ScalarNaf NumTheory Primes Fp FieldF FieldInv FieldStmt PointMul Curve
  CurveGroup EdwardsF EdwardsY Rist RistF RistE RistSpec RistrettoStmt GroupCheck GroupStmt MiscStmt ScalarStmt NafStmt
  BranchModel BranchSpec BranchStmt LeakModel LeakStmt LeakPtStmt BuildStmt.
Import ListNotations.
Open Scope Z_scope.

(** Log and outcome are the same in both builds, and a returned value satisfies [Q]. *)
Definition lsteady {A : Type} (Q : A -> Prop) (f : bool -> lres A) : Prop :=
  f true = f false /\ forall ck r, snd (f ck) = Ok r -> Q r.
Lemma ls_bind {A B : Type} (Q : A -> Prop) (R : B -> Prop) (f : bool -> lres A) (g : bool -> A -> lres B) :
  lsteady Q f -> (forall x, Q x -> lsteady R (fun ck => g ck x)) -> lsteady R (fun ck => lbind (f ck) (g ck)).
Proof.
  intros [E H] G. split.
  - cbv beta. rewrite E. apply lbind_ext. intros a Ha. exact (proj1 (G a (H false a Ha))).
  - intros ck r. cbv beta. rewrite snd_lbind. specialize (H ck). destruct (snd (f ck)) as [x| |]; try discriminate.
    intros W. exact (proj2 (G x (H x eq_refl)) ck r W).
Qed.
Lemma ls_quiet {A : Type} (Q : A -> Prop) f : steady Q f -> lsteady Q (fun ck => quiet (f ck)).
Proof. intros [E H]. split; [cbv beta; rewrite E; reflexivity|exact H]. Qed.
Lemma ls_const {A : Type} (m : lres A) : lsteady anything (fun _ => m).
Proof. split; [reflexivity|]. intros. exact I. Qed.
Lemma ls_ok {A : Type} (Q : A -> Prop) x : Q x -> lsteady Q (fun _ => quiet (Ok x)).
Proof. intros H. apply ls_quiet, steady_ok, H. Qed.
Lemma ls_weaken {A : Type} (Q R : A -> Prop) f : (forall x, Q x -> R x) -> lsteady Q f -> lsteady R f.
Proof. intros H [E G]. split; [exact E|]. intros ck r W. exact (H r (G ck r W)). Qed.
Lemma ls_if {A : Type} (Q : A -> Prop) (b : bool) f g : lsteady Q f -> lsteady Q g -> lsteady Q (fun ck => if b then f ck else g ck).
Proof. intros F G. destruct b; assumption. Qed.
Lemma ls_join {A : Type} (Q : A -> Prop) (f : bool -> lres A) (g : bool -> res A) :
  (forall ck, snd (f ck) = g ck) -> steady Q g -> fst (f true) = fst (f false) -> lsteady Q f.
Proof.
  intros E [S H] L. split.
  - apply pair_eq; [exact L|]. rewrite !E. exact S.
  - intros ck r. rewrite E. apply H.
Qed.

Lemma ls_inverse a : fcanon a -> lsteady fcanon (fun ck => fe_inverse_log ck a).
Proof. intros A. apply (ls_join _ _ _ (fun ck => er_inverse ck a) (st_inverse a A)). apply f_equal, inverse_ck, A. Qed.
Lemma ls_div_val a b : fcanon a -> fcanon b -> lsteady fcanon (fun ck => fe_div_val_log ck a b).
Proof. intros A B. unfold fe_div_val_log. eapply ls_bind; [apply ls_inverse, B|intros i Hi]. apply ls_quiet, st_mul; assumption. Qed.
Lemma ls_mod_sqrt a s : fcanon a -> lsteady (some_of fcanon) (fun ck => fe_mod_sqrt_log ck a s).
Proof.
  intros A. apply (ls_join _ _ _ (fun ck => er_mod_sqrt ck a s) (st_mod_sqrt a s A)).
  rewrite <- (enc_fF a A). apply f_equal, mod_sqrt_ck.
Qed.
Lemma ls_ratio a b : fcanon a -> fcanon b -> lsteady (fun q => fcanon (snd q)) (fun ck => fe_sqrt_ratio_i_log ck a b).
Proof.
  intros A B. apply (ls_join _ _ _ (fun ck => er_sqrt_ratio ck a b) (st_ratio a b A B)).
  rewrite <- (enc_fF a A), <- (enc_fF b B). apply f_equal, ratio_ck.
Qed.
Lemma ls_inv_sqrt a : fcanon a -> lsteady (fun q => fcanon (snd q)) (fun ck => fe_inv_sqrt_log ck a).
Proof. intros A. apply ls_ratio; [exact fcanon_one|exact A]. Qed.

Ltac ls1 := first
  [ apply ls_quiet; st1 | apply ls_inverse; canon | apply ls_div_val; canon | apply ls_mod_sqrt; canon
  | apply ls_ratio; canon | apply ls_inv_sqrt; canon
  | match goal with |- lsteady _ (fun _ => ?m) => exact (ls_const m) end ].
Ltac ls := repeat (eapply ls_bind; [ls1|intros ? ?]).
Ltac lfin := apply ls_ok; unfold reduced_ext, reduced_proj, reduced_aff, anything; cbn [eX eY eZ eT pX pY pZ aX aY];
  repeat match goal with |- _ /\ _ => split end; first [exact I | canon].

Lemma ls_apt P : reduced_ext P -> lsteady reduced_aff (fun ck => apt_of_ept_log ck P).
Proof. intros H. open_pt. unfold apt_of_ept_log. ls. lfin. Qed.
Lemma ls_appt P : reduced_proj P -> lsteady reduced_aff (fun ck => apt_of_ppt_log ck P).
Proof. intros H. open_pt. unfold apt_of_ppt_log. ls. lfin. Qed.
Lemma ls_eqb P Q : reduced_ext P -> reduced_ext Q -> lsteady anything (fun ck => ept_eqb_log ck P Q).
Proof.
  intros HP HQ. unfold ept_eqb_log. eapply ls_bind; [exact (ls_apt P HP)|intros a _].
  eapply ls_bind; [exact (ls_apt Q HQ)|intros b _]. lfin.
Qed.
Lemma ls_peqb P Q : reduced_proj P -> reduced_proj Q -> lsteady anything (fun ck => ppt_eqb_log ck P Q).
Proof.
  intros HP HQ. unfold ppt_eqb_log. eapply ls_bind; [exact (ls_appt P HP)|intros a _].
  eapply ls_bind; [exact (ls_appt Q HQ)|intros b _]. lfin.
Qed.
Lemma ls_find_xx y : fcanon y -> lsteady fcanon (fun ck => find_xx_log ck y).
Proof. intros H. unfold find_xx_log. ls. ls1. Qed.
Lemma ls_new_y y s : fcanon y -> lsteady (some_of reduced_proj) (fun ck => ppt_new_from_y_coord_log ck y s).
Proof.
  intros H. apply (ls_join _ _ _ (fun ck => er_new_y ck y s) (bt_ppt_from_y y s H)).
  rewrite <- (enc_fF y H). apply newp_bwd. left. reflexivity.
Qed.
Lemma ls_new_e y s : fcanon y -> lsteady (some_of reduced_ext) (fun ck => ept_new_from_y_coord_log ck y s).
Proof.
  intros H. apply (ls_join _ _ _ (fun ck => er_new_e ck y s) (bt_ept_from_y y s H)).
  rewrite <- (enc_fF y H). apply newe_bwd. left. reflexivity.
Qed.
Lemma ls_decompress b : is_bytes 32 b -> lsteady (some_of reduced_ext) (fun ck => cey_decompress_log ck b).
Proof.
  intros H. apply (ls_join _ _ _ (fun ck => er_decompress ck b) (bt_decompress b H)).
  rewrite !decompress_log by exact H. apply newe_bwd. left. reflexivity.
Qed.
Lemma ls_compress P : reduced_ext P -> lsteady anything (fun ck => ept_compress_log ck P).
Proof.
  intros H. unfold ept_compress_log. eapply ls_bind; [exact (ls_apt P H)|intros [x y] [X Y]]. cbn [aX aY].
  eapply ls_bind; [exact (ls_find_xx y Y)|intros v V]. eapply ls_bind; [exact (ls_mod_sqrt v false V)|intros o _].
  exact (ls_const _).
Qed.
Lemma ls_rp_compress P : reduced_ext P -> lsteady anything (fun ck => rp_compress_log ck P).
Proof.
  intros H. open_pt. unfold rp_compress_log. cbn [eX eY eZ eT]. ls. pair_in. cbn [snd]. ls.
  eapply (ls_bind canon3).
  - apply ls_quiet. match goal with |- context [if ?b then _ else _] => destruct b end.
    + st. apply steady_ok. cbn [canon3]. auto.
    + apply steady_ok. cbn [canon3]. auto.
  - intros [[a1 b1] c1] (Ha & Hb & Hc). cbn [fst snd]. ls. lfin.
Qed.
Lemma ls_ask n b : lsteady (eq b) (fun _ => ask n b).
Proof. split; [reflexivity|]. intros _ r H. injection H as <-. reflexivity. Qed.
Lemma ls_positive a : lsteady (eq (fe_is_positive a)) (fun _ => fe_is_positive_log a).
Proof. split; [reflexivity|]. intros _ r H. rewrite er_is_positive in H. injection H as <-. reflexivity. Qed.
Lemma st_square_ld a : floadable a -> steady fcanon (fun ck => fe_square ck a).
Proof. intros A. eapply steady_all; [intros ck; apply (fe_square_ld ck a A)|apply enc_c]. Qed.
Lemma st_mul_ld a b : floadable a -> floadable b -> steady fcanon (fun ck => fe_mul ck a b).
Proof. intros A B. eapply steady_all; [intros ck; apply (fe_mul_ld ck a b A B)|apply enc_c]. Qed.
Lemma positive_canon b : is_bytes 32 b -> fe_is_positive (fe_from_bytes b) = true -> fcanon (fe_from_bytes b).
Proof.
  intros B H. destruct (fe_from_bytes_ok b B) as [A V]. rewrite fe_is_positive_ok in H by apply A. apply Z.leb_le in H.
  split; [apply A|]. rewrite V in *. pose proof (le_value_bound 32 b B) as R. pose proof p_odd as O. clear - H R O. lia.
Qed.
Lemma ls_cr_decompress b : is_bytes 32 b -> lsteady (some_of reduced_ext) (fun ck => cr_decompress_log ck b).
Proof.
  intros B. apply (ls_join _ _ _ (fun ck => er_cr_decompress ck b) (bt_cr_decompress b B)).
  enough (X : lsteady anything (fun ck => cr_decompress_log ck b)) by (apply f_equal, (proj1 X)).
  unfold cr_decompress_log. cbv zeta.
  eapply ls_bind; [apply ls_positive|intros sp <-].
  eapply ls_bind; [apply ls_ask|intros n <-].
  destruct (fe_is_positive (fe_from_bytes b)) eqn:E; cbn [negb].
  2:{ eapply (ls_bind (eq true)); [apply ls_ok; reflexivity|intros bad <-]. lfin. }
  apply (positive_canon b B) in E. generalize dependent (fe_from_bytes b). intros s Hs.
  eapply ls_bind; [apply ls_const|intros bad _]. destruct bad; [lfin|].
  ls. pair_in. cbn [fst snd]. ls. match goal with x : bool, _ : anything ?x |- _ => destruct x; [lfin|] end.
  ls. lfin.
Qed.
Lemma ls_elligator r : floadable r -> lsteady reduced_ext (fun ck => rp_elligator_log ck r).
Proof.
  intros R. apply (ls_join _ _ _ (fun ck => er_elligator ck r) (bt_elligator r R)).
  enough (X : lsteady anything (fun ck => rp_elligator_log ck r)) by (apply f_equal, (proj1 X)).
  unfold rp_elligator_log. cbv zeta.
  eapply ls_bind; [apply ls_quiet, st_neg; canon|intros ? ?]. eapply ls_bind; [apply ls_quiet, st_square; canon|intros ? ?].
  eapply ls_bind; [apply ls_quiet, st_sub; canon|intros ? ?].
  eapply ls_bind; [apply ls_quiet, st_square_ld, R|intros r2 H2]. do 8 (eapply ls_bind; [ls1|intros ? ?]). pair_in. cbn [fst snd].
  eapply ls_bind; [apply ls_quiet, st_mul_ld; [apply fcanon_loadable; assumption|exact R]|intros sp Hsp].
  eapply ls_bind; [ls1|intros ? ?]. eapply ls_bind; [ls1|intros ? ?].
  destruct b; cbn [negb fe_select].
  - eapply ls_bind; [ls1|intros ? ?]. eapply ls_bind; [ls1|intros ? ?].
    eapply ls_bind; [apply ls_quiet, st_sub; canon|intros ? ?]. ls. lfin.
  - eapply ls_bind; [ls1|intros ? ?]. eapply ls_bind; [ls1|intros ? ?].
    eapply ls_bind; [apply ls_quiet, st_sub; canon|intros ? ?]. ls. lfin.
Qed.

(** *** Scalars and multiplication *)
Lemma agree_join {A : Type} (f : bool -> lres A) (g : bool -> res A) :
  (forall ck, snd (f ck) = g ck) -> agrees g -> fst (f true) = fst (f false) -> f true = f false.
Proof. intros E G L. apply pair_eq; [exact L|]. rewrite !E. exact G. Qed.
Lemma returns_steady f v : (forall ck, returns_scalar (f ck) v) -> steady scanon f.
Proof.
  intros H. split; [exact (agrees_scalar f v H)|]. intros ck r E. destruct (H ck) as (x & Ex & C & _).
  rewrite Ex in E. injection E as <-. exact C.
Qed.
Lemma ls_from_i8 z : -127 <= z <= 127 -> lsteady scanon (fun ck => sc_from_i8_log ck z).
Proof.
  intros H. unfold sc_from_i8_log. eapply (ls_bind anything); [apply ls_const|intros i _].
  apply ls_quiet, (returns_steady _ _ (fun ck => C26_from_i8_stmt ck z H)).
Qed.
Lemma ls_mods k w : slimbs k -> 2 <= w <= 6 -> lsteady (eq (smods (sval k) w)) (fun ck => sc_mods_2_pow_k_log ck k w).
Proof.
  intros K W. apply (ls_join _ _ _ (fun ck => er_mods ck k w)).
  - apply steady_all with (smods (sval k) w); [|reflexivity]. intros ck. apply sc_mods_2_pow_k_ok; [lia|exact K].
  - assert (N : forall ck, fst (sc_mods_2_pow_k_log ck k w) = fst (lbind (sc_mods_2_pow_k_log ck k w) (fun x => quiet (Ok x)))).
    { intros ck. rewrite (fst_lbind _ _ (smods (sval k) w)).
      - cbn [quiet fst]. rewrite app_nil_r. reflexivity.
      - rewrite er_mods. apply sc_mods_2_pow_k_ok; [lia|exact K]. }
    rewrite (N true), (N false), !fst_mods by assumption. reflexivity.
Qed.
Lemma ls_wnaf_loop w : 2 <= w <= 6 -> forall n k i arr, scanon k ->
  lsteady anything (fun ck => sc_wnaf_loop_log n ck w k i arr).
Proof.
  intros W. induction n as [|n IH]; intros k i arr K; cbn [sc_wnaf_loop_log]; [apply ls_const|].
  eapply ls_bind; [apply ls_const|intros c _]. eapply ls_bind; [apply ls_const|intros go _].
  destruct go; [|apply ls_const].
  eapply ls_bind; [apply ls_ask|intros odd <-]. destruct (negb (sc_is_even k)).
  - eapply ls_bind; [exact (ls_mods k w (proj1 K) W)|intros ki <-].
    eapply ls_bind; [apply ls_const|intros arr' _].
    assert (R : -127 <= smods (sval k) w <= 127).
    { pose proof (smods_range (sval k) w ltac:(lia)) as R. assert (2 ^ (w - 1) <= 2 ^ 5) by (apply Z.pow_le_mono_r; lia). lia. }
    eapply ls_bind; [exact (ls_from_i8 _ R)|intros d D].
    eapply ls_bind; [exact (ls_quiet _ _ (returns_steady _ _ (fun ck => C17_sub_stmt ck k d K D)))|intros k' K'].
    apply IH, scanon_half, K'.
  - eapply ls_bind; [apply ls_const|intros arr' _]. apply IH, scanon_half, K.
Qed.
Lemma ls_wNAF k w : scanon k -> 2 <= w <= 6 ->
  lsteady (Forall (fun d => -127 <= d <= 127)) (fun ck => sc_compute_window_NAF_log ck k w).
Proof.
  intros K W. apply (ls_join _ _ _ (fun ck => er_wNAF ck k w) (wnaf_steady k w K W)).
  apply f_equal. exact (proj1 (ls_wnaf_loop w W loop_fuel k 0%nat (repeat 0 256) K)).
Qed.
Lemma ls_NAF k : scanon k -> lsteady anything (fun ck => sc_compute_NAF_log ck k).
Proof.
  intros K. destruct (compute_NAF_ck k K) as (ds & E & _).
  apply (ls_join _ _ _ (fun ck => er_NAF ck k) (steady_all _ _ _ E I)). apply NAF_ck, K.
Qed.
Lemma C63_agree_pow a e : scanon a -> scanon e -> agrees (fun ck => sc_pow ck a e).
Proof. intros A E. exact (agrees_scalar _ _ (fun ck => C20_pow_stmt ck a e A E)). Qed.

Section Mul.
Context {T : Type} (Q : T -> Prop) (add sub : bool -> T -> T -> res T) (dbl : bool -> T -> res T) (id : T).
Hypothesis Hid : Q id.
Hypothesis Hadd : forall a b, Q a -> Q b -> steady Q (fun ck => add ck a b).
Hypothesis Hsub : forall a b, Q a -> Q b -> steady Q (fun ck => sub ck a b).
Hypothesis Hdbl : forall a, Q a -> steady Q (fun ck => dbl ck a).
Lemma ls_da_loop n : forall N k R, Q N -> Q R ->
  lsteady Q (fun ck => double_and_add_loop_log (add ck) (dbl ck) n N k R).
Proof.
  induction n as [|n IH]; intros N k R HN HR; cbn [double_and_add_loop_log]; [apply ls_quiet, steady_const; discriminate|].
  eapply ls_bind; [apply ls_const|intros go _]. destruct go; [|apply ls_ok; exact HR].
  eapply ls_bind; [apply ls_const|intros odd _].
  eapply (ls_bind Q).
  - apply ls_quiet. destruct odd; [exact (Hadd R N HR HN)|apply steady_ok; exact HR].
  - intros R' HR'. eapply ls_bind; [exact (ls_quiet _ _ (Hdbl N HN))|intros N' HN']. exact (IH N' _ R' HN' HR').
Qed.
Lemma ls_da P k : Q P -> lsteady Q (fun ck => double_and_add_log (add ck) (dbl ck) id P k).
Proof. intros H. unfold double_and_add_log. apply ls_da_loop; assumption. Qed.
Lemma ls_ltr_loop P bits n : Q P -> forall R, Q R -> lsteady Q (fun ck => ltr_bin_mul_loop_log (add ck) (dbl ck) P bits n R).
Proof.
  intros HP. induction n as [|n IH]; intros R HR; cbn [ltr_bin_mul_loop_log]; [apply ls_ok; exact HR|].
  eapply ls_bind; [exact (ls_quiet _ _ (Hdbl R HR))|intros R1 H1].
  eapply ls_bind; [apply ls_const|intros b _]. eapply ls_bind; [apply ls_const|intros one _].
  eapply (ls_bind Q); [|intros R2 H2; exact (IH R2 H2)].
  apply ls_quiet. destruct one; [exact (Hadd R1 P H1 HP)|apply steady_ok; exact H1].
Qed.
Lemma ls_ltr P k : Q P -> lsteady Q (fun ck => ltr_bin_mul_log (add ck) (dbl ck) id P k).
Proof. intros H. unfold ltr_bin_mul_log. apply ls_ltr_loop; assumption. Qed.
Lemma ls_naf_loop P naf n : Q P -> forall R, Q R -> lsteady Q (fun ck => binary_naf_mul_loop_log (add ck) (sub ck) (dbl ck) P naf n R).
Proof.
  intros HP. induction n as [|n IH]; intros R HR; cbn [binary_naf_mul_loop_log]; [apply ls_ok; exact HR|].
  eapply ls_bind; [exact (ls_quiet _ _ (Hdbl R HR))|intros R1 H1].
  eapply ls_bind; [apply ls_const|intros b _]. eapply ls_bind; [apply ls_const|intros a _].
  eapply (ls_bind Q); [|intros R2 H2; exact (IH R2 H2)]. apply ls_quiet.
  destruct (a =? 0); [exact (Hadd R1 P H1 HP)|]. destruct (a =? 1); [exact (Hsub R1 P H1 HP)|apply steady_ok; exact H1].
Qed.
Lemma ls_naf P k : Q P -> scanon k -> lsteady Q (fun ck => binary_naf_mul_log ck (add ck) (sub ck) (dbl ck) id P k).
Proof.
  intros H K. unfold binary_naf_mul_log. eapply ls_bind; [exact (ls_NAF k K)|intros naf _]. apply ls_naf_loop; assumption.
Qed.
End Mul.
Lemma ls_window_loop naf n : Forall (fun d => -127 <= d <= 127) naf -> forall R, reduced_ext R ->
  lsteady reduced_ext (fun ck => window_naf_mul_loop_log ck naf n R).
Proof.
  intros N. induction n as [|n IH]; intros R HR; cbn [window_naf_mul_loop_log]; [apply ls_ok; exact HR|].
  eapply ls_bind; [exact (ls_quiet _ _ (bt_ept_double R HR))|intros R1 H1].
  eapply (ls_bind (fun d => -127 <= d <= 127)).
  { apply ls_quiet, steady_const. intros r E. destruct (nth_error naf n) as [x|] eqn:W; [|discriminate E]. injection E as <-.
    apply nth_error_In in W. rewrite Forall_forall in N. exact (N x W). }
  intros k K. eapply ls_bind; [apply ls_const|intros a _].
  eapply (ls_bind reduced_ext); [|intros R2 H2; exact (IH R2 H2)]. apply ls_quiet.
  destruct (a =? 0); [apply steady_ok; exact H1|]. destruct (a =? 1).
  - eapply steady_bind; [apply st_table|intros t Ht]. exact (bt_ept_add R1 t H1 Ht).
  - eapply (steady_bind anything).
    { unfold i8abs. rewrite (proj2 (Z.eqb_neq k (-128))) by (clear - K; lia). apply steady_ok. exact I. }
    intros b _. eapply (steady_bind anything); [apply steady_const; intros; exact I|intros _ _].
    eapply steady_bind; [apply st_table|intros t Ht]. exact (bt_rp_sub R1 t H1 Ht).
Qed.
Lemma ls_window k w : scanon k -> 2 <= w <= 6 -> lsteady reduced_ext (fun ck => window_naf_mul_log ck k w).
Proof.
  intros K W. unfold window_naf_mul_log. eapply ls_bind; [exact (ls_wNAF k w K W)|intros naf N].
  apply ls_window_loop; [exact N|exact id_reduced].
Qed.

(** ** C102 *)

(** Field functions. *)
Lemma C102_field_stmt : forall a b e s k, fcanon a -> fcanon b -> flimbs e -> 0 <= k ->
  fe_pow_log true a e = fe_pow_log false a e /\
  fe_legendre_symbol_log true a = fe_legendre_symbol_log false a /\
  fe_inner_two_pow_k_log true k = fe_inner_two_pow_k_log false k /\
  fe_inverse_log true a = fe_inverse_log false a /\
  fe_div_log true a b = fe_div_log false a b /\
  fe_div_val_log true a b = fe_div_val_log false a b /\
  fe_mod_sqrt_log true a s = fe_mod_sqrt_log false a s /\
  fe_sqrt_ratio_i_log true a b = fe_sqrt_ratio_i_log false a b /\
  fe_inv_sqrt_log true a = fe_inv_sqrt_log false a.
Proof.
  intros a b e s k A B E K.
  split; [rewrite <- (enc_fF a A); apply pow_log_ck, E|].
  split; [rewrite <- (enc_fF a A); apply legendre_ck|].
  split; [apply (agree_join (fun ck => fe_inner_two_pow_k_log ck k) _ (fun ck => er_inner ck k))|].
  1:{ unfold agrees. destruct (Z_lt_ge_dec k 260) as [H|H].
      - destruct (fe_inner_two_pow_k_ok true k (conj K H)) as (x & -> & X & VX),
          (fe_inner_two_pow_k_ok false k (conj K H)) as (y & -> & Y & VY).
        apply f_equal, fval_inj; [exact X|exact Y|]. rewrite VX, VY. reflexivity.
      - unfold fe_inner_two_pow_k. rewrite (proj2 (Z.ltb_ge k 260)) by lia. reflexivity. }
  1:{ unfold fe_inner_two_pow_k_log, lassert. destruct (k <? 260); reflexivity. }
  split; [apply inverse_ck, A|].
  split; [rewrite <- (enc_fF a A), <- (enc_fF b B); apply div_ck|].
  split; [exact (proj1 (ls_div_val a b A B))|].
  split; [exact (proj1 (ls_mod_sqrt a s A))|].
  split; [exact (proj1 (ls_ratio a b A B))|exact (proj1 (ls_inv_sqrt a A))].
Qed.
(** Scalar functions. *)
Lemma C102_scalar_stmt : forall a e k z w, scanon a -> scanon e -> 0 <= k -> -127 <= z <= 127 -> 2 <= w <= 6 ->
  sc_two_pow_k_log true k = sc_two_pow_k_log false k /\
  sc_from_i8_log true z = sc_from_i8_log false z /\
  sc_pow_log true a e = sc_pow_log false a e /\
  sc_mods_2_pow_k_log true a w = sc_mods_2_pow_k_log false a w /\
  sc_compute_NAF_log true a = sc_compute_NAF_log false a /\
  sc_compute_window_NAF_log true a w = sc_compute_window_NAF_log false a w.
Proof.
  intros a e k z w A E K Z W. split.
  { apply (agree_join (fun ck => sc_two_pow_k_log ck k) _ (fun ck => er_two_pow_k ck k)).
    - exact (proj1 (C63_scalar_int_stmt k) K).
    - unfold sc_two_pow_k_log, lassert. destruct (k <? 250); reflexivity. }
  split; [exact (proj1 (ls_from_i8 z Z))|].
  split.
  { apply (agree_join (fun ck => sc_pow_log ck a e) (fun ck => sc_pow ck a e)).
    - intros ck. apply er_sc_pow.
    - exact (C63_agree_pow a e A E).
    - cbv beta. rewrite <- !log_fst. apply (proj2 (C97_pow_stmt true false a a e e A A E E)). reflexivity. }
  split; [exact (proj1 (ls_mods a w (proj1 A) W))|].
  split; [exact (proj1 (ls_NAF a A))|exact (proj1 (ls_wNAF a w A W))].
Qed.
(** Multiplication of points, for any scalar where no recoding is involved. *)
Lemma C102_mul_stmt : forall P R n k w, reduced_ext P -> reduced_proj R -> scanon k -> 2 <= w <= 6 ->
  ept_mul_log true P n = ept_mul_log false P n /\
  ppt_mul_log true R n = ppt_mul_log false R n /\
  rp_mul_log true P n = rp_mul_log false P n /\
  ltr_bin_mul_log (ept_add true) (ept_double true) ept_identity P n =
    ltr_bin_mul_log (ept_add false) (ept_double false) ept_identity P n /\
  ltr_bin_mul_log (ppt_add true) (ppt_double true) ppt_identity R n =
    ltr_bin_mul_log (ppt_add false) (ppt_double false) ppt_identity R n /\
  binary_naf_mul_log true (ept_add true) (ept_sub true) (ept_double true) ept_identity P k =
    binary_naf_mul_log false (ept_add false) (ept_sub false) (ept_double false) ept_identity P k /\
  binary_naf_mul_log true (ppt_add true) (ppt_sub true) (ppt_double true) ppt_identity R k =
    binary_naf_mul_log false (ppt_add false) (ppt_sub false) (ppt_double false) ppt_identity R k /\
  window_naf_mul_log true k w = window_naf_mul_log false k w.
Proof.
  intros P R n k w HP HR K W.
  split; [exact (proj1 (ls_da _ _ _ _ id_reduced bt_ept_add bt_ept_double P n HP))|].
  split; [exact (proj1 (ls_da _ _ _ _ idp_reduced bt_ppt_add bt_ppt_double R n HR))|].
  split; [exact (proj1 (ls_da _ _ _ _ id_reduced bt_ept_add bt_ept_double P n HP))|].
  split; [exact (proj1 (ls_ltr _ _ _ _ id_reduced bt_ept_add bt_ept_double P n HP))|].
  split; [exact (proj1 (ls_ltr _ _ _ _ idp_reduced bt_ppt_add bt_ppt_double R n HR))|].
  split; [exact (proj1 (ls_naf _ _ _ _ _ id_reduced bt_ept_add bt_ept_sub bt_ept_double P k HP K))|].
  split; [exact (proj1 (ls_naf _ _ _ _ _ idp_reduced bt_ppt_add bt_ppt_sub bt_ppt_double R k HR K))|].
  exact (proj1 (ls_window k w K W)).
Qed.
(** Conversion, comparison, encoding and decoding. *)
Lemma C102_points_stmt : forall P Q R S y s b r, reduced_ext P -> reduced_ext Q -> reduced_proj R -> reduced_proj S ->
  fcanon y -> is_bytes 32 b -> floadable r ->
  apt_of_ept_log true P = apt_of_ept_log false P /\
  apt_of_ppt_log true R = apt_of_ppt_log false R /\
  ept_eqb_log true P Q = ept_eqb_log false P Q /\
  ppt_eqb_log true R S = ppt_eqb_log false R S /\
  find_xx_log true y = find_xx_log false y /\
  ppt_new_from_y_coord_log true y s = ppt_new_from_y_coord_log false y s /\
  ept_new_from_y_coord_log true y s = ept_new_from_y_coord_log false y s /\
  ept_compress_log true P = ept_compress_log false P /\
  cey_decompress_log true b = cey_decompress_log false b /\
  rp_compress_log true P = rp_compress_log false P /\
  cr_decompress_log true b = cr_decompress_log false b /\
  rp_elligator_log true r = rp_elligator_log false r.
Proof.
  intros P Q R S y s b r HP HQ HR HS Y B HE.
  split; [exact (proj1 (ls_apt P HP))|]. split; [exact (proj1 (ls_appt R HR))|].
  split; [exact (proj1 (ls_eqb P Q HP HQ))|]. split; [exact (proj1 (ls_peqb R S HR HS))|].
  split; [exact (proj1 (ls_find_xx y Y))|].
  split; [exact (proj1 (ls_new_y y s Y))|]. split; [exact (proj1 (ls_new_e y s Y))|].
  split; [exact (proj1 (ls_compress P HP))|]. split; [exact (proj1 (ls_decompress b B))|].
  split; [exact (proj1 (ls_rp_compress P HP))|]. split; [exact (proj1 (ls_cr_decompress b B))|].
  exact (proj1 (ls_elligator r HE)).
Qed.
(** For coordinates that are not reduced the logs can differ. *)
Lemma C102_unreduced_refuted_stmt : exists P n, scanon n /\ log_of (ept_mul_log true P n) <> log_of (ept_mul_log false P n).
Proof.
  exists (EP (FE 18446744073709551615 0 0 0 0) fe_one fe_one fe_zero), sc_one. split; [exact scanon_one|].
  vm_compute. discriminate.
Qed.
Lemma C102_ex : fcanon fe_minus_one /\ scanon sc_minus_one /\ reduced_ext BASEPOINT /\ reduced_proj ppt_identity /\
  is_bytes 32 (repeat 0 32) /\ floadable fe_minus_one /\
  at_line 10402 (log_of (sc_compute_window_NAF_log true (SC 3 0 0 0 0) 4)) = [1; 0].
Proof.
  split; [exact minus_one_canon|]. split; [apply C17_ex|]. split; [exact red_B|]. split; [exact redp_id|].
  split; [split; [reflexivity|repeat constructor; discriminate]|]. split; [apply fcanon_loadable, minus_one_canon|].
  vm_compute. reflexivity.
Qed.

(** ** C103 *)
Definition nz (d : Z) : Z := if d =? 0 then 0 else 1.
Definition ng (d : Z) : Z := if d <? 0 then 1 else 0.
Definition nonzero (d : Z) : bool := negb (d =? 0).

Lemma set_nth_over {A} (l : list A) v : set_nth (length l) v l = Panic.
Proof. induction l as [|x l IH]; [reflexivity|]. cbn [length set_nth]. rewrite IH. reflexivity. Qed.
Lemma smods_nz k w : 2 <= w -> 0 <= k -> Z.even k = false -> smods k w <> 0.
Proof.
  intros W K E H. destruct (smods_odd_step k w W K) as (q & _ & _ & O & _); [rewrite <- Z.negb_even, E; reflexivity|].
  rewrite H in O. discriminate O.
Qed.
Lemma wnaf_line ck w : 2 <= w <= 6 -> forall n k pre m out, scanon k ->
  snd (sc_wnaf_loop_log n ck w k (length pre) (pre ++ repeat 0 m)) = Ok out ->
  exists ds, (length ds <= m)%nat /\ out = pre ++ ds ++ repeat 0 (m - length ds) /\
    let l := fst (sc_wnaf_loop_log n ck w k (length pre) (pre ++ repeat 0 m)) in
    at_line 10402 l = repeat 1 (length ds) ++ [0] /\
    at_line 10403 l = map nz ds /\
    at_line 10438 l = map ng (filter nonzero ds) /\
    at_line 10073 l = map ng (filter nonzero ds) /\
    (1 <= sval k -> ds <> []) /\ (ds <> [] -> last ds 0 <> 0).
Proof.
  intros W. induction n as [|n IH]; intros k pre m out K H; [discriminate H|].
  pose proof (sval_nonneg _ (proj1 K)) as K0.
  cbn [sc_wnaf_loop_log] in *. rewrite snd_lbind, er_sc_cmp, bind_ok in H. rewrite fst_sc_cmp.
  rewrite snd_lbind in H. unfold ask in H at 1. cbn [snd] in H. rewrite bind_ok in H. rewrite fst_ask.
  rewrite sc_ge_ok, sval_one in * by (apply K || apply scanon_one).
  destruct (Z.leb_spec 1 (sval k)) as [K1|K1].
  2:{ injection H as <-. exists []. split; [cbn; lia|]. split; [rewrite Nat.sub_0_r; reflexivity|]. cbv zeta.
      rewrite !at_app, !at_sc_cmp by lia. repeat split; try reflexivity; [lia|congruence]. }
  rewrite snd_lbind in H. unfold ask in H at 1. cbn [snd] in H. rewrite bind_ok in H. rewrite fst_ask.
  destruct m as [|m].
  { exfalso. cbn [repeat] in H. rewrite app_nil_r in H. destruct (negb (sc_is_even k)).
    - rewrite snd_lbind in H. destruct (snd (sc_mods_2_pow_k_log ck k w)) as [ki| |]; try discriminate H.
      rewrite bind_ok, snd_lbind in H. unfold quiet in H. cbn [snd] in H. rewrite set_nth_over in H. discriminate H.
    - rewrite snd_lbind in H. unfold quiet in H. cbn [snd] in H. rewrite set_nth_over in H. discriminate H. }
  rewrite sc_is_even_ok in *. destruct (Z.even (sval k)) eqn:Ev; cbn [negb Z.b2z] in *.
  - rewrite set_nth_pad in *. rewrite snd_lbind in H. unfold quiet in H at 1. cbn [snd] in H. rewrite bind_ok in H. rewrite fst_quiet.
    destruct (scanon_half k K) as [K' VK].
    replace (S (length pre)) with (length (pre ++ [0])) in * by (rewrite app_length; cbn [length]; lia).
    destruct (IH _ (pre ++ [0]) m out K' H) as (ds & Hl & -> & L1 & L2 & L3 & L4 & L5 & L6).
    exists (0 :: ds). split; [cbn [length]; lia|]. split.
    { rewrite <- app_assoc. reflexivity. }
    cbv zeta. rewrite !at_app, !at_sc_cmp, !at_cons, L1, L2, L3, L4 by lia. repeat split; try reflexivity; [discriminate|]. intros _.
    destruct ds as [|e ds]; [|apply L6; discriminate]. exfalso. apply L5; [|reflexivity]. rewrite VK.
    apply Zeven_bool_iff, Zeven_div2 in Ev. rewrite Z.div2_div in Ev. clear - Ev K1. lia.
  - assert (N := smods_nz (sval k) w (proj1 W) (proj1 K0) Ev).
    assert (E : sc_mods_2_pow_k ck k w = Ok (smods (sval k) w)) by (apply sc_mods_2_pow_k_ok; [lia|exact (proj1 K)]).
    rewrite fst_mods by (exact W || exact (proj1 K)). rewrite snd_lbind, er_mods, E, bind_ok in H.
    set (d := smods (sval k) w) in *.
    assert (R : -127 <= d <= 127).
    { pose proof (smods_range (sval k) w ltac:(lia)) as R. fold d in R.
      assert (2 ^ (w - 1) <= 2 ^ 5) by (apply Z.pow_le_mono_r; lia). lia. }
    clearbody d. rewrite set_nth_pad in *. rewrite snd_lbind in H. unfold quiet in H at 1. cbn [snd] in H. rewrite bind_ok in H. rewrite fst_quiet.
    destruct (sc_from_i8_ok ck d R) as (x & Ex & X & _). rewrite snd_lbind, er_from_i8, Ex, bind_ok in H. rewrite (fst_from_i8 _ _ _ _ Ex).
    destruct (sc_sub_ok ck k x K X) as (k' & Ek & K' & _). rewrite snd_lbind, Ek in H. unfold quiet in H at 1. cbn [snd] in H. rewrite bind_ok in H.
    rewrite Ek, fst_quiet. destruct (scanon_half k' K') as [K2 _].
    replace (S (length pre)) with (length (pre ++ [d])) in * by (rewrite app_length; cbn [length]; lia).
    destruct (IH _ (pre ++ [d]) m out K2 H) as (ds & Hl & -> & L1 & L2 & L3 & L4 & L5 & L6).
    exists (d :: ds). split; [cbn [length]; lia|]. split.
    { rewrite <- app_assoc. reflexivity. }
    cbv zeta. rewrite !at_app, !at_sc_cmp, !at_cons, L1, L2, L3, L4 by lia.
    assert (N1 : nonzero d = true) by (unfold nonzero; rewrite (proj2 (Z.eqb_neq d 0) N); reflexivity).
    assert (N2 : nz d = 1) by (unfold nz; rewrite (proj2 (Z.eqb_neq d 0) N); reflexivity).
    cbn [map filter]. rewrite N1, N2. cbn [map].
    assert (G : (if 0 <=? d then 0 else 1) = (if d <? 0 then 1 else 0)).
    { rewrite Z.leb_antisym. destruct (d <? 0); reflexivity. }
    rewrite G. fold (ng d). repeat split; try reflexivity; [discriminate|]. intros _.
    destruct ds as [|e ds]; [exact N|apply L6; discriminate].
Qed.
(** The binary recoding. *)
Lemma naf_line ck : forall n k pre m out, scanon k ->
  snd (sc_naf_loop_log n ck k (length pre) (pre ++ repeat 0 m)) = Ok out ->
  exists ds, (length ds <= m)%nat /\ out = pre ++ ds ++ repeat 0 (m - length ds) /\
    let l := fst (sc_naf_loop_log n ck k (length pre) (pre ++ repeat 0 m)) in
    at_line 10376 l = repeat 1 (length ds) ++ [0] /\
    at_line 10377 l = map nz ds /\
    at_line 10073 l = map ng (filter nonzero ds) /\
    (1 <= sval k -> ds <> []) /\ (ds <> [] -> last ds 0 <> 0).
Proof.
  induction n as [|n IH]; intros k pre m out K H; [discriminate H|].
  pose proof (sval_nonneg _ (proj1 K)) as K0.
  cbn [sc_naf_loop_log] in *. rewrite snd_lbind, er_sc_cmp, bind_ok in H. rewrite fst_sc_cmp.
  rewrite snd_lbind in H. unfold ask in H at 1. cbn [snd] in H. rewrite bind_ok in H. rewrite fst_ask.
  rewrite sc_ge_ok, sval_one in * by (apply K || apply scanon_one).
  destruct (Z.leb_spec 1 (sval k)) as [K1|K1].
  2:{ injection H as <-. exists []. split; [cbn; lia|]. split; [rewrite Nat.sub_0_r; reflexivity|]. cbv zeta.
      rewrite !at_app, !at_sc_cmp by lia. repeat split; try reflexivity; [lia|congruence]. }
  rewrite snd_lbind in H. unfold ask in H at 1. cbn [snd] in H. rewrite bind_ok in H. rewrite fst_ask.
  rewrite sc_is_even_ok in *. destruct (Z.even (sval k)) eqn:Ev; cbn [negb Z.b2z] in *.
  - destruct m as [|m].
    { exfalso. cbn [repeat] in H. rewrite app_nil_r, snd_lbind in H. unfold quiet in H. cbn [snd] in H. rewrite set_nth_over in H. discriminate H. }
    rewrite set_nth_pad in *. rewrite snd_lbind in H. unfold quiet in H at 1. cbn [snd] in H. rewrite bind_ok in H. rewrite fst_quiet.
    destruct (scanon_half k K) as [K' VK].
    replace (S (length pre)) with (length (pre ++ [0])) in * by (rewrite app_length; cbn [length]; lia).
    destruct (IH _ (pre ++ [0]) m out K' H) as (ds & Hl & -> & L1 & L2 & L3 & L5 & L6).
    exists (0 :: ds). split; [cbn [length]; lia|]. split.
    { rewrite <- app_assoc. reflexivity. }
    cbv zeta. rewrite !at_app, !at_sc_cmp, !at_cons, L1, L2, L3 by lia. repeat split; try reflexivity; [discriminate|]. intros _.
    destruct ds as [|e ds]; [|apply L6; discriminate]. exfalso. apply L5; [|reflexivity]. rewrite VK.
    apply Zeven_bool_iff, Zeven_div2 in Ev. rewrite Z.div2_div in Ev. clear - Ev K1. lia.
  - assert (N := smods_nz (sval k) 2 ltac:(lia) (proj1 K0) Ev).
    assert (O : Z.odd (sval k) = true) by (rewrite <- Z.negb_even, Ev; reflexivity).
    pose proof (naf_digit ck k (proj1 K) O) as G. rewrite sc_mods_2_pow_k_ok in G by (apply K || lia).
    rewrite sc_mod_2_pow_k_ok in G, H |- * by (apply K || lia). rewrite bind_ok in G.
    rewrite snd_lbind in H. unfold quiet in H at 1. cbn [snd] in H. rewrite bind_ok in H. rewrite fst_quiet.
    rewrite snd_lbind in H. unfold quiet in H at 1. cbn [snd] in H. rewrite G, bind_ok in H. rewrite G, fst_quiet.
    pose proof (smods_range (sval k) 2 ltac:(lia)) as R0. change (2 ^ (2 - 1)) with 2 in R0.
    set (d := smods (sval k) 2) in *. assert (R : -127 <= d <= 127) by (clear - R0; lia). clearbody d.
    destruct m as [|m].
    { exfalso. cbn [repeat] in H. rewrite app_nil_r, snd_lbind in H. unfold quiet in H. cbn [snd] in H. rewrite set_nth_over in H. discriminate H. }
    rewrite set_nth_pad in *. rewrite snd_lbind in H. unfold quiet in H at 1. cbn [snd] in H. rewrite bind_ok in H. rewrite fst_quiet.
    destruct (sc_from_i8_ok ck d R) as (x & Ex & X & _). rewrite snd_lbind, er_from_i8, Ex, bind_ok in H. rewrite (fst_from_i8 _ _ _ _ Ex).
    destruct (sc_sub_ok ck k x K X) as (k' & Ek & K' & _). rewrite snd_lbind, Ek in H. unfold quiet in H at 1. cbn [snd] in H. rewrite bind_ok in H.
    rewrite Ek, fst_quiet. destruct (scanon_half k' K') as [K2 _].
    replace (S (length pre)) with (length (pre ++ [d])) in * by (rewrite app_length; cbn [length]; lia).
    destruct (IH _ (pre ++ [d]) m out K2 H) as (ds & Hl & -> & L1 & L2 & L3 & L5 & L6).
    exists (d :: ds). split; [cbn [length]; lia|]. split.
    { rewrite <- app_assoc. reflexivity. }
    cbv zeta. rewrite !at_app, !at_sc_cmp, !at_cons, L1, L2, L3 by lia.
    assert (N1 : nonzero d = true) by (unfold nonzero; rewrite (proj2 (Z.eqb_neq d 0) N); reflexivity).
    assert (N2 : nz d = 1) by (unfold nz; rewrite (proj2 (Z.eqb_neq d 0) N); reflexivity).
    cbn [map filter]. rewrite N1, N2. cbn [map].
    assert (G2 : (if 0 <=? d then 0 else 1) = (if d <? 0 then 1 else 0)).
    { rewrite Z.leb_antisym. destruct (d <? 0); reflexivity. }
    rewrite G2. fold (ng d). repeat split; try reflexivity; [discriminate|]. intros _.
    destruct ds as [|e ds]; [exact N|apply L6; discriminate].
Qed.
Lemma wnaf_def ck a w : sc_compute_window_NAF_log ck a w = sc_wnaf_loop_log loop_fuel ck w a 0 (repeat 0 256).
Proof. unfold sc_compute_window_NAF_log. reflexivity. Qed.
Lemma naf_def ck a : sc_compute_NAF_log ck a = sc_naf_loop_log loop_fuel ck a 0 (repeat 0 256).
Proof. unfold sc_compute_NAF_log. reflexivity. Qed.
(** The loop runs up to the last nonzero digit; its parity tests tell the zero digits from
    the others and the arms give the signs of the others. *)
Lemma C103_window_stmt : forall ck w a ds, 2 <= w <= 6 -> scanon a -> sc_compute_window_NAF ck a w = Ok ds ->
  let l := log_of (sc_compute_window_NAF_log ck a w) in
  exists es, ds = es ++ repeat 0 (256 - length es) /\ (es <> [] -> last es 0 <> 0) /\
    at_line 10402 l = repeat 1 (length es) ++ [0] /\
    at_line 10403 l = map (fun d => if d =? 0 then 0 else 1) es /\
    at_line 10438 l = map (fun d => if d <? 0 then 1 else 0) (filter (fun d => negb (d =? 0)) es) /\
    at_line 10073 l = map (fun d => if d <? 0 then 1 else 0) (filter (fun d => negb (d =? 0)) es).
Proof.
  intros ck w a ds W A H. cbv zeta. rewrite <- er_wNAF, wnaf_def in H. rewrite log_fst, wnaf_def.
  revert H. generalize loop_fuel as fuel. intros fuel H. destruct (wnaf_line ck w W fuel a [] 256 ds A H) as (es & _ & E & L1 & L2 & L3 & L4 & _ & L6).
  exists es. repeat (split; [assumption|]). exact L4.
Qed.
Lemma C103_naf_stmt : forall ck a ds, scanon a -> sc_compute_NAF ck a = Ok ds ->
  let l := log_of (sc_compute_NAF_log ck a) in
  exists es, ds = es ++ repeat 0 (256 - length es) /\ (es <> [] -> last es 0 <> 0) /\
    at_line 10376 l = repeat 1 (length es) ++ [0] /\
    at_line 10377 l = map (fun d => if d =? 0 then 0 else 1) es /\
    at_line 10073 l = map (fun d => if d <? 0 then 1 else 0) (filter (fun d => negb (d =? 0)) es).
Proof.
  intros ck a ds A H. cbv zeta. rewrite <- er_NAF, naf_def in H. rewrite log_fst, naf_def.
  revert H. generalize loop_fuel as fuel. intros fuel H. destruct (naf_line ck fuel a [] 256 ds A H) as (es & _ & E & L1 & L2 & L3 & _ & L6).
  exists es. repeat (split; [assumption|]). exact L3.
Qed.
(** Decoding a scalar: the assertion at the end. *)
Lemma C103_from_bytes_stmt : forall b, is_bytes 32 b ->
  at_line 10465 (log_of (sc_from_bytes_log b)) = [if le_value b <? L then 1 else 0].
Proof.
  intros b B. rewrite log_fst. pose proof (er_from_bytes b) as E. pose proof (sc_from_bytes_ok b B) as V.
  unfold sc_from_bytes_log in *. cbv zeta in *. rewrite fst_sc_cmp, at_app, at_sc_cmp, app_nil_l by lia.
  rewrite snd_lbind, er_sc_cmp, bind_ok, snd_lbind in E.
  destruct (is_le _); [|].
  - cbn [lassert snd rassert] in E. rewrite bind_ok in E. destruct (le_value b <? L); [reflexivity|]. rewrite V in E. discriminate E.
  - cbn [lassert snd rassert] in E. destruct (le_value b <? L); [|reflexivity]. destruct V as (r & V & _). rewrite V in E. discriminate E.
Qed.
(** Powers of two: the assertion, and the arm is the index of the limb that is set. *)
Lemma C103_two_pow_k_stmt : forall ck k, 0 <= k ->
  log_of (sc_two_pow_k_log ck k) = (if k <? 250 then [Br 10531 1; Br 10534 (k / 52)] else [Br 10531 0]) /\
  log_of (fe_inner_two_pow_k_log ck k) = (if k <? 260 then [Br 717 1; Br 720 (k / 52)] else [Br 717 0]).
Proof.
  intros ck k K.
  assert (D : k < 260 -> (if k <=? 51 then 0 else if k <=? 103 then 1 else if k <=? 155 then 2 else if k <=? 207 then 3 else 4) = k / 52).
  { intros U. pose proof (Z.div_mod k 52 ltac:(lia)) as Q. pose proof (Z.mod_pos_bound k 52 ltac:(lia)) as R.
    repeat match goal with |- context [?a <=? ?b] => destruct (Z.leb_spec a b) end; lia. }
  rewrite !log_fst. unfold sc_two_pow_k_log, fe_inner_two_pow_k_log. split.
  - destruct (Z.ltb_spec k 250); [|reflexivity]. rewrite fst_assert, fst_arm, D by lia. reflexivity.
  - destruct (Z.ltb_spec k 260); [|reflexivity]. rewrite fst_assert, fst_arm, D by lia. reflexivity.
Qed.

Lemma at_ratio_far m ck u v : 1000 < m -> at_line m (fst (fe_sqrt_ratio_i_log ck (enc u) (enc v))) = [].
Proof.
  intros M. unfold fe_sqrt_ratio_i_log.
  assert (F1 : forall k, k <= 1000 -> (k =? m) = false) by (intros k K; apply Z.eqb_neq; lia).
  rewrite fst_arm, at_cons, F1 by lia. rewrite app_nil_l.
  rewrite <- enc_zero, !fe_eqb_F. destruct (feqb_spec u 0) as [_|U]; [reflexivity|]. destruct (feqb_spec v 0) as [_|V]; [reflexivity|].
  assert (D : at_line m (fst (fe_div_log ck (enc u) (enc v))) = [] /\ snd (fe_div_log ck (enc u) (enc v)) = Ok (enc (u / v))).
  { split; [|rewrite er_div; apply fe_div_F, V]. unfold fe_div_log. rewrite <- enc_zero, fe_eqb_F.
    destruct (feqb_spec v 0) as [E|_]; [elim (V E)|]. cbn [negb]. rewrite fst_assert, at_cons, F1 by lia. rewrite app_nil_l.
    rewrite at_lbind; [apply at_inverse_far, M|]. intros a. reflexivity. }
  destruct D as [D1 D2]. change (2 =? 0) with false. change (2 =? 1) with false. cbv iota. rewrite (fst_lbind _ _ _ D2), at_app, D1, app_nil_l.
  assert (Lg : at_line m (fst (fe_legendre_symbol_log ck (enc (u / v)))) = []).
  { unfold fe_legendre_symbol_log. rewrite at_lbind by reflexivity. apply at_pow; lia. }
  apply at_bind_nil; [exact Lg|intros leg]. rewrite fst_ask, at_cons, F1 by lia. rewrite app_nil_l.
  assert (T : forall y b, at_line m (fst (o <~ fe_mod_sqrt_log ck (enc y) true;; x <~ quiet (unwrap o);;
      pos <~ fe_is_positive_log x;; x0 <~ quiet (fe_conditional_negate ck x (negb pos));; quiet (Ok (b : bool, x0)))) = []).
  { intros y b. apply at_bind_nil; [rewrite mod_sqrt_log_ok; apply at_msq; left; exact M|intros o].
    apply at_bind_nil; [reflexivity|intros x]. apply at_bind_nil; [apply at_is_positive; lia|intros pos].
    apply at_bind_nil; [reflexivity|intros z]. reflexivity. }
  destruct leg; rewrite (fst_lbind _ _ _ D2), at_app, D1, app_nil_l.
  - apply T.
  - fconst. rewrite fe_mul_F, fst_quiet. apply T.
Qed.
Lemma inv_far m ck v : 1000 < m -> at_line m (fst (fe_inv_sqrt_log ck (enc v))) = [].
Proof. intros M. unfold fe_inv_sqrt_log. rewrite <- enc_one. apply at_ratio_far, M. Qed.
Lemma at_pos m x : 1000 < m -> at_line m (fst (fe_is_positive_log x)) = [].
Proof. intros M. apply at_is_positive; lia. Qed.
Lemma pos_553 x : at_line 553 (fst (fe_is_positive_log (enc x))) = [1; Z.b2z (fposb x)].
Proof.
  unfold fe_is_positive_log. rewrite fst_cmp, at_app, at_cmp, fst_ask, at_cons by lia.
  assert (G : is_ge (fe_cmp (enc x) fe_zero) = true).
  { rewrite fe_ge_ok by (auto with fe || apply fcanon_zero). apply Z.leb_le. rewrite fval_zero. apply fval_nonneg. auto with fe. }
  rewrite G. rewrite fst_cmp, at_app, at_cmp by lia. cbn [ask fst]. rewrite at_cons. cbn [Z.eqb Pos.eqb app Z.b2z at_line filter map].
  rewrite <- fe_is_positive_F. unfold fe_is_positive. rewrite G. cbn [andb].
  destruct (is_le (fe_cmp (enc x) POS_RANGE)); reflexivity.
Qed.
Lemma snd_inv ck v : snd (fe_inv_sqrt_log ck (enc v)) = Ok (fst (sqrt_ratio_spec 1 v), enc (snd (sqrt_ratio_spec 1 v))).
Proof. rewrite er_inv_sqrt. apply fe_inv_sqrt_F. Qed.

Lemma at_inv {B} m ck w (g : bool * fe -> lres B) : 1000 < m ->
  at_line m (fst (lbind (fe_inv_sqrt_log ck (enc w)) g)) = at_line m (fst (g (fst (sqrt_ratio_spec 1 w), enc (snd (sqrt_ratio_spec 1 w))))).
Proof. intros M. rewrite (fst_lbind _ _ _ (snd_inv ck w)), at_app, inv_far by exact M. reflexivity. Qed.
Lemma at_posb {B} m x (g : bool -> lres B) : 1000 < m ->
  at_line m (fst (lbind (fe_is_positive_log (enc x)) g)) = at_line m (fst (g (fposb x))).
Proof. intros M. rewrite (fst_lbind _ _ _ (er_is_positive _)), at_app, at_pos, fe_is_positive_F by exact M. reflexivity. Qed.

(** *** The encoder of Ristretto points *)
Lemma rp_407 ck X Y Z T :
  let u1 := ((Z + Y) * (Z - Y))%F in let u2 := (X * Y)%F in
  let r := snd (sqrt_ratio_spec 1 (u1 * (u2 * u2))) in
  at_line 30407 (fst (rp_compress_log ck (EPF X Y Z T))) = [Z.b2z (negb (fposb (T * (u1 * r * (u2 * r) * T))))].
Proof.
  cbv zeta. unfold rp_compress_log, EPF. cbn [eX eY eZ eT]. lrun.
  rewrite (fst_lbind _ _ _ (snd_inv ck _)), at_app, inv_far, app_nil_l by lia. cbn [fst snd]. lrun.
  rewrite (fst_lbind _ _ _ (er_is_positive _)), at_app, at_pos, app_nil_l by lia. rewrite fe_is_positive_F.
  rewrite fst_ask, at_cons. change (30407 =? 30407) with true. cbv iota.
  match goal with |- [?a] ++ ?l = [?b] => assert (N : l = []); [|rewrite N; reflexivity] end.
  apply at_bind_nil; [reflexivity|intros xyD]. at_tail. reflexivity.
Qed.
Lemma C103_ristretto_compress_stmt : forall ck P A, ext_rep P A -> even_point A ->
  at_line 30407 (log_of (rp_compress_log ck P)) = [if Fval (fst A * snd A)%F <=? (p - 1) / 2 then 0 else 1].
Proof.
  intros ck P A R E. apply ext_rep_iff in R. destruct R as (Q & z & -> & N & ->). apply even_even in E.
  rewrite log_fst. unfold ext. rewrite rp_407. fold (xc Q) (yc Q).
  fold (fposb (xc Q * yc Q)).
  match goal with |- [Z.b2z (negb (fposb ?t))] = _ => assert (K : t = (xc Q * yc Q)%F); [|rewrite K; destruct (fposb _); reflexivity] end.
  destruct (feqb_spec (xc Q * yc Q) 0) as [H|H].
  { rewrite H. ring. }
  set (x := xc Q) in *. set (y := yc Q) in *. pose proof (y2_nz Q H) as Hy. fold y in Hy.
  set (u1 := ((z + y * z) * (z - y * z))%F). set (u2 := ((x * z) * (y * z))%F). set (w := (u1 * (u2 * u2))%F).
  assert (U1 : u1 = ((z * z) * (1 - y * y))%F) by (unfold u1; ring).
  assert (U2 : u2 = ((z * z) * (x * y))%F) by (unfold u2; ring).
  assert (Nz : (z * z)%F <> 0%F) by (apply F_mul_nz; exact N).
  assert (N1 : u1 <> 0%F) by (rewrite U1; apply F_mul_nz; assumption).
  assert (N2 : u2 <> 0%F) by (rewrite U2; apply F_mul_nz; assumption).
  assert (Nw : w <> 0%F) by (apply F_mul_nz; [exact N1|apply F_mul_nz; exact N2]).
  assert (Sw : is_sq w).
  { apply is_sq_mul; [|exists u2; reflexivity]. rewrite U1. apply is_sq_mul; [exists z; reflexivity|].
    assert (K : (1 - y * y)%F = (- (1) * (x * x * ev Q))%F) by (unfold x, y; rewrite ev_curve; ring).
    rewrite K. apply is_sq_mul; [exact m1_sq|]. apply is_sq_mul; [exists x; reflexivity|exact E]. }
  destruct (fst (sqrt_ratio_spec 1 w)) eqn:Ok.
  2:{ apply isr_false in Ok. destruct Ok as [K|K]; [elim (Nw K)|elim (K Sw)]. }
  apply isr_true in Ok. destruct Ok as [_ R]. set (r := snd (sqrt_ratio_spec 1 w)) in *.
  transitivity ((x * y) * (r * r * (u1 * u2 * (x * y * z * z))))%F; [ring|].
  assert (K : (u1 * u2 * (x * y * z * z))%F = w) by (unfold w; rewrite U2; ring). rewrite K, R. ring.
Qed.

(** *** The decoder of Ristretto points *)
Lemma cr_112 ck b : is_bytes 32 b ->
  at_line 30112 (fst (cr_decompress_log ck b)) = (if le_value b <=? (p - 1) / 2 then [0; 0] else [1]).
Proof.
  intros B. unfold cr_decompress_log. cbv zeta. rewrite (fst_lbind _ _ _ (er_is_positive _)), at_app, at_pos, app_nil_l by lia.
  destruct (fe_from_bytes_ok b B) as [A V]. rewrite fe_is_positive_ok, V by apply A. rewrite fst_ask, at_cons.
  change (30112 =? 30112) with true. cbv iota. rewrite (fe_to_from_bytes b B).
  assert (E : bytes_eqb b b = true) by (apply bytes_eqb_spec; reflexivity). rewrite E. clear E.
  destruct (le_value b <=? (p - 1) / 2) eqn:Q; cbn [negb]; [|reflexivity].
  rewrite fst_ask, at_cons. change (30112 =? 30112) with true. cbn [Z.b2z app]. apply f_equal, f_equal.
  assert (C : fcanon (fe_from_bytes b)).
  { apply positive_canon; [exact B|]. rewrite fe_is_positive_ok, V by apply A. exact Q. }
  rewrite <- (enc_fF _ C). generalize (fF (fe_from_bytes b)). clear. intros s.
  fconst. lrun. apply at_bind_nil; [apply inv_far; lia|intros okI].
  rewrite fst_ask, at_cons. cbn [Z.eqb Pos.eqb app]. destruct (negb (fst okI)); [reflexivity|].
  at_tail. match goal with |- context [if ?c then quiet (Ok true) else _] => destruct c end; reflexivity.
Qed.
Lemma cr_tail ck b : is_bytes 32 b -> le_value b <= (p - 1) / 2 ->
  let l := fst (cr_decompress_log ck b) in let s := toF (le_value b) in
  let u1 := (1 - s * s)%F in let u2 := (1 + s * s)%F in let v := (- (cd * (u1 * u1)) - u2 * u2)%F in
  let q := sqrt_ratio_spec 1 (v * (u2 * u2)) in let r := snd q in
  let x := fabs ((s + s) * (r * u2)) in let y := (u1 * (r * (r * u2) * v))%F in
  at_line 30128 l = [Z.b2z (negb (fst q))] /\
  at_line 30144 l = (if fst q then if fposb (x * y) then [0; Z.b2z (feqb y 0)] else [1] else []).
Proof.
  intros B Lb. unfold cr_decompress_log. cbv zeta.
  destruct (fe_from_bytes_ok b B) as [A V].
  assert (Q : fe_is_positive (fe_from_bytes b) = true).
  { rewrite fe_is_positive_ok, V by apply A. apply Z.leb_le, Lb. }
  assert (C : fcanon (fe_from_bytes b)) by (apply positive_canon; assumption).
  rewrite (fst_lbind _ _ _ (er_is_positive _)), !at_app, !at_pos, !app_nil_l by lia. rewrite Q.
  rewrite fst_ask, !at_cons. cbn [Z.eqb Pos.eqb app negb].
  rewrite (fe_to_from_bytes b B).
  assert (E : bytes_eqb b b = true) by (apply bytes_eqb_spec; reflexivity). rewrite E. clear E. cbn [negb].
  rewrite fst_ask, !at_cons. cbn [Z.eqb Pos.eqb app].
  rewrite <- (enc_fF _ C). unfold fF. rewrite V. set (s := toF (le_value b)). clearbody s. clear.
  fconst. lrun. fold (rpoly s). rewrite !at_inv by lia. cbn [fst snd].
  rewrite fst_ask, !at_cons. cbn [Z.eqb Pos.eqb app].
  destruct (sqrt_ratio_spec 1 (rpoly s)) as [ok r]. cbn [fst snd].
  destruct ok; cbn [negb]; [|split; reflexivity].
  lrun. rewrite !at_posb by lia. rewrite <- fe_is_positive_F, cneg_abs, fst_quiet. lrun.
  rewrite !at_posb by lia. rewrite fst_ask, !at_cons. cbn [Z.eqb Pos.eqb app].
  destruct (fposb _); cbn [negb].
  - rewrite fst_ask, !at_cons, fe_eqb_F. cbn [Z.eqb Pos.eqb app]. split; reflexivity.
  - split; reflexivity.
Qed.
Lemma log_snd {A} (x : lres A) : result_of x = snd x. Proof. reflexivity. Qed.
Lemma C103_ristretto_decompress_stmt : forall ck b, is_bytes 32 b ->
  let l := log_of (cr_decompress_log ck b) in let s := toF (le_value b) in
  let f := ((- (cd * ((1 - s * s) * (1 - s * s))) - (1 + s * s) * (1 + s * s)) * ((1 + s * s) * (1 + s * s)))%F in
  at_line 30112 l = (if le_value b <=? (p - 1) / 2 then [0; 0] else [1]) /\
  (le_value b <= (p - 1) / 2 ->
    (at_line 30128 l = [0] \/ at_line 30128 l = [1]) /\
    (at_line 30128 l = [0] <-> exists t, t <> 0%F /\ (t * t)%F = f) /\
    ((exists P, result_of (cr_decompress_log ck b) = Ok (Some P)) <-> at_line 30144 l = [0; 0]) /\
    (le_value b = 1 <-> at_line 30144 l = [0; 1])).
Proof.
  intros ck b B l s f. split; [exact (cr_112 ck b B)|]. intros Lb.
  pose proof (cr_tail ck b B Lb) as T. cbv zeta in T. fold s in T. rewrite <- log_fst in T. fold l in T.
  destruct T as [T1 T2].
  assert (D := cr_decompress_enc ck b B). rewrite (proj2 (Z.leb_le _ _) Lb) in D. fold s in D. unfold dfun in D.
  rewrite log_snd, er_cr_decompress, D. clear D.
  clearbody l.
  set (u1 := (1 - s * s)%F) in *. set (u2 := (1 + s * s)%F) in *. set (v := (- (cd * (u1 * u1)) - u2 * u2)%F) in *.
  fold f in T1, T2 |- *.
  pose proof (isr_true f) as IT. pose proof (isr_false f) as IF.
  destruct (sqrt_ratio_spec 1 f) as [ok r]. cbn [fst snd] in *.
  split; [|split; [|split]].
  - rewrite T1. destruct ok; [left|right]; reflexivity.
  - rewrite T1. destruct ok; cbn [negb Z.b2z].
    + split; [intros _|reflexivity]. destruct (IT eq_refl) as [[t Ht] R]. exists t. split; [|exact Ht].
      intros ->. apply one_neq_zero. rewrite <- R, <- Ht. ring.
    + split; [discriminate|]. intros (t & Nt & Et). exfalso. destruct (IF eq_refl) as [K|K].
      * revert K. rewrite <- Et. apply F_mul_nz; exact Nt.
      * apply K. exists t. exact Et.
  - rewrite T2. destruct ok; cbn [negb].
    + destruct (fposb _); cbn [negb orb].
      * destruct (feqb _ 0).
        -- cbn [option_map Z.b2z]. split; [intros [P E]; discriminate E|discriminate].
        -- cbn [option_map Z.b2z]. split; [reflexivity|]. intros _. eexists. reflexivity.
      * cbn [option_map]. split; [intros [P E]; discriminate E|discriminate].
    + cbn [option_map]. split; [intros [P E]; discriminate E|discriminate].
  - rewrite T2. split.
    + intros E1. assert (S1 : s = 1%F) by (unfold s; rewrite E1; reflexivity).
      assert (Z1 : u1 = 0%F) by (unfold u1; rewrite S1; ring).
      assert (F1 : f = (- (1) * (((1 + 1) * (1 + 1)) * ((1 + 1) * (1 + 1))))%F).
      { unfold f, v. rewrite Z1. unfold u2. rewrite S1. ring. }
      destruct ok.
      * assert (Y0 : (u1 * (r * (r * u2) * v))%F = 0%F) by (rewrite Z1; ring). rewrite Y0. clear Y0.
        assert (Y0 : forall x, (x * 0)%F = 0%F) by (intros x; ring). rewrite Y0, fposb_zero. reflexivity.
      * exfalso. destruct (IF eq_refl) as [K|K].
        -- rewrite F1 in K. apply (f_equal Fval) in K. vm_compute in K. discriminate K.
        -- apply K. rewrite F1. apply is_sq_mul; [exact m1_sq|]. exists ((1 + 1) * (1 + 1))%F. reflexivity.
    + destruct ok; [|discriminate]. destruct (IT eq_refl) as [_ R].
      destruct (fposb _); [|discriminate].
      match goal with |- context [feqb ?y 0] => destruct (feqb_spec y 0) as [Y|Y]; [|discriminate] end. intros _.
      assert (N : forall x y, (x * y)%F <> 0%F -> x <> 0%F /\ y <> 0%F) by (intros x y H; split; intros ->; apply H; ring).
      assert (Nf : f <> 0%F) by (intros K; apply one_neq_zero; rewrite <- R, K; ring).
      assert (Nr : r <> 0%F) by (intros K; apply one_neq_zero; rewrite <- R, K; ring).
      apply N in Nf. destruct Nf as [Nv Nu]. apply N in Nu. destruct Nu as [Nu _].
      assert (U : u1 = 0%F).
      { apply F_integral in Y. destruct Y as [Y|Y]; [exact Y|]. exfalso. revert Y.
        repeat apply F_mul_nz; assumption. }
      assert (K : ((1 - s) * (1 + s))%F = 0%F) by (rewrite <- U; unfold u1; ring).
      assert (SV : Fval s = le_value b).
      { unfold s. rewrite Fval_toF. apply Z.mod_small. pose proof (le_value_bound 32 b B). pose proof p_odd as O. clear - Lb H O. lia. }
      apply F_integral in K. destruct K as [K|K].
      * assert (S1 : s = 1%F) by (transitivity (1 - (1 - s))%F; [ring|rewrite K; ring]).
        rewrite <- SV, S1. reflexivity.
      * exfalso. assert (S1 : s = (- (1))%F) by (transitivity ((1 + s) - 1)%F; [ring|rewrite K; ring]).
        rewrite S1 in SV. rewrite <- SV in Lb. vm_compute in Lb. apply Lb. reflexivity.
Qed.
(** The map to Ristretto points: the last sign test is the one of s·r0, where s is the root
    of N/D or of i·N/D that was taken. *)
Lemma C103_elligator_stmt : forall ck r, floadable r ->
  let r0 := residue r in let t := (residue SQRT_MINUS_ONE * (r0 * r0))%F in
  let N := ((t + 1) * (1 - cd * cd))%F in let D := ((- (1) - cd * t) * (t + cd))%F in
  exists s pre, (D <> 0%F -> (s * s * D)%F = N \/ (s * s * D)%F = (residue SQRT_MINUS_ONE * N)%F) /\ (D = 0%F -> s = 0%F) /\
    Fval s <= (p - 1) / 2 /\
    at_line 553 (log_of (rp_elligator_log ck r)) = pre ++ [1; if Fval (s * r0)%F <=? (p - 1) / 2 then 1 else 0].
Proof.
  intros ck r A r0 t N D. assert (Et : t = el_r (fF r)) by (unfold t, el_r; rewrite FI_enc, residue_enc; reflexivity).
  set (q := sqrt_ratio_spec (el_N (el_r (fF r))) (el_D (el_r (fF r)))).
  exists (snd q), (at_line 553 (fst (fe_sqrt_ratio_i_log ck (enc (el_N (el_r (fF r)))) (enc (el_D (el_r (fF r))))))).
  assert (DE : D = el_D (el_r (fF r))) by (unfold D; rewrite Et; reflexivity).
  assert (NE : N = el_N (el_r (fF r))) by (unfold N; rewrite Et; reflexivity).
  assert (S : (D <> 0%F -> (snd q * snd q * D)%F = N \/ (snd q * snd q * D)%F = (FI * N)%F) /\ (D = 0%F -> snd q = 0%F) /\ fposb (snd q) = true).
  { rewrite DE, NE. destruct (F_dec (el_D (el_r (fF r))) 0) as [Z|Z].
    - split; [intros H; elim (H Z)|]. unfold q. rewrite Z, sr_zero. split; [reflexivity|exact fposb_zero].
    - destruct (sr_cases _ _ (el_N_nz (fF r)) Z (fst q) (snd q)) as [P K]; [apply surjective_pairing|].
      split; [|split; [intros H; elim (Z H)|exact P]]. intros _. destruct K as [(_ & _ & K)|(_ & _ & K)]; [left|right]; exact K. }
  destruct S as (S1 & S2 & S3). split; [rewrite FI_enc, residue_enc; exact S1|]. split; [exact S2|].
  split; [apply Z.leb_le; exact S3|]. clear S1 S2 S3.
  rewrite log_fst. unfold rp_elligator_log. cbv zeta. fconst. rewrite (fe_square_ld ck r A). lrun.
  fold (el_r (fF r)). fold (el_N (el_r (fF r))). fold (el_D (el_r (fF r))).
  assert (Q : snd (fe_sqrt_ratio_i_log ck (enc (el_N (el_r (fF r)))) (enc (el_D (el_r (fF r))))) = Ok (fst q, enc (snd q))).
  { rewrite er_sqrt_ratio. apply fe_sqrt_ratio_i_F. }
  rewrite (fst_lbind _ _ _ Q), at_app. apply f_equal. cbn [fst snd].
  rewrite (fe_mul_ld ck (enc (snd q)) r (enc_ld _) A), fst_quiet, fF_enc.
  rewrite (fst_lbind _ _ _ (er_is_positive _)), at_app, pos_553.
  match goal with |- ?a ++ ?l = _ => assert (T : l = []); [|rewrite T, app_nil_r] end.
  { at_tail. reflexivity. }
  reflexivity.
Qed.
Lemma C103_ex : scanon (SC 7 0 0 0 0) /\ reduced_ext BASEPOINT /\ is_bytes 32 (repeat 255 32) /\ floadable fe_minus_one /\
  (exists ds, sc_compute_window_NAF true (SC 7 0 0 0 0) 4 = Ok (7 :: ds)) /\
  (exists ds, sc_compute_NAF true (SC 7 0 0 0 0) = Ok (-1 :: 0 :: 0 :: 1 :: ds)) /\
  at_line 10377 (log_of (sc_compute_NAF_log true (SC 7 0 0 0 0))) = [1; 0; 0; 1] /\
  at_line 10073 (log_of (sc_compute_NAF_log true (SC 7 0 0 0 0))) = [1; 0] /\
  at_line 10465 (log_of (sc_from_bytes_log (repeat 255 32))) = [0].
Proof.
  split; [split; [repeat split; discriminate|vm_compute; reflexivity]|]. split; [exact red_B|].
  split; [split; [reflexivity|repeat constructor; discriminate]|]. split; [apply fcanon_loadable, minus_one_canon|].
  split; [eexists; vm_compute; reflexivity|]. split; [eexists; vm_compute; reflexivity|].
  repeat split; vm_compute; reflexivity.
Qed.
