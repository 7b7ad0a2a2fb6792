(** * Statements about the branches of the field functions: C94 *)

From Coq Require Import ZArith Znumtheory List Bool Lia.
From Verif Require Import Machine FieldModel Spec MachineFacts FieldLimb FieldMul FieldOps FieldBytes
  NumTheory Primes Fp FieldF FieldInv FieldStmt BranchModel BranchSpec.
Import ListNotations.
Open Scope Z_scope.

Lemma snd_lbind {A B} (m : lres A) (f : A -> lres B) : snd (lbind m f) = bind (snd m) (fun a => snd (f a)).
Proof. destruct m as [l [a| |]]; reflexivity. Qed.
Lemma fst_lbind {A B} (m : lres A) (f : A -> lres B) a : snd m = Ok a -> fst (lbind m f) = fst m ++ fst (f a).
Proof. destruct m as [l [x| |]]; cbn [snd]; intros E; inversion E. reflexivity. Qed.
Lemma bind_ext {A B} (x : res A) (f g : A -> res B) : (forall a, f a = g a) -> bind x f = bind x g.
Proof. intros H. destruct x; [apply H|reflexivity|reflexivity]. Qed.
Lemma snd_quiet {A} (x : res A) : snd (quiet x) = x. Proof. reflexivity. Qed.
Lemma snd_ask n b : snd (ask n b) = Ok b. Proof. reflexivity. Qed.
Lemma snd_arm n b : snd (arm n b) = Ok b. Proof. reflexivity. Qed.
Lemma snd_lassert n b : snd (lassert n b) = rassert b. Proof. reflexivity. Qed.

Lemma snd_cmp a b : snd (fe_cmp_log a b) = Ok (fe_cmp a b).
Proof.
  unfold fe_cmp_log, fe_cmp. cbn [cmp_limbs_log]. rewrite !snd_lbind, snd_ask, bind_ok.
  repeat match goal with
  | |- snd (if ?c then _ else _) = _ => destruct c; [reflexivity|]
  | |- context [snd (lbind _ _)] => rewrite snd_lbind, ?snd_ask, ?bind_ok
  end; reflexivity.
Qed.
Ltac er := repeat first
  [ rewrite snd_lbind | rewrite snd_quiet | rewrite snd_ask | rewrite snd_arm | rewrite snd_lassert
  | rewrite snd_cmp | rewrite bind_ok ].
Lemma er_is_positive a : snd (fe_is_positive_log a) = Ok (fe_is_positive a).
Proof.
  unfold fe_is_positive_log, fe_is_positive. er. destruct (is_ge _); [|reflexivity].
  er. cbn [andb]. destruct (is_le _); reflexivity.
Qed.
Lemma er_pow_loop ck : forall n b r e, snd (fe_pow_loop_log n ck b r e) = fe_pow_loop n ck b r e.
Proof.
  induction n as [|n IH]; intros b r e; [reflexivity|]. cbn [fe_pow_loop_log fe_pow_loop]. er.
  destruct (is_gt _); [|reflexivity]. er. destruct (fe_is_even e).
  - cbv zeta. er. apply bind_ext. intros. apply IH.
  - er. apply bind_ext. intros. er. apply bind_ext. intros. cbv zeta. er. apply bind_ext. intros. apply IH.
Qed.
Lemma er_pow ck a e : snd (fe_pow_log ck a e) = fe_pow ck a e.
Proof. apply er_pow_loop. Qed.
Lemma er_legendre ck a : snd (fe_legendre_symbol_log ck a) = fe_legendre_symbol ck a.
Proof. unfold fe_legendre_symbol_log, fe_legendre_symbol. er. rewrite er_pow. reflexivity. Qed.
Lemma er_inner ck e : snd (fe_inner_two_pow_k_log ck e) = fe_inner_two_pow_k ck e.
Proof.
  unfold fe_inner_two_pow_k_log, fe_inner_two_pow_k. er. destruct (e <? 260); reflexivity.
Qed.
Lemma er_phase1_loop ck : forall n u v r s k,
  snd (fe_phase1_loop_log n ck u v r s k) = fe_phase1_loop n ck u v r s k.
Proof.
  induction n as [|n IH]; intros u v r s k; [reflexivity|]. cbn [fe_phase1_loop_log fe_phase1_loop]. er.
  destruct (is_gt (fe_cmp v fe_zero)); [|reflexivity]. er.
  destruct (fe_is_even u).
  { cbn [Z.eqb]. cbv zeta. er. apply bind_ext. intros. er. apply bind_ext. intros. apply IH. }
  destruct (fe_is_even v).
  { cbn [Z.eqb Pos.eqb]. cbv zeta. er. apply bind_ext. intros. er. apply bind_ext. intros. apply IH. }
  destruct (is_gt (fe_cmp u v)).
  { cbn [Z.eqb Pos.eqb]. er. apply bind_ext. intros. cbv zeta. er. apply bind_ext. intros. er. apply bind_ext. intros.
    er. apply bind_ext. intros. apply IH. }
  destruct (is_ge (fe_cmp v u)).
  { cbn [Z.eqb Pos.eqb]. er. apply bind_ext. intros. cbv zeta. er. apply bind_ext. intros. er. apply bind_ext. intros.
    er. apply bind_ext. intros. apply IH. }
  reflexivity.
Qed.
Lemma er_phase1 ck a : snd (fe_phase1_log ck a) = fe_phase1 ck a.
Proof.
  unfold fe_phase1_log, fe_phase1. er. apply bind_ext. intros []. cbv zeta. er. rewrite er_phase1_loop.
  apply bind_ext. intros [r k]. er. cbn [fst snd]. apply bind_ext. intros r'. er. reflexivity.
Qed.
Lemma er_inverse ck a : snd (fe_inverse_log ck a) = fe_inverse ck a.
Proof.
  unfold fe_inverse_log, fe_inverse. er. rewrite er_phase1.
  apply bind_ext. intros [r z]. er. cbn [fst snd].
  apply bind_ext. intros [r' z']. er. cbn [fst snd]. apply bind_ext. intros e. er. rewrite er_inner. reflexivity.
Qed.
Lemma er_div ck a b : snd (fe_div_log ck a b) = fe_div ck a b.
Proof. unfold fe_div_log, fe_div. er. apply bind_ext. intros []. er. rewrite er_inverse. reflexivity. Qed.
Lemma er_div_val ck a b : snd (fe_div_val_log ck a b) = fe_div_val ck a b.
Proof. unfold fe_div_val_log, fe_div_val. er. rewrite er_inverse. reflexivity. Qed.
Lemma er_factor ck : forall n q s, snd (fe_factor_loop_log n ck q s) = fe_factor_loop n ck q s.
Proof.
  induction n as [|n IH]; intros q s; [reflexivity|]. cbn [fe_factor_loop_log fe_factor_loop]. er.
  destruct (fe_is_even q); [|reflexivity]. er. apply bind_ext. intros. apply IH.
Qed.
Lemma er_order ck : forall n t m i e, snd (fe_order_loop_log n ck t m i e) = fe_order_loop n ck t m i e.
Proof.
  induction n as [|n IH]; intros t m i e; [reflexivity|]. cbn [fe_order_loop_log fe_order_loop]. er.
  destruct (is_lt (fe_cmp i m)); [|reflexivity]. er. apply bind_ext. intros i'. er. rewrite er_pow. apply bind_ext. intros te.
  er. destruct (fe_eqb te fe_one); [reflexivity|]. er. apply bind_ext. intros. apply IH.
Qed.
Lemma er_sqrt_loop ck : forall n x t c m, snd (fe_sqrt_loop_log n ck x t c m) = fe_sqrt_loop n ck x t c m.
Proof.
  induction n as [|n IH]; intros x t c m; [reflexivity|]. cbn [fe_sqrt_loop_log fe_sqrt_loop]. er.
  destruct (fe_eqb t fe_one); [reflexivity|]. cbn [negb]. er. rewrite er_order. apply bind_ext. intros i.
  er. apply bind_ext. intros mi. er. apply bind_ext. intros mi1. er. rewrite er_pow. apply bind_ext. intros e.
  er. rewrite er_pow. apply bind_ext. intros b. er. apply bind_ext. intros x'. er. apply bind_ext. intros bb.
  er. apply bind_ext. intros t'. er. apply bind_ext. intros c'. apply IH.
Qed.
Lemma er_mod_sqrt ck a sign : snd (fe_mod_sqrt_log ck a sign) = fe_mod_sqrt ck a sign.
Proof.
  unfold fe_mod_sqrt_log, fe_mod_sqrt, fe_mod_sqrt_fuel. er. destruct (fe_eqb a fe_zero); [reflexivity|].
  er. rewrite er_legendre. apply bind_ext. intros leg. er. destruct (negb leg); [reflexivity|]. cbv zeta.
  er. rewrite er_factor. apply bind_ext. intros [q s]. cbn [fst snd]. er. rewrite er_pow. apply bind_ext. intros c.
  er. apply bind_ext. intros q1. er. rewrite er_pow. apply bind_ext. intros x.
  er. rewrite er_pow. apply bind_ext. intros t. er. rewrite er_sqrt_loop. apply bind_ext. intros x'. er. reflexivity.
Qed.
Lemma er_sqrt_ratio ck u v : snd (fe_sqrt_ratio_i_log ck u v) = fe_sqrt_ratio_i ck u v.
Proof.
  unfold fe_sqrt_ratio_i_log, fe_sqrt_ratio_i. er. destruct (fe_eqb u fe_zero); [reflexivity|].
  destruct (fe_eqb v fe_zero); [reflexivity|]. cbn [Z.eqb Pos.eqb]. er. rewrite er_div. apply bind_ext. intros r.
  er. rewrite er_legendre. apply bind_ext. intros leg. er. destruct leg.
  - er. rewrite er_div. apply bind_ext. intros r'. er. rewrite er_mod_sqrt. apply bind_ext. intros o. er.
    apply bind_ext. intros x. er. rewrite er_is_positive, bind_ok. er. apply bind_ext. intros x'. reflexivity.
  - er. rewrite er_div. apply bind_ext. intros r'. er. apply bind_ext. intros ir. er. rewrite er_mod_sqrt. apply bind_ext. intros o. er.
    apply bind_ext. intros x. er. rewrite er_is_positive, bind_ok. er. apply bind_ext. intros x'. reflexivity.
Qed.

(** ** C94 *)
(** The logging variants return what the functions of the model return, for all inputs. *)
Lemma C94_result_stmt : forall ck a b e s,
  result_of (fe_cmp_log a b) = Ok (fe_cmp a b) /\
  result_of (fe_is_positive_log a) = Ok (fe_is_positive a) /\
  result_of (fe_pow_log ck a e) = fe_pow ck a e /\
  result_of (fe_legendre_symbol_log ck a) = fe_legendre_symbol ck a /\
  result_of (fe_inverse_log ck a) = fe_inverse ck a /\
  result_of (fe_div_log ck a b) = fe_div ck a b /\
  result_of (fe_div_val_log ck a b) = fe_div_val ck a b /\
  result_of (fe_mod_sqrt_log ck a s) = fe_mod_sqrt ck a s /\
  result_of (fe_sqrt_ratio_i_log ck a b) = fe_sqrt_ratio_i ck a b /\
  result_of (fe_inv_sqrt_log ck a) = fe_inv_sqrt ck a.
Proof.
  intros ck a b e s. unfold result_of. rewrite snd_cmp, er_is_positive, er_pow, er_legendre, er_inverse, er_div, er_div_val,
    er_mod_sqrt. unfold fe_inv_sqrt_log. rewrite !er_sqrt_ratio. repeat split.
Qed.

(** *** Exponentiation *)
Lemma fst_ask {B} n b (f : bool -> lres B) : fst (lbind (ask n b) f) = Br n (Z.b2z b) :: fst (f b).
Proof. reflexivity. Qed.
Lemma fst_arm {B} n b (f : Z -> lres B) : fst (lbind (arm n b) f) = Br n b :: fst (f b).
Proof. reflexivity. Qed.
Lemma fst_quiet {A B} (a : A) (f : A -> lres B) : fst (lbind (quiet (Ok a)) f) = fst (f a).
Proof. reflexivity. Qed.
Lemma fst_cmp {B} a b (f : comparison -> lres B) :
  fst (lbind (fe_cmp_log a b) f) = fst (fe_cmp_log a b) ++ fst (f (fe_cmp a b)).
Proof. apply fst_lbind, snd_cmp. Qed.
Lemma fst_assert {B} n (f : unit -> lres B) : fst (lbind (lassert n true) f) = Br n 1 :: fst (f tt).
Proof. reflexivity. Qed.

Lemma sub_one ck e : flimbs e -> 0 < fval e -> exists e', fe_sub ck e fe_one = Ok e' /\ flimbs e' /\ fval e' = fval e - 1.
Proof.
  intros E P. assert (L1 : flimbs fe_one) by apply fcanon_one.
  destruct (fe_sub_gen ck e fe_one E L1) as (e' & A & B & V). { rewrite fval_one, p_num. lia. }
  rewrite fval_one in V. destruct (Z.ltb_spec (fval e) 1) in V; [lia|]. exists e'. auto.
Qed.

Lemma pow_dep ck ck' : forall n b r b' r' e, floadable b -> floadable r -> floadable b' -> floadable r' -> flimbs e ->
  fst (fe_pow_loop_log n ck b r e) = fst (fe_pow_loop_log n ck' b' r' e).
Proof.
  induction n as [|n IH]; intros b r b' r' e B R B' R' E; [reflexivity|]. cbn [fe_pow_loop_log].
  rewrite !fst_cmp, !fst_ask. apply f_equal, f_equal.
  rewrite fe_gt_ok, fval_zero by auto using flimbs_zero. destruct (Z.ltb_spec 0 (fval e)) as [P|_]; [|reflexivity].
  rewrite !fst_ask. apply f_equal. destruct (fe_is_even e).
  - cbv zeta. rewrite !fe_mul_ld, !fst_quiet by assumption.
    apply IH; auto with fe. apply fe_half_without_mod_ok, E.
  - destruct (sub_one ck e E P) as (e1 & -> & L1 & V1). destruct (sub_one ck' e E P) as (e2 & -> & L2 & V2).
    assert (EE : e2 = e1) by (apply fval_inj; auto; lia). subst e2.
    rewrite !fst_quiet, !fe_mul_ld, !fst_quiet by assumption. cbv zeta.
    apply IH; auto with fe. apply fe_half_without_mod_ok, L1.
Qed.

Lemma at_app n l l' : at_line n (l ++ l') = at_line n l ++ at_line n l'.
Proof. unfold at_line. rewrite filter_app, map_app. reflexivity. Qed.
Lemma at_cons n m o l : at_line n (Br m o :: l) = (if m =? n then [o] else []) ++ at_line n l.
Proof. unfold at_line. cbn [filter line]. destruct (m =? n); reflexivity. Qed.
Lemma at_cmp n a b : n <> 68 -> n <> 70 -> at_line n (fst (fe_cmp_log a b)) = [].
Proof.
  intros N1 N2. unfold fe_cmp_log.
  generalize [(f4 a, f4 b); (f3 a, f3 b); (f2 a, f2 b); (f1 a, f1 b); (f0 a, f0 b)] as l.
  induction l as [|[x y] l IH]; [reflexivity|]. cbn [cmp_limbs_log]. rewrite fst_ask, at_cons.
  destruct (Z.eqb_spec 68 n); [congruence|]. destruct (y <? x); [reflexivity|]. rewrite fst_ask, at_cons.
  destruct (Z.eqb_spec 70 n); [congruence|]. destruct (x <? y); [reflexivity|]. exact IH.
Qed.

(** Parities met by the loop, from the lowest bit up. *)
Fixpoint parities (n : nat) (z : Z) : list Z :=
  match n with
  | O => []
  | S n => if 0 <? z then Z.b2z (Z.even z) :: parities n (z / 2) else []
  end.
Lemma parities_inj : forall n n' z z', 0 <= z < 2 ^ Z.of_nat n -> 0 <= z' < 2 ^ Z.of_nat n' ->
  parities n z = parities n' z' -> z = z'.
Proof.
  induction n as [|n IH]; intros n' z z' H H' E.
  - change (2 ^ Z.of_nat 0) with 1 in H. destruct n' as [|n']; [change (2 ^ Z.of_nat 0) with 1 in H'; lia|].
    cbn [parities] in E. destruct (Z.ltb_spec 0 z'); [discriminate|lia].
  - cbn [parities] in E. destruct n' as [|n'].
    { change (2 ^ Z.of_nat 0) with 1 in H'. cbn [parities] in E. destruct (Z.ltb_spec 0 z); [discriminate|lia]. }
    cbn [parities] in E. destruct (Z.ltb_spec 0 z) as [P|P], (Z.ltb_spec 0 z') as [P'|P']; try discriminate; [|lia].
    injection E as E1 E2. rewrite Nat2Z.inj_succ, Z.pow_succ_r in H, H' by lia.
    assert (Q : z / 2 = z' / 2).
    { apply (IH n'); [| |exact E2]; split; try (apply Z.div_pos; lia); apply Z.div_lt_upper_bound; lia. }
    pose proof (Z.div_mod z 2 ltac:(lia)) as D. pose proof (Z.div_mod z' 2 ltac:(lia)) as D'.
    rewrite !Zmod_even in D, D'. destruct (Z.even z), (Z.even z'); try discriminate; lia.
Qed.
Lemma pow_parities ck : forall n b r e, floadable b -> floadable r -> flimbs e ->
  at_line 341 (fst (fe_pow_loop_log n ck b r e)) = parities n (fval e).
Proof.
  induction n as [|n IH]; intros b r e B R E; [reflexivity|]. cbn [fe_pow_loop_log parities].
  rewrite fst_cmp, at_app, at_cmp, fst_ask, at_cons by lia. cbn [Z.eqb Pos.eqb app].
  rewrite fe_gt_ok, fval_zero by auto using flimbs_zero. destruct (Z.ltb_spec 0 (fval e)) as [P|_]; [|reflexivity].
  rewrite fst_ask, at_cons. cbn [Z.eqb Pos.eqb app]. rewrite fe_is_even_ok. apply f_equal. destruct (Z.even (fval e)) eqn:Ev.
  - cbv zeta. rewrite fe_mul_ld, fst_quiet by assumption. destruct (fe_half_without_mod_ok e E) as [L V].
    rewrite IH, V by auto with fe. reflexivity.
  - destruct (sub_one ck e E P) as (e1 & -> & L1 & V1). rewrite fst_quiet, !fe_mul_ld, !fst_quiet by assumption. cbv zeta.
    destruct (fe_half_without_mod_ok e1 L1) as [L V]. rewrite IH, V, V1 by auto with fe. apply f_equal.
    pose proof (Z.div_mod (fval e) 2 ltac:(lia)) as D. rewrite Zmod_even, Ev in D.
    symmetry. apply Z.div_unique with 0; lia.
Qed.

(** The branches of `pow` are the same for all bases, and they determine the exponent. *)
Lemma C94_pow_stmt : forall ck ck' a a' e e', floadable a -> floadable a' -> flimbs e -> flimbs e' ->
  (log_of (fe_pow_log ck a e) = log_of (fe_pow_log ck' a' e') <-> e = e').
Proof.
  intros ck ck' a a' e e' A A' E E'. unfold log_of, fe_pow_log. assert (O : floadable fe_one) by apply fcanon_loadable, fcanon_one.
  split.
  - intros H. apply (f_equal (at_line 341)) in H. rewrite !pow_parities in H by assumption.
    apply fval_inj; auto. pose proof (fval_nonneg _ E). pose proof (fval_nonneg _ E').
    assert (B : forall x, flimbs x -> 0 <= fval x < 2 ^ Z.of_nat loop_fuel).
    { intros x X. pose proof (fval_nonneg _ X) as N. split; [apply N|]. apply Z.lt_le_trans with (2 ^ 260); [apply N|].
      apply Z.pow_le_mono_r; [lia|]. unfold loop_fuel. lia. }
    apply (parities_inj loop_fuel loop_fuel); auto.
  - intros ->. apply pow_dep; assumption.
Qed.
(** The branches of `legendre_symbol` are the same for all inputs. *)
Lemma C94_legendre_stmt : forall ck ck' a a', floadable a -> floadable a' ->
  log_of (fe_legendre_symbol_log ck a) = log_of (fe_legendre_symbol_log ck' a').
Proof.
  intros ck ck' a a' A A'. unfold log_of, fe_legendre_symbol_log.
  assert (M : flimbs MINUS_ONE_HALF) by (change MINUS_ONE_HALF with (enc (toF ((p - 1) / 2))); auto with fe).
  assert (X : forall c x, floadable x -> exists r, snd (fe_pow_log c x MINUS_ONE_HALF) = Ok r).
  { intros c x Hx. rewrite er_pow, fe_pow_ld by assumption. eexists. reflexivity. }
  destruct (X ck a A) as [r E]. destruct (X ck' a' A') as [r' E'].
  rewrite (fst_lbind _ _ _ E), (fst_lbind _ _ _ E'). cbn [quiet fst]. rewrite !app_nil_r. apply pow_dep; auto; apply fcanon_loadable, fcanon_one.
Qed.

(** *** Inversion *)
Fixpoint arms (n : nat) (u v : Z) : list Z :=
  match n with
  | O => []
  | S n =>
    if 0 <? v then
      if Z.even u then 0 :: arms n (u / 2) v
      else if Z.even v then 1 :: arms n u (v / 2)
      else if v <? u then 2 :: arms n ((u - v) / 2) v
      else 3 :: arms n u ((v - u) / 2)
    else []
  end.
Lemma even_half x : Z.even x = true -> x = 2 * (x / 2).
Proof. intros E. apply Zeven_bool_iff, Zeven_div2 in E. rewrite Z.div2_div in E. exact E. Qed.

(** One round, as a case analysis with everything that the proofs below need. *)
Lemma arms_step n u v : 1 <= u -> 0 <= v -> Z.gcd u v = 1 ->
  (v = 0 /\ u = 1 /\ arms (S n) u v = []) \/
  exists i u' v', arms (S n) u v = i :: arms n u' v' /\ 1 <= u' /\ 0 <= v' /\ Z.gcd u' v' = 1 /\ 0 < v /\
    (i = 0 /\ u = 2 * u' /\ v = v' \/ i = 1 /\ u = u' /\ v = 2 * v' \/
     i = 2 /\ u = 2 * u' + v' /\ v = v' \/ i = 3 /\ u = u' /\ v = 2 * v' + u').
Proof.
  intros U V G. cbn [arms]. destruct (Z.ltb_spec 0 v) as [P|P].
  2:{ left. assert (v = 0) by lia. subst v. rewrite Z.gcd_0_r, Z.abs_eq in G by lia. auto. }
  right. destruct (Z.even u) eqn:Eu.
  { pose proof (even_half u Eu) as H. exists 0, (u / 2), v. split; [reflexivity|].
    split; [lia|]. split; [lia|]. split; [now apply gcd_half_l|]. split; [lia|]. left. auto. }
  destruct (Z.even v) eqn:Ev.
  { pose proof (even_half v Ev) as H. exists 1, u, (v / 2). split; [reflexivity|].
    split; [lia|]. split; [lia|]. split; [now apply gcd_half_r|]. split; [lia|]. right. left. auto. }
  destruct (Z.ltb_spec v u) as [C|C].
  { pose proof (even_sub_odd _ _ Eu Ev) as Ed. pose proof (even_half _ Ed) as H.
    exists 2, ((u - v) / 2), v. split; [reflexivity|]. split; [lia|]. split; [lia|].
    split; [apply gcd_half_l; [exact Ed|]; rewrite gcd_sub_l; exact G|]. split; [lia|]. right. right. left. lia. }
  pose proof (even_sub_odd _ _ Ev Eu) as Ed. pose proof (even_half _ Ed) as H.
  exists 3, u, ((v - u) / 2). split; [reflexivity|]. split; [lia|]. split; [lia|].
  split; [apply gcd_half_r; [exact Ed|]; rewrite gcd_sub_r; exact G|]. split; [lia|]. right. right. right. lia.
Qed.
Lemma pow2_S m : 2 ^ Z.of_nat (S m) = 2 * 2 ^ Z.of_nat m.
Proof. rewrite Nat2Z.inj_succ, Z.pow_succ_r by lia. reflexivity. Qed.

Lemma arms_zero n u v m k : 1 <= u < 2 ^ Z.of_nat m -> 0 <= v < 2 ^ Z.of_nat k -> (m + k <= n)%nat -> (1 <= n)%nat.
Proof. intros U V H. destruct m; [change (2 ^ Z.of_nat 0) with 1 in U; lia|lia]. Qed.
Lemma fit_dec x m : 1 <= x < 2 ^ Z.of_nat m -> exists m', m = S m' /\ 2 ^ Z.of_nat m = 2 * 2 ^ Z.of_nat m'.
Proof. intros H. destruct m as [|m]; [change (2 ^ Z.of_nat 0) with 1 in H; lia|]. exists m. split; [reflexivity|apply pow2_S]. Qed.

(** The number of rounds, and what it is bounded by. *)
Lemma arms_len : forall n m k u v, 1 <= u < 2 ^ Z.of_nat m -> 0 <= v < 2 ^ Z.of_nat k -> Z.gcd u v = 1 ->
  (m + k <= n)%nat -> (length (arms n u v) + 1 <= m + k)%nat.
Proof.
  induction n as [|n IH]; intros m k u v U V G F.
  { pose proof (arms_zero _ _ _ _ _ U V F). lia. }
  destruct (arms_step n u v) as [(-> & -> & ->)|(i & u' & v' & -> & U' & V' & G' & P & C)]; try lia.
  { destruct (fit_dec _ _ U) as (m' & -> & _). cbn [length]. lia. }
  destruct (fit_dec u m U) as (m' & -> & Em). destruct (fit_dec v k) as (k' & -> & Ek); [lia|]. cbn [length].
  destruct C as [(-> & -> & ->)|[(-> & -> & ->)|[(-> & -> & ->)|(-> & -> & ->)]]].
  - assert (X := IH m' (S k') u' v'). lia.
  - assert (X := IH (S m') k' u' v'). lia.
  - assert (X := IH m' (S k') u' v'). lia.
  - assert (X := IH (S m') k' u' v'). lia.
Qed.
Lemma arms_lower : forall n m k u v r s M, 1 <= u < 2 ^ Z.of_nat m -> 0 <= v < 2 ^ Z.of_nat k -> Z.gcd u v = 1 ->
  (m + k <= n)%nat -> 0 <= r <= M -> 0 <= s <= M -> u * s + v * r <= M * 2 ^ Z.of_nat (length (arms n u v)).
Proof.
  induction n as [|n IH]; intros m k u v r s M U V G F R S'.
  { pose proof (arms_zero _ _ _ _ _ U V F). lia. }
  destruct (arms_step n u v) as [(-> & -> & ->)|(i & u' & v' & -> & U' & V' & G' & P & C)]; try lia.
  { change (2 ^ Z.of_nat (length [])) with 1. lia. }
  destruct (fit_dec u m U) as (m' & -> & Em). destruct (fit_dec v k) as (k' & -> & Ek); [lia|]. cbn [length]. rewrite pow2_S.
  destruct C as [(-> & -> & ->)|[(-> & -> & ->)|[(-> & -> & ->)|(-> & -> & ->)]]].
  - assert (X := IH m' (S k') u' v' r (2 * s) (2 * M)). lia.
  - assert (X := IH (S m') k' u' v' (2 * r) s (2 * M)). lia.
  - assert (X := IH m' (S k') u' v' (r + s) (2 * s) (2 * M)). lia.
  - assert (X := IH (S m') k' u' v' (2 * r) (r + s) (2 * M)). lia.
Qed.
Lemma arms_inj : forall n n' m k u v m' k' u' v',
  1 <= u < 2 ^ Z.of_nat m -> 0 <= v < 2 ^ Z.of_nat k -> Z.gcd u v = 1 -> (m + k <= n)%nat ->
  1 <= u' < 2 ^ Z.of_nat m' -> 0 <= v' < 2 ^ Z.of_nat k' -> Z.gcd u' v' = 1 -> (m' + k' <= n')%nat ->
  arms n u v = arms n' u' v' -> u = u' /\ v = v'.
Proof.
  induction n as [|n IH]; intros n' m k u v m' k' u' v' U V G F U' V' G' F' E.
  { pose proof (arms_zero _ _ _ _ _ U V F). lia. }
  destruct n' as [|n']. { pose proof (arms_zero _ _ _ _ _ U' V' F'). lia. }
  destruct (arms_step n u v) as [(A1 & A2 & A3)|(i & u1 & v1 & A & U1 & V1 & G1 & P & C)]; try lia;
  destruct (arms_step n' u' v') as [(B1 & B2 & B3)|(i' & u1' & v1' & B & U1' & V1' & G1' & P' & C')]; try lia.
  - rewrite A3, B in E. discriminate.
  - rewrite A, B3 in E. discriminate.
  - rewrite A, B in E. injection E as Ei E.
    destruct (fit_dec u m U) as (mm & -> & Em). destruct (fit_dec v k) as (kk & -> & Ek); [lia|].
    destruct (fit_dec u' m' U') as (mm' & -> & Em'). destruct (fit_dec v' k') as (kk' & -> & Ek'); [lia|].
    assert (Q : u1 = u1' /\ v1 = v1').
    { assert (IHa := fun a b c d => IH n' a b u1 v1 c d u1' v1').
      destruct C as [(-> & -> & ->)|[(-> & -> & ->)|[(-> & -> & ->)|(-> & -> & ->)]]];
      destruct C' as [(C0 & -> & ->)|[(C0 & -> & ->)|[(C0 & -> & ->)|(C0 & -> & ->)]]]; try (rewrite C0 in Ei; discriminate).
      - apply (IHa mm (S kk) mm' (S kk')); auto; lia.
      - apply (IHa (S mm) kk (S mm') kk'); auto; lia.
      - apply (IHa mm (S kk) mm' (S kk')); auto; lia.
      - apply (IHa (S mm) kk (S mm') kk'); auto; lia. }
    destruct Q as [-> ->]. lia.
Qed.

(** The log of the loop. *)
Lemma at_lbind {A B} n (m : lres A) (f : A -> lres B) :
  (forall a, at_line n (fst (f a)) = []) -> at_line n (fst (lbind m f)) = at_line n (fst m).
Proof.
  intros H. destruct m as [l [a| |]]; cbn [lbind fst]; [|reflexivity|reflexivity]. rewrite at_app, H, app_nil_r. reflexivity.
Qed.
Lemma phase1_arms ck : forall n u v r s k, flimbs u -> flimbs v -> 0 <= k -> k + Z.of_nat n < 2 ^ 64 ->
  at_line 882 (fst (fe_phase1_loop_log n ck u v (enc r) (enc s) k)) = arms n (fval u) (fval v).
Proof.
  induction n as [|n IH]; intros u v r s k U V K K64; [reflexivity|]. cbn [fe_phase1_loop_log arms].
  rewrite fst_cmp, at_app, at_cmp, fst_ask, at_cons by lia. cbn [Z.eqb Pos.eqb app].
  rewrite fe_gt_ok, fval_zero by auto using flimbs_zero. destruct (Z.ltb_spec 0 (fval v)) as [P|_]; [|reflexivity].
  rewrite fst_cmp, at_app, at_cmp, fst_cmp, at_app, at_cmp, fst_arm, at_cons by lia. cbn [Z.eqb Pos.eqb app].
  rewrite !fe_is_even_ok, fe_gt_ok, fe_ge_ok by assumption.
  change (2 ^ 64) with 18446744073709551616 in *.
  assert (E2 : fe_two = enc (toF 2)) by reflexivity.
  assert (KK : uadd ck W64 k 1 = Ok (k + 1)) by (apply uadd_ok; unfold W64; lia).
  destruct (Z.even (fval u)) eqn:Eu.
  { cbn [Z.eqb]. cbv zeta. apply f_equal. rewrite E2, fe_mul_F, fst_quiet, KK, fst_quiet.
    destruct (fe_half_without_mod_ok u U) as [Lh Vh]. rewrite IH, Vh by (assumption || lia). reflexivity. }
  destruct (Z.even (fval v)) eqn:Ev.
  { cbn [Z.eqb Pos.eqb]. cbv zeta. apply f_equal. rewrite E2, fe_mul_F, fst_quiet, KK, fst_quiet.
    destruct (fe_half_without_mod_ok v V) as [Lh Vh]. rewrite IH, Vh by (assumption || lia). reflexivity. }
  destruct (Z.ltb_spec (fval v) (fval u)) as [C|C].
  { cbn [Z.eqb Pos.eqb]. cbv zeta. apply f_equal.
    destruct (fe_sub_gen ck u v U V) as (d & -> & Ld & Vd); [rewrite p_num; lia|].
    destruct (Z.ltb_spec (fval u) (fval v)) in Vd; [lia|].
    rewrite fst_quiet, fe_add_F, fst_quiet, E2, fe_mul_F, fst_quiet, KK, fst_quiet.
    destruct (fe_half_without_mod_ok d Ld) as [Lh Vh]. rewrite IH, Vh, Vd by (assumption || lia). reflexivity. }
  replace (fval u <=? fval v) with true by (symmetry; apply Z.leb_le; lia).
  cbn [Z.eqb Pos.eqb]. cbv zeta. apply f_equal.
  destruct (fe_sub_gen ck v u V U) as (d & -> & Ld & Vd); [rewrite p_num; lia|].
  destruct (Z.ltb_spec (fval v) (fval u)) in Vd; [lia|].
  rewrite fst_quiet, fe_add_F, fst_quiet, E2, fe_mul_F, fst_quiet, KK, fst_quiet.
  destruct (fe_half_without_mod_ok d Ld) as [Lh Vh]. rewrite IH, Vh, Vd by (assumption || lia). reflexivity.
Qed.
Lemma inverse_arms ck a : floadable a -> fval a <> 0 ->
  at_line 882 (fst (fe_inverse_log ck a)) = arms 600 p (fval a).
Proof.
  intros A N. unfold fe_inverse_log. rewrite at_lbind.
  2:{ intros rz. rewrite fst_ask, at_cons. cbn [Z.eqb Pos.eqb app]. destruct (if _ <? _ then _ else _) as [rz'| |]; try reflexivity.
      rewrite fst_quiet. destruct (usub _ _ _ _) as [e| |]; try reflexivity. rewrite fst_quiet, at_lbind by reflexivity.
      unfold fe_inner_two_pow_k_log, lassert. destruct (e <? 260); reflexivity. }
  unfold fe_phase1_log. assert (Z : fe_eqb a fe_zero = false).
  { rewrite fe_eqb_ok by (auto using fcanon_loadable, fcanon_zero). apply Z.eqb_neq. rewrite fval_zero. exact N. }
  rewrite Z. cbn [negb]. rewrite fst_assert, at_cons. cbn [Z.eqb Pos.eqb app]. cbv zeta. rewrite at_lbind.
  2:{ intros rk. rewrite fst_cmp, at_app, at_cmp, fst_ask, at_cons by lia. cbn [Z.eqb Pos.eqb app].
      rewrite at_lbind; [reflexivity|]. intros r. rewrite at_lbind by reflexivity. reflexivity. }
  change (FE 671914833335277 3916664325105025 1367801 0 17592186044416) with FIELD_L.
  rewrite <- enc_zero, <- enc_one, phase1_arms, fval_FIELD_L.
  - reflexivity.
  - apply flimbs_FIELD_L.
  - apply A.
  - lia.
  - reflexivity.
Qed.
Lemma canon_bound a : fcanon a -> 0 <= fval a < 2 ^ Z.of_nat 253.
Proof.
  intros [A B]. pose proof (fval_nonneg _ A) as N. split; [apply N|]. change (Z.of_nat 253) with 253.
  apply Z.lt_trans with p; [exact B|reflexivity].
Qed.
Lemma p_bound : 1 <= p < 2 ^ Z.of_nat 253.
Proof. split; [discriminate|reflexivity]. Qed.
Lemma canon_gcd a : fcanon a -> fval a <> 0 -> Z.gcd p (fval a) = 1.
Proof.
  intros [A B] N. pose proof (fval_nonneg _ A) as NN. apply Zgcd_1_rel_prime, rel_prime_sym, rel_prime_le_prime; [exact prime_p|lia].
Qed.

(** The log does not depend on the build. *)
Lemma quiet_bind {A B} (a : A) (f : A -> lres B) : lbind (quiet (Ok a)) f = f a.
Proof. unfold lbind, quiet. cbn [app]. symmetry. apply surjective_pairing. Qed.
Lemma lbind_ext {A B} (m : lres A) (f g : A -> lres B) : (forall a, snd m = Ok a -> f a = g a) -> lbind m f = lbind m g.
Proof. destruct m as [l [a| |]]; cbn [snd]; intros H; [|reflexivity|reflexivity]. unfold lbind. rewrite (H a eq_refl). reflexivity. Qed.
Lemma sub_ck ck ck' a b : flimbs a -> flimbs b -> fval b <= fval a + p ->
  exists d, fe_sub ck a b = Ok d /\ fe_sub ck' a b = Ok d /\ flimbs d /\
    fval d = (if fval a <? fval b then fval a - fval b + p else fval a - fval b).
Proof.
  intros A B H. destruct (fe_sub_gen ck a b A B H) as (d & E & L & V). destruct (fe_sub_gen ck' a b A B H) as (d' & E' & L' & V').
  assert (D : d' = d) by (apply fval_inj; [exact L'|exact L|]; rewrite V, V'; reflexivity). subst d'.
  exists d. auto.
Qed.
Lemma phase1_ck ck ck' : forall n u v r s k, flimbs u -> flimbs v -> 0 <= k -> k + Z.of_nat n < 2 ^ 64 ->
  fe_phase1_loop_log n ck u v (enc r) (enc s) k = fe_phase1_loop_log n ck' u v (enc r) (enc s) k.
Proof.
  induction n as [|n IH]; intros u v r s k U V K K64; [reflexivity|]. cbn [fe_phase1_loop_log].
  apply lbind_ext. intros c0 _. apply lbind_ext. intros go Hgo. destruct go; [|reflexivity].
  apply lbind_ext. intros uv Huv. apply lbind_ext. intros vu Hvu. apply lbind_ext. intros i Hi.
  rewrite snd_cmp in Huv, Hvu. injection Huv as <-. injection Hvu as <-.
  rewrite snd_arm in Hi. injection Hi as Hi.
  rewrite fe_gt_ok, fe_ge_ok in Hi by assumption.
  change (2 ^ 64) with 18446744073709551616 in *.
  assert (E2 : fe_two = enc (toF 2)) by reflexivity.
  assert (KK : uadd ck W64 k 1 = Ok (k + 1)) by (apply uadd_ok; unfold W64; lia).
  assert (KK' : uadd ck' W64 k 1 = Ok (k + 1)) by (apply uadd_ok; unfold W64; lia).
  rewrite E2. destruct (i =? 0).
  { cbv zeta. rewrite !fe_mul_F, !quiet_bind, KK, KK', !quiet_bind.
    apply IH; try assumption; try lia. apply fe_half_without_mod_ok, U. }
  destruct (i =? 1).
  { cbv zeta. rewrite !fe_mul_F, !quiet_bind, KK, KK', !quiet_bind.
    apply IH; try assumption; try lia. apply fe_half_without_mod_ok, V. }
  destruct (Z.eqb_spec i 2) as [E|_].
  { assert (C : fval v < fval u).
    { rewrite E in Hi. destruct (fe_is_even u); [discriminate|]. destruct (fe_is_even v); [discriminate|].
      destruct (Z.ltb_spec (fval v) (fval u)); [assumption|]. destruct (_ <=? _); discriminate. }
    destruct (sub_ck ck ck' u v U V) as (d & -> & -> & Ld & _); [rewrite p_num; lia|]. rewrite !quiet_bind.
    cbv zeta. rewrite !fe_add_F, !quiet_bind, !fe_mul_F, !quiet_bind, KK, KK', !quiet_bind.
    apply IH; try assumption; try lia. apply fe_half_without_mod_ok, Ld. }
  destruct (Z.eqb_spec i 3) as [E|_]; [|reflexivity].
  { assert (C : fval u <= fval v).
    { rewrite E in Hi. destruct (fe_is_even u); [discriminate|]. destruct (fe_is_even v); [discriminate|].
      destruct (Z.ltb_spec (fval v) (fval u)); [discriminate|]. assumption. }
    destruct (sub_ck ck ck' v u V U) as (d & -> & -> & Ld & _); [rewrite p_num; lia|]. rewrite !quiet_bind.
    cbv zeta. rewrite !fe_add_F, !quiet_bind, !fe_mul_F, !quiet_bind, KK, KK', !quiet_bind.
    apply IH; try assumption; try lia. apply fe_half_without_mod_ok, Ld. }
Qed.
Lemma phase1_out ck a : fcanon a -> fF a <> 0%F -> exists r k,
  snd (fe_phase1_loop_log loop_fuel ck FIELD_L a (enc 0) (enc 1) 0) = Ok (enc r, k) /\ 0 <= k <= 506.
Proof.
  intros A N. rewrite er_phase1_loop.
  destruct (fe_phase1_loop_ok ck (fF a) loop_fuel 253 253 FIELD_L a 0%F 1%F 0) as (r & k & Er & K & _).
  - unfold loop_fuel. lia.
  - apply flimbs_FIELD_L.
  - apply A.
  - rewrite fval_FIELD_L. reflexivity.
  - apply canon_bound, A.
  - rewrite fval_FIELD_L. discriminate.
  - rewrite fval_FIELD_L. apply canon_gcd; [exact A|]. intros C. apply N. unfold fF. rewrite C. reflexivity.
  - lia.
  - reflexivity.
  - rewrite fval_FIELD_L, toF_p. ring.
  - change (toF (2 ^ 0)) with 1%F. unfold fF. ring.
  - exists r, k. split; [exact Er|]. change (Z.of_nat 253) with 253 in K. lia.
Qed.
Lemma phase1_log_ck ck ck' a : fcanon a ->
  fe_phase1_log ck a = fe_phase1_log ck' a /\
  forall d k, snd (fe_phase1_log ck a) = Ok (d, k) -> flimbs d /\ 0 <= fval d <= p /\ 0 <= k <= 506.
Proof.
  intros A. unfold fe_phase1_log. cbv zeta.
  change (FE 671914833335277 3916664325105025 1367801 0 17592186044416) with FIELD_L.
  rewrite <- enc_zero, <- enc_one.
  destruct (F_dec (fF a) 0) as [Z|N].
  { rewrite <- (enc_fF a A), Z. rewrite fe_eqb_F, feqb_refl. cbn [negb]. unfold lassert, lbind. cbn [rassert]. split; [reflexivity|].
    cbn [snd]. intros d k H. discriminate H. }
  assert (E : fe_phase1_loop_log loop_fuel ck FIELD_L a (enc 0) (enc 1) 0 = fe_phase1_loop_log loop_fuel ck' FIELD_L a (enc 0) (enc 1) 0).
  { apply phase1_ck; [apply flimbs_FIELD_L|apply A|lia|reflexivity]. }
  destruct (phase1_out ck a A N) as (r & k & Er & K). rewrite <- E.
  generalize dependent (fe_phase1_loop_log loop_fuel ck FIELD_L a (enc 0) (enc 1) 0). intros m _ Er.
  assert (Gt : is_gt (fe_cmp (enc r) FIELD_L) = false).
  { rewrite fe_gt_ok by auto using flimbs_FIELD_L with fe. rewrite fval_FIELD_L, fval_enc. pose proof (Frange r). apply Z.ltb_ge. lia. }
  destruct (sub_ck ck ck' FIELD_L (enc r) flimbs_FIELD_L (enc_limbs r)) as (d & Ed & Ed' & Ld & Vd).
  { rewrite fval_FIELD_L, fval_enc. pose proof (Frange r). pose proof p_num. lia. }
  assert (Bd : 0 <= fval d <= p).
  { rewrite Vd, fval_FIELD_L, fval_enc. pose proof (Frange r). destruct (Z.ltb_spec p (Fval r)); lia. }
  split.
  - apply lbind_ext. intros _ _. apply lbind_ext. intros rk H. rewrite Er in H. injection H as <-. cbn [fst snd].
    apply lbind_ext. intros c H. rewrite snd_cmp in H. injection H as <-. rewrite Gt. apply lbind_ext. intros g H.
    rewrite snd_ask in H. injection H as <-. rewrite !quiet_bind, Ed, Ed'. reflexivity.
  - intros d' k'. rewrite snd_lbind, snd_lassert. destruct (negb (fe_eqb a (enc 0))); [|discriminate]. cbn [rassert]. rewrite bind_ok.
    rewrite snd_lbind, Er, bind_ok. cbn [fst snd]. rewrite snd_lbind, snd_cmp, bind_ok, Gt, snd_lbind, snd_ask, bind_ok.
    rewrite quiet_bind, Ed, quiet_bind, snd_quiet. intros H. injection H as <- <-. auto.
Qed.
Lemma inverse_ck ck ck' a : fcanon a -> fe_inverse_log ck a = fe_inverse_log ck' a.
Proof.
  intros A. destruct (phase1_log_ck ck ck' a A) as [E H]. unfold fe_inverse_log. rewrite <- E.
  apply lbind_ext. intros [d k] Hd. destruct (H d k Hd) as (Ld & Bd & K). clear E H Hd. cbn [fst snd].
  apply lbind_ext. intros g Hg. rewrite snd_ask in Hg. injection Hg as <-.
  assert (Fin : forall c c' d' k', flimbs d' -> 0 <= fval d' <= p -> 0 <= k' <= 260 ->
    (e <~ quiet (usub c W64 260 k') ;; fact <~ fe_inner_two_pow_k_log c e ;; quiet (fe_montgomery_mul c d' fact)) =
    (e <~ quiet (usub c' W64 260 k') ;; fact <~ fe_inner_two_pow_k_log c' e ;; quiet (fe_montgomery_mul c' d' fact))).
  { intros c c' d' k' L' B' K'. rewrite !usub_ok, !quiet_bind by lia.
    unfold fe_inner_two_pow_k_log. destruct (Z.eq_dec k' 0) as [->|Nk].
    { change (260 - 0 <? 260) with false. unfold lassert, lbind. cbn [rassert]. reflexivity. }
    destruct (fe_inner_two_pow_k_ok c (260 - k')) as (t & Et & Lt & Vt); [lia|].
    destruct (fe_inner_two_pow_k_ok c' (260 - k')) as (t' & Et' & Lt' & Vt'); [lia|].
    assert (t' = t) by (apply fval_inj; [assumption..|]; rewrite Vt, Vt'; reflexivity). subst t'.
    rewrite Et, Et'. apply lbind_ext. intros x Hx.
    rewrite snd_lbind, snd_lassert in Hx. replace (260 - k' <? 260) with true in Hx by (symmetry; apply Z.ltb_lt; lia).
    cbn [rassert] in Hx. rewrite bind_ok, snd_lbind, snd_arm, bind_ok, snd_quiet in Hx. injection Hx as <-.
    assert (M : fval d' * fval t < 2 ^ 260 * p).
    { rewrite Vt. assert (T : 0 < 2 ^ (260 - k') < 2 ^ 260).
      { split; [apply Z.pow_pos_nonneg; lia|apply Z.pow_lt_mono_r; lia]. }
      pose proof p_odd. clear - T B'. revert T. generalize (2 ^ (260 - k')) (2 ^ 260). intros. assert (0 < p) by reflexivity. nia. }
    rewrite !fe_montgomery_mul_F by assumption. reflexivity. }
  destruct (Z.ltb_spec 260 k) as [G|G].
  - rewrite !fe_montgomery_mul_F, !bind_ok, !usub_ok, !bind_ok, !quiet_bind; try assumption; try lia; try apply fcanon_one.
    + cbn [fst snd]. apply Fin; [auto with fe| |lia]. rewrite fval_enc. pose proof (Frange (fF d * fF fe_one / toF (2 ^ 260))%F) as R.
      clear - R. revert R. generalize (Fval (fF d * fF fe_one / toF (2 ^ 260))%F). intros. lia.
    + rewrite fval_one. clear - Bd. assert (p < 2 ^ 260 * p) by reflexivity. lia.
    + rewrite fval_one. clear - Bd. assert (p < 2 ^ 260 * p) by reflexivity. lia.
  - rewrite !quiet_bind. cbn [fst snd]. apply Fin; [assumption..|lia].
Qed.

(** The branches of `inverse` determine its operand completely, and do not depend on the build. *)
Lemma C94_inverse_stmt : forall ck ck' a b, fcanon a -> fcanon b -> a <> fe_zero -> b <> fe_zero ->
  (log_of (fe_inverse_log ck a) = log_of (fe_inverse_log ck' b) <-> a = b).
Proof.
  intros ck ck' a b A B Na Nb. split; [|intros <-; apply f_equal, inverse_ck, A]. intros E. apply (f_equal (at_line 882)) in E. unfold log_of in E.
  assert (Z : forall x, fcanon x -> x <> fe_zero -> fval x <> 0).
  { intros x [X _] N C. apply N. apply fval_inj; [exact X|apply fcanon_zero|]. rewrite fval_zero. exact C. }
  rewrite !inverse_arms in E by auto using fcanon_loadable.
  destruct (arms_inj 600 600 253 253 p (fval a) 253 253 p (fval b)) as [_ Q]; auto using p_bound, canon_bound, canon_gcd; try lia.
  apply fval_inj; [apply A|apply B|exact Q].
Qed.
(** The number of rounds of its loop lies between 253 and 505, for every operand. *)
Lemma C94_rounds_stmt : forall ck a, fcanon a -> a <> fe_zero ->
  253 <= Z.of_nat (length (at_line 882 (log_of (fe_inverse_log ck a)))) <= 505.
Proof.
  intros ck a A Na. unfold log_of. assert (N : fval a <> 0).
  { intros C. apply Na. apply fval_inj; [apply A|apply fcanon_zero|]. rewrite fval_zero. exact C. }
  rewrite inverse_arms by auto using fcanon_loadable.
  pose proof (canon_bound a A) as Ba. pose proof (canon_gcd a A N) as G.
  pose proof (arms_len 600 253 253 p (fval a) p_bound Ba G ltac:(lia)) as U.
  pose proof (arms_lower 600 253 253 p (fval a) 0 1 1 p_bound Ba G ltac:(lia) ltac:(lia) ltac:(lia)) as W.
  split; [|lia]. rewrite Z.mul_1_r, Z.mul_0_r, Z.add_0_r, Z.mul_1_l in W. clear - W.
  destruct (Z.le_gt_cases 253 (Z.of_nat (length (arms 600 p (fval a))))) as [H|H]; [exact H|].
  assert (C : 2 ^ Z.of_nat (length (arms 600 p (fval a))) <= 2 ^ 252) by (apply Z.pow_le_mono_r; lia).
  assert (p <= 2 ^ 252) by (apply Z.le_trans with (1 := W), C). assert (X : 2 ^ 252 < p) by reflexivity. lia.
Qed.

(** *** Square roots *)
Lemma at_pow n ck : n <> 68 -> n <> 70 -> n <> 340 -> n <> 341 -> forall k b r e,
  at_line n (fst (fe_pow_loop_log k ck b r e)) = [].
Proof.
  intros N1 N2 N3 N4. induction k as [|k IH]; intros b r e; [reflexivity|]. cbn [fe_pow_loop_log].
  rewrite fst_cmp, at_app, at_cmp, fst_ask, at_cons by assumption.
  destruct (Z.eqb_spec 340 n); [congruence|]. cbn [app]. destruct (is_gt _); [|reflexivity].
  rewrite fst_ask, at_cons. destruct (Z.eqb_spec 341 n); [congruence|]. cbn [app]. destruct (fe_is_even e).
  - cbv zeta. rewrite at_lbind; [reflexivity|]. intros. apply IH.
  - rewrite at_lbind; [reflexivity|]. intros. rewrite at_lbind; [reflexivity|]. intros. cbv zeta.
    rewrite at_lbind; [reflexivity|]. intros. apply IH.
Qed.
Definition plog (e : fe) : list branch := fst (fe_pow_log true fe_one e).
Lemma fst_pow {B} ck x e (f : fe -> lres B) : flimbs e ->
  fst (lbind (fe_pow_log ck (enc x) e) f) = plog e ++ fst (f (enc (x ^ fval e)%F)).
Proof.
  intros E. rewrite (fst_lbind _ _ (enc (x ^ fval e)%F)).
  - apply f_equal2; [|reflexivity]. apply pow_dep; auto with fe; apply fcanon_loadable, fcanon_one.
  - rewrite er_pow, fe_pow_ld, fF_enc by auto with fe. reflexivity.
Qed.
Lemma limbs_half : flimbs MINUS_ONE_HALF.
Proof. change MINUS_ONE_HALF with (enc (toF ((p - 1) / 2))). auto with fe. Qed.
Lemma fst_legendre {B} ck x (f : bool -> lres B) :
  fst (lbind (fe_legendre_symbol_log ck (enc x)) f) = plog MINUS_ONE_HALF ++ fst (f (sqb_F x)).
Proof.
  rewrite (fst_lbind _ _ (sqb_F x)).
  - apply f_equal2; [|reflexivity]. unfold fe_legendre_symbol_log. rewrite fst_pow by exact limbs_half.
    cbn [quiet fst]. apply app_nil_r.
  - rewrite er_legendre. apply fe_legendre_F.
Qed.
Lemma at_plog n e : n <> 68 -> n <> 70 -> n <> 340 -> n <> 341 -> at_line n (plog e) = [].
Proof. intros. apply at_pow; assumption. Qed.
Definition factor_log : list branch := [Br 400 1; Br 400 1; Br 400 0].
Lemma factor_log_ok ck : fe_factor_loop_log loop_fuel ck fe_minus_one fe_zero = (factor_log, Ok (enc (toF q4), enc (toF 2))).
Proof. destruct ck; vm_compute; reflexivity. Qed.
(** Log of the part of `mod_sqrt` after the test of residuosity: without and with a round of the loop. *)
Definition sqrt_log (one_round : bool) : list branch :=
  factor_log ++ plog (enc (toF q4)) ++ plog (enc (toF ((q4 + 1) / 2))) ++ plog (enc (toF q4)) ++
  (if one_round then
     Br 414 1 :: (fst (fe_cmp_log fe_zero (enc (toF 2))) ++ Br 419 1 :: plog (enc (toF 2)) ++ [Br 421 1]) ++
     plog (enc 0) ++ plog (enc 1) ++ [Br 414 0]
   else [Br 414 0]).
Definition mod_sqrt_log_F (a : F) : list branch :=
  if feqb a 0 then [Br 381 1] else
  Br 381 0 :: plog MINUS_ONE_HALF ++ Br 387 (Z.b2z (negb (sqb_F a))) ::
  (if sqb_F a then sqrt_log (negb (feqb (a ^ q4) 1)) else []).

Lemma order_log_ok ck : fe_order_loop_log loop_fuel ck (enc (- (1))) (enc (toF 2)) fe_zero (fe_from_u8 2) =
  (fst (fe_cmp_log fe_zero (enc (toF 2))) ++ Br 419 1 :: plog (enc (toF 2)) ++ [Br 421 1], Ok (enc 1)).
Proof.
  assert (E : fe_pow ck (enc (- (1))) (enc (toF 2)) = Ok (enc 1)).
  { rewrite fe_pow_F. change (Fval (toF 2)) with 2. rewrite fpow_2. apply f_equal, f_equal. ring. }
  rewrite (surjective_pairing (fe_order_loop_log _ _ _ _ _ _)). apply f_equal2.
  - change loop_fuel with (S 599). generalize 599%nat as n. intros n. cbn [fe_order_loop_log]. rewrite fst_cmp, fst_ask.
    change (is_lt (fe_cmp fe_zero (enc (toF 2)))) with true. cbv iota.
    rewrite <- enc_zero, <- enc_one, fe_add_F, fst_quiet. apply f_equal. apply (f_equal (cons (Br 419 1))).
    change (fe_from_u8 2) with (enc (toF 2)). rewrite fst_pow by auto with fe. apply f_equal.
    rewrite fval_enc. change (Fval (toF 2)) with 2. rewrite fpow_2, fe_eqb_F.
    assert (M : (- (1) * - (1) = 1)%F) by ring. rewrite M, feqb_refl. reflexivity.
  - rewrite er_order. change loop_fuel with (S 599). generalize 599%nat as n. intros n. cbn [fe_order_loop].
    change (is_lt (fe_cmp fe_zero (enc (toF 2)))) with true. cbv iota.
    rewrite <- enc_zero, <- enc_one, fe_add_F, bind_ok. change (fe_from_u8 2) with (enc (toF 2)). rewrite E, bind_ok, fe_eqb_F, feqb_refl.
    apply f_equal, f_equal. ring.
Qed.
Lemma mod_sqrt_log_ok ck a sign : fst (fe_mod_sqrt_log ck (enc a) sign) = mod_sqrt_log_F a.
Proof.
  unfold fe_mod_sqrt_log, mod_sqrt_log_F. rewrite fst_ask, <- enc_zero, fe_eqb_F.
  destruct (feqb_spec a 0) as [->|N]; [reflexivity|]. change (Z.b2z false) with 0. apply f_equal.
  rewrite fst_legendre. apply f_equal. rewrite fst_ask. apply f_equal.
  destruct (sqb_F_spec a) as [Sq|Sq]; [|reflexivity]. cbn [negb]. cbv zeta.
  rewrite enc_zero, factor_log_ok. unfold sqrt_log. rewrite (fst_lbind _ _ (enc (toF q4), enc (toF 2))) by reflexivity.
  cbn [fst snd]. apply f_equal. change (FE 6 0 0 0 0) with (enc (toF 6)). rewrite fst_pow by auto with fe.
  apply f_equal. rewrite <- enc_one, fe_add_F, fst_quiet.
  assert (Eh : fe_half_without_mod (enc (toF q4 + 1)%F) = enc (toF ((q4 + 1) / 2))) by reflexivity. rewrite Eh.
  rewrite fst_pow by auto with fe. apply f_equal. rewrite fst_pow by auto with fe. apply f_equal.
  rewrite !fval_enc. assert (Fq : Fval (toF q4) = q4) by reflexivity. rewrite Fq, <- c6_ok.
  assert (X : (a ^ q4 = 1 \/ a ^ q4 = - (1))%F).
  { apply is_sq_chi in Sq; [|assumption]. apply F_sq_eq. rewrite <- fpow_add by exact q4_nn. rewrite q4_dbl.
    unfold chi in Sq. rewrite Sq. symmetry. apply Feq. reflexivity. }
  generalize (a ^ Fval (toF ((q4 + 1) / 2)))%F as x. intros x.
  generalize dependent (a ^ q4)%F. intros t Ht.
  assert (Loop : exists y, fe_sqrt_loop_log loop_fuel ck (enc x) (enc t) (enc c6) (enc (toF 2)) =
    ((if negb (feqb t 1) then Br 414 1 :: (fst (fe_cmp_log fe_zero (enc (toF 2))) ++ Br 419 1 :: plog (enc (toF 2)) ++ [Br 421 1]) ++
        plog (enc 0) ++ plog (enc 1) ++ [Br 414 0] else [Br 414 0]), Ok (enc y))).
  { change loop_fuel with (S (S 598)) at 1. generalize 598%nat as n0. intros n0. remember (S n0) as n eqn:Hn.
    destruct (feqb_spec t 1) as [E|E].
    { exists x. cbn [fe_sqrt_loop_log negb]. rewrite <- enc_one, fe_eqb_F, E, feqb_refl. reflexivity. }
    destruct Ht as [Ht|Ht]; [tauto|]. subst t. exists (x * c6)%F. cbn [negb].
    cbn [fe_sqrt_loop_log]. rewrite <- enc_one, fe_eqb_F.
    destruct (feqb_spec (- (1)) 1) as [C|_]; [tauto|]. cbn [negb].
    assert (Z0 : (toF 2 - 1 - 1 = 0)%F) by (apply Feq; reflexivity).
    change fe_two with (enc (toF 2)).
    assert (P1 : fe_pow ck (enc (toF 2)) (enc 0) = Ok (enc 1)).
    { rewrite fe_pow_F. change (Fval 0) with 0. rewrite fpow_0. reflexivity. }
    assert (P2 : fe_pow ck (enc c6) (enc 1) = Ok (enc c6)).
    { rewrite fe_pow_F. change (Fval 1) with 1. rewrite fpow_1. reflexivity. }
    assert (C1 : (- (1) * (c6 * c6) = 1)%F) by (rewrite c6_sq; ring).
    match goal with |- ?m = _ => rewrite (surjective_pairing m) end. apply f_equal2.
    - rewrite fst_ask. apply f_equal.
      rewrite (fst_lbind _ _ (enc 1)) by (rewrite order_log_ok; reflexivity). rewrite order_log_ok. cbn [fst]. apply f_equal.
      rewrite fe_sub_F, fst_quiet, fe_sub_F, fst_quiet, Z0.
      rewrite fst_pow by auto with fe. apply f_equal. rewrite fval_enc. change (Fval 0) with 0. rewrite fpow_0.
      rewrite fst_pow by auto with fe. apply f_equal. rewrite fval_enc. change (Fval 1) with 1. rewrite fpow_1.
      rewrite fe_mul_F, fst_quiet, fe_square_F, !fst_quiet, fe_mul_F, !fst_quiet, C1.
      rewrite Hn. cbn [fe_sqrt_loop_log]. rewrite <- enc_one, fe_eqb_F, feqb_refl. reflexivity.
    - rewrite snd_lbind, snd_ask, bind_ok, snd_lbind, order_log_ok. cbn [snd]. er.
      rewrite fe_sub_F. er. rewrite fe_sub_F. er. rewrite Z0, er_pow, P1. er. rewrite er_pow, P2. er.
      rewrite fe_mul_F. er. rewrite fe_square_F. er. rewrite fe_mul_F. er. rewrite C1, er_sqrt_loop, Hn.
      cbn [fe_sqrt_loop]. rewrite <- enc_one, fe_eqb_F, feqb_refl. reflexivity. }
  destruct Loop as [y Ly]. rewrite (fst_lbind _ _ (enc y)) by (rewrite Ly; reflexivity). rewrite Ly. cbn [fst].
  destruct (fe_sub ck FIELD_L (enc y)); cbn [quiet lbind fst]; apply app_nil_r.
Qed.
Lemma pow_one_Z a : (toF a ^ q4 = 1)%F <-> a ^ ((p - 1) / 4) mod p = 1.
Proof.
  change ((p - 1) / 4) with q4. rewrite <- toF_pow by exact q4_nn. change 1%F with (toF 1). rewrite toF_eq.
  change (1 mod p) with 1. reflexivity.
Qed.
Lemma at_sqrt_log n c : n <> 68 -> n <> 70 -> n <> 340 -> n <> 341 -> n <> 400 -> n <> 414 -> n <> 419 -> n <> 421 ->
  at_line n (sqrt_log c) = [].
Proof.
  intros. unfold sqrt_log, factor_log. rewrite !at_app, !at_cons, !at_plog by assumption.
  destruct (Z.eqb_spec 400 n); [congruence|]. cbn [app]. destruct c.
  - rewrite !at_cons, !at_app, !at_cons, !at_app, !at_cons, at_cmp, !at_plog by assumption.
    destruct (Z.eqb_spec 414 n); [congruence|]. destruct (Z.eqb_spec 419 n); [congruence|]. destruct (Z.eqb_spec 421 n); [congruence|].
    reflexivity.
  - rewrite !at_cons. destruct (Z.eqb_spec 414 n); [congruence|]. reflexivity.
Qed.
Lemma rounds_sqrt_log c : at_line 414 (sqrt_log c) = if c then [1; 0] else [0].
Proof.
  unfold sqrt_log, factor_log. rewrite !at_app, !at_cons, !at_plog by discriminate. cbn [Z.eqb Pos.eqb app]. destruct c.
  - rewrite !at_cons, !at_app, !at_cons, !at_app, !at_cons, at_cmp, !at_plog by discriminate. reflexivity.
  - rewrite !at_cons. reflexivity.
Qed.
Lemma shape_eq (P : list branch) (T : bool -> list branch) :
  (forall n, n = 381 \/ n = 387 \/ n = 414 -> at_line n P = []) ->
  (forall c, at_line 381 (T c) = [] /\ at_line 387 (T c) = [] /\ at_line 414 (T c) = if c then [1; 0] else [0]) ->
  forall za zb sa sb qa qb : bool,
  (if za then [Br 381 1] else Br 381 0 :: P ++ Br 387 (Z.b2z (negb sa)) :: (if sa then T (negb qa) else [])) =
  (if zb then [Br 381 1] else Br 381 0 :: P ++ Br 387 (Z.b2z (negb sb)) :: (if sb then T (negb qb) else [])) ->
  za = zb /\ (za = false -> sa = sb /\ (sa = true -> qa = qb)).
Proof.
  intros HP HT za zb sa sb qa qb H.
  assert (L : forall n, at_line n [] = []) by reflexivity.
  assert (H2 := f_equal (at_line 387) H). assert (H3 := f_equal (at_line 414) H).
  destruct za, zb; try discriminate H; (split; [reflexivity|]); [discriminate|intros _].
  rewrite !at_cons, !at_app, !HP, !at_cons in H2, H3 by auto. cbn [Z.eqb Pos.eqb app] in H2, H3.
  apply (f_equal (hd 5)) in H2. cbn [hd] in H2.
  destruct sa, sb; try discriminate H2; (split; [reflexivity|]); [intros _|discriminate].
  destruct (HT (negb qa)) as (_ & _ & Ea). destruct (HT (negb qb)) as (_ & _ & Eb). rewrite Ea, Eb in H3.
  destruct qa, qb; try reflexivity; discriminate H3.
Qed.
Lemma mod_sqrt_log_eq a b : mod_sqrt_log_F a = mod_sqrt_log_F b <->
  feqb a 0 = feqb b 0 /\ sqb_F a = sqb_F b /\ feqb (a ^ q4) 1 = feqb (b ^ q4) 1.
Proof.
  assert (S0 : forall x, feqb x 0 = true -> sqb_F x = true /\ feqb (x ^ q4) 1 = false).
  { intros x E. destruct (feqb_spec x 0) as [E0|]; [|discriminate]. clear E. rewrite E0. split.
    - destruct (sqb_F_spec 0) as [|N]; [reflexivity|]. elim N. apply is_sq_zero.
    - rewrite fpow_zero by reflexivity. reflexivity. }
  assert (SN : forall x, sqb_F x = false -> feqb (x ^ q4) 1 = false).
  { intros x E. destruct (sqb_F_spec x) as [|N]; [discriminate|]. destruct (feqb_spec (x ^ q4) 1) as [C|]; [|reflexivity].
    apply not_sq_chi in N. unfold chi in N. rewrite <- q4_dbl, fpow_add, C in N by exact q4_nn.
    exfalso. apply (f_equal Fval) in N. vm_compute in N. discriminate. }
  unfold mod_sqrt_log_F. split.
  - intros H. apply shape_eq in H.
    2:{ intros n [ -> |[ -> | -> ]]; apply at_plog; discriminate. }
    2:{ intros c. split; [apply at_sqrt_log; discriminate|]. split; [apply at_sqrt_log; discriminate|]. apply rounds_sqrt_log. }
    destruct H as [Ez H]. split; [exact Ez|]. rewrite Ez in H. destruct (feqb b 0) eqn:Eb.
    { destruct (S0 a Ez) as [-> ->]. destruct (S0 b Eb) as [-> ->]. auto. }
    destruct (H eq_refl) as [Es Hq]. split; [exact Es|]. destruct (sqb_F a) eqn:Ea.
    + apply Hq. reflexivity.
    + rewrite (SN a Ea), (SN b) by congruence. reflexivity.
  - intros (Ha & Hb & Hc). rewrite Ha, Hb, Hc. reflexivity.
Qed.
Lemma bool_iff (x y : bool) (P Q : Prop) : reflect P x -> reflect Q y -> (x = y <-> (P <-> Q)).
Proof. intros [X|X] [Y|Y]; split; intros H; try tauto; try discriminate. Qed.

(** The branches of `mod_sqrt` reveal whether the operand is zero, whether it is a square,
    and whether its power (p-1)/4 is 1; they reveal nothing else. *)
Lemma C94_mod_sqrt_stmt : forall ck ck' a b s s', fcanon a -> fcanon b ->
  (log_of (fe_mod_sqrt_log ck a s) = log_of (fe_mod_sqrt_log ck' b s') <->
   (fval a = 0 <-> fval b = 0) /\ (square_mod_p (fval a) <-> square_mod_p (fval b)) /\
   (fval a ^ ((p - 1) / 4) mod p = 1 <-> fval b ^ ((p - 1) / 4) mod p = 1)).
Proof.
  intros ck ck' a b s s' A B. unfold log_of. pose proof (mod_sqrt_log_ok ck (fF a) s) as Ea. pose proof (mod_sqrt_log_ok ck' (fF b) s') as Eb.
  rewrite enc_fF in Ea, Eb by assumption. rewrite Ea, Eb, mod_sqrt_log_eq.
  assert (Z : forall x, fcanon x -> reflect (fval x = 0) (feqb (fF x) 0)).
  { intros x X. destruct (feqb_spec (fF x) 0) as [E|E]; constructor.
    - rewrite <- (enc_fF x X), E. apply fval_zero.
    - intros C. apply E. unfold fF. rewrite C. reflexivity. }
  assert (S : forall x, reflect (square_mod_p (fval x)) (sqb_F (fF x))).
  { intros x. destruct (sqb_F_spec (fF x)) as [E|E]; constructor; unfold fF in E; rewrite is_sq_Z in E; exact E. }
  assert (Q : forall x, reflect (fval x ^ ((p - 1) / 4) mod p = 1) (feqb (fF x ^ q4) 1)).
  { intros x. destruct (feqb_spec (fF x ^ q4) 1) as [E|E]; constructor; unfold fF in E; rewrite pow_one_Z in E; exact E. }
  rewrite (bool_iff _ _ _ _ (Z a A) (Z b B)), (bool_iff _ _ _ _ (S a) (S b)), (bool_iff _ _ _ _ (Q a) (Q b)). reflexivity.
Qed.

(** *** Division and the functions built on it *)
Lemma at_inner n ck e : n <> 717 -> n <> 720 -> at_line n (fst (fe_inner_two_pow_k_log ck e)) = [].
Proof.
  intros N1 N2. unfold fe_inner_two_pow_k_log, lassert. destruct (e <? 260); cbn [rassert lbind fst quiet arm app];
    rewrite ?at_cons; destruct (Z.eqb_spec 717 n), (Z.eqb_spec 720 n); try congruence; reflexivity.
Qed.
(** The branches of `/` on references and by value determine the divisor and nothing else. *)
Lemma C94_div_stmt : forall ck ck' a b a' b', fcanon b -> fcanon b' -> b <> fe_zero -> b' <> fe_zero ->
  (log_of (fe_div_log ck a b) = log_of (fe_div_log ck' a' b') <-> b = b') /\
  (log_of (fe_div_val_log ck a b) = log_of (fe_div_val_log ck' a' b') <-> b = b').
Proof.
  intros ck ck' a b a' b' B B' N N'.
  assert (Z : forall x, fcanon x -> x <> fe_zero -> fe_eqb x fe_zero = false /\ fF x <> 0%F).
  { intros x X E. assert (V : fval x <> 0). { intros C. apply E. apply fval_inj; [apply X|apply fcanon_zero|]. rewrite fval_zero. exact C. }
    split.
    - rewrite fe_eqb_ok by auto using fcanon_loadable, fcanon_zero. apply Z.eqb_neq. rewrite fval_zero. exact V.
    - intros C. apply V. rewrite <- (enc_fF x X), C. apply fval_zero. }
  destruct (Z b B N) as [Zb Fb]. destruct (Z b' B' N') as [Zb' Fb'].
  assert (I : forall c x, fcanon x -> fF x <> 0%F -> snd (fe_inverse_log c x) = Ok (enc (/ fF x)%F)).
  { intros c x X F. rewrite er_inverse. apply fe_inverse_ld; auto using fcanon_loadable. }
  assert (V : log_of (fe_div_val_log ck a b) = log_of (fe_div_val_log ck' a' b') <-> b = b').
  { unfold log_of, fe_div_val_log. rewrite (fst_lbind _ _ _ (I ck b B Fb)), (fst_lbind _ _ _ (I ck' b' B' Fb')). cbn [quiet fst].
    rewrite !app_nil_r. apply C94_inverse_stmt; assumption. }
  split; [|exact V]. rewrite <- V. unfold log_of, fe_div_log. rewrite Zb, Zb'. cbn [negb].
  rewrite !fst_assert. fold (fe_div_val_log ck a b) (fe_div_val_log ck' a' b').
  split; intros H; [injection H as H; exact H|rewrite H; reflexivity].
Qed.
Lemma at_is_positive n a : n <> 68 -> n <> 70 -> n <> 553 -> at_line n (fst (fe_is_positive_log a)) = [].
Proof.
  intros N1 N2 N3. unfold fe_is_positive_log. rewrite fst_cmp, at_app, at_cmp, fst_ask, at_cons by assumption.
  destruct (Z.eqb_spec 553 n); [congruence|]. cbn [app]. destruct (is_ge _); [|reflexivity].
  rewrite fst_cmp, at_app, at_cmp by assumption. cbn [ask fst app]. rewrite at_cons. destruct (Z.eqb_spec 553 n); [congruence|]. reflexivity.
Qed.
Lemma at_mod_sqrt_882 ck a sign : at_line 882 (fst (fe_mod_sqrt_log ck (enc a) sign)) = [].
Proof.
  rewrite mod_sqrt_log_ok. unfold mod_sqrt_log_F. destruct (feqb a 0); [reflexivity|].
  rewrite at_cons, at_app, at_plog, at_cons by discriminate. cbn [Z.eqb Pos.eqb app].
  destruct (sqb_F a); [|reflexivity]. apply at_sqrt_log; discriminate.
Qed.
Lemma at_div_882 ck u v : v <> 0%F -> at_line 882 (fst (fe_div_log ck (enc u) (enc v))) = arms 600 p (Fval v).
Proof.
  intros V. unfold fe_div_log. rewrite <- enc_zero, fe_eqb_F. destruct (feqb_spec v 0); [tauto|]. cbn [negb]. rewrite fst_assert, at_cons.
  cbn [Z.eqb Pos.eqb app]. rewrite at_lbind by reflexivity. rewrite inverse_arms, fval_enc; auto with fe.
  rewrite fval_enc. intros C. apply V, Feq. exact C.
Qed.
Lemma at_ratio_882 ck u v : u <> 0%F -> v <> 0%F ->
  at_line 882 (fst (fe_sqrt_ratio_i_log ck (enc u) (enc v))) = arms 600 p (Fval v) ++ arms 600 p (Fval v).
Proof.
  intros U V. unfold fe_sqrt_ratio_i_log. rewrite <- enc_zero, !fe_eqb_F.
  destruct (feqb_spec u 0); [tauto|]. destruct (feqb_spec v 0); [tauto|]. rewrite fst_arm, at_cons. cbn [Z.eqb Pos.eqb app].
  assert (D : snd (fe_div_log ck (enc u) (enc v)) = Ok (enc (u / v)%F)) by (rewrite er_div; apply fe_div_F, V).
  rewrite (fst_lbind _ _ _ D), at_app, at_div_882, fst_legendre, at_app, at_plog, fst_ask, at_cons by (exact V || discriminate).
  cbn [Z.eqb Pos.eqb app]. apply f_equal.
  assert (Tail : forall (b : bool) o, at_line 882 (fst (x <~ quiet (unwrap o) ;; pos <~ fe_is_positive_log x ;;
      x <~ quiet (fe_conditional_negate ck x (negb pos)) ;; quiet (Ok (b, x)))) = []).
  { intros b o. rewrite at_lbind; [reflexivity|]. intros x. rewrite at_lbind; [apply at_is_positive; discriminate|].
    intros pos. rewrite at_lbind; reflexivity. }
  destruct (sqb_F (u / v)).
  - rewrite (fst_lbind _ _ _ D), at_app, at_div_882 by exact V. rewrite at_lbind by apply Tail. rewrite at_mod_sqrt_882. apply app_nil_r.
  - rewrite (fst_lbind _ _ _ D), at_app, at_div_882 by exact V. rewrite FI_enc, fe_mul_F, fst_quiet.
    rewrite at_lbind by apply Tail. rewrite at_mod_sqrt_882. apply app_nil_r.
Qed.
Lemma twice_inj {A} (l l' : list A) : l ++ l = l' ++ l' -> l = l'.
Proof.
  intros H. assert (E : length l = length l') by (apply (f_equal (@length A)) in H; rewrite !app_length in H; lia).
  apply (f_equal (firstn (length l))) in H. rewrite firstn_app, firstn_all, Nat.sub_diag, firstn_O, app_nil_r in H.
  rewrite E, firstn_app, firstn_all, Nat.sub_diag, firstn_O, app_nil_r in H. exact H.
Qed.
(** So do those of `sqrt_ratio_i`. *)
Lemma C94_sqrt_ratio_stmt : forall ck ck' u v u' v', fcanon u -> fcanon v -> fcanon u' -> fcanon v' ->
  u <> fe_zero -> v <> fe_zero -> u' <> fe_zero -> v' <> fe_zero ->
  log_of (fe_sqrt_ratio_i_log ck u v) = log_of (fe_sqrt_ratio_i_log ck' u' v') -> v = v'.
Proof.
  assert (Z : forall x, fcanon x -> x <> fe_zero -> exists y, x = enc y /\ y <> 0%F).
  { intros x X E. exists (fF x). split; [symmetry; apply enc_fF, X|]. intros C. apply E. rewrite <- (enc_fF x X), C. reflexivity. }
  intros ck ck' u v u' v' U V U' V' Nu Nv Nu' Nv' H.
  destruct (Z u U Nu) as (x & -> & X). destruct (Z v V Nv) as (y & -> & Y).
  destruct (Z u' U' Nu') as (x' & -> & X'). destruct (Z v' V' Nv') as (y' & -> & Y').
  apply (f_equal (at_line 882)) in H. unfold log_of in H. rewrite !at_ratio_882 in H by assumption. apply twice_inj in H.
  assert (Q : Fval y = Fval y'); [|apply Feq in Q; rewrite Q; reflexivity].
  rewrite <- !fval_enc in *.
  assert (N : forall t, t <> 0%F -> fval (enc t) <> 0). { intros t T C. apply T, Feq. rewrite <- fval_enc, C. reflexivity. }
  destruct (arms_inj 600 600 253 253 p (fval (enc y)) 253 253 p (fval (enc y'))) as [_ Q]; auto using p_bound, canon_bound, canon_gcd; try lia.
Qed.
Lemma div_ck ck ck' x y : fe_div_log ck (enc x) (enc y) = fe_div_log ck' (enc x) (enc y).
Proof.
  unfold fe_div_log. apply lbind_ext. intros [] H. rewrite <- enc_zero, fe_eqb_F in H.
  destruct (feqb_spec y 0) as [_|N]; [discriminate H|]. rewrite (inverse_ck ck ck') by auto with fe.
  apply lbind_ext. intros i Hi. rewrite er_inverse, fe_inverse_F in Hi by exact N. injection Hi as <-. rewrite !fe_mul_F. reflexivity.
Qed.
Lemma pair_eq {A B} (x y : A * B) : fst x = fst y -> snd x = snd y -> x = y.
Proof. destruct x, y. cbn [fst snd]. intros -> ->. reflexivity. Qed.
Lemma pow_log_ck ck ck' x e : flimbs e -> fe_pow_log ck (enc x) e = fe_pow_log ck' (enc x) e.
Proof.
  intros E. apply pair_eq.
  - apply pow_dep; auto with fe; apply fcanon_loadable, fcanon_one.
  - rewrite !er_pow, !fe_pow_ld by auto with fe. reflexivity.
Qed.
Lemma legendre_ck ck ck' x : fe_legendre_symbol_log ck (enc x) = fe_legendre_symbol_log ck' (enc x).
Proof. unfold fe_legendre_symbol_log. rewrite (pow_log_ck ck ck') by exact limbs_half. reflexivity. Qed.
Lemma mod_sqrt_ck ck ck' x s : fe_mod_sqrt_log ck (enc x) s = fe_mod_sqrt_log ck' (enc x) s.
Proof.
  apply pair_eq.
  - rewrite !mod_sqrt_log_ok. reflexivity.
  - rewrite !er_mod_sqrt, !fe_mod_sqrt_F. reflexivity.
Qed.
Lemma ratio_ck ck ck' x y : fe_sqrt_ratio_i_log ck (enc x) (enc y) = fe_sqrt_ratio_i_log ck' (enc x) (enc y).
Proof.
  unfold fe_sqrt_ratio_i_log. apply lbind_ext. intros i Hi. destruct (Z.eqb_spec i 0); [reflexivity|]. destruct (Z.eqb_spec i 1); [reflexivity|].
  assert (N : y <> 0%F).
  { intros C. rewrite snd_arm in Hi. injection Hi as Hi. rewrite <- enc_zero, !fe_eqb_F, C, feqb_refl in Hi. destruct (feqb x 0); congruence. }
  assert (D : forall r, snd (fe_div_log ck' (enc x) (enc y)) = Ok r -> r = enc (x / y)%F).
  { intros r. rewrite er_div, fe_div_F by exact N. intros H. injection H as <-. reflexivity. }
  rewrite !(div_ck ck ck'). apply lbind_ext. intros r Hr. rewrite (D r Hr), (legendre_ck ck ck').
  apply lbind_ext. intros leg0 _. apply lbind_ext. intros leg _.
  assert (T : forall (b : bool) o, (forall v, o = Some v -> exists z, v = enc z) ->
    (x0 <~ quiet (unwrap o) ;; pos <~ fe_is_positive_log x0 ;; x1 <~ quiet (fe_conditional_negate ck x0 (negb pos)) ;; quiet (Ok (b, x1))) =
    (x0 <~ quiet (unwrap o) ;; pos <~ fe_is_positive_log x0 ;; x1 <~ quiet (fe_conditional_negate ck' x0 (negb pos)) ;; quiet (Ok (b, x1)))).
  { intros b o Ho. apply lbind_ext. intros v Hv. rewrite snd_quiet in Hv. destruct o as [w|]; [|discriminate].
    injection Hv as <-. destruct (Ho w eq_refl) as [z ->]. apply lbind_ext. intros pos _. rewrite !fe_conditional_negate_F. reflexivity. }
  assert (M : forall a o, snd (fe_mod_sqrt_log ck' (enc a) true) = Ok o -> forall v, o = Some v -> exists z, v = enc z).
  { intros a o. rewrite er_mod_sqrt, fe_mod_sqrt_F. intros H v E. injection H as <-. destruct (feqb a 0); [|destruct (sqb_F a); [|discriminate]];
    injection E as <-; eexists; reflexivity. }
  destruct leg.
  - apply lbind_ext. intros r' Hr'. rewrite (D r' Hr'), (mod_sqrt_ck ck ck'). apply lbind_ext. intros o Ho. apply T, (M _ o Ho).
  - apply lbind_ext. intros r' Hr'. rewrite (D r' Hr'), FI_enc, !fe_mul_F, !quiet_bind, (mod_sqrt_ck ck ck').
    apply lbind_ext. intros o Ho. apply T, (M _ o Ho).
Qed.
(** The branches of `inv_sqrt` determine its operand, and do not depend on the build. *)
Lemma C94_inv_sqrt_stmt : forall ck ck' a b, fcanon a -> fcanon b -> a <> fe_zero -> b <> fe_zero ->
  (log_of (fe_inv_sqrt_log ck a) = log_of (fe_inv_sqrt_log ck' b) <-> a = b).
Proof.
  intros ck ck' a b A B Na Nb. split.
  - apply C94_sqrt_ratio_stmt; auto using fcanon_one; discriminate.
  - intros <-. unfold fe_inv_sqrt_log. rewrite <- (enc_fF a A), <- enc_one. apply f_equal, ratio_ck.
Qed.
(** Both bounds on the rounds are met: by 1 and by 2^252.  The square roots of 1 and of 16
    take the same branches, those of 1 and of 6 do not. *)
Definition top_bit : fe := FE 0 0 0 0 17592186044416.
Lemma pow_16 : 16 ^ ((p - 1) / 4) mod p = 1.
Proof.
  apply pow_one_Z. change (toF 16) with (toF (2 ^ 4)). rewrite toF_pow, <- fpow_mul by (lia || exact q4_nn).
  assert (E : 4 * q4 = p - 1) by reflexivity. rewrite E. apply fpow_fermat, two_nz.
Qed.
Lemma pow_1_q4 : 1 ^ ((p - 1) / 4) mod p = 1.
Proof. change ((p - 1) / 4) with q4. generalize q4_nn. generalize q4 as q. intros q H. rewrite Z.pow_1_l by exact H. reflexivity. Qed.
Lemma C94_ex : fcanon fe_one /\ fcanon top_bit /\ fe_one <> fe_zero /\ top_bit <> fe_zero /\ fval top_bit = 2 ^ 252 /\
  (forall ck, length (at_line 882 (log_of (fe_inverse_log ck fe_one))) = 253%nat) /\
  (forall ck, length (at_line 882 (log_of (fe_inverse_log ck top_bit))) = 505%nat) /\
  (forall ck, log_of (fe_mod_sqrt_log ck (FE 16 0 0 0 0) true) = log_of (fe_mod_sqrt_log ck fe_one true)) /\
  (forall ck, log_of (fe_mod_sqrt_log ck (FE 6 0 0 0 0) true) <> log_of (fe_mod_sqrt_log ck fe_one true)).
Proof.
  assert (C1 : fcanon fe_one) by apply fcanon_one. assert (Ct : fcanon top_bit) by (apply canon_check; reflexivity).
  assert (C16 : fcanon (FE 16 0 0 0 0)) by (apply canon_check; reflexivity).
  assert (C6 : fcanon (FE 6 0 0 0 0)) by (apply canon_check; reflexivity).
  split; [exact C1|]. split; [exact Ct|]. split; [discriminate|]. split; [discriminate|]. split; [reflexivity|].
  split. { intros ck. unfold log_of. rewrite inverse_arms by (auto using fcanon_loadable; discriminate). vm_compute. reflexivity. }
  split. { intros ck. unfold log_of. rewrite inverse_arms by (auto using fcanon_loadable; discriminate). vm_compute. reflexivity. }
  assert (V16 : fval (FE 16 0 0 0 0) = 16) by reflexivity. assert (V6 : fval (FE 6 0 0 0 0) = 6) by reflexivity.
  split.
  - intros ck. apply C94_mod_sqrt_stmt; [exact C16|exact C1|]. rewrite V16, fval_one. split; [lia|]. split.
    + split; intros _; [exists 1|exists 4]; reflexivity.
    + split; intros _; [exact pow_1_q4|exact pow_16].
  - intros ck H. apply C94_mod_sqrt_stmt in H; [|exact C6|exact C1]. destruct H as (_ & [_ H] & _). rewrite V6, fval_one in H.
    apply six_nonsq, H. exists 1. reflexivity.
Qed.
