(** * The prime field as an abstract type

    Integers in [0, p) with Leibniz equality, its ring and field structure,
    powers and squares.  Used to state curve-level facts and in the proofs. *)

From Coq Require Import ZArith Znumtheory List Bool Lia Eqdep_dec Ring Field.
From Verif Require Import Spec NumTheory Primes.
Import ListNotations.
Open Scope Z_scope.

Record F : Set := mkF { Fval : Z; Fok : (Fval =? Fval mod p) = true }.

Declare Scope F_scope.
Delimit Scope F_scope with F.
Bind Scope F_scope with F.

Lemma p_pos : 1 < p.
Proof. reflexivity. Qed.

Lemma Feq x y : Fval x = Fval y -> x = y.
Proof.
  destruct x as [x Hx], y as [y Hy]; cbn. intros E. subst y. f_equal.
  apply UIP_dec. apply bool_dec.
Qed.

Lemma Frange x : 0 <= Fval x < p.
Proof.
  destruct x as [x Hx]; cbn. apply Z.eqb_eq in Hx. rewrite Hx.
  apply Z.mod_pos_bound. pose proof p_pos. lia.
Qed.

Lemma toF_ok x : (x mod p =? (x mod p) mod p) = true.
Proof. rewrite Zmod_mod. apply Z.eqb_refl. Qed.
(** The residue class of an integer. *)
Definition toF (x : Z) : F := mkF (x mod p) (toF_ok x).

Lemma Fval_toF x : Fval (toF x) = x mod p.
Proof. reflexivity. Qed.
Lemma toF_Fval x : toF (Fval x) = x.
Proof. apply Feq. rewrite Fval_toF. apply Z.mod_small. apply Frange. Qed.
Lemma toF_eq x y : toF x = toF y <-> x mod p = y mod p.
Proof.
  split; intros H.
  - now apply (f_equal Fval) in H.
  - now apply Feq.
Qed.
Lemma toF_mod x : toF (x mod p) = toF x.
Proof. apply toF_eq. apply Zmod_mod. Qed.

Definition fzero : F := toF 0.
Definition fone : F := toF 1.
Definition fadd (x y : F) : F := toF (Fval x + Fval y).
Definition fsub (x y : F) : F := toF (Fval x - Fval y).
Definition fmul (x y : F) : F := toF (Fval x * Fval y).
Definition fopp (x : F) : F := toF (- Fval x).
Definition fpow (x : F) (e : Z) : F := toF (Fval x ^ e).
(** Inverse, zero mapped to zero; computed by Fermat's theorem. *)
Definition finv (x : F) : F := toF (pwp (Fval x) (p - 2)).
Definition fdiv (x y : F) : F := fmul x (finv y).
Definition feqb (x y : F) : bool := Fval x =? Fval y.

Notation "0" := fzero : F_scope.
Notation "1" := fone : F_scope.
Infix "+" := fadd : F_scope.
Infix "-" := fsub : F_scope.
Infix "*" := fmul : F_scope.
Infix "/" := fdiv : F_scope.
Notation "- x" := (fopp x) : F_scope.
Notation "/ x" := (finv x) : F_scope.
Infix "^" := fpow : F_scope.

Lemma toF_add x y : toF (x + y) = (toF x + toF y)%F.
Proof. apply Feq. rewrite Fval_toF. unfold fadd, fsub, fmul. rewrite !Fval_toF. rewrite Zplus_mod_idemp_l, Zplus_mod_idemp_r. reflexivity. Qed.
Lemma toF_sub x y : toF (x - y) = (toF x - toF y)%F.
Proof. apply Feq. rewrite Fval_toF. unfold fadd, fsub, fmul. rewrite !Fval_toF. rewrite Zminus_mod_idemp_l, Zminus_mod_idemp_r. reflexivity. Qed.
Lemma toF_mul x y : toF (x * y) = (toF x * toF y)%F.
Proof. apply Feq. rewrite Fval_toF. unfold fadd, fsub, fmul. rewrite !Fval_toF. rewrite Zmult_mod_idemp_l, Zmult_mod_idemp_r. reflexivity. Qed.
Lemma toF_opp x : toF (- x) = (- toF x)%F.
Proof.
  unfold fopp. rewrite Fval_toF. apply toF_eq.
  rewrite <- (Z.sub_0_l x), <- (Z.sub_0_l (x mod p)), Zminus_mod_idemp_r. reflexivity.
Qed.
Lemma toF_p : toF p = 0%F.
Proof. apply Feq. reflexivity. Qed.

Lemma feqb_eq x y : feqb x y = true <-> x = y.
Proof. unfold feqb. rewrite Z.eqb_eq. split; [apply Feq|congruence]. Qed.
Lemma feqb_refl x : feqb x x = true.
Proof. now apply feqb_eq. Qed.
Lemma feqb_spec x y : reflect (x = y) (feqb x y).
Proof. apply iff_reflect. symmetry. apply feqb_eq. Qed.
Lemma F_dec (x y : F) : {x = y} + {x <> y}.
Proof. destruct (feqb_spec x y); auto. Qed.

Lemma F_eq_toF x : x = toF (Fval x).
Proof. symmetry. apply toF_Fval. Qed.

Lemma F_ring_theory : ring_theory 0%F 1%F fadd fmul fsub fopp eq.
Proof.
  constructor; intros;
  repeat match goal with x : F |- _ => rewrite (F_eq_toF x); generalize (Fval x); clear x; intro end;
  unfold fzero, fone; rewrite <- ?toF_opp, <- ?toF_sub, <- ?toF_add, <- ?toF_mul;
  rewrite <- ?toF_opp, <- ?toF_sub, <- ?toF_add, <- ?toF_mul;
  try (f_equal; ring).
Qed.

Lemma Fval_zero : Fval 0 = 0%Z. Proof. reflexivity. Qed.
Lemma Fval_one : Fval 1 = 1%Z. Proof. reflexivity. Qed.
Lemma one_neq_zero : 1%F <> 0%F.
Proof. intros H. apply (f_equal Fval) in H. discriminate. Qed.

Lemma F_nz x : x <> 0%F -> ~ (p | Fval x)%Z.
Proof.
  intros H [q E]. apply H. apply Feq. rewrite Fval_zero.
  pose proof (Frange x) as R. pose proof p_pos as P. revert R P E. generalize (Fval x) p.
  intros v n R P E. assert (q = 0)%Z by nia. subst q. lia.
Qed.

Lemma fpow_fermat x : x <> 0%F -> (x ^ (p - 1))%F = 1%F.
Proof.
  intros H. apply Feq. unfold fpow. rewrite Fval_toF.
  rewrite fermat; [reflexivity|exact prime_p|]. now apply F_nz.
Qed.

Lemma fpow_0 x : (x ^ 0)%F = 1%F.
Proof. reflexivity. Qed.
Lemma fpow_1 x : (x ^ 1)%F = x.
Proof. unfold fpow. rewrite Z.pow_1_r. apply toF_Fval. Qed.
Lemma fpow_add x a b : 0 <= a -> 0 <= b -> (x ^ (a + b))%F = (x ^ a * x ^ b)%F.
Proof. intros. unfold fpow. rewrite Z.pow_add_r by assumption. apply toF_mul. Qed.
Lemma fpow_succ x a : 0 <= a -> (x ^ (a + 1))%F = (x ^ a * x)%F.
Proof. intros. rewrite fpow_add, fpow_1 by lia. reflexivity. Qed.
Lemma toF_pow x e : 0 <= e -> toF (x ^ e) = (toF x ^ e)%F.
Proof. intros. apply Feq. unfold fpow. cbn. symmetry. now apply pow_mod_idemp. Qed.
Lemma fpow_mul x a b : 0 <= a -> 0 <= b -> (x ^ (a * b))%F = ((x ^ a) ^ b)%F.
Proof.
  intros. unfold fpow at 1. rewrite Z.pow_mul_r by assumption. rewrite toF_pow by assumption.
  reflexivity.
Qed.
Lemma fpow_mul_l x y e : 0 <= e -> ((x * y) ^ e)%F = (x ^ e * y ^ e)%F.
Proof.
  intros. rewrite (F_eq_toF x), (F_eq_toF y), <- toF_mul, <- !toF_pow by assumption.
  rewrite Z.pow_mul_l. apply toF_mul.
Qed.
Lemma fpow_one e : 0 <= e -> (1 ^ e)%F = 1%F.
Proof. intros. unfold fpow. rewrite Fval_one, Z.pow_1_l by assumption. reflexivity. Qed.
Lemma fpow_zero e : 0 < e -> (0 ^ e)%F = 0%F.
Proof. intros. unfold fpow. rewrite Fval_zero, Z.pow_0_l by assumption. reflexivity. Qed.
Lemma fpow_2 x : (x ^ 2)%F = (x * x)%F.
Proof. change 2 with (1 + 1)%Z. rewrite fpow_add, fpow_1 by lia. reflexivity. Qed.

Lemma finv_pow x : (/ x)%F = (x ^ (p - 2))%F.
Proof.
  unfold finv, fpow. rewrite pwp_ok by (pose proof p_pos; lia). apply toF_mod.
Qed.

Lemma finv_l x : x <> 0%F -> (/ x * x)%F = 1%F.
Proof.
  intros H. rewrite finv_pow. rewrite <- fpow_succ by (pose proof p_pos; lia).
  replace (p - 2 + 1) with (p - 1) by lia. now apply fpow_fermat.
Qed.

Lemma finv_zero : (/ 0)%F = 0%F.
Proof. rewrite finv_pow. apply fpow_zero. reflexivity. Qed.

Lemma F_field_theory : field_theory 0%F 1%F fadd fmul fsub fopp fdiv finv eq.
Proof.
  constructor.
  - exact F_ring_theory.
  - exact one_neq_zero.
  - reflexivity.
  - exact finv_l.
Qed.

Add Field Ffield : F_field_theory.

Open Scope F_scope.

Lemma F_integral x y : x * y = 0 -> x = 0 \/ y = 0.
Proof.
  intros H. destruct (F_dec x 0) as [|N]; [auto|right].
  replace y with (/ x * x * y) by (rewrite finv_l by assumption; ring).
  replace (/ x * x * y) with (/ x * (x * y)) by ring. rewrite H. ring.
Qed.
Lemma F_mul_nz x y : x <> 0 -> y <> 0 -> x * y <> 0.
Proof. intros Hx Hy H. apply F_integral in H. tauto. Qed.
Lemma F_mul_cancel_l a x y : a <> 0 -> a * x = a * y -> x = y.
Proof.
  intros Ha H. assert (E : a * (x - y) = 0) by (replace (a * (x - y)) with (a * x - a * y) by ring; rewrite H; ring).
  apply F_integral in E. destruct E as [E|E]; [tauto|].
  replace x with (x - y + y) by ring. rewrite E. ring.
Qed.
Lemma F_sub_eq x y : x - y = 0 <-> x = y.
Proof.
  split; [|intros ->; ring]. intros E. replace x with (x - y + y) by ring. rewrite E. ring.
Qed.
Lemma F_opp_eq0 x : - x = 0 <-> x = 0.
Proof.
  split; [|intros ->; ring]. intros E. replace x with (- - x) by ring. rewrite E. ring.
Qed.
Lemma F_inv_nz x : x <> 0 -> / x <> 0.
Proof.
  intros H E. apply one_neq_zero. rewrite <- (finv_l x H), E. ring.
Qed.
Lemma F_inv_unique x y : x * y = 1 -> y = / x.
Proof.
  intros H. assert (x <> 0). { intros ->. apply one_neq_zero. rewrite <- H. ring. }
  apply (F_mul_cancel_l x); auto. rewrite H. field. assumption.
Qed.
Lemma F_sq_eq x y : x * x = y * y -> x = y \/ x = - y.
Proof.
  intros H. assert (E : (x - y) * (x + y) = 0).
  { replace ((x - y) * (x + y)) with (x * x - y * y) by ring. rewrite H. ring. }
  apply F_integral in E. destruct E as [E|E]; [left; now apply F_sub_eq|right].
  replace x with (x + y - y) by ring. rewrite E. ring.
Qed.
Lemma F_sq_zero x : x * x = 0 -> x = 0.
Proof. intros H. apply F_integral in H. tauto. Qed.
Lemma fpow_nz x e : (0 <= e)%Z -> x <> 0 -> x ^ e <> 0.
Proof.
  intros He Hx. pattern e. apply natlike_ind; [apply one_neq_zero| |exact He].
  intros k Hk IH. rewrite <- Z.add_1_r, fpow_succ by assumption. now apply F_mul_nz.
Qed.

Definition ftwo : F := 1 + 1.
Lemma two_nz : ftwo <> 0.
Proof. intros H. apply (f_equal Fval) in H. vm_compute in H. discriminate. Qed.
Lemma F_double_zero x : x + x = 0 -> x = 0.
Proof.
  intros H. apply (F_mul_cancel_l ftwo); [exact two_nz|]. unfold ftwo.
  replace ((1 + 1) * x) with (x + x) by ring. rewrite H. ring.
Qed.
Lemma minus_one_neq_one : - (1) <> 1.
Proof. intros H. apply (f_equal Fval) in H. vm_compute in H. discriminate. Qed.

(** ** Squares *)

Definition is_sq (x : F) : Prop := exists y, y * y = x.

(** Euler's character. *)
Definition chi (x : F) : F := x ^ ((p - 1) / 2).

Lemma half_p : (p - 1 = 2 * ((p - 1) / 2))%Z. Proof. reflexivity. Qed.
Lemma half_nonneg : (0 <= (p - 1) / 2)%Z. Proof. discriminate. Qed.

Lemma chi_mul x y : chi (x * y) = chi x * chi y.
Proof. apply fpow_mul_l. exact half_nonneg. Qed.
Lemma chi_zero : chi 0 = 0.
Proof. apply fpow_zero. reflexivity. Qed.
Lemma chi_one : chi 1 = 1.
Proof. apply fpow_one. exact half_nonneg. Qed.

Lemma chi_pm1 x : x <> 0 -> chi x = 1 \/ chi x = - (1).
Proof.
  intros H. apply F_sq_eq. rewrite <- fpow_2. unfold chi.
  rewrite <- fpow_mul by (exact half_nonneg || lia).
  rewrite Z.mul_comm, <- half_p, fpow_fermat by assumption. ring.
Qed.

Lemma chi_sq x : x <> 0 -> chi (x * x) = 1.
Proof.
  intros H. rewrite chi_mul. destruct (chi_pm1 x H) as [-> | ->]; ring.
Qed.

(** sqrt(-1) as 2^((p-1)/4); p = 5 mod 8. *)
Definition fi : F := Eval vm_compute in toF (pwp 2 ((p - 1) / 4)).
Lemma fi_sq : fi * fi = - (1).
Proof. apply Feq. vm_compute. reflexivity. Qed.

Definition e38 : Z := Eval vm_compute in ((p + 3) / 8)%Z.
Definition e14 : Z := Eval vm_compute in ((p - 1) / 4)%Z.
Lemma e38_ok : (e38 + e38 = e14 + 1)%Z. Proof. reflexivity. Qed.
Lemma e14_ok : ((p - 1) / 2 = e14 * 2)%Z. Proof. reflexivity. Qed.

Lemma chi_one_sq x : chi x = 1 -> is_sq x.
Proof.
  unfold chi. rewrite e14_ok, fpow_mul, fpow_2 by (vm_compute; discriminate).
  intros H. assert (S : x ^ e38 * x ^ e38 = x ^ e14 * x).
  { rewrite <- fpow_add by discriminate. rewrite e38_ok. apply fpow_succ. discriminate. }
  replace 1 with (1 * 1) in H by ring. apply F_sq_eq in H. destruct H as [H|H].
  - exists (x ^ e38). rewrite S, H. ring.
  - exists (fi * x ^ e38).
    replace (fi * x ^ e38 * (fi * x ^ e38)) with (fi * fi * (x ^ e38 * x ^ e38)) by ring.
    rewrite S, H, fi_sq. ring.
Qed.

Lemma is_sq_chi x : x <> 0 -> (is_sq x <-> chi x = 1).
Proof.
  intros H. split; [|apply chi_one_sq]. intros [y <-]. apply chi_sq.
  intros ->. apply H. ring.
Qed.

Lemma not_sq_chi x : ~ is_sq x <-> chi x = - (1).
Proof.
  split.
  - intros H. assert (N : x <> 0). { intros ->. apply H. exists 0. ring. }
    destruct (chi_pm1 x N) as [E|E]; [|assumption]. elim H. now apply chi_one_sq.
  - intros E H. assert (N : x <> 0).
    { intros ->. rewrite chi_zero in E. apply one_neq_zero. replace 1 with (- - (1)) by ring.
      rewrite <- E. ring. }
    apply is_sq_chi in H; [|assumption]. rewrite H in E. now apply minus_one_neq_one.
Qed.

Lemma is_sq_dec x : {is_sq x} + {~ is_sq x}.
Proof.
  destruct (F_dec x 0) as [->|N]; [left; exists 0; ring|].
  destruct (F_dec (chi x) 1) as [E|E]; [left; now apply chi_one_sq|right].
  intros H. apply E. now apply is_sq_chi.
Qed.

Lemma is_sq_mul x y : is_sq x -> is_sq y -> is_sq (x * y).
Proof. intros [a <-] [b <-]. exists (a * b). ring. Qed.
Lemma is_sq_one : is_sq 1. Proof. exists 1. ring. Qed.
Lemma is_sq_zero : is_sq 0. Proof. exists 0. ring. Qed.
Lemma is_sq_m1 : is_sq (- (1)). Proof. exists fi. exact fi_sq. Qed.
Lemma is_sq_square x : is_sq (x * x). Proof. exists x. reflexivity. Qed.
Lemma is_sq_inv x : is_sq x -> is_sq (/ x).
Proof.
  intros [y <-]. destruct (F_dec y 0) as [->|N].
  - replace (0 * 0) with 0 by ring. rewrite finv_zero. apply is_sq_zero.
  - exists (/ y). field. assumption.
Qed.
Lemma is_sq_opp x : is_sq x -> is_sq (- x).
Proof. intros H. replace (- x) with (- (1) * x) by ring. apply is_sq_mul; [exact is_sq_m1|assumption]. Qed.
Lemma is_sq_mul_cancel x y : x <> 0 -> is_sq x -> (is_sq (x * y) <-> is_sq y).
Proof.
  intros Hx Sx. split; [|now apply is_sq_mul].
  intros H. replace y with (/ x * (x * y)) by (field; assumption).
  apply is_sq_mul; [now apply is_sq_inv|assumption].
Qed.
Lemma nonsq_mul x y : ~ is_sq x -> ~ is_sq y -> is_sq (x * y).
Proof.
  rewrite !not_sq_chi. intros Hx Hy. apply chi_one_sq. rewrite chi_mul, Hx, Hy. ring.
Qed.
Lemma nonsq_mul_sq x y : ~ is_sq x -> is_sq y -> y <> 0 -> ~ is_sq (x * y).
Proof.
  intros Hx Hy N H. apply Hx. apply (is_sq_mul_cancel y); auto.
  replace (y * x) with (x * y) by ring. assumption.
Qed.

(** Decision by computation on literals. *)
Definition sqb (z : Z) : bool := (pwp z ((p - 1) / 2) =? 1)%Z.
Lemma sqb_true z : sqb z = true -> is_sq (toF z).
Proof.
  unfold sqb. rewrite Z.eqb_eq, pwp_ok by exact half_nonneg. intros H.
  apply chi_one_sq. unfold chi. rewrite <- toF_pow by exact half_nonneg.
  apply Feq. rewrite Fval_toF. exact H.
Qed.
Lemma nsqb_true z : pwp z ((p - 1) / 2) = (p - 1)%Z -> ~ is_sq (toF z).
Proof.
  rewrite pwp_ok by exact half_nonneg. intros H.
  apply not_sq_chi. unfold chi. rewrite <- toF_pow by exact half_nonneg.
  apply Feq. rewrite Fval_toF. rewrite H. reflexivity.
Qed.

#[global] Opaque fpow.
