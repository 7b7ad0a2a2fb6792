(** * Indexing and printing

    Statement forms; PropAccess.v restates each of them and closes it with the
    lemma of the same name.                                                  *)

From Coq Require Import ZArith NArith List String Ascii Bool Lia Decimal DecimalString DecimalFacts DecimalN.
From Verif Require Import Machine FieldModel ScalarModel EdwardsModel Spec MachineFacts FieldLimb FieldBytes EdwardsStmt AccessModel AccessSpec.
Import ListNotations.
Open Scope Z_scope.

(** ** C83 *)
Lemma limb_of x0 x1 x2 x3 x4 i :
  0 <= x0 < 2 ^ 52 -> 0 <= x1 < 2 ^ 52 -> 0 <= x2 < 2 ^ 52 -> 0 <= x3 < 2 ^ 52 -> 0 <= x4 < 2 ^ 52 -> (i < 5)%nat ->
  nth_error [x0; x1; x2; x3; x4] i = Some (val5 x0 x1 x2 x3 x4 / 2 ^ (52 * Z.of_nat i) mod 2 ^ 52).
Proof.
  intros H0 H1 H2 H3 H4 Hi. unfold val5.
  assert (G : forall q a r m M, 0 < m -> 0 < M -> 0 <= r < m -> 0 <= a < M ->
    (r + a * m + q * (m * M)) / m mod M = a).
  { intros q a r m M Hm HM Hr Ha. replace (r + a * m + q * (m * M)) with (r + (a + q * M) * m) by ring.
    rewrite Z.div_add, Z.div_small, Z.add_0_l, Z.mod_add, Z.mod_small by lia. reflexivity. }
  destruct i as [|[|[|[|[|i]]]]]; [..|lia]; cbn [nth_error]; apply f_equal; symmetry.
  - transitivity ((0 + x0 * 1 + (x1 + x2 * 2 ^ 52 + x3 * 2 ^ 104 + x4 * 2 ^ 156) * (1 * 2 ^ 52)) / 1 mod 2 ^ 52).
    + change (2 ^ (52 * Z.of_nat 0)) with 1. f_equal; f_equal; lia.
    + apply G; lia.
  - change (2 ^ (52 * Z.of_nat 1)) with (2 ^ 52). rewrite <- (G (x2 + x3 * 2 ^ 52 + x4 * 2 ^ 104) x1 x0 (2 ^ 52) (2 ^ 52)) at 2 by lia.
    f_equal; f_equal; lia.
  - change (2 ^ (52 * Z.of_nat 2)) with (2 ^ 104). rewrite <- (G (x3 + x4 * 2 ^ 52) x2 (x0 + x1 * 2 ^ 52) (2 ^ 104) (2 ^ 52)) at 2 by lia.
    f_equal; f_equal; lia.
  - change (2 ^ (52 * Z.of_nat 3)) with (2 ^ 156). rewrite <- (G x4 x3 (x0 + x1 * 2 ^ 52 + x2 * 2 ^ 104) (2 ^ 156) (2 ^ 52)) at 2 by lia.
    f_equal; f_equal; lia.
  - change (2 ^ (52 * Z.of_nat 4)) with (2 ^ 208). rewrite <- (G 0 x4 (x0 + x1 * 2 ^ 52 + x2 * 2 ^ 104 + x3 * 2 ^ 156) (2 ^ 208) (2 ^ 52)) at 2 by lia.
    f_equal; f_equal; lia.
Qed.
(** Reading: entry i is the i-th 52-bit digit of the value, and there are five. *)
Lemma C83_read_stmt : forall i,
  (forall a, flimbs a -> (i < 5)%nat -> fe_index a i = Ok (fval a / 2 ^ (52 * Z.of_nat i) mod 2 ^ 52)) /\
  (forall a, slimbs a -> (i < 5)%nat -> sc_index a i = Ok (sval a / 2 ^ (52 * Z.of_nat i) mod 2 ^ 52)) /\
  ((5 <= i)%nat -> forall a b, fe_index a i = Panic /\ sc_index b i = Panic).
Proof.
  intros i. split; [|split].
  - intros a (H0 & H1 & H2 & H3 & H4) Hi. unfold fe_index. rewrite limb_of by assumption. reflexivity.
  - intros a (H0 & H1 & H2 & H3 & H4) Hi. unfold sc_index. rewrite limb_of by assumption. reflexivity.
  - intros Hi a b. destruct i as [|[|[|[|[|i]]]]]; [lia..|]. split; [destruct i; reflexivity|destruct i; reflexivity].
Qed.
(** Writing changes one digit of the value and nothing else, for every word and whatever the limbs were. *)
Lemma C83_write_field_stmt : forall a i v,
  ((i < 5)%nat -> exists b old, fe_index a i = Ok old /\ fe_index_set a i v = Ok b /\
     fval b = fval a + (v - old) * 2 ^ (52 * Z.of_nat i) /\ fe_index b i = Ok v /\
     forall j, j <> i -> fe_index b j = fe_index a j) /\
  ((5 <= i)%nat -> fe_index_set a i v = Panic).
Proof.
  intros [a0 a1 a2 a3 a4] i v. split.
  - intros Hi. destruct i as [|[|[|[|[|i]]]]]; [..|lia]; (eexists; eexists; split; [reflexivity|]; split; [reflexivity|];
    split; [unfold fval, val5; cbn [f0 f1 f2 f3 f4 nth];
      match goal with |- context [2 ^ (52 * Z.of_nat ?k)] => let e := eval compute in (52 * Z.of_nat k) in change (52 * Z.of_nat k) with e end; lia|]; split; [reflexivity|];
    intros j Hj; destruct j as [|[|[|[|[|j]]]]]; try reflexivity; elim (Hj eq_refl)).
  - intros Hi. destruct i as [|[|[|[|[|i]]]]]; [lia..|]. destruct i; reflexivity.
Qed.
Lemma C83_write_scalar_stmt : forall a i v,
  ((i < 5)%nat -> exists b old, sc_index a i = Ok old /\ sc_index_set a i v = Ok b /\
     sval b = sval a + (v - old) * 2 ^ (52 * Z.of_nat i) /\ sc_index b i = Ok v /\
     forall j, j <> i -> sc_index b j = sc_index a j) /\
  ((5 <= i)%nat -> sc_index_set a i v = Panic).
Proof.
  intros [a0 a1 a2 a3 a4] i v. split.
  - intros Hi. destruct i as [|[|[|[|[|i]]]]]; [..|lia]; (eexists; eexists; split; [reflexivity|]; split; [reflexivity|];
    split; [unfold sval, val5; cbn [s0 s1 s2 s3 s4 nth];
      match goal with |- context [2 ^ (52 * Z.of_nat ?k)] => let e := eval compute in (52 * Z.of_nat k) in change (52 * Z.of_nat k) with e end; lia|]; split; [reflexivity|];
    intros j Hj; destruct j as [|[|[|[|[|j]]]]]; try reflexivity; elim (Hj eq_refl)).
  - intros Hi. destruct i as [|[|[|[|[|i]]]]]; [lia..|]. destruct i; reflexivity.
Qed.
(** Byte strings. *)
Lemma nth_byte n b i : is_bytes n b -> (i < n)%nat -> nth_error b i = Some (le_value b / 256 ^ Z.of_nat i mod 256).
Proof.
  intros [E F]. revert n i E. induction F as [|x l X F IH]; intros n i E Hi; [cbn in E; lia|].
  destruct n as [|n]; [lia|]. cbn [List.length] in E. injection E as E. cbn [le_value]. destruct i as [|i]; cbn [nth_error].
  - apply f_equal. change (256 ^ Z.of_nat 0) with 1. rewrite Z.div_1_r, Z.mul_comm, Z.mod_add, Z.mod_small by lia. reflexivity.
  - rewrite (IH n i E) by lia. apply f_equal. rewrite Nat2Z.inj_succ, Z.pow_succ_r by lia.
    rewrite <- Z.div_div by (try apply Z.pow_pos_nonneg; lia). rewrite (Z.mul_comm 256 (le_value l)), Z.div_add, (Z.div_small x) by lia.
    reflexivity.
Qed.
Lemma C83_bytes_stmt : forall b i, is_bytes 32 b ->
  ((i < 32)%nat -> bytes_index b i = Ok (le_value b / 256 ^ Z.of_nat i mod 256)) /\
  ((32 <= i)%nat -> bytes_index b i = Panic).
Proof.
  intros b i B. split; intros Hi; unfold bytes_index.
  - rewrite (nth_byte 32) by assumption. reflexivity.
  - rewrite (proj2 (nth_error_None b i)); [reflexivity|]. rewrite (proj1 B). exact Hi.
Qed.
Lemma set_nth_range {A} (l : list A) : forall i v, (i < List.length l)%nat -> exists r, set_nth i v l = Ok r /\ List.length r = List.length l /\
  nth_error r i = Some v /\ forall j, j <> i -> nth_error r j = nth_error l j.
Proof.
  induction l as [|x l IH]; intros i v Hi; [cbn in Hi; lia|]. destruct i as [|i]; cbn [set_nth].
  - exists (v :: l). split; [reflexivity|]. split; [reflexivity|]. split; [reflexivity|]. intros [|j] Hj; [elim (Hj eq_refl)|reflexivity].
  - cbn [List.length] in Hi. destruct (IH i v ltac:(lia)) as (r & E & Le & N & O). rewrite E, bind_ok. exists (x :: r).
    split; [reflexivity|]. split; [cbn [List.length]; rewrite Le; reflexivity|]. split; [exact N|]. intros [|j] Hj; [reflexivity|].
    cbn [nth_error]. apply O. intros K. apply Hj. rewrite K. reflexivity.
Qed.
Lemma set_nth_past {A} (l : list A) : forall i v, (List.length l <= i)%nat -> set_nth i v l = Panic.
Proof.
  induction l as [|x l IH]; intros i v Hi; [destruct i; reflexivity|]. destruct i as [|i]; [cbn in Hi; lia|]. cbn [set_nth].
  rewrite IH; [reflexivity|]. cbn [List.length] in Hi. lia.
Qed.
Lemma C83_write_bytes_stmt : forall b i v, is_bytes 32 b -> 0 <= v < 256 ->
  ((i < 32)%nat -> exists r, cey_index_set b i v = Ok r /\ is_bytes 32 r /\ bytes_index r i = Ok v /\
     forall j, j <> i -> bytes_index r j = bytes_index b j) /\
  ((32 <= i)%nat -> cey_index_set b i v = Panic).
Proof.
  intros b i v [E F] V. split; intros Hi; unfold cey_index_set.
  - destruct (set_nth_range b i v) as (r & Er & Le & N & O); [rewrite E; exact Hi|]. exists r. split; [exact Er|]. unfold bytes_index.
    split; [|split; [rewrite N; reflexivity|intros j Hj; rewrite (O j Hj); reflexivity]].
    split; [rewrite Le; exact E|]. apply Forall_forall. intros x K. apply In_nth_error in K. destruct K as (j & K).
    destruct (Nat.eq_dec j i) as [->|D]; [rewrite N in K; injection K as <-; exact V|].
    rewrite (O j D) in K. apply nth_error_In in K. rewrite Forall_forall in F. exact (F x K).
  - apply set_nth_past. rewrite E. exact Hi.
Qed.
(** Assigning through an index can leave the reduced range and the 52-bit limbs. *)
Lemma C83_invariant_refuted_stmt : exists a i v b, fcanon a /\ 0 <= v < 2 ^ 64 /\ fe_index_set a i v = Ok b /\
  ~ flimbs b /\ p <= fval b.
Proof.
  exists fe_one, 4%nat, (2 ^ 52), (FE 1 0 0 0 (2 ^ 52)). split; [split; [unfold flimbs; cbn; lia|reflexivity]|].
  split; [lia|]. split; [reflexivity|]. split; [|discriminate].
  intros (_ & _ & _ & _ & H). cbn [f4] in H. lia.
Qed.
Lemma C83_ex : flimbs (FE 5 4 3 2 1) /\ slimbs (SC 5 4 3 2 1) /\ is_bytes 32 (repeat 7 32) /\
  fe_index (FE 5 4 3 2 1) 3 = Ok 2 /\ fe_index_set (FE 5 4 3 2 1) 3 9 = Ok (FE 5 4 3 9 1) /\ fe_index (FE 5 4 3 2 1) 5 = Panic.
Proof.
  split; [unfold flimbs; cbn; lia|]. split; [unfold slimbs; cbn; lia|]. split; [|split; [reflexivity|split; reflexivity]].
  split; [reflexivity|]. apply Forall_forall. intros x K. apply repeat_spec in K. lia.
Qed.

(** The types with a text form, one constructor each. *)
Inductive shown : Type :=
| ShF (a : fe) | ShS (a : sc) | ShE (P : ept) | ShP (P : ppt) | ShA (P : apt) | ShY (b : list Z) | ShR (b : list Z) | ShM (b : list Z).
Definition shown_text (x : shown) : string :=
  match x with
  | ShF a => fe_text a | ShS a => sc_text a | ShE P => ept_text P | ShP P => ppt_text P | ShA P => apt_text P
  | ShY b => cey_text b | ShR b => cr_text b | ShM b => mp_text b
  end.
Definition shown_type (x : shown) : nat :=
  match x with ShF _ => 0 | ShS _ => 1 | ShE _ => 2 | ShP _ => 3 | ShA _ => 4 | ShY _ => 5 | ShR _ => 6 | ShM _ => 7 end%nat.

(** ** C84 *)
Lemma decimal_acc d : forall a, decimal_from (Z.pos a) (NilEmpty.string_of_uint d) = Some (Z.pos (Pos.of_uint_acc d a)).
Proof.
  induction d; intros a; [reflexivity|..]; cbn [NilEmpty.string_of_uint decimal_from Pos.of_uint_acc];
    match goal with |- context [digit_value ?c] => let v := eval vm_compute in (digit_value c) in change (digit_value c) with v end;
    cbn iota beta; rewrite <- IHd; f_equal; lia.
Qed.
Lemma decimal_zero d : decimal_from 0 (NilEmpty.string_of_uint d) = Some (Z.of_N (N.of_uint d)).
Proof.
  induction d; [reflexivity|exact IHd|..]; exact (decimal_acc d _).
Qed.
(** An unsigned integer is printed in decimal notation. *)
Lemma C84_decimal_stmt : forall x, 0 <= x -> decimal (int_text x) x.
Proof.
  intros x Hx. unfold int_text. set (n := Z.to_N x).
  assert (Nn : N.to_uint n <> Nil) by (intros K; destruct (N.to_uint n) eqn:E; try discriminate; clear K;
    pose proof (DecimalN.Unsigned.of_to n) as O; rewrite E in O; cbn in O; subst n; rewrite <- O in E; discriminate).
  assert (E : NilZero.string_of_uint (N.to_uint n) = NilEmpty.string_of_uint (N.to_uint n)) by
    (destruct (N.to_uint n); [elim (Nn eq_refl)|reflexivity..]).
  rewrite E. split; [|split].
  - rewrite decimal_zero, DecimalN.Unsigned.of_to. unfold n. rewrite Z2N.id by exact Hx. reflexivity.
  - destruct (N.to_uint n); [elim (Nn eq_refl)|discriminate..].
  - intros s K. pose proof (DecimalN.Unsigned.to_of (N.to_uint n)) as T. rewrite DecimalN.Unsigned.of_to in T.
    destruct (N.to_uint n) as [|d|d|d|d|d|d|d|d|d|d] eqn:En; cbn [NilEmpty.string_of_uint] in K; try discriminate.
    injection K as K. unfold unorm in T.
    destruct (nzhead (D0 d)) as [|z|z|z|z|z|z|z|z|z|z] eqn:Z; try discriminate.
    + injection T as T. rewrite T in K. symmetry. exact K.
    + elim (DecimalFacts.nzhead_nonzero _ _ Z).
Qed.
(** ... and the notation determines the integer. *)
Lemma C84_decimal_unique_stmt : forall s x y, decimal s x -> decimal s y -> x = y.
Proof. intros s x y (A & _) (B & _). rewrite A in B. injection B as B. exact B. Qed.
Definition starts_digit (s : string) : bool :=
  match s with EmptyString => false | String c _ => match digit_value c with Some _ => true | None => false end end.
Lemma digits_prefix a : forall b s t x y u v, decimal_from u a = Some x -> decimal_from v b = Some y ->
  starts_digit s = false -> starts_digit t = false -> (a ++ s = b ++ t)%string -> a = b /\ s = t.
Proof.
  induction a as [|c a IH]; intros b s t x y u v A B S T E.
  - destruct b as [|c b]; [split; [reflexivity|exact E]|]. cbn [append] in E. subst s. cbn [starts_digit] in S.
    cbn [decimal_from] in B. destruct (digit_value c); discriminate.
  - destruct b as [|c' b]; cbn [append] in E.
    + subst t. cbn [starts_digit] in T. cbn [decimal_from] in A. destruct (digit_value c); discriminate.
    + injection E as -> E. cbn [decimal_from] in A, B. destruct (digit_value c'); [|discriminate].
      destruct (IH b s t x y _ _ A B S T E) as (-> & ->). split; reflexivity.
Qed.
Lemma int_prefix x y s t : 0 <= x -> 0 <= y -> starts_digit s = false -> starts_digit t = false ->
  (int_text x ++ s = int_text y ++ t)%string -> x = y /\ s = t.
Proof.
  intros X Y S T E. destruct (C84_decimal_stmt x X) as (A & _). pose proof (C84_decimal_stmt y Y) as D. pose proof D as (B & _).
  destruct (digits_prefix _ _ _ _ _ _ _ _ A B S T E) as (K & ->). split; [|reflexivity].
  rewrite K, B in A. injection A as A. symmetry. exact A.
Qed.
Lemma app_str_assoc a b c : ((a ++ b) ++ c = a ++ (b ++ c))%string.
Proof. induction a as [|x a IH]; cbn [append]; [reflexivity|rewrite IH; reflexivity]. Qed.
Lemma app_str_inv a b c : (a ++ b = a ++ c)%string -> b = c.
Proof. induction a as [|x a IH]; cbn [append]; intros E; [exact E|injection E as E; exact (IH E)]. Qed.
Lemma int_text_bracket x s t : 0 <= x -> (int_text x ++ s)%string <> String "]" t.
Proof.
  intros X E. destruct (C84_decimal_stmt x X) as (A & N & _). destruct (int_text x) as [|c r]; [elim (N eq_refl)|].
  cbn [append] in E. injection E as -> E. discriminate A.
Qed.
Definition nonneg (l : list Z) : Prop := Forall (fun x => 0 <= x) l.
Lemma entries_prefix l : forall m s t, nonneg l -> nonneg m ->
  (entries_text l ++ String "]" s = entries_text m ++ String "]" t)%string -> l = m /\ s = t.
Proof.
  assert (C : forall x y l, (entries_text (x :: y :: l) = int_text x ++ String "," (String " " (entries_text (y :: l))))%string) by reflexivity.
  induction l as [|x l IH]; intros m s t L M E.
  - destruct m as [|y m]; [injection E as E; split; [reflexivity|exact E]|]. inversion M as [|? ? Y M']; subst.
    destruct m as [|z m]; [|rewrite C, app_str_assoc in E]; elim (int_text_bracket y _ _ Y (eq_sym E)).
  - inversion L as [|? ? X L']; subst. destruct m as [|y m].
    + destruct l as [|z l]; [|rewrite C, app_str_assoc in E]; elim (int_text_bracket x _ _ X E).
    + inversion M as [|? ? Y M']; subst. destruct l as [|x' l], m as [|y' m].
      * cbn [entries_text] in E. apply int_prefix in E; [|exact X|exact Y|reflexivity|reflexivity]; destruct E as (-> & K). injection K as ->. split; reflexivity.
      * rewrite C, app_str_assoc in E. cbn [entries_text append] in E. apply int_prefix in E; [|exact X|exact Y|reflexivity|reflexivity]; destruct E as (_ & K). discriminate K.
      * rewrite C, app_str_assoc in E. cbn [entries_text append] in E. apply int_prefix in E; [|exact X|exact Y|reflexivity|reflexivity]; destruct E as (_ & K). discriminate K.
      * rewrite !C, !app_str_assoc in E. cbn [append] in E. apply int_prefix in E; [|exact X|exact Y|reflexivity|reflexivity]; destruct E as (-> & K). injection K as K.
        destruct (IH (y' :: m) s t L' M' K) as (-> & ->). split; reflexivity.
Qed.
Lemma slice_prefix l m s t : nonneg l -> nonneg m -> (slice_text l ++ s = slice_text m ++ t)%string -> l = m /\ s = t.
Proof.
  intros L M E. unfold slice_text in E. rewrite !app_str_assoc in E. apply app_str_inv in E. cbn [append] in E.
  exact (entries_prefix l m s t L M E).
Qed.
Lemma fe_prefix a b s t : fwords a -> fwords b -> (fe_text a ++ s = fe_text b ++ t)%string -> a = b /\ s = t.
Proof.
  intros (A0 & A1 & A2 & A3 & A4) (B0 & B1 & B2 & B3 & B4) E. unfold fe_text in E. rewrite !app_str_assoc in E. apply app_str_inv in E.
  apply slice_prefix in E; [|repeat (constructor; [lia|]); constructor..]. destruct E as (E & K). injection K as ->.
  destruct a as [u0 u1 u2 u3 u4], b as [v0 v1 v2 v3 v4]. cbn [f0 f1 f2 f3 f4] in E. injection E as -> -> -> -> ->. split; reflexivity.
Qed.
Lemma nil_str s : (s ++ "")%string = s.
Proof. induction s as [|c s IH]; cbn [append]; [reflexivity|rewrite IH; reflexivity]. Qed.
(** Field elements and scalars print alike only when every limb is the same. *)
Lemma C84_field_stmt : forall a b, fwords a -> fwords b -> fe_text a = fe_text b -> a = b.
Proof.
  intros a b A B E. apply (fe_prefix a b "" "" A B). rewrite E. reflexivity.
Qed.
Lemma C84_scalar_stmt : forall a b, swords a -> swords b -> sc_text a = sc_text b -> a = b.
Proof.
  intros a b (A0 & A1 & A2 & A3 & A4) (B0 & B1 & B2 & B3 & B4) E. unfold sc_text in E. apply app_str_inv in E.
  rewrite <- (nil_str (slice_text _)), <- (nil_str (slice_text [s0 b; _; _; _; _])) in E.
  apply slice_prefix in E; [|repeat (constructor; [lia|]); constructor..]. destruct E as (E & _).
  destruct a as [u0 u1 u2 u3 u4], b as [v0 v1 v2 v3 v4]. cbn [s0 s1 s2 s3 s4] in E. injection E as -> -> -> -> ->. reflexivity.
Qed.
(** Points print alike only when every coordinate is the same. *)
Lemma C84_edwards_stmt : forall P Q, ewords P -> ewords Q -> ept_text P = ept_text Q -> P = Q.
Proof.
  intros P Q (A & B & C & D) (A' & B' & C' & D') E. unfold ept_text in E. do 3 apply app_str_inv in E. apply app_str_inv in E.
  apply fe_prefix in E; [|exact A|exact A']. destruct E as (EA & E). do 3 apply app_str_inv in E.
  apply fe_prefix in E; [|exact B|exact B']. destruct E as (EB & E). do 3 apply app_str_inv in E.
  apply fe_prefix in E; [|exact C|exact C']. destruct E as (EC & E). do 3 apply app_str_inv in E.
  apply fe_prefix in E; [|exact D|exact D']. destruct E as (ED & _).
  destruct P as [u0 u1 u2 u3], Q as [v0 v1 v2 v3]. cbn [eX eY eZ eT] in *. rewrite EA, EB, EC, ED. reflexivity.
Qed.
Lemma C84_projective_stmt : forall P Q, pwords P -> pwords Q -> ppt_text P = ppt_text Q -> P = Q.
Proof.
  intros P Q (A & B & C) (A' & B' & C') E. unfold ppt_text in E. do 4 apply app_str_inv in E.
  apply fe_prefix in E; [|exact A|exact A']. destruct E as (EA & E). do 3 apply app_str_inv in E.
  apply fe_prefix in E; [|exact B|exact B']. destruct E as (EB & E). do 3 apply app_str_inv in E.
  apply fe_prefix in E; [|exact C|exact C']. destruct E as (EC & _).
  destruct P as [u0 u1 u2], Q as [v0 v1 v2]. cbn [pX pY pZ] in *. rewrite EA, EB, EC. reflexivity.
Qed.
Lemma C84_affine_stmt : forall P Q, awords P -> awords Q -> apt_text P = apt_text Q -> P = Q.
Proof.
  intros P Q (A & B) (A' & B') E. unfold apt_text in E. do 4 apply app_str_inv in E.
  apply fe_prefix in E; [|exact A|exact A']. destruct E as (EA & E). do 3 apply app_str_inv in E.
  apply fe_prefix in E; [|exact B|exact B']. destruct E as (EB & _).
  destruct P as [u0 u1], Q as [v0 v1]. cbn [aX aY] in *. rewrite EA, EB. reflexivity.
Qed.
(** Encodings print alike only when they are equal. *)
Lemma C84_encodings_stmt : forall b c, is_bytes 32 b -> is_bytes 32 c ->
  (cey_text b = cey_text c -> b = c) /\ (cr_text b = cr_text c -> b = c) /\ (mp_text b = mp_text c -> b = c).
Proof.
  intros b c (_ & B) (_ & C).
  assert (NB : nonneg b) by (apply (Forall_impl _ (fun x H => proj1 H) B)).
  assert (NC : nonneg c) by (apply (Forall_impl _ (fun x H => proj1 H) C)).
  split; [|split]; intros E.
  - unfold cey_text in E. apply app_str_inv in E. rewrite <- (nil_str (slice_text b)), <- (nil_str (slice_text c)) in E.
    exact (proj1 (slice_prefix b c _ _ NB NC E)).
  - unfold cr_text in E. apply app_str_inv in E. exact (proj1 (slice_prefix b c _ _ NB NC E)).
  - unfold mp_text in E. apply app_str_inv in E. exact (proj1 (slice_prefix b c _ _ NB NC E)).
Qed.
(** The text also tells the type: values of different types never print alike. *)
Lemma C84_types_stmt : forall x y, shown_text x = shown_text y -> shown_type x = shown_type y.
Proof. intros x y. destruct x, y; intros E; solve [reflexivity|exfalso; discriminate E]. Qed.
(** The characters around the numbers, blanks included. *)
Lemma C84_layout_stmt : forall P Q A b,
  (ept_text P = "
        EdwardsPoint {
            X: " ++ fe_text (eX P) ++ ",
            Y: " ++ fe_text (eY P) ++ ",
            Z: " ++ fe_text (eZ P) ++ ",
            T: " ++ fe_text (eT P) ++ "
        };" /\
  ppt_text Q = "
        ProjectivePoint {
            X: " ++ fe_text (pX Q) ++ ",
            Y: " ++ fe_text (pY Q) ++ ",
            Z: " ++ fe_text (pZ Q) ++ "
        };" /\
  apt_text A = "
        AffinePoint {
            X: " ++ fe_text (aX A) ++ ",
            Y: " ++ fe_text (aY A) ++ "
        };" /\
  exists t, cey_text b = "CompressedEdwardsY: " ++ t /\ cr_text b = "CompressedRistretto(" ++ t ++ ")" /\
    mp_text b = "MontgomeryPoint(" ++ t ++ ")")%string.
Proof.
  intros P Q A b. split; [reflexivity|]. split; [reflexivity|]. split; [reflexivity|].
  exists (slice_text b). split; [reflexivity|]. split; reflexivity.
Qed.
(** Printing shows the coordinates, not the point: equal points can print differently. *)
Lemma C84_same_point_refuted_stmt : exists P Q, ept_eqb true P Q = Ok true /\ ewords P /\ ewords Q /\ ept_text P <> ept_text Q.
Proof.
  exists order2_ext, (EP fe_zero fe_minus_one fe_one fe_zero). destruct C34_ex as (R & Z7 & E). split; [exact E|].
  assert (W : forall a, fcanon a -> fwords a).
  { intros a ((A0 & A1 & A2 & A3 & A4) & _). unfold fwords. lia. }
  destruct R as (R1 & R2 & R3 & R4). assert (WP : ewords order2_ext) by exact (conj (W _ R1) (conj (W _ R2) (conj (W _ R3) (W _ R4)))).
  assert (WQ : ewords (EP fe_zero fe_minus_one fe_one fe_zero)) by (unfold ewords, fwords; cbn; lia).
  split; [exact WP|]. split; [exact WQ|]. intros K. apply (C84_edwards_stmt _ _ WP WQ) in K.
  apply (f_equal eZ) in K. apply (f_equal fval) in K. rewrite Z7 in K. discriminate K.
Qed.
Lemma C84_ex : fwords fe_one /\ fe_text fe_one = "FieldElement([1, 0, 0, 0, 0])"%string /\ swords sc_one /\
  sc_text (SC 10 0 0 0 7) = "Scalar: [10, 0, 0, 0, 7]"%string /\ ewords ept_identity /\ decimal "1050" 1050 /\
  int_text (2 ^ 64 - 1) = "18446744073709551615"%string.
Proof.
  split; [repeat split; cbn; lia|]. split; [reflexivity|]. split; [repeat split; cbn; lia|]. split; [reflexivity|].
  split; [repeat split; cbn; lia|]. split; [|reflexivity]. split; [reflexivity|]. split; [discriminate|]. intros s K. discriminate K.
Qed.
