(** * Multiples of the basepoint from certificates *)

From Coq Require Import ZArith List Bool Lia Ring Field.
From Verif Require Import Machine FieldModel EdwardsModel TableModel Spec NumTheory Primes Fp FieldOps FieldF FieldInv
  Curve CurveGroup EdwardsF EdwardsY EdwardsStmt Rist GroupData FastMul.
Import ListNotations.
Open Scope F_scope.

Definition pz : Z := Eval vm_compute in p.
Lemma pz_p : pz = p. Proof. reflexivity. Qed.
Definition zeqp (a q : Z) : bool := (a =? hexmul pz q)%Z.
Lemma zeqp_ok a q : zeqp a q = true -> toF a = 0.
Proof.
  intros H. apply Z.eqb_eq in H. rewrite H, hexmul_eq, pz_p, toF_mul, toF_p. ring.
Qed.

(** ** One addition *)
Definition chk_add (x1 y1 x2 y2 x y t q0 q1 q2 : Z) : bool :=
  let m := hexmul x1 y2 in
  let n := hexmul y1 x2 in
  zeqp (hexmul m n - t) q0 && zeqp (hexmul x (126297 - 126296 * t) - 126297 * (m + n)) q1 &&
  zeqp (hexmul y (126297 + 126296 * t) - 126297 * (hexmul y1 y2 + hexmul x1 x2)) q2.
Definition chk_dbl (x0 y0 x y q1 q2 : Z) : bool :=
  let w := hexmul (y0 - x0) (y0 + x0) in
  zeqp (hexmul x w - 2 * hexmul x0 y0) q1 && zeqp (hexmul y (2 - w) - (hexmul x0 x0 + hexmul y0 y0)) q2.

Lemma cd_num : toF 126297 <> 0 /\ cd * toF 126297 = - toF 126296.
Proof.
  assert (N : toF 126297 <> 0) by (intros H; apply (f_equal Fval) in H; vm_compute in H; discriminate).
  split; [exact N|]. rewrite cd_FD. apply Feq. vm_compute. reflexivity.
Qed.

Definition coords (A : pt) (x y : Z) : Prop := xc A = toF x /\ yc A = toF y.

Lemma div_unique n m x : m <> 0 -> x * m = n -> n / m = x.
Proof. intros N <-. field. exact N. Qed.

Lemma chk_add_ok A B x1 y1 x2 y2 x y t q0 q1 q2 : coords A x1 y1 -> coords B x2 y2 ->
  chk_add x1 y1 x2 y2 x y t q0 q1 q2 = true -> coords (padd A B) x y.
Proof.
  intros [A1 A2] [B1 B2] H. unfold chk_add in H. cbv zeta in H. rewrite !hexmul_eq in H. apply andb_prop in H. destruct H as [H H3].
  apply andb_prop in H. destruct H as [H1 H2]. apply zeqp_ok in H1, H2, H3.
  destruct cd_num as [N E]. destruct (padd_c A B) as [P1 P2]. unfold coords. rewrite P1, P2.
  pose proof (plus_nz A B) as D1. pose proof (minus_nz A B) as D2. rewrite A1, A2, B1, B2 in *.
  rewrite toF_sub, toF_mul, (toF_mul x1), (toF_mul y1) in H1.
  rewrite toF_sub, toF_mul, toF_sub, !toF_mul, toF_add, !toF_mul in H2.
  rewrite toF_sub, toF_mul, toF_add, !toF_mul, toF_add, !toF_mul in H3.
  assert (T : toF t = toF x1 * toF y2 * (toF y1 * toF x2)) by (symmetry; apply F_sub_eq; exact H1).
  rewrite T in H2, H3. clear H1 T. apply (fun x y => proj1 (F_sub_eq x y)) in H2, H3.
  split; apply div_unique.
  - exact D1.
  - apply (F_mul_cancel_l (toF 126297)); [exact N|].
    transitivity (toF x * (toF 126297 + cd * toF 126297 * (toF x1 * toF x2 * toF y1 * toF y2))); [ring|]. rewrite E.
    transitivity (toF x * (toF 126297 - toF 126296 * (toF x1 * toF y2 * (toF y1 * toF x2)))); [ring|].
    rewrite H2. ring.
  - exact D2.
  - apply (F_mul_cancel_l (toF 126297)); [exact N|].
    transitivity (toF y * (toF 126297 - cd * toF 126297 * (toF x1 * toF x2 * toF y1 * toF y2))); [ring|]. rewrite E.
    transitivity (toF y * (toF 126297 + toF 126296 * (toF x1 * toF y2 * (toF y1 * toF x2)))); [ring|].
    rewrite H3. ring.
Qed.

Lemma chk_dbl_ok A x0 y0 x y q1 q2 : coords A x0 y0 -> chk_dbl x0 y0 x y q1 q2 = true ->
  coords (padd A A) x y.
Proof.
  intros [A1 A2] H. unfold chk_dbl in H. cbv zeta in H. rewrite !hexmul_eq in H. apply andb_prop in H. destruct H as [H1 H2].
  apply zeqp_ok in H1, H2. destruct (padd_c A A) as [P1 P2]. unfold coords. rewrite P1, P2.
  pose proof (plus_nz A A) as D1. pose proof (minus_nz A A) as D2. pose proof (on_c A) as C. rewrite A1, A2 in *.
  rewrite toF_sub, !toF_mul, toF_sub, toF_add in H1.
  rewrite toF_sub, toF_mul, toF_sub, toF_mul, toF_sub, !toF_add, !toF_mul in H2.
  assert (T2 : toF 2 = 1 + 1) by (apply Feq; reflexivity). rewrite T2 in H1, H2.
  set (X := toF x0) in *. set (Y := toF y0) in *. apply (fun x y => proj1 (F_sub_eq x y)) in H1, H2.
  assert (C' : cd * X * X * Y * Y = Y * Y - X * X - 1).
  { transitivity (1 + cd * (X * X) * (Y * Y) - 1); [ring|]. rewrite <- C. ring. }
  split; apply div_unique.
  - exact D1.
  - rewrite C'. transitivity (toF x * ((Y - X) * (Y + X))); [ring|]. rewrite H1. ring.
  - exact D2.
  - rewrite C'. transitivity (toF y * (1 + 1 - (Y - X) * (Y + X))); [ring|]. rewrite H2. ring.
Qed.

(** ** The chain for the group order *)
Record chain : Set := { c_dx : Z; c_dy : Z; c_dn : Z; c_ax : Z; c_ay : Z; c_an : Z }.
Fixpoint run_chain (l : list step) (s : chain) : option chain :=
  match l with
  | [] => Some s
  | Dbl x y q1 q2 :: l' =>
    if chk_dbl (c_dx s) (c_dy s) x y q1 q2
    then run_chain l' {| c_dx := x; c_dy := y; c_dn := 2 * c_dn s; c_ax := c_ax s; c_ay := c_ay s; c_an := c_an s |}
    else None
  | AddD neg x y t q0 q1 q2 :: l' =>
    if chk_add (c_ax s) (c_ay s) (if neg then - c_dx s else c_dx s)%Z (c_dy s) x y t q0 q1 q2
    then run_chain l' {| c_dx := c_dx s; c_dy := c_dy s; c_dn := c_dn s; c_ax := x; c_ay := y;
                         c_an := if neg then c_an s - c_dn s else c_an s + c_dn s |}
    else None
  end.
Definition chain_ok (P : pt) (s : chain) : Prop :=
  coords (smul (c_dn s) P) (c_dx s) (c_dy s) /\ coords (smul (c_an s) P) (c_ax s) (c_ay s).

Lemma coords_opp A x y : coords A x y -> coords (popp A) (- x) y.
Proof. intros [H1 H2]. destruct (popp_c A) as [E1 E2]. split; [rewrite E1, H1, toF_opp; reflexivity|rewrite E2, H2; reflexivity]. Qed.

Lemma run_chain_ok P l : forall s s', chain_ok P s -> run_chain l s = Some s' -> chain_ok P s'.
Proof.
  induction l as [|st l IH]; intros s s' H R.
  - cbn [run_chain] in R. assert (E : s = s') by exact (f_equal (fun o => match o with Some v => v | None => s end) R).
    rewrite <- E. exact H.
  - destruct H as [HD HA]. destruct st as [x y q1 q2|neg x y t q0 q1 q2]; cbn [run_chain] in R.
    + destruct (chk_dbl _ _ _ _ _ _) eqn:K; [|discriminate]. apply IH in R; [exact R|].
      split; cbn [c_dn c_dx c_dy c_an c_ax c_ay]; [|exact HA].
      rewrite smul_mul, smul_2, <- smul_padd, <- smul_2, <- smul_mul, Z.mul_comm, smul_mul, smul_2.
      exact (chk_dbl_ok _ _ _ _ _ _ _ HD K).
    + destruct (chk_add _ _ _ _ _ _ _ _ _ _) eqn:K; [|discriminate]. apply IH in R; [exact R|].
      split; cbn [c_dn c_dx c_dy c_an c_ax c_ay]; [exact HD|]. destruct neg.
      * rewrite smul_sub. exact (chk_add_ok _ _ _ _ _ _ _ _ _ _ _ _ HA (coords_opp _ _ _ HD) K).
      * rewrite smul_add. exact (chk_add_ok _ _ _ _ _ _ _ _ _ _ _ _ HA HD K).
Qed.

(** The basepoint as a curve point. *)
Definition pB : pt := pt_of base base_on.
Lemma pB_coords : coords pB base_x base_yZ.
Proof. split; [reflexivity|]. exact base_y_eq. Qed.
Lemma rext_B : rext BASEPOINT pB.
Proof.
  pose proof base_rep as H. apply ext_rep_rext in H. destruct H as (A & E & H).
  assert (K : pB = A) by (apply pt_eq; exact E). rewrite K. exact H.
Qed.

Definition chain_init : chain :=
  {| c_dx := base_x; c_dy := base_yZ; c_dn := 1; c_ax := 0; c_ay := 1; c_an := 0 |}.
Definition chain_end (o : option chain) : bool :=
  match o with
  | Some s => (c_ax s =? 0)%Z && (c_ay s =? 1)%Z && (c_an s =? L)%Z
  | None => false
  end.
Lemma chain_run : chain_end (run_chain order_cert chain_init) = true.
Proof. vm_compute. reflexivity. Qed.
Theorem smul_L_B : smul L pB = pO.
Proof.
  pose proof chain_run as H. destruct (run_chain order_cert chain_init) as [s|] eqn:R; [|discriminate].
  apply (run_chain_ok pB) in R.
  - unfold chain_end in H. apply andb_prop in H. destruct H as [H H3]. apply andb_prop in H. destruct H as [H1 H2].
    apply Z.eqb_eq in H1, H2, H3. destruct R as [_ [X Y]]. rewrite H3, H1 in X. rewrite H3, H2 in Y.
    apply pt_c; [rewrite X; reflexivity|rewrite Y; reflexivity].
  - split; cbn [c_dn c_dx c_dy c_an c_ax c_ay chain_init].
    + rewrite smul_1. exact pB_coords.
    + split; reflexivity.
Qed.

(** ** The table *)
Definition fcanonb (a : fe) : bool :=
  ((0 <=? f0 a) && (f0 a <? 2 ^ 52) && (0 <=? f1 a) && (f1 a <? 2 ^ 52) &&
   (0 <=? f2 a) && (f2 a <? 2 ^ 52) && (0 <=? f3 a) && (f3 a <? 2 ^ 52) &&
   (0 <=? f4 a) && (f4 a <? 2 ^ 52) && (fval a <? p))%Z.
Fixpoint chk_table (x1 y1 : Z) (l : list tentry) (tab : list ept) : bool :=
  match l, tab with
  | [], [] => true
  | TE x y t q0 q1 q2 qx qy qt :: l', P :: tab' =>
    chk_add x1 y1 (fst double_base) (snd double_base) x y t q0 q1 q2 &&
    (zeqp (hexmul x (fval (eZ P)) - fval (eX P)) qx && (zeqp (hexmul y (fval (eZ P)) - fval (eY P)) qy &&
    (zeqp (hexmul (fval (eX P)) y - fval (eT P)) qt && (negb (fval (eZ P) =? 0)%Z &&
    (fcanonb (eX P) && (fcanonb (eY P) && (fcanonb (eZ P) && (fcanonb (eT P) && chk_table x y l' tab'))))))))
  | _, _ => false
  end.

Lemma toF_canon_nz a : fcanon a -> fval a <> 0%Z -> toF (fval a) <> 0.
Proof.
  intros [H1 H2] N H. apply (f_equal Fval) in H. rewrite Fval_toF, Z.mod_small in H; [exact (N H)|].
  split; [exact (proj1 (fval_nonneg _ H1))|exact H2].
Qed.

Lemma entry_ok A x y P qx qy qt : coords A x y ->
  zeqp (hexmul x (fval (eZ P)) - fval (eX P)) qx = true -> zeqp (hexmul y (fval (eZ P)) - fval (eY P)) qy = true ->
  zeqp (hexmul (fval (eX P)) y - fval (eT P)) qt = true -> negb (fval (eZ P) =? 0)%Z = true ->
  fcanonb (eX P) = true -> fcanonb (eY P) = true -> fcanonb (eZ P) = true -> fcanonb (eT P) = true ->
  rext P A.
Proof.
  intros [C1 C2] H1 H2 H3 HN K1 K2 K3 K4. apply zeqp_ok in H1, H2, H3.
  rewrite hexmul_eq, toF_sub, toF_mul in H1, H2, H3. apply (fun x y => proj1 (F_sub_eq x y)) in H1, H2, H3.
  apply canon_check in K1, K2, K3, K4. apply negb_true_iff, Z.eqb_neq in HN.
  assert (R : ext_rep P (pxy A)).
  { split; [exact (pt_on A)|]. split; [exact K1|]. split; [exact K2|]. split; [exact K3|]. split; [exact K4|].
    split; [exact (toF_canon_nz _ K3 HN)|]. fold (xc A) (yc A). rewrite C1, C2.
    split; [symmetry; exact H1|]. split; [symmetry; exact H2|].
    rewrite <- H3, <- H1. ring. }
  apply ext_rep_rext in R. destruct R as (A' & E & R). apply pt_eq in E. rewrite E. exact R.
Qed.

Lemma double_base_ok : coords (smul 2 pB) (fst double_base) (snd double_base).
Proof.
  rewrite smul_2. destruct (padd_c pB pB) as [P1 P2]. pose proof pB_coords as [B1 B2].
  pose proof (plus_nz pB pB) as D1. pose proof (minus_nz pB pB) as D2.
  unfold coords. rewrite P1, P2. rewrite B1, B2, cd_FD in *.
  split; apply div_unique; [exact D1| |exact D2|]; apply Feq; vm_compute; reflexivity.
Qed.

Lemma chk_table_ok l : forall tab n x1 y1, coords (smul n pB) x1 y1 -> chk_table x1 y1 l tab = true ->
  forall i P, nth_error tab i = Some P -> rext P (smul (n + 2 * (1 + Z.of_nat i)) pB).
Proof.
  induction l as [|e l IH]; intros tab n x1 y1 C H i P E.
  - destruct tab as [|P0 tab]; [destruct i; discriminate|discriminate].
  - destruct e as [x y t q0 q1 q2 qx qy qt]. destruct tab as [|P0 tab]; [discriminate|].
    cbn [chk_table] in H.
    apply andb_prop in H. destruct H as [A H]. apply andb_prop in H. destruct H as [H1 H].
    apply andb_prop in H. destruct H as [H2 H]. apply andb_prop in H. destruct H as [H3 H].
    apply andb_prop in H. destruct H as [HN H]. apply andb_prop in H. destruct H as [K1 H].
    apply andb_prop in H. destruct H as [K2 H]. apply andb_prop in H. destruct H as [K3 H].
    apply andb_prop in H. destruct H as [K4 H].
    apply (chk_add_ok _ _ _ _ _ _ _ _ _ _ _ _ C double_base_ok) in A. rewrite <- smul_add in A.
    destruct i as [|i].
    + cbn [nth_error] in E. assert (E' : P0 = P) by exact (f_equal (fun o => match o with Some v => v | None => P0 end) E).
      rewrite <- E'. replace (n + 2 * (1 + Z.of_nat 0))%Z with (n + 2)%Z by (cbn; lia).
      exact (entry_ok _ _ _ _ _ _ _ A H1 H2 H3 HN K1 K2 K3 K4).
    + cbn [nth_error] in E. pose proof (IH tab (n + 2)%Z x y A H i P E) as R.
      replace (n + 2 * (1 + Z.of_nat (S i)))%Z with (n + 2 + 2 * (1 + Z.of_nat i))%Z by lia. exact R.
Qed.
Lemma table_run : chk_table (pz - base_x) base_yZ table_cert (tl BASEPOINT_ODD_MULTIPLES_TABLE) = true.
Proof. vm_compute. reflexivity. Qed.
Lemma table_zero : nth_error BASEPOINT_ODD_MULTIPLES_TABLE 0 = Some ept_identity.
Proof. reflexivity. Qed.
Lemma table_length : length BASEPOINT_ODD_MULTIPLES_TABLE = 126%nat.
Proof. reflexivity. Qed.
Lemma table_entry i P : nth_error BASEPOINT_ODD_MULTIPLES_TABLE (S i) = Some P ->
  rext P (smul (2 * Z.of_nat (S i) - 1) pB).
Proof.
  intros H. assert (E : nth_error (tl BASEPOINT_ODD_MULTIPLES_TABLE) i = Some P) by exact H. clear H.
  assert (C : coords (smul (-1) pB) (pz - base_x) base_yZ).
  { unfold coords. replace (toF (pz - base_x)) with (toF (- base_x)) by (apply Feq; vm_compute; reflexivity). change (-1)%Z with (- (1))%Z. rewrite smul_opp, smul_1. exact (coords_opp _ _ _ pB_coords). }
  pose proof (chk_table_ok _ _ _ _ _ C table_run i P E) as R.
  replace (2 * Z.of_nat (S i) - 1)%Z with (-1 + 2 * (1 + Z.of_nat i))%Z by lia. exact R.
Qed.
