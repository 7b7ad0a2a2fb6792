(** * Statements about the recoding of scalars that are not reduced: C107 *)

From Coq Require Import ZArith Znumtheory List Bool Lia.
From Verif Require Import Machine FieldModel ScalarModel EdwardsModel TableModel RistrettoModel Spec OverSpec MachineFacts
  FieldLimb FieldMul FieldOps FieldBytes ScalarLimb ScalarOps ScalarBits ScalarNaf ScalarStmt Curve CurveGroup EdwardsF
  PointMul EdwardsY EdwardsStmt GroupStmt LawsStmt.
Import ListNotations.
Open Scope Z_scope.

(** ** The loop on integers *)

Definition digit (k : Z) : Z := if Z.even k then 0 else 2 - k mod 4.
Definition next (k : Z) : Z :=
  if Z.even k then k / 2 else if k mod 4 =? 1 then k / 2 else if k <? L then (k + 1) / 2 else (k - L) / 2.

Fixpoint znaf (n : nat) (k : Z) : option (list Z) :=
  if k <? 1 then Some [] else
  match n with
  | O => None
  | S n' => match znaf n' (next k) with Some ds => Some (digit k :: ds) | None => None end
  end.

Lemma znaf_zero n k : k < 1 -> znaf n k = Some [].
Proof. intros H. destruct n; cbn [znaf]; now rewrite (proj2 (Z.ltb_lt k 1)). Qed.
Lemma znaf_S n k : 1 <= k -> znaf (S n) k = match znaf n (next k) with Some ds => Some (digit k :: ds) | None => None end.
Proof. intros H. cbn [znaf]. destruct (Z.ltb_spec k 1); [lia|reflexivity]. Qed.
Lemma znaf_O k : 1 <= k -> znaf 0 k = None.
Proof. intros H. cbn [znaf]. destruct (Z.ltb_spec k 1); [lia|reflexivity]. Qed.

Lemma znaf_more : forall n m k ds, znaf n k = Some ds -> (n <= m)%nat -> znaf m k = Some ds.
Proof.
  induction n as [|n IH]; intros m k ds E H.
  - destruct (Z.lt_ge_cases k 1) as [K|K]; [rewrite znaf_zero in * by exact K; exact E|].
    rewrite znaf_O in E by exact K. discriminate.
  - destruct (Z.lt_ge_cases k 1) as [K|K]; [rewrite znaf_zero in * by exact K; exact E|].
    destruct m as [|m]; [lia|]. rewrite znaf_S in * by exact K.
    destruct (znaf n (next k)) as [ds'|] eqn:E'; [|discriminate].
    rewrite (IH m _ _ E') by lia. exact E.
Qed.

Lemma znaf_length : forall n k ds, znaf n k = Some ds -> (length ds <= n)%nat.
Proof.
  induction n as [|n IH]; intros k ds E.
  - destruct (Z.lt_ge_cases k 1) as [K|K]; [rewrite znaf_zero in E by exact K; injection E as <-; cbn; lia|].
    rewrite znaf_O in E by exact K. discriminate.
  - destruct (Z.lt_ge_cases k 1) as [K|K]; [rewrite znaf_zero in E by exact K; injection E as <-; cbn; lia|].
    rewrite znaf_S in E by exact K.
    destruct (znaf n (next k)) as [ds'|] eqn:E'; [|discriminate]. injection E as <-.
    apply IH in E'. cbn [length]. lia.
Qed.

Lemma odd_mod4 k : Z.even k = false -> k mod 4 = 1 \/ k mod 4 = 3.
Proof.
  intros E. assert (O : Z.odd k = true) by (rewrite <- Z.negb_even, E; reflexivity).
  rewrite Zodd_mod in O. apply Zeq_bool_eq in O. lia.
Qed.
Lemma even_mod2 k : Z.even k = true -> k mod 2 = 0.
Proof. intros E. rewrite Zeven_mod in E. apply Zeq_bool_eq in E. exact E. Qed.

Lemma set_nth_end (pre : list Z) v : set_nth (length pre) v pre = Panic.
Proof. induction pre as [|x pre IH]; [reflexivity|]. cbn [length set_nth]. rewrite IH. reflexivity. Qed.

Lemma slimbs_260 k : slimbs k -> 0 <= sval k < 2 ^ 260.
Proof. intros K. apply sval_nonneg in K. exact K. Qed.

(** The value left over after one odd step. *)
Lemma odd_step ck k : slimbs k -> Z.even (sval k) = false ->
  (m <- sc_mod_2_pow_k ck k 2 ;; i8sub ck 2 (as_i8 m)) = Ok (digit (sval k)) /\
  exists d k', sc_from_i8 ck (digit (sval k)) = Ok d /\ sc_sub ck k d = Ok k' /\ slimbs k' /\
    sval k' / 2 = next (sval k).
Proof.
  intros K Ev. assert (Ho : Z.odd (sval k) = true) by (rewrite <- Z.negb_even, Ev; reflexivity).
  pose proof (slimbs_260 k K) as B.
  assert (D : (m <- sc_mod_2_pow_k ck k 2 ;; i8sub ck 2 (as_i8 m)) = Ok (digit (sval k))).
  { rewrite naf_digit by assumption. rewrite sc_mods_2_pow_k_ok by (assumption || lia).
    f_equal. rewrite smods_case by lia. unfold digit. rewrite Ev. change (2 ^ 2) with 4. change (2 ^ (2 - 1)) with 2.
    destruct (odd_mod4 (sval k) Ev) as [-> | ->]; reflexivity. }
  split; [exact D|].
  assert (Dv : digit (sval k) = 1 /\ sval k mod 4 = 1 \/ digit (sval k) = -1 /\ sval k mod 4 = 3).
  { unfold digit. rewrite Ev. destruct (odd_mod4 (sval k) Ev) as [-> | ->]; [left|right]; auto. }
  destruct (sc_from_i8_ok ck (digit (sval k))) as (d & Ed & Cd & Vd); [lia|].
  destruct (C66_scalar_sub_stmt ck k d K (proj1 Cd)) as (k' & Ek & K' & Vk).
  exists d, k'. split; [exact Ed|]. split; [exact Ek|]. split; [exact K'|].
  unfold next. rewrite Ev.
  destruct Dv as [[Dg M]|[Dg M]]; rewrite Dg in Vd; rewrite M.
  - change (1 mod L) with 1 in Vd. rewrite Vd in Vk. change (1 =? 1) with true. cbv iota.
    destruct (Z.ltb_spec (sval k) 1) as [X|X]; [exfalso; clear - X M B; lia|].
    rewrite Vk. clear - M. lia.
  - change (-1 mod L) with (L - 1) in Vd. rewrite Vd in Vk. change (3 =? 1) with false. cbv iota.
    change (2 ^ 260) with 1852673427797059126777135760139006525652319754650249024631321344126610074238976 in *.
    rewrite L_num in *.
    destruct (Z.ltb_spec (sval k) (904625697166532776746648320380374280118162305775999595296348570842476562531 - 1)) as [X|X];
    destruct (Z.ltb_spec (sval k) 904625697166532776746648320380374280118162305775999595296348570842476562531) as [Y|Y].
    + rewrite Vk, Z.mod_small by (clear - B X; lia). f_equal. clear. lia.
    + exfalso; clear - X Y; lia.
    + exfalso; clear - X Y M; lia.
    + rewrite Vk. clear - Y M. lia.
Qed.

Lemma naf_step n ck k i arr : sc_naf_loop (S n) ck k i arr =
    if is_ge (sc_cmp k sc_one) then
      '(k, arr) <- (if negb (sc_is_even k) then
                      m <- sc_mod_2_pow_k ck k 2 ;;
                      ki <- i8sub ck 2 (as_i8 m) ;;
                      arr <- set_nth i ki arr ;;
                      d <- sc_from_i8 ck ki ;;
                      k <- sc_sub ck k d ;;
                      Ok (k, arr)
                    else
                      arr <- set_nth i 0 arr ;;
                      Ok (k, arr)) ;;
      sc_naf_loop n ck (sc_half_without_mod k) (S i) arr
    else Ok arr.
Proof. reflexivity. Qed.

Lemma naf_loop_z ck : forall m n k pre, slimbs k -> (m < n)%nat ->
  sc_naf_loop n ck k (length pre) (pre ++ repeat 0 m) =
  match znaf m (sval k) with Some ds => Ok (pre ++ ds ++ repeat 0 (m - length ds)) | None => Panic end.
Proof.
  induction m as [|m IH]; intros n k pre K Hn; (destruct n as [|n]; [lia|]); rewrite naf_step;
  rewrite sc_ge_ok by (assumption || apply scanon_one); rewrite sval_one;
  (destruct (Z.leb_spec 1 (sval k)) as [H1|H1];
   [|rewrite znaf_zero by exact H1; cbn [app length]; rewrite Nat.sub_0_r; reflexivity]).
  - rewrite znaf_O by exact H1. cbn [repeat]. rewrite app_nil_r, sc_is_even_ok.
    destruct (Z.even (sval k)) eqn:Ev; cbn [negb].
    + rewrite set_nth_end. reflexivity.
    + destruct (odd_step ck k K Ev) as (D & _).
      destruct (sc_mod_2_pow_k ck k 2) as [mm| |]; cbn [bind] in *; try discriminate. rewrite D. cbn [bind].
      rewrite set_nth_end. reflexivity.
  - rewrite znaf_S by exact H1. rewrite sc_is_even_ok.
    assert (Next : forall k' v, slimbs k' -> sval k' / 2 = next (sval k) ->
      sc_naf_loop n ck (sc_half_without_mod k') (S (length pre)) ((pre ++ [v]) ++ repeat 0 m) =
      match znaf m (next (sval k)) with Some ds => Ok (pre ++ (v :: ds) ++ repeat 0 (S m - length (v :: ds))) | None => Panic end).
    { intros k' v K' V. destruct (sc_half_without_mod_ok k' K') as [Lh Vh]. rewrite V in Vh.
      pose proof (IH n (sc_half_without_mod k') (pre ++ [v]) Lh ltac:(lia)) as E.
      rewrite app_length in E. cbn [length] in E. rewrite Nat.add_1_r, Vh in E. rewrite E.
      destruct (znaf m (next (sval k))); [|reflexivity]. rewrite <- app_assoc. cbn [app length Nat.sub]. reflexivity. }
    destruct (Z.even (sval k)) eqn:Ev; cbn [negb].
    + rewrite set_nth_pad, !bind_ok. rewrite (Next k 0 K) by (unfold next; now rewrite Ev).
      unfold digit. rewrite Ev. now destruct (znaf m (next (sval k))).
    + destruct (odd_step ck k K Ev) as (D & d & k' & Ed & Ek & K' & V).
      destruct (sc_mod_2_pow_k ck k 2) as [mm| |]; cbn [bind] in *; try discriminate. rewrite D. cbn [bind].
      rewrite set_nth_pad, bind_ok, Ed, bind_ok, Ek, !bind_ok. rewrite (Next k' _ K' V).
      now destruct (znaf m (next (sval k))).
Qed.

Lemma compute_NAF_z ck k : slimbs k ->
  sc_compute_NAF ck k = match znaf 256 (sval k) with Some ds => Ok (pad256 ds) | None => Panic end.
Proof.
  intros K. unfold sc_compute_NAF. pose proof (naf_loop_z ck 256 loop_fuel k [] K) as E.
  cbn [length app] in E. apply E. unfold loop_fuel. lia.
Qed.

(** ** What the loop on integers does *)

Lemma L_big : 3 < L. Proof. reflexivity. Qed.
Lemma L_odd : L mod 2 = 1. Proof. reflexivity. Qed.

Lemma pow2_mod3 n : 2 ^ Z.of_nat n mod 3 <> 0.
Proof.
  assert (H : 2 ^ Z.of_nat n mod 3 = 1 \/ 2 ^ Z.of_nat n mod 3 = 2).
  { induction n as [|n IH]; [left; reflexivity|].
    rewrite Nat2Z.inj_succ, Z.pow_succ_r by lia. set (x := 2 ^ Z.of_nat n) in *. clearbody x. lia. }
  lia.
Qed.
Lemma pow2_S n : 2 ^ Z.of_nat (S n) = 2 * 2 ^ Z.of_nat n.
Proof. rewrite Nat2Z.inj_succ, Z.pow_succ_r by lia. reflexivity. Qed.

Lemma no_trap_half k : no_trap k -> no_trap (k / 2).
Proof.
  intros N i Hi. rewrite Z.div_div by (try apply Z.pow_nonzero; try apply Z.pow_pos_nonneg; lia).
  rewrite <- Z.pow_succ_r by lia. apply N. lia.
Qed.
Lemma no_trap_small k : 0 <= k < L -> no_trap k.
Proof.
  intros K i Hi H. exfalso. assert (k / 2 ^ i <= k); [|lia].
  assert (1 <= 2 ^ i) by (apply (Z.pow_le_mono_r 2 0); lia).
  apply Z.div_le_upper_bound; nia.
Qed.
Lemma no_trap_here k : no_trap k -> k mod 4 = 3 -> k < L.
Proof.
  intros N M. destruct (Z.lt_ge_cases k L) as [H|H]; [exact H|exfalso].
  apply (N 0); [lia| |]; change (2 ^ 0) with 1; rewrite Z.div_1_r; [exact H|exact M].
Qed.

(** The three cases of one step outside the trap. *)
Lemma next_cases k : no_trap k -> 1 <= k ->
  (k mod 2 = 0 /\ digit k = 0 /\ next k = k / 2 /\ no_trap (next k)) \/
  (k mod 4 = 1 /\ digit k = 1 /\ next k = k / 2 /\ no_trap (next k)) \/
  (k mod 4 = 3 /\ digit k = -1 /\ next k = (k + 1) / 2 /\ no_trap (next k)).
Proof.
  intros N K. unfold digit, next. destruct (Z.even k) eqn:Ev.
  - left. split; [now apply even_mod2|]. split; [reflexivity|]. split; [reflexivity|]. now apply no_trap_half.
  - right. destruct (odd_mod4 k Ev) as [M|M]; rewrite M; [left|right]; (split; [reflexivity|]); (split; [reflexivity|]).
    + change (1 =? 1) with true. cbv iota. split; [reflexivity|]. now apply no_trap_half.
    + change (3 =? 1) with false. cbv iota. pose proof (no_trap_here k N M) as KL.
      rewrite (proj2 (Z.ltb_lt k L) KL). split; [reflexivity|]. apply no_trap_small.
      pose proof L_big as B. set (l := L) in *. clearbody l. clear - K KL M B. lia.
Qed.

Lemma znaf_good : forall n k, 0 <= k -> no_trap k -> 3 * k < 2 * 2 ^ Z.of_nat n ->
  exists ds, znaf n k = Some ds /\ recoding 2 k ds.
Proof.
  induction n as [|n IH]; intros k K0 N B.
  - change (2 ^ Z.of_nat 0) with 1 in B. replace k with 0 by lia. exists []. split; [reflexivity|apply recoding_nil].
  - destruct (Z.lt_ge_cases k 1) as [K1|K1].
    { replace k with 0 by lia. exists []. split; [reflexivity|apply recoding_nil]. }
    rewrite znaf_S by exact K1. rewrite pow2_S in B. pose proof (pow2_mod3 n) as P3.
    assert (P : 0 < 2 ^ Z.of_nat n) by (apply Z.pow_pos_nonneg; lia).
    set (x := 2 ^ Z.of_nat n) in *. clearbody x.
    destruct (next_cases k N K1) as [(M & D & E & N')|[(M & D & E & N')|(M & D & E & N')]]; rewrite D;
    (destruct (IH (next k)) as (ds & Ez & R);
     [rewrite E; clear - K1; lia|exact N'|rewrite E; clear - M B P3 K1; lia|]); rewrite Ez; eexists;
    (split; [reflexivity|]).
    + replace k with (2 * next k) at 1 by (rewrite E; clear - M; lia). apply recoding_zero; [lia|exact R].
    + replace k with (1 + 2 * next k) at 1 by (rewrite E; clear - M; lia).
      apply recoding_odd; [lia|reflexivity|change (2 ^ (2 - 1)) with 2; lia| |exact R].
      change (2 ^ (2 - 1)) with 2. apply Z.mod_divide; [lia|]. rewrite E. clear - M. lia.
    + replace k with (-1 + 2 * next k) at 1 by (rewrite E; clear - M; lia).
      apply recoding_odd; [lia|reflexivity|change (2 ^ (2 - 1)) with 2; lia| |exact R].
      change (2 ^ (2 - 1)) with 2. apply Z.mod_divide; [lia|]. rewrite E. clear - M. lia.
Qed.

Lemma znaf_long : forall n k, 0 <= k -> no_trap k -> 2 * 2 ^ Z.of_nat n < 3 * k -> znaf n k = None.
Proof.
  induction n as [|n IH]; intros k K0 N B.
  - change (2 ^ Z.of_nat 0) with 1 in B. apply znaf_O. lia.
  - rewrite pow2_S in B. pose proof (pow2_mod3 n) as P3.
    assert (P : 0 < 2 ^ Z.of_nat n) by (apply Z.pow_pos_nonneg; lia).
    set (x := 2 ^ Z.of_nat n) in *. clearbody x.
    assert (K1 : 1 <= k) by lia. rewrite znaf_S by exact K1.
    destruct (next_cases k N K1) as [(M & D & E & N')|[(M & D & E & N')|(M & D & E & N')]];
    (rewrite IH; [reflexivity|rewrite E; clear - K1; lia|exact N'|rewrite E; clear - M B P3 K1 P; lia]).
Qed.

Definition trapped (k : Z) : Prop := exists i, 0 <= i /\ L <= k / 2 ^ i /\ (k / 2 ^ i) mod 4 = 3.

Lemma trapped_cases k : 0 <= k -> trapped k -> L <= k /\ (k mod 4 = 3 \/ trapped (k / 2)).
Proof.
  intros K (i & Hi & H1 & H2). split.
  - apply Z.le_trans with (1 := H1). apply Z.div_le_upper_bound; [apply Z.pow_pos_nonneg; lia|].
    assert (1 <= 2 ^ i) by (apply (Z.pow_le_mono_r 2 0); lia). nia.
  - destruct (Z.eq_dec i 0) as [-> |Hi'].
    + left. change (2 ^ 0) with 1 in H2. rewrite Z.div_1_r in H2. exact H2.
    + right. exists (i - 1). split; [lia|].
      rewrite Z.div_div by (try apply Z.pow_pos_nonneg; lia). rewrite <- Z.pow_succ_r by lia.
      replace (Z.succ (i - 1)) with i by lia. split; [exact H1|exact H2].
Qed.

(** Every step into the trap takes L + 1 too much. *)
Lemma znaf_small : forall n k ds, 0 <= k < L -> znaf n k = Some ds -> digits_value ds = k.
Proof.
  induction n as [|n IH]; intros k ds K E.
  - destruct (Z.lt_ge_cases k 1) as [K1|K1]; [rewrite znaf_zero in E by exact K1; injection E as <-; cbn; lia|].
    rewrite znaf_O in E by exact K1. discriminate.
  - destruct (Z.lt_ge_cases k 1) as [K1|K1]; [rewrite znaf_zero in E by exact K1; injection E as <-; cbn; lia|].
    rewrite znaf_S in E by exact K1. pose proof L_big as LB.
    destruct (znaf n (next k)) as [ds'|] eqn:E'; [|discriminate]. injection E as <-. cbn [digits_value].
    assert (R : 0 <= next k < L /\ digit k + 2 * next k = k).
    { destruct (next_cases k (no_trap_small k K) K1) as [(M & -> & -> & _)|[(M & -> & -> & _)|(M & -> & -> & _)]];
      set (l := L) in *; clearbody l; clear - M K K1 LB; lia. }
    rewrite (IH _ _ (proj1 R) E'). apply R.
Qed.

Lemma znaf_any : forall m n k ds, 0 <= k < 2 ^ Z.of_nat m * L -> znaf n k = Some ds ->
  exists s, digits_value ds = k - (L + 1) * s /\ 0 <= s < 2 ^ Z.of_nat m /\ (trapped k -> 0 < s).
Proof.
  induction m as [|m IH]; intros n k ds K E.
  - change (2 ^ Z.of_nat 0) with 1 in *. rewrite Z.mul_1_l in K. exists 0.
    rewrite (znaf_small n k ds K E). split; [lia|]. split; [lia|].
    intros T. apply trapped_cases in T; [|lia]. destruct T as [T _]. lia.
  - destruct (Z.lt_ge_cases k 1) as [K1|K1].
    { exists 0. rewrite znaf_zero in E by exact K1. injection E as <-. cbn [digits_value].
      assert (0 < 2 ^ Z.of_nat (S m)) by (apply Z.pow_pos_nonneg; lia).
      split; [lia|]. split; [lia|]. intros T. apply trapped_cases in T; [|lia]. pose proof L_big. lia. }
    destruct n as [|n]; [rewrite znaf_O in E by exact K1; discriminate|]. rewrite znaf_S in E by exact K1.
    destruct (znaf n (next k)) as [ds'|] eqn:E'; [|discriminate]. injection E as <-. cbn [digits_value].
    rewrite pow2_S in *. pose proof L_big as LB. pose proof L_odd as LO.
    assert (P : 1 <= 2 ^ Z.of_nat m) by (apply (Z.pow_le_mono_r 2 0); lia).
    assert (PL : L <= 2 ^ Z.of_nat m * L).
    { clear - P LB. set (l := L) in *. clearbody l. nia. }
    assert (K' : 0 <= k < 2 * (2 ^ Z.of_nat m * L)) by (clear - K; lia).
    assert (Hn : 0 <= next k < 2 ^ Z.of_nat m * L).
    { unfold next. set (y := 2 ^ Z.of_nat m * L) in *. clearbody y.
      destruct (Z.even k); [clear - K'; lia|]. destruct (k mod 4 =? 1); [clear - K'; lia|].
      destruct (Z.ltb_spec k L); set (l := L) in *; clearbody l; [|clear - K' H LB; lia].
      clear - H PL LB K'. lia. }
    destruct (IH n (next k) ds' Hn E') as (s & V & S & T).
    unfold digit, next in *. destruct (Z.even k) eqn:Ev.
    + exists (2 * s). apply even_mod2 in Ev. split; [rewrite V; set (l := (L + 1) * s); replace ((L + 1) * (2 * s)) with (2 * l) by (unfold l; ring); clear - Ev; lia|].
      split; [clear - S; lia|]. intros X. apply trapped_cases in X; [|lia]. destruct X as [_ [X|X]]; [exfalso; clear - Ev X; lia|].
      apply T in X. lia.
    + destruct (odd_mod4 k Ev) as [M|M]; rewrite M in *.
      * change (1 =? 1) with true in *. cbv iota in *.
        exists (2 * s). split; [rewrite V; set (l := (L + 1) * s); replace ((L + 1) * (2 * s)) with (2 * l) by (unfold l; ring); clear - M; lia|].
        split; [clear - S; lia|]. intros X. apply trapped_cases in X; [|lia]. destruct X as [_ [X|X]]; [exfalso; clear - M X; lia|].
        apply T in X. lia.
      * change (3 =? 1) with false in *. cbv iota in *.
        destruct (Z.ltb_spec k L) as [X|X].
        -- exists (2 * s). split; [rewrite V; set (l := (L + 1) * s); replace ((L + 1) * (2 * s)) with (2 * l) by (unfold l; ring); clear - M; lia|].
           split; [clear - S; lia|]. intros Y. apply trapped_cases in Y; [|lia]. destruct Y as [Y _]. exfalso. clear - X Y. lia.
        -- exists (1 + 2 * s). split; [|split; [clear - S; lia|intros _; clear - S; lia]].
           rewrite V. replace ((L + 1) * (1 + 2 * s)) with (L + 1 + 2 * ((L + 1) * s)) by ring.
           set (l' := (L + 1) * s). set (l := L) in *. clearbody l l'. clear - M X LO. lia.
Qed.

(** ** C107 *)
Lemma recoding_form k ds : (length ds <= 256)%nat -> recoding 2 k ds -> nonadjacent_form k (pad256 ds).
Proof.
  intros Hl (V & D & N). split; [|split; [|split]].
  - unfold pad256. rewrite app_length, repeat_length. lia.
  - unfold pad256. rewrite digits_value_app, digits_value_zeros, V. lia.
  - apply Forall_app. split.
    + eapply Forall_impl; [|exact D]. cbn beta. intros d [_ R]. change (2 ^ (2 - 1)) with 2 in R. lia.
    + apply Forall_forall. intros x H. apply repeat_spec in H. now left.
  - intros i. rewrite !nth_pad256. apply N; lia.
Qed.
Lemma digits_pad ds : digits_value (pad256 ds) = digits_value ds.
Proof. unfold pad256. rewrite digits_value_app, digits_value_zeros. lia. Qed.

(** Scalars of up to 260 bits, as `Scalar([..])` and `IndexMut` let one write them. *)
Lemma C107_naf_stmt : forall ck k, slimbs k -> no_trap (sval k) -> 3 * sval k < 2 ^ 257 ->
  exists ds, sc_compute_NAF ck k = Ok ds /\ nonadjacent_form (sval k) ds.
Proof.
  intros ck k K N B. pose proof (slimbs_260 k K) as K0. rewrite compute_NAF_z by exact K.
  destruct (znaf_good 256 (sval k)) as (ds & E & R); [apply K0|exact N|exact B|].
  rewrite E. exists (pad256 ds). split; [reflexivity|]. apply recoding_form; [|exact R]. exact (znaf_length _ _ _ E).
Qed.
(** The form has a 257th digit. *)
Lemma C107_naf_long_stmt : forall ck k, slimbs k -> no_trap (sval k) -> 2 ^ 257 <= 3 * sval k ->
  sc_compute_NAF ck k = Panic.
Proof.
  intros ck k K N B. pose proof (slimbs_260 k K) as K0. rewrite compute_NAF_z by exact K.
  rewrite znaf_long; [reflexivity|apply K0|exact N|].
  change (2 * 2 ^ Z.of_nat 256) with (2 ^ 257). assert (X : 2 ^ 257 mod 3 <> 0) by (vm_compute; discriminate).
  set (x := 2 ^ 257) in *. clearbody x. clear - B X. lia.
Qed.
(** Exactly when the digits stand for the scalar modulo L. *)
Lemma C107_naf_exact_stmt : forall ck k, slimbs k ->
  ((exists ds, sc_compute_NAF ck k = Ok ds /\ digits_value ds mod L = sval k mod L) <->
   (no_trap (sval k) /\ 3 * sval k < 2 ^ 257)).
Proof.
  intros ck k K. pose proof (slimbs_260 k K) as K0. split.
  - intros (ds & E & V). assert (N : no_trap (sval k)).
    { intros i Hi H1 H2. assert (T : trapped (sval k)) by (exists i; auto).
      rewrite compute_NAF_z in E by exact K. destruct (znaf 256 (sval k)) as [ds'|] eqn:Ez; [|discriminate].
      injection E as <-. rewrite digits_pad in V.
      destruct (znaf_any 11 256 (sval k) ds') as (s & Vs & S & P); [|exact Ez|].
      { split; [apply K0|]. apply Z.lt_le_trans with (1 := proj2 K0). vm_compute. discriminate. }
      apply P in T. rewrite Vs in V. change (2 ^ Z.of_nat 11) with 2048 in S.
      replace (sval k - (L + 1) * s) with (sval k - s + - s * L) in V by ring.
      rewrite Z.mod_add in V by discriminate.
      assert (Q : (s mod L) = 0).
      { replace s with (sval k - (sval k - s)) at 1 by ring. rewrite Zminus_mod, V, <- Zminus_mod, Z.sub_diag. reflexivity. }
      rewrite Z.mod_small in Q; [clear - Q T; lia|]. split; [apply S|]. apply Z.lt_trans with 2048; [apply S|reflexivity]. }
    split; [exact N|]. destruct (Z.lt_ge_cases (3 * sval k) (2 ^ 257)) as [H|H]; [exact H|].
    rewrite (C107_naf_long_stmt ck k K N H) in E. discriminate.
  - intros [N B]. destruct (C107_naf_stmt ck k K N B) as (ds & E & _ & V & _). exists ds. split; [exact E|]. now rewrite V.
Qed.
(** It always ends, with digits or by writing past the array, and alike in both builds. *)
Lemma C107_naf_total_stmt : forall k, slimbs k ->
  (exists ds, forall ck, sc_compute_NAF ck k = Ok ds) \/ (forall ck, sc_compute_NAF ck k = Panic).
Proof.
  intros k K. destruct (znaf 256 (sval k)) as [ds|] eqn:E.
  - left. exists (pad256 ds). intros ck. rewrite compute_NAF_z by exact K. now rewrite E.
  - right. intros ck. rewrite compute_NAF_z by exact K. now rewrite E.
Qed.

Definition past_L (c : Z) : sc := SC (1129677152307299 + c) 1363544697812651 714439 0 2199023255552.
(** The windowed recoding at every usable width. *)
Lemma C107_window_refuted_stmt : exists k, slimbs k /\ sval k = L + 28 /\ forall ck w, 2 <= w <= 6 ->
  exists ds, sc_compute_window_NAF ck k w = Ok ds /\ digits_value ds = 27.
Proof.
  exists (past_L 28). split; [vm_compute; intuition discriminate|]. split; [reflexivity|].
  intros ck w Hw. assert (W : w = 2 \/ w = 3 \/ w = 4 \/ w = 5 \/ w = 6) by lia.
  destruct W as [-> | [-> | [-> | [-> | ->]]]]; destruct ck; eexists; (split; [vm_compute; reflexivity|vm_compute; reflexivity]).
Qed.

Lemma no_trap_2L k : 0 <= k < 2 * L -> (L <= k -> k mod 4 <> 3) -> no_trap k.
Proof.
  intros K H i Hi X. destruct (Z.eq_dec i 0) as [-> |Hn].
  - change (2 ^ 0) with 1 in *. rewrite Z.div_1_r in *. now apply H.
  - exfalso. assert (2 <= 2 ^ i) by (apply (Z.pow_le_mono_r 2 1); lia).
    assert (k / 2 ^ i < L) by (apply Z.div_lt_upper_bound; [lia|]; pose proof L_big; nia). lia.
Qed.

Lemma naf_digits k : slimbs k -> 3 * sval k < 2 ^ 251 -> (L <= sval k -> sval k mod 4 <> 3) ->
  exists ds, (forall ck, sc_compute_NAF ck k = Ok (pad256 ds)) /\ (length ds <= 250)%nat /\
    digits_value ds = sval k /\ Forall (fun d => d = 0 \/ d = 1 \/ d = -1) ds.
Proof.
  intros K B N. pose proof (slimbs_260 k K) as K0.
  destruct (znaf_good 250 (sval k)) as (ds & E & V & D & _).
  - apply K0.
  - apply no_trap_2L; [|exact N]. split; [apply K0|].
    assert (X : 2 ^ 251 <= 6 * L) by (vm_compute; discriminate).
    set (x := 2 ^ 251) in *. set (l := L) in *. clearbody x l. clear - B X. lia.
  - exact B.
  - exists ds. split; [|split; [exact (znaf_length _ _ _ E)|split; [exact V|]]].
    + intros ck. rewrite compute_NAF_z by exact K. rewrite (znaf_more 250 256 _ _ E) by lia. reflexivity.
    + eapply Forall_impl; [|exact D]. cbn beta. intros d [_ R]. change (2 ^ (2 - 1)) with 2 in R. lia.
Qed.

(** Multiplication reads 250 digits. *)
Lemma C107_naf_mul_stmt : forall ck P A n, ext_rep P A -> slimbs n -> 3 * sval n < 2 ^ 251 ->
  (L <= sval n -> sval n mod 4 <> 3) ->
  returns_ext (binary_naf_mul ck (ept_add ck) (ept_sub ck) (ept_double ck) ept_identity P n) (multiple (sval n) A).
Proof.
  intros ck P A n HP Hn B N. apply ext_rep_rext in HP. destruct HP as (A' & -> & HP).
  destruct (naf_digits n Hn B N) as (ds & E & Hl & V & D).
  apply (ret_ext (fun ck => binary_naf_mul ck (ept_add ck) (ept_sub ck) (ept_double ck) ept_identity P n) (smul (sval n) A') _).
  - destruct (naf_loop_ok ept rext ept_add ept_sub ept_double rext_add rext_sub rext_dbl ds P A' Hl D HP 250%nat ept_identity) as (R & ER & HR);
      [lia|rewrite skipn_all2 by exact Hl; exact rext_id|].
    exists R. split; [|rewrite <- V; exact HR]. intros c. unfold binary_naf_mul. rewrite E, bind_ok. apply ER.
  - symmetry. apply multiple_smul. apply (slimbs_260 n Hn).
Qed.
Lemma C107_naf_mul_proj_stmt : forall ck P A n, proj_rep P A -> slimbs n -> 3 * sval n < 2 ^ 251 ->
  (L <= sval n -> sval n mod 4 <> 3) ->
  returns_proj (binary_naf_mul ck (ppt_add ck) (ppt_sub ck) (ppt_double ck) ppt_identity P n) (multiple (sval n) A).
Proof.
  intros ck P A n HP Hn B N. apply proj_rep_rprj in HP. destruct HP as (A' & -> & HP).
  destruct (naf_digits n Hn B N) as (ds & E & Hl & V & D).
  apply (ret_proj (fun ck => binary_naf_mul ck (ppt_add ck) (ppt_sub ck) (ppt_double ck) ppt_identity P n) (smul (sval n) A') _).
  - destruct (naf_loop_ok ppt rprj ppt_add ppt_sub ppt_double rprj_add rprj_sub rprj_dbl ds P A' Hl D HP 250%nat ppt_identity) as (R & ER & HR);
      [lia|rewrite skipn_all2 by exact Hl; exact rprj_id|].
    exists R. split; [|rewrite <- V; exact HR]. intros c. unfold binary_naf_mul. rewrite E, bind_ok. apply ER.
  - symmetry. apply multiple_smul. apply (slimbs_260 n Hn).
Qed.

(** `constants::L` itself: its recoding is the single digit -1, so L times a point comes out as its negation. *)
Lemma C107_order_stmt : forall ck P A, ext_rep P A ->
  sval SC_L = L /\ sc_compute_NAF ck SC_L = Ok (-1 :: repeat 0 255) /\
  returns_ext (binary_naf_mul ck (ept_add ck) (ept_sub ck) (ept_double ck) ept_identity P SC_L) (opposite A) /\
  returns_ext (ept_mul ck P SC_L) (multiple L A).
Proof.
  intros ck P A HP. split; [reflexivity|].
  assert (E : forall c, sc_compute_NAF c SC_L = Ok (pad256 [-1])) by (intros []; vm_compute; reflexivity).
  split; [exact (E ck)|]. split.
  - apply ext_rep_rext in HP. destruct HP as (A' & -> & HP).
    apply (ret_ext (fun ck => binary_naf_mul ck (ept_add ck) (ept_sub ck) (ept_double ck) ept_identity P SC_L) (smul (-1) A') _).
    + destruct (naf_loop_ok ept rext ept_add ept_sub ept_double rext_add rext_sub rext_dbl [-1] P A') with (i := 250%nat) (Q := ept_identity) as (R & ER & HR);
        [cbn; lia|constructor; [auto|constructor]|exact HP|lia|exact rext_id|].
      exists R. split; [|exact HR]. intros c. unfold binary_naf_mul. rewrite E, bind_ok. apply ER.
    + change (-1) with (- (1)). rewrite smul_opp, smul_1. reflexivity.
  - apply (C36_ext_mul_stmt ck P A SC_L HP). vm_compute. intuition discriminate.
Qed.
(** The two multiplications of the crate disagree at L: one gives the identity, the other not. *)
Lemma C107_order_refuted_stmt : exists P n, valid_ext P /\ slimbs n /\ forall ck,
  returns_ext (ept_mul ck P n) origin /\
  ~ returns_ext (binary_naf_mul ck (ept_add ck) (ept_sub ck) (ept_double ck) ept_identity P n) origin.
Proof.
  exists BASEPOINT, SC_L. split; [exists base; exact base_rep|]. split; [vm_compute; intuition discriminate|]. intros ck.
  destruct (C107_order_stmt ck BASEPOINT base base_rep) as (_ & _ & H1 & H2). split.
  - rewrite (proj2 (C55_order_stmt L ltac:(vm_compute; discriminate)) (Z.divide_refl L)) in H2. exact H2.
  - intros K. pose proof (returns_unique _ _ _ H1 K) as X. revert X. vm_compute. discriminate.
Qed.
Lemma no_trap_long : no_trap (15 * 2 ^ 252).
Proof.
  intros i Hi H. destruct (Z.lt_ge_cases i 8) as [X|X].
  - assert (C : i = 0 \/ i = 1 \/ i = 2 \/ i = 3 \/ i = 4 \/ i = 5 \/ i = 6 \/ i = 7) by lia.
    destruct C as [-> | [-> | [-> | [-> | [-> | [-> | [-> | ->]]]]]]]; vm_compute; discriminate.
  - exfalso. assert (Y : 15 * 2 ^ 252 / 2 ^ i <= 15 * 2 ^ 252 / 2 ^ 8).
    { apply Z.div_le_compat_l; [vm_compute; discriminate|]. split; [reflexivity|]. apply Z.pow_le_mono_r; lia. }
    pose proof (Z.le_trans _ _ _ H Y) as W. revert W. vm_compute. intros W. now apply W.
Qed.
Lemma C107_ex : slimbs (past_L 1) /\ sval (past_L 1) = L + 1 /\ (L + 1) mod 4 <> 3 /\ 3 * (L + 1) < 2 ^ 251 /\
  no_trap (L + 1) /\ ~ no_trap L /\
  slimbs (SC 0 0 0 0 263882790666240) /\ sval (SC 0 0 0 0 263882790666240) = 15 * 2 ^ 252 /\
  no_trap (15 * 2 ^ 252) /\ 2 ^ 257 <= 3 * (15 * 2 ^ 252) /\ ext_rep BASEPOINT base.
Proof.
  split; [vm_compute; intuition discriminate|]. split; [reflexivity|]. split; [discriminate|]. split; [reflexivity|].
  split; [apply no_trap_2L; [split; [discriminate|reflexivity]|discriminate]|].
  split; [intros N; apply (N 0); [lia|discriminate|reflexivity]|].
  split; [vm_compute; intuition discriminate|]. split; [reflexivity|]. split; [exact no_trap_long|].
  split; [discriminate|exact base_rep].
Qed.
