(** * Statements about the documentation examples: C92 *)

From Coq Require Import ZArith Znumtheory List Bool Lia Ring Field.
From Verif Require Import Machine FieldModel ScalarModel EdwardsModel DocTestModel Spec MachineFacts
  FieldLimb FieldOps FieldBytes NumTheory Primes Fp FieldF FieldInv FieldStmt ScalarOps ScalarBits ScalarStmt Curve CurveGroup EdwardsF
  PointMul EdwardsY EdwardsStmt RistSpec CodeSpec CodeStmt GroupCheck GroupOrder GroupStmt LawsStmt ProtoStmt.
Import ListNotations.
Open Scope Z_scope.

Lemma pow2_lt_L k : 0 <= k < 250 -> 2 ^ k < L.
Proof.
  intros H. apply Z.le_lt_trans with (2 ^ 249); [apply Z.pow_le_mono_r; lia|reflexivity].
Qed.
Lemma half_even h a : 0 <= h < p -> 0 <= a < p -> Z.even a = true -> (h + h) mod p = a -> h = a / 2.
Proof.
  intros H A E M. pose proof (Z.div_mod a 2 ltac:(lia)) as D. rewrite Zmod_even, E in D.
  destruct (Z_lt_dec (h + h) p) as [I|I].
  - rewrite Z.mod_small in M by lia. lia.
  - assert (M' : (h + h) mod p = h + h - p) by (symmetry; apply Z.mod_unique with 1; lia).
    rewrite M' in M. exfalso. assert (O : Z.odd p = true) by reflexivity.
    assert (X : Z.odd (h + h - p) = true). { rewrite Z.odd_sub, O. replace (h + h) with (2 * h) by lia. rewrite Z.odd_mul. reflexivity. }
    rewrite M, <- Z.negb_even, E in X. discriminate X.
Qed.

Lemma same_y u x y : on_curve (u, y) -> on_curve (x, y) -> (u * u = x * x)%F.
Proof. intros Hu Hx. apply curve_xx in Hu. apply curve_xx in Hx. rewrite Hu, Hx. reflexivity. Qed.

(** ** C92 *)
(** The field example for arbitrary literals: it runs to its end exactly if both assertions
    hold and the number whose root is taken is a square. *)
Lemma C92_field_stmt : forall ck bytes x z d k s draw,
  is_bytes 32 bytes -> le_value bytes < p -> 0 <= x < 2 ^ 128 -> 0 <= z < 2 ^ 64 -> floadable d -> 0 <= k -> is_bytes 32 draw ->
  let a := le_value bytes in
  let good := k <= 252 /\ fval d = 2 ^ k /\ square_mod_p a /\ z <> 0 /\ (fval EDWARDS_D * z + x) mod p = 0 in
  (good -> exists l c root inv, field_example ck bytes x z d k s draw = Ok (l, c) /\ Forall fcanon l /\
     map fval l = [le_value draw mod 2 ^ 251; (a + x) mod p; (a - x) mod p; (a * x) mod p; (a * a) mod p; (- a) mod p;
                   a ^ x mod p; root; if Z.even a then a / 2 else a; inv] /\
     (root * root) mod p = a /\ (z * inv) mod p = 1 /\ is_bytes 32 c /\ le_value c = z) /\
  (~ good -> field_example ck bytes x z d k s draw = Panic).
Proof.
  intros ck bytes x z d k s draw B Ba Hx Hz Hd Hk Hr a good.
  destruct (C11_from_bytes_stmt bytes B) as [La Va]. fold a in Va, Ba.
  assert (Ca : fcanon (fe_from_bytes bytes)) by (split; [apply La|rewrite Va; exact Ba]).
  destruct C14_from_int_stmt as (_ & _ & _ & U64 & U128).
  destruct (U64 z Hz) as [Cc Vc]. destruct (U128 x Hx) as [Cb Vb]. clear U64 U128.
  assert (Pa : 0 <= a < p) by (split; [apply le_value_bound in B; unfold a; lia|exact Ba]).
  unfold field_example. set (A := fe_from_bytes bytes) in *. set (X := fe_from_u128 x) in *. set (C := fe_from_u64 z) in *.
  clearbody A X C.
  destruct (C16_random_stmt draw Hr) as (rand & -> & Crand & Vrand). rewrite bind_ok.
  destruct (C14_two_pow_k_stmt ck k Hk) as [T1 T2].
  destruct (Z_le_dec k 252) as [Lk|Lk].
  2: { rewrite T2 by lia. split; [intros (G & _); contradiction|reflexivity]. }
  destruct (T1 Lk) as (t & -> & Ct & Vt). rewrite bind_ok. clear T1 T2. unfold assert_that.
  destruct (fe_eqb d t) eqn:Ed.
  2: { split; [|reflexivity]. intros (_ & G & _). exfalso. rewrite <- Vt in G.
       apply C13_eq_stmt in G; [|exact Hd|apply fcanon_loadable; exact Ct]. rewrite Ed in G. discriminate G. }
  apply C13_eq_stmt in Ed; [|exact Hd|apply fcanon_loadable; exact Ct]. rewrite Vt in Ed.
  destruct (C01_add_stmt ck A X Ca Cb) as (r1 & -> & C1 & V1). rewrite bind_ok.
  destruct (C01_sub_stmt ck A X Ca Cb) as (r2 & -> & C2 & V2). rewrite bind_ok.
  pose proof (fcanon_loadable _ Ca) as LA. pose proof (fcanon_loadable _ Cb) as LX.
  destruct (C02_mul_stmt ck A X LA LX) as (r3 & -> & C3 & V3). rewrite bind_ok.
  destruct (C02_square_stmt ck A LA) as (r4 & -> & C4 & V4). rewrite bind_ok.
  destruct (C01_neg_stmt ck A Ca) as (r5 & -> & C5 & V5). rewrite bind_ok.
  destruct (C06_pow_stmt ck A X LA (proj1 Cb)) as (r6 & -> & C6 & V6). rewrite bind_ok.
  destruct (C08_mod_sqrt_stmt ck A s Ca) as [S1 S2]. rewrite Va in S1, S2.
  assert (Dec : square_mod_p a \/ ~ square_mod_p a).
  { rewrite <- is_sq_Z. destruct (is_sq_dec (toF a)); [left|right]; assumption. }
  destruct Dec as [Sq|Sq].
  2: { rewrite (S2 Sq), bind_ok. cbn [unwrap_option bind]. split; [|reflexivity]. intros (_ & _ & G & _). elim (Sq G). }
  destruct (S1 Sq) as (r7 & -> & C7 & V7). rewrite bind_ok. cbn [unwrap_option]. rewrite bind_ok. clear S1 S2.
  destruct (C01_neg_stmt ck X Cb) as (nb & -> & Cnb & Vnb). rewrite bind_ok.
  destruct (Z.eq_dec z 0) as [Z0|Z0].
  { assert (EC : C = fe_zero).
    { apply fval_inj; [apply Cc|apply fcanon_zero|]. rewrite Vc, Z0. reflexivity. }
    rewrite EC. rewrite (proj2 (C04_div_zero_stmt ck nb)). cbn [bind]. split; [intros (_ & _ & _ & G & _); elim (G Z0)|reflexivity]. }
  destruct (C04_div_stmt ck nb C Cnb Cc) as (q & _ & -> & Cq & Vq); [rewrite Vc; exact Z0|]. rewrite bind_ok.
  assert (CD : fcanon EDWARDS_D) by (apply canon_check; reflexivity).
  assert (IFF : fe_eqb q EDWARDS_D = true <-> (fval EDWARDS_D * z + x) mod p = 0).
  { rewrite C13_eq_stmt by (apply fcanon_loadable; assumption). rewrite Vnb, Vb, Vc in Vq.
    pose proof p_pos as Pp. split.
    - intros <-. rewrite Zplus_mod, Vq, <- Zplus_mod. replace (- x + x) with 0 by lia. reflexivity.
    - intros G. assert (G' : (fval EDWARDS_D * z) mod p = (- x) mod p).
      { replace (fval EDWARDS_D * z) with ((fval EDWARDS_D * z + x) + - x) by lia. rewrite Zplus_mod, G, Z.add_0_l, Zmod_mod. reflexivity. }
      assert (Eq : toF (fval q) = toF (fval EDWARDS_D)).
      { apply (F_mul_cancel_l (toF z)).
        - intros H. change 0%F with (toF 0) in H. apply toF_eq in H. rewrite Z.mod_small in H; [change (0 mod p) with 0 in H; exact (Z0 H)|].
          split; [lia|]. apply Z.lt_trans with (2 ^ 64); [lia|reflexivity].
        - rewrite <- !toF_mul. apply toF_eq. rewrite !(Z.mul_comm z). rewrite Vq, G'. reflexivity. }
      apply toF_eq in Eq. rewrite !canon_small in Eq by assumption. exact Eq. }
  destruct (fe_eqb q EDWARDS_D) eqn:Eq.
  2: { split; [|reflexivity]. intros (_ & _ & _ & _ & G). apply IFF in G. discriminate G. }
  assert (EH : exists h, (if fe_is_even A then fe_half ck A else Ok A) = Ok h /\ fcanon h /\ fval h = if Z.even a then a / 2 else a).
  { rewrite fe_is_even_ok, Va. destruct (Z.even a) eqn:Ev.
    - destruct (C05_half_stmt ck A LA) as (h & E & Ch & Vh). exists h. split; [exact E|]. split; [exact Ch|].
      rewrite Va, (Z.mod_small a p Pa) in Vh. apply half_even; try assumption.
      split; [apply fval_nonneg, Ch|apply Ch].
    - exists A. split; [reflexivity|]. split; [exact Ca|exact Va]. }
  destruct EH as (h & -> & Ch & Vh). rewrite bind_ok.
  destruct (C03_inverse_stmt ck C (fcanon_loadable _ Cc)) as (inv & -> & Ci & Vi).
  { rewrite canon_small by exact Cc. rewrite Vc. exact Z0. }
  rewrite bind_ok. rewrite Vc in Vi. split.
  - intros _. exists [rand; r1; r2; r3; r4; r5; r6; r7; h; inv], (fe_to_bytes C), (fval r7), (fval inv).
    split; [reflexivity|]. split; [repeat (apply Forall_cons; [assumption|]); apply Forall_nil|].
    cbn [map]. rewrite Vrand, V1, V2, V3, V4, V5, V6, Vh, Va, Vb. split; [reflexivity|].
    split; [exact V7|]. split; [exact Vi|]. destruct (C11_to_bytes_stmt C (fcanon_loadable _ Cc)) as [G1 G2].
    split; [exact G1|]. rewrite G2. exact Vc.
  - intros G. elim G. split; [exact Lk|]. split; [exact Ed|]. split; [exact Sq|]. split; [exact Z0|]. apply IFF. reflexivity.
Qed.
(** The literals of the documentation satisfy the condition, whatever the generator returns. *)
Lemma C92_field_doc_stmt : forall ck draw, is_bytes 32 draw ->
  exists l c inv, field_example_doc ck draw = Ok (l, c) /\ Forall fcanon l /\
    map fval l = [le_value draw mod 2 ^ 251; 126296; p - 126296; 0; 0; 0; 0; 0; 0; inv] /\
    (126297 * inv) mod p = 1 /\ is_bytes 32 c /\ le_value c = 126297.
Proof.
  intros ck draw Hr. unfold field_example_doc.
  assert (B0 : is_bytes 32 (repeat 0 32)). { split; [reflexivity|]. repeat (constructor; [lia|]). constructor. }
  destruct (C92_field_stmt ck (repeat 0 32) 126296 126297 (FE 0 1 0 0 0) 52 true draw B0) as [H _];
    [reflexivity|split; reflexivity || discriminate|split; reflexivity || discriminate|vm_compute; intuition discriminate|discriminate|exact Hr|].
  change (le_value (repeat 0 32)) with 0 in H.
  destruct H as (l & c & root & inv & E & Cl & M & R & I & Bc & Vc).
  - split; [discriminate|]. split; [reflexivity|]. split; [exists 0; reflexivity|]. split; [discriminate|]. vm_compute. reflexivity.
  - exists l, c, inv. split; [exact E|]. split; [exact Cl|]. split; [|split; [exact I|split; [exact Bc|exact Vc]]].
    rewrite M. assert (R0 : root = 0).
    { assert (Hr0 : In root (map fval l)) by (rewrite M; do 7 right; left; reflexivity).
      apply in_map_iff in Hr0. destruct Hr0 as (r & <- & Ir). rewrite Forall_forall in Cl. pose proof (Cl r Ir) as Cr.
      apply (canon_fF_zero r Cr). apply F_sq_zero. unfold fF. rewrite <- toF_mul. change 0%F with (toF 0). apply toF_eq. exact R. }
    rewrite R0. reflexivity.
Qed.
(** The scalar example: it needs a reduced encoding, and, if that encoding is even, a number
    [z] that is twice [x] modulo the group order. *)
Lemma C92_scalar_stmt : forall ck bytes x z d k,
  is_bytes 32 bytes -> 0 <= x < 2 ^ 128 -> 0 <= z < 2 ^ 64 -> sloadable d -> 0 <= k ->
  let a := le_value bytes in
  let good := a < L /\ k < 250 /\ sval d = 2 ^ k /\ (Z.even a = true -> (x + x) mod L = z) in
  (good -> exists l c, scalar_example ck bytes x z d k = Ok (l, c) /\ Forall scanon l /\
     map sval l = [(a + x) mod L; (a - x) mod L; (z * 2 ^ k) mod L; (a * a) mod L; (- a) mod L; if Z.even a then x else z] /\
     is_bytes 32 c /\ le_value c = 2 ^ k) /\
  (~ good -> scalar_example ck bytes x z d k = Panic).
Proof.
  intros ck bytes x z d k B Hx Hz Hd Hk a good. unfold scalar_example, assert_that.
  destruct (C21_from_bytes_stmt bytes B) as [F1 F2]. fold a in F1, F2.
  destruct (Z_lt_dec a L) as [La|La].
  2: { rewrite F2 by lia. split; [intros (G & _); contradiction|reflexivity]. }
  destruct (F1 La) as (A & -> & Ca & Va & _). rewrite bind_ok. clear F1 F2.
  destruct C27_from_int_stmt as (_ & _ & _ & U64 & U128).
  destruct (U64 z Hz) as [Cc Vc]. destruct (U128 x Hx) as [Cb Vb]. clear U64 U128.
  set (X := sc_from_u128 x) in *. set (C := sc_from_u64 z) in *. clearbody X C.
  destruct (C27_two_pow_k_stmt ck k Hk) as [T1 T2].
  destruct (Z_lt_dec k 250) as [Lk|Lk].
  2: { rewrite T2 by lia. split; [intros (_ & G & _); contradiction|reflexivity]. }
  destruct (T1 Lk) as (t & -> & Ct & Vt). rewrite bind_ok. clear T1 T2.
  destruct (sc_eqb d t) eqn:Ed.
  2: { split; [|reflexivity]. intros (_ & _ & G & _). exfalso. rewrite <- Vt in G.
       apply C27_eq_stmt in G; [|exact Hd|apply scanon_loadable; exact Ct]. rewrite Ed in G. discriminate G. }
  apply C27_eq_stmt in Ed; [|exact Hd|apply scanon_loadable; exact Ct]. rewrite Vt in Ed.
  assert (Cd : scanon d) by (split; [apply Hd|rewrite Ed; apply pow2_lt_L; lia]).
  destruct (C17_add_stmt ck A X Ca Cb) as (r1 & -> & C1 & V1). rewrite bind_ok.
  destruct (C17_sub_stmt ck A X Ca Cb) as (r2 & -> & C2 & V2). rewrite bind_ok.
  destruct (C18_mul_stmt ck C d (proj1 Cc) Cd) as (r3 & -> & C3 & V3). rewrite bind_ok.
  destruct (C18_square_stmt ck A Ca) as (r4 & -> & C4 & V4). rewrite bind_ok.
  destruct (C17_neg_stmt ck A Ca) as (r5 & -> & C5 & V5). rewrite bind_ok.
  rewrite C27_is_even_stmt, Va by apply Ca.
  assert (Zs : z mod L = z). { apply Z.mod_small. split; [lia|]. apply Z.lt_trans with (2 ^ 64); [lia|reflexivity]. }
  assert (Bx : 0 <= x < L). { split; [lia|]. apply Z.lt_trans with (2 ^ 128); [lia|reflexivity]. }
  destruct (C21_to_bytes_stmt d Cd) as (G1 & G2 & _).
  destruct (Z.even a) eqn:Ev.
  - destruct (C19_half_stmt ck C (proj1 Cc)) as (h & -> & Ch & Vh). rewrite !bind_ok. rewrite Vc, Zs in Vh.
    assert (IFF : sc_eqb h X = true <-> (x + x) mod L = z).
    { rewrite C27_eq_stmt by (apply scanon_loadable; assumption). rewrite Vb. split; [intros <-; exact Vh|].
      intros G. rewrite <- Vh in G.
      assert (D : (L | 2 * (sval h - x))).
      { apply Z.mod_divide; [discriminate|]. replace (2 * (sval h - x)) with ((sval h + sval h) - (x + x)) by lia.
        rewrite Zminus_mod, G, Z.sub_diag. reflexivity. }
      assert (D8 : (L | 8 * (sval h - x))) by (clear - D; destruct D as [m D]; exists (4 * m); clear - D; set (LL := L) in *; clearbody LL; lia). apply L_8 in D8. clear D. rename D8 into D.
      pose proof (sval_nonneg h (proj1 Ch)) as N. destruct Ch as [_ Ch]. destruct D as [m D].
      clear - D N Ch Bx. set (LL := L) in *. clearbody LL. assert (m = 0) by nia. nia. }
    destruct (sc_eqb h X) eqn:Eh.
    + rewrite bind_ok. split.
      * intros _. exists [r1; r2; r3; r4; r5; h], (sc_to_bytes d). split; [reflexivity|]. split; [repeat (apply Forall_cons; [assumption|]); apply Forall_nil|].
        cbn [map]. rewrite V1, V2, V3, V4, V5, Va, Vb, Vc, Ed.
        assert (Eh' : sval h = x). { apply C27_eq_stmt in Eh; [rewrite Eh; exact Vb|apply scanon_loadable; exact Ch|apply scanon_loadable; exact Cb]. }
        rewrite Eh'. split; [reflexivity|]. split; [exact G1|]. rewrite G2. exact Ed.
      * intros G. elim G. split; [exact La|]. split; [exact Lk|]. split; [exact Ed|]. intros _. apply IFF. reflexivity.
    + cbn [bind]. split; [|reflexivity]. intros (_ & _ & _ & G). specialize (G eq_refl). apply IFF in G. discriminate G.
  - rewrite bind_ok. split.
    + intros _. exists [r1; r2; r3; r4; r5; C], (sc_to_bytes d). split; [reflexivity|]. split; [repeat (apply Forall_cons; [assumption|]); apply Forall_nil|].
      cbn [map]. rewrite V1, V2, V3, V4, V5, Va, Vb, Vc, Ed. split; [reflexivity|]. split; [exact G1|]. rewrite G2. exact Ed.
    + intros G. elim G. split; [exact La|]. split; [exact Lk|]. split; [exact Ed|]. intros X0. discriminate X0.
Qed.
(** The literals of the documentation. *)
Lemma C92_scalar_doc_stmt : forall ck, exists l c, scalar_example_doc ck = Ok (l, c) /\ Forall scanon l /\
  map sval l = [43325; L - 43325; 86650 * 2 ^ 52; 0; 0; 43325] /\ is_bytes 32 c /\ le_value c = 2 ^ 52.
Proof.
  intros ck. unfold scalar_example_doc.
  assert (B0 : is_bytes 32 (repeat 0 32)). { split; [reflexivity|]. repeat (constructor; [lia|]). constructor. }
  destruct (C92_scalar_stmt ck (repeat 0 32) 43325 86650 (SC 0 1 0 0 0) 52 B0) as [H _];
    [split; reflexivity || discriminate|split; reflexivity || discriminate|vm_compute; intuition discriminate|discriminate|].
  change (le_value (repeat 0 32)) with 0 in H.
  destruct H as (l & c & E & Cl & M & Bc & Vc).
  - split; [reflexivity|]. split; [reflexivity|]. split; [reflexivity|]. intros _. reflexivity.
  - exists l, c. split; [exact E|]. split; [exact Cl|]. split; [rewrite M; reflexivity|]. split; [exact Bc|exact Vc].
Qed.
(** The point example: it runs to its end exactly if there is a point with the given
    ordinate and its [n]-fold is its 8-fold.  The decompressed point is the neutral element. *)
Lemma C92_edwards_stmt : forall ck y s n, fcanon y -> 0 <= n < 2 ^ 8 ->
  (forall A, has_y (residue y) s A -> multiple n A = multiple 8 A ->
     exists l, edwards_example ck y s n = Ok (l, 1 :: repeat 0 31, 1 :: repeat 0 31) /\
       Forall2 ext_rep l [A; origin; A; A; sum A A; multiple n A; origin]) /\
  ((forall A, has_y (residue y) s A -> multiple n A <> multiple 8 A) -> edwards_example ck y s n = Panic).
Proof.
  intros ck y s n Cy Hn. unfold edwards_example, assert_that.
  destruct (C76_from_y_stmt ck y s Cy) as [Y1 Y2].
  assert (EI : ept_of_ppt ck ppt_identity = Ok ept_identity) by (destruct ck; vm_compute; reflexivity).
  destruct C27_from_int_stmt as (U8 & _). destruct (U8 n Hn) as [Cn Vn]. clear U8.
  set (N := sc_from_u8 n) in *. clearbody N.
  assert (CASE : forall A, has_y (residue y) s A ->
    exists P P1 P2 P3 P4 P8 e, ept_new_from_y_coord ck y s = Ok (Some P) /\ ept_add ck P ept_identity = Ok P1 /\
      ept_sub ck P ept_identity = Ok P2 /\ ept_double ck P = Ok P3 /\
      double_and_add (ept_add ck) (ept_double ck) ept_identity P N = Ok P4 /\ mul_by_cofactor (ept_mul ck) P = Ok P8 /\
      ept_eqb ck P4 P8 = Ok e /\ (e = true <-> multiple n A = multiple 8 A) /\
      Forall2 ext_rep [P; P1; P2; P3; P4] [A; A; A; sum A A; multiple n A]).
  { intros A HA. destruct (Y1 A HA) as [(P & EP & RP) _]. pose proof (proj2 C32_identity_stmt) as RO.
    destruct (C29_add_stmt ck P ept_identity A origin RP RO) as (P1 & E1 & R1).
    destruct (C31_sub_stmt ck P ept_identity A origin RP RO) as (P2 & E2 & R2).
    destruct (C29_double_stmt ck P A RP) as (P3 & E3 & R3).
    destruct (C36_double_and_add_stmt ck P A N RP (scanon_loadable _ Cn)) as (P4 & E4 & R4). rewrite Vn in R4.
    destruct (C40_cofactor_stmt ck P A RP) as (P8 & E8 & R8).
    destruct (C34_valid_eq_stmt ck P4 P8 _ _ R4 R8) as (e & Ee & He).
    exists P, P1, P2, P3, P4, P8, e. repeat (split; [assumption|]).
    assert (X1 : sum A origin = A /\ sum A (opposite origin) = A).
    { destruct HA as (OA & _ & _). rewrite <- (pxy_of A OA). split.
      - exact (f_equal pxy (padd_O_r (pt_of A OA))).
      - transitivity (pxy (padd (pt_of A OA) (popp pO))); [reflexivity|]. rewrite popp_O. exact (f_equal pxy (padd_O_r (pt_of A OA))). }
    destruct X1 as [X1 X2]. rewrite X1 in R1. rewrite X2 in R2. repeat (constructor; [assumption|]). constructor. }
  destruct (C70_edwards_encoding_stmt ck) as [EC (Q & EQ & RQ)].
  assert (ES : cey_from_slice cey_identity = Ok cey_identity) by (vm_compute; reflexivity).
  split.
  - intros A HA HM. destruct (CASE A HA) as (P & P1 & P2 & P3 & P4 & P8 & e & -> & H).
    rewrite bind_ok. cbn [unwrap_option]. rewrite bind_ok, EI, bind_ok.
    destruct H as (E1 & E2 & E3 & E4 & E5 & E6 & He & HF).
    rewrite E1, bind_ok, E2, bind_ok, E3, bind_ok, E4, bind_ok, E5, bind_ok, E6, bind_ok.
    assert (Et : e = true) by (apply He; exact HM). rewrite Et. rewrite EC, bind_ok, EQ, bind_ok. cbn [unwrap_option].
    rewrite bind_ok, ES, bind_ok. exists [P; ept_identity; P1; P2; P3; P4; Q]. split; [reflexivity|].
    inversion HF as [|? ? ? ? F0 HF1]; subst. constructor; [exact F0|]. constructor; [exact (proj2 C32_identity_stmt)|].
    inversion HF1 as [|? ? ? ? F1 HF2]; subst. constructor; [exact F1|].
    inversion HF2 as [|? ? ? ? F2 HF3]; subst. constructor; [exact F2|].
    inversion HF3 as [|? ? ? ? F3 HF4]; subst. constructor; [exact F3|].
    inversion HF4 as [|? ? ? ? F4 HF5]; subst. constructor; [exact F4|]. constructor; [exact RQ|constructor].
  - intros NO.
    assert (D : (exists A, has_y (residue y) s A) \/ forall A, ~ has_y (residue y) s A).
    { destruct (lift (residue y) s) as [A|] eqn:EL; [left; exists (pxy A); apply lift_has_y; exact EL|].
      right. intros A HA. destruct (has_y_pt _ _ _ HA) as (A' & _ & E). rewrite EL in E. discriminate E. }
    destruct D as [[A HA]|D].
    + destruct (CASE A HA) as (P & P1 & P2 & P3 & P4 & P8 & e & -> & H).
      rewrite bind_ok. cbn [unwrap_option]. rewrite bind_ok, EI, bind_ok.
      destruct H as (E1 & E2 & E3 & E4 & E5 & E6 & He & HF).
    rewrite E1, bind_ok, E2, bind_ok, E3, bind_ok, E4, bind_ok, E5, bind_ok, E6, bind_ok.
      destruct e; [|reflexivity]. elim (NO A HA). apply He. reflexivity.
    + rewrite (proj1 (Y2 D)), bind_ok. reflexivity.
Qed.
(** The ordinate of the documentation belongs to a point with abscissa 67 or -67. *)
Lemma C92_edwards_doc_stmt : exists x, (x * x = toF 67 * toF 67)%F /\
  let A := (x, toF 3295852391766231710775359255962084372654764936733420286493628916624458118402) in
  on_curve A /\ forall ck, exists l, edwards_example_doc ck = Ok (l, 1 :: repeat 0 31, 1 :: repeat 0 31) /\
    Forall2 ext_rep l [A; origin; A; A; sum A A; multiple 8 A; origin].
Proof.
  set (Y := 3295852391766231710775359255962084372654764936733420286493628916624458118402).
  set (y := FE 2369245568431362 2665603790611352 3317390952748653 1908583331312524 8011773354506).
  assert (Cy : fcanon y) by (apply canon_check; vm_compute; reflexivity).
  assert (Ry : residue y = toF Y) by (apply Feq; vm_compute; reflexivity).
  assert (OC : on_curve (toF 67, toF Y)) by (unfold on_curve; rewrite cd_FD; apply Feq; vm_compute; reflexivity).
  assert (EL : exists x, has_y (residue y) false (x, toF Y)).
  { destruct (lift (residue y) false) as [A|] eqn:EL.
    - apply lift_has_y in EL. exists (fst (pxy A)). pose proof EL as (_ & S & _). rewrite Ry in S. rewrite <- S, <- surjective_pairing. exact EL.
    - exfalso. destruct (C41_ext_stmt true y false Cy) as (o & Eo & Ho).
      destruct (C76_from_y_stmt true y false Cy) as [_ Y2].
      assert (N : forall A, ~ has_y (residue y) false A).
      { intros A HA. destruct (has_y_pt _ _ _ HA) as (A' & _ & E). rewrite EL in E. discriminate E. }
      rewrite (proj1 (Y2 N)) in Eo. apply (f_equal (fun r => match r with Ok o => o | _ => None end)) in Eo. subst o.
      apply (Ho (toF 67)). rewrite Ry. exact OC. }
  destruct EL as (x & HA). exists x.
  pose proof (proj1 HA) as OX.
  split; [exact (same_y _ _ _ OX OC)|].
  split; [exact OX|]. intros ck. destruct (C92_edwards_stmt ck y false 8 Cy) as [H _]; [split; [discriminate|reflexivity]|].
  apply (H _ HA). reflexivity.
Qed.
(** The number printed as the order of the scalars (scalar.rs 2 and 71, lib.rs 138) is not
    the order of the base point; the one printed for the field is the modulus. *)
Lemma C92_modulus_refuted_stmt : exists n, n = printed_scalar_modulus /\ 0 < n /\ multiple n base <> origin /\
  multiple (L - n) base <> origin /\ printed_field_modulus = p.
Proof.
  exists printed_scalar_modulus. split; [reflexivity|]. split; [reflexivity|].
  assert (X : forall m, 0 <= m -> m mod L <> 0 -> multiple m base <> origin).
  { intros m Hm N E. apply N. apply Z.mod_divide; [discriminate|]. apply order_B.
    apply pt_eq. rewrite <- multiple_B by exact Hm. exact E. }
  split; [apply X; vm_compute; discriminate|]. split; [apply X; vm_compute; discriminate|reflexivity].
Qed.
Lemma C92_ex : is_bytes 32 (9 :: repeat 0 31) /\ le_value (9 :: repeat 0 31) < p /\ square_mod_p (le_value (9 :: repeat 0 31)) /\
  (fval EDWARDS_D * (2 * 126297) + 2 * 126296) mod p = 0 /\ (fval EDWARDS_D * 7 + 5) mod p <> 0 /\
  Z.even (le_value (9 :: repeat 0 31)) = false /\
  fcanon (FE 6 0 0 0 0) /\ (forall s A, ~ has_y (residue (FE 6 0 0 0 0)) s A) /\
  fcanon fe_minus_one /\ has_y (residue fe_minus_one) false order2 /\
  multiple 12 order2 = multiple 8 order2 /\ multiple 7 order2 <> multiple 8 order2.
Proof.
  split. { split; [reflexivity|]. repeat (constructor; [lia|]). constructor. }
  split; [reflexivity|]. split; [exists 3; reflexivity|]. split; [vm_compute; reflexivity|]. split; [vm_compute; discriminate|].
  split; [reflexivity|]. split; [apply canon_check; reflexivity|].
  split. { intros s A (O & Y & _). rewrite (surjective_pairing A), Y in O. exact (proj2 (proj2 (proj2 C41_ex)) _ O). }
  split; [apply canon_check; reflexivity|].
  split. { split; [exact order2_on|]. split; [apply Feq; vm_compute; reflexivity|]. left. reflexivity. }
  assert (P2 : exists T, pxy T = order2 /\ padd T T = pO).
  { exists (pt_of order2 order2_on). split; [apply pxy_of|]. apply pt_eq. unfold padd, pO. rewrite !pxy_of. unfold sum, order2, origin.
    assert (D1 : (1 + cd * 0 * 0 * - (1) * - (1) = 1)%F) by ring.
    assert (D2 : (1 - cd * 0 * 0 * - (1) * - (1) = 1)%F) by ring.
    rewrite D1, D2, !fdiv_1. apply f_equal2; ring. }
  destruct P2 as (T & ET & E2). rewrite <- ET.
  assert (S2 : smul 2 T = pO). { change 2 with (1 + 1). rewrite smul_add, smul_1. exact E2. }
  rewrite !multiple_smul by discriminate. split.
  - change 12 with (6 * 2). change 8 with (4 * 2). rewrite !smul_mul, S2, !smul_O. reflexivity.
  - intros H. apply pt_eq in H. change 8 with (7 + 1) in H. rewrite smul_add, smul_1 in H.
    assert (Z7 : T = pO). { apply (padd_cancel_l (smul 7 T)). rewrite <- H, padd_O_r. reflexivity. }
    rewrite Z7 in ET. apply (f_equal snd) in ET. apply (f_equal Fval) in ET. vm_compute in ET. discriminate ET.
Qed.
