(** * Statements about the number of preimages of the Elligator map: C86 *)

From Coq Require Import ZArith List Bool Lia Ring Field.
From Verif Require Import Machine FieldModel ScalarModel EdwardsModel RistrettoModel Spec NumTheory Primes MachineFacts
  FieldOps FieldBytes Fp FieldF FieldInv Curve CurveGroup EdwardsF EdwardsY Rist RistF RistE RistSpec CodeSpec ApiSpec
  RistrettoStmt CodeStmt ApiStmt FieldStmt RandSpec RandStmt EllPre.
Import ListNotations.
Open Scope F_scope.

Lemma image_pt r0 A : elligator_image r0 A -> A = pxy (el_pt r0).
Proof. intros H. exact (C52_image_unique_stmt r0 _ _ H (el_image r0)). Qed.

Lemma on_curve_dec (A : xy) : {on_curve A} + {~ on_curve A}.
Proof. destruct A as [x y]. unfold on_curve. apply F_dec. Qed.

(** ** C86 *)
(** At most four field elements are mapped to the same curve point. *)
Lemma C86_point_stmt : forall A, exists l, (length l <= 4)%nat /\ forall r0, elligator_image r0 A -> In r0 l.
Proof.
  intros A. destruct (on_curve_dec A) as [C|N].
  - exists (preP (pt_of A C)). split; [apply preP_length|]. intros r0 H. apply image_pt in H.
    assert (E : pt_of A C = el_pt r0) by (apply pt_eq; rewrite pxy_of; exact H). rewrite E. apply preP_in.
  - exists []. split; [cbn; lia|]. intros r0 H. apply image_pt in H. elim N. rewrite H. apply pt_on.
Qed.
(** The function of the code: at most sixteen residues lead to the same Ristretto element. *)
Lemma C86_element_stmt : forall A, on_curve A -> exists l, (length l <= 16)%nat /\
  forall ck r P B, floadable r -> rp_elligator ck r = Ok P -> ext_rep P B -> coset4 A B -> In (residue r) l.
Proof.
  intros A C. exists (pre_coset (pt_of A C)). split; [apply pre_coset_length|]. intros ck r P B Fr E R K.
  destruct (rp_elligator_ok r Fr) as (z & N & G). rewrite G in E. apply Ok_inj in E. subst P.
  apply ext_rep_rext in R. destruct R as (B' & -> & R).
  rewrite <- (rext_det _ _ _ (rext_ext (el_pt (fF r)) z N) R) in K.
  rewrite <- (pxy_of A C) in K. apply coset4_iff in K. apply pre_coset_in. exact K.
Qed.
(** Consequently it reaches at least p/16 of the elements. *)
Lemma all_F : exists l : list F, NoDup l /\ Z.of_nat (length l) = p /\ forall x, In x l.
Proof.
  pose proof p_pos as Pp. exists (map (fun k => toF (Z.of_nat k)) (seq 0 (Z.to_nat p))). split; [|split].
  - assert (G : forall n s, (Z.of_nat (s + n) <= p)%Z -> NoDup (map (fun k => toF (Z.of_nat k)) (seq s n))).
    { induction n as [|n IH]; intros s H; [constructor|]. cbn [seq map]. constructor; [|apply IH; lia].
      intros K. apply in_map_iff in K. destruct K as (k & E & K). apply in_seq in K.
      apply (f_equal Fval) in E. rewrite !Fval_toF, !Z.mod_small in E by lia. lia. }
    apply G. lia.
  - rewrite map_length, seq_length. apply Z2Nat.id. lia.
  - intros x. apply in_map_iff. exists (Z.to_nat (Fval x)). pose proof (Frange x) as R. split.
    + rewrite Z2Nat.id by lia. apply toF_Fval.
    + apply in_seq. lia.
Qed.
Lemma C86_image_stmt : forall m : list xy, Forall on_curve m ->
  (forall ck r, fcanon r -> exists P A B, rp_elligator ck r = Ok P /\ ext_rep P B /\ In A m /\ coset4 A B) ->
  (p <= 16 * Z.of_nat (length m))%Z.
Proof.
  intros m Cm H. destruct all_F as (l & ND & Ll & All).
  assert (G : exists l', (length l' <= 16 * length m)%nat /\ forall A r0, In A m -> coset4 A (pxy (el_pt r0)) -> In r0 l').
  { clear H. induction Cm as [|A m C Cm (l' & Ln & IH)]; [exists []; split; [cbn; lia|intros A r0 []]|].
    exists (pre_coset (pt_of A C) ++ l'). split.
    - rewrite app_length. pose proof (pre_coset_length (pt_of A C)) as K. cbn [length]. lia.
    - intros B r0 [<-|I] K; apply in_or_app; [left|right; exact (IH B r0 I K)].
      rewrite <- (pxy_of A C) in K. apply coset4_iff in K. apply pre_coset_in. exact K. }
  destruct G as (l' & Ln & G). assert (I : incl l l').
  { intros x _. destruct (H true (enc x) (proj1 (enc_canon x))) as (P & A & B & E & R & IA & K).
    destruct (rp_elligator_ok (enc x) (enc_ld x)) as (z & N & Gz). rewrite Gz in E. apply Ok_inj in E. subst P.
    rewrite fF_enc in R. apply ext_rep_rext in R. destruct R as (B' & -> & R).
    rewrite <- (rext_det _ _ _ (rext_ext (el_pt x) z N) R) in K. exact (G A x IA K). }
  pose proof (NoDup_incl_length ND I) as K. lia.
Qed.

(** Sixteen is attained. *)
Definition mz (a b : Z) : Z := (a * b) mod p.
Lemma toF_mz a b : toF (mz a b) = toF a * toF b.
Proof. unfold mz. rewrite toF_mod. apply toF_mul. Qed.
Definition zeq (a b : Z) : bool := ((a - b) mod p =? 0)%Z.
Lemma zeq_ok a b : zeq a b = true -> toF a = toF b.
Proof.
  unfold zeq. intros H. apply Z.eqb_eq in H. apply F_sub_eq. rewrite <- toF_sub, <- toF_mod, H. reflexivity.
Qed.
Definition zd : Z := 951605751702391019481481818669129158712512026257330939079110344917983315091.
Definition zi : Z := 3034649101460298094273452163494570791663566989388331537498831373842135895065.
Definition zb : Z := 266849194278583345931512327247209552607719897838827497161577650834379896992.
Definition zc1 : Z := 3430554398665315421735351686611008379397091534530013582436937899967610250.
Definition zc2 : Z := 5330363519528814859588487574018124915052695215330715714261293310549520010559.
Lemma zd_ok : toF zd = cd. Proof. rewrite cd_FD. apply Feq. vm_compute. reflexivity. Qed.
Lemma zi_ok : toF zi = FI. Proof. apply Feq. vm_compute. reflexivity. Qed.
Lemma zb_ok : toF zb = FB. Proof. apply Feq. vm_compute. reflexivity. Qed.
Lemma zc1_ok : toF zc1 = 1 - cd * cd. Proof. rewrite cd_FD. apply Feq. vm_compute. reflexivity. Qed.
Lemma zc2_ok : toF zc2 = (cd - 1) * (cd - 1). Proof. rewrite cd_FD. apply Feq. vm_compute. reflexivity. Qed.
(** A check of the defining equations, on integers. *)
Definition el_chk (e : bool * (Z * Z * Z * Z * Z)) : bool :=
  let '(sq, (r0, s, g, x, y)) := e in
  let r := mz zi (mz r0 r0) in let N := mz (r + 1) zc1 in let D := mz (- (1) - mz zd r) (r + zd) in
  let q := mz s s in
  let T := mz ((r - 1) * (if sq then - (1) else r)) zc2 in
  (0 <? D)%Z && (0 <? N)%Z &&
  (if sq then (s <=? (p - 1) / 2)%Z && zeq (q * D) N
   else zeq (mz g g * D) (zi * N) && (p - s <=? (p - 1) / 2)%Z && zeq (q * D) (r * N)) &&
  zeq (y * (1 + q)) (1 - q) && zeq (x * mz (T - D) zb) ((s + s) * D) && ((0 <? s)%Z && (s <? p)%Z).
Lemma mz_nz a b : (0 <? mz a b)%Z = true -> toF a * toF b <> 0.
Proof.
  intros H K. rewrite <- toF_mul in K. apply (f_equal Fval) in K. rewrite Fval_toF in K. apply Z.ltb_lt in H.
  unfold mz in H. rewrite K in H. discriminate H.
Qed.
Lemma toF_1 : toF 1 = 1. Proof. apply Feq. reflexivity. Qed.
Lemma el_chk_ok e : el_chk e = true ->
  elligator_image (toF (let '(_, (zr, _, _, _, _)) := e in zr)) (let '(_, (_, _, _, zx, zy)) := e in (toF zx, toF zy)).
Proof.
  destruct e as [sq [[[[zr zs] zg] zx] zy]]. cbv beta iota zeta delta [el_chk].
  set (r := mz zi (mz zr zr)). assert (Er : toF r = FI * (toF zr * toF zr)) by (unfold r; rewrite !toF_mz, zi_ok; reflexivity).
  set (N := mz (r + 1) zc1). assert (EN : toF N = (toF r + 1) * (1 - cd * cd)).
  { unfold N. rewrite toF_mz, toF_add, zc1_ok, toF_1. reflexivity. }
  set (D := mz (- (1) - mz zd r) (r + zd)). assert (ED : toF D = (- (1) - cd * toF r) * (toF r + cd)).
  { unfold D. rewrite toF_mz, toF_sub, toF_mz, toF_add, toF_opp, toF_1, zd_ok. reflexivity. }
  set (q := mz zs zs). assert (Eq : toF q = toF zs * toF zs) by apply toF_mz.
  set (T := mz ((r - 1) * (if sq then - (1) else r)) zc2).
  set (c := if sq then - (1) else toF r).
  assert (ET : toF T = c * (toF r - 1) * ((cd - 1) * (cd - 1))).
  { unfold T, c. rewrite toF_mz, toF_mul, toF_sub, toF_1, zc2_ok. destruct sq; [rewrite toF_opp, toF_1|]; ring. }
  intros H. apply andb_true_iff in H. destruct H as [H H6]. apply andb_true_iff in H. destruct H as [H H5].
  apply andb_true_iff in H. destruct H as [H H4].
  apply andb_true_iff in H. destruct H as [H H3]. apply andb_true_iff in H. destruct H as [H1 H2].
  assert (ND : toF D <> 0) by (unfold D; rewrite toF_mz; apply mz_nz; exact H1).
  assert (NN : toF N <> 0) by (unfold N; rewrite toF_mz; apply mz_nz; exact H2).
  clear H1 H2. apply zeq_ok in H4, H5. rewrite toF_mul, toF_add, toF_sub, toF_1, Eq in H4.
  rewrite !toF_mul, toF_mz, toF_sub, toF_add, zb_ok, ET in H5.
  assert (Rs : (0 < zs < p)%Z) by (apply andb_true_iff in H6; rewrite !Z.ltb_lt in H6; exact H6). clear H6.
  assert (Vs : Fval (toF zs) = zs) by (rewrite Fval_toF; apply Z.mod_small; lia).
  exists FI, FB. split; [exact FI_sq|]. split; [apply Z.leb_le; vm_compute; reflexivity|].
  split; [transitivity (- cd - 1); [exact FB_sq|ring]|]. split; [apply Z.leb_le; vm_compute; reflexivity|].
  cbv zeta. rewrite <- Er, <- EN, <- ED. right.
  split; [exact ND|]. exists (toF zs), c. split; [|split; [exact H4|exact H5]]. clear H4 H5 ET T.
  unfold c. clearbody N D r q. clear c. destruct sq.
  - apply andb_true_iff in H3. destruct H3 as [P E]. apply zeq_ok in E. rewrite toF_mul, Eq in E. apply Z.leb_le in P.
    left. split; [|split; [reflexivity|split; [unfold nonneg; rewrite Vs; exact P|exact E]]].
    exists (toF zs). rewrite <- E. revert ND. generalize (toF D) (toF zs). clear. intros D s ND. field. exact ND.
  - apply andb_true_iff in H3. destruct H3 as [H3 E]. apply andb_true_iff in H3. destruct H3 as [K P].
    apply zeq_ok in E, K. rewrite !toF_mul, Eq in E. rewrite !toF_mul, toF_mz, zi_ok in K. apply Z.leb_le in P.
    right. split; [|split; [reflexivity|split; [|exact E]]].
    + intros S. apply FI_nonsq. revert NN ND K S. generalize (toF N) (toF D) (toF zg). clear. intros N D g NN ND K S.
      apply (is_sq_mul_cancel (N / D)).
      * intros Z. apply NN. transitivity (N / D * D); [field; exact ND|]. rewrite Z. ring.
      * exact S.
      * exists g. transitivity (g * g * D / D); [field; exact ND|]. rewrite K. field. exact ND.
    + unfold nonneg. rewrite Fval_opp; [rewrite Vs; exact P|]. intros Z. apply (f_equal Fval) in Z. rewrite Vs in Z.
      change (Fval 0) with 0%Z in Z. lia.
Qed.
Definition el_full : list (bool * (Z * Z * Z * Z * Z)) := [
   (true, (33, 2235370249462593400454744424292536285186419703169692538376181178395983306645, 2235370249462593400454744424292536285186419703169692538376181178395983306645, 5283178653605659722186885530932936703766139025130442107712291378202441579061, 247595027593990025320922634183370593004340504416837184993538858137297181900)%Z);
   (false, (2254172451551346301658160239417625459540709540352206462512951367627859558346, 5001635327869668813518442138750457955670696656210215067625769759889470944344, 3316034390015476357877233424559048734289165817408236588072956977197841937101, 5283178653605659722186885530932936703766139025130442107712291378202441579061, 247595027593990025320922634183370593004340504416837184993538858137297181900)%Z);
   (true, (3069106603259100070757671344522581547723691014997573506701706869974359603609, 881347263086095750419700754347681153480200941237383513405574145228801256336, 881347263086095750419700754347681153480200941237383513405574145228801256336, 1953826923726602491786301032110057537090977334249465498289659560083012671928, 6989410549738272188652263928859623647852775854963070421008412080148157069089)%Z);
   (false, (3128053948119771274628647126619301423167711063341938665212852474941687364168, 6355658314246166463553485808695313087376915418142524092596376793056652994653, 4575439676138721031940675549816077135816011751808781280799563825299113585939, 1953826923726602491786301032110057537090977334249465498289659560083012671928, 6989410549738272188652263928859623647852775854963070421008412080148157069089)%Z);
   (true, (3387156921528929528432758239096473009143554217108020814089619660529036512225, 165797077182858744055147335502560005676772559781671674310997491945018161978, 165797077182858744055147335502560005676772559781671674310997491945018161978, 6569713673835353864585550498760225367896697916457911759352350703506118368541, 81683391590943707630086017171998546916633421239206025612692106637153310007)%Z);
   (false, (615237439314996997194276186761142396922043154942557275347635555281075369759, 7071208500149403469918039227540434235180343799598235931690953446340436089011, 883461575520740188721572111635361315052044408736828702548651663624555894870, 6569713673835353864585550498760225367896697916457911759352350703506118368541, 81683391590943707630086017171998546916633421239206025612692106637153310007)%Z);
   (true, (655856425658612719814756519614349540439282722861906564972962144458597196644, 1185262963265032724446527743979871040884203706990918187362345524014167483929, 1185262963265032724446527743979871040884203706990918187362345524014167483929, 667291903496908349387636064282768872960418442921995846649600234779335882448, 7155322185741318506343100545870995693940482938140701580389258831648300940982)%Z);
   (false, (212030149464715816468466874703291920980998261921210637187681426268873112906, 6051742614067229489526658819063123199972912652388989418639605414271286767060, 7038863501290074242093382385410470027524060678441744494510543353127130183822, 667291903496908349387636064282768872960418442921995846649600234779335882448, 7155322185741318506343100545870995693940482938140701580389258831648300940982)%Z)].
Lemma el_full_ok : forallb el_chk el_full = true.
Proof. vm_compute. reflexivity. Qed.
Fixpoint nodupb (l : list Z) : bool :=
  match l with [] => true | x :: l' => negb (existsb (Z.eqb x) l') && nodupb l' end.
Lemma nodupb_ok l : nodupb l = true -> NoDup l.
Proof.
  induction l as [|x l IH]; [constructor|]. cbn [nodupb]. intros H. apply andb_true_iff in H. destruct H as [H1 H2].
  constructor; [|exact (IH H2)]. intros K. apply negb_true_iff in H1.
  assert (E : existsb (Z.eqb x) l = true) by (apply existsb_exists; exists x; split; [exact K|apply Z.eqb_refl]).
  rewrite E in H1. discriminate.
Qed.
Definition el_of (e : bool * (Z * Z * Z * Z * Z)) : Z := let '(_, (zr, _, _, _, _)) := e in zr.
Definition zx33 : Z := 5283178653605659722186885530932936703766139025130442107712291378202441579061.
Definition zy33 : Z := 247595027593990025320922634183370593004340504416837184993538858137297181900.
Definition el_x33 : F := toF zx33.
Definition el_y33 : F := toF zy33.
Definition el_same (e : bool * (Z * Z * Z * Z * Z)) : bool := let '(_, (_, _, _, zx, zy)) := e in
  zeq (zx33 * zy) (zy33 * zx) || zeq (zx33 * zx) (zy33 * zy).
Lemma el_33 : elligator_image (toF 33) (el_x33, el_y33).
Proof.
  pose proof el_full_ok as K. rewrite forallb_forall in K. exact (el_chk_ok _ (K _ (or_introl eq_refl))).
Qed.
Lemma el_full_coset e : In e el_full -> coset (el_pt (toF 33%Z)) (el_pt (toF (el_of e))).
Proof.
  intros I. assert (E0 : (el_x33, el_y33) = pxy (el_pt (toF 33%Z))).
  { apply image_pt. exact el_33. }
  assert (S : forallb el_same el_full = true) by (vm_compute; reflexivity).
  pose proof el_full_ok as K. rewrite forallb_forall in K, S. specialize (K e I). specialize (S e I).
  apply el_chk_ok, image_pt in K. destruct e as [sq [[[[zr zs] zg] zx] zy]]. cbn [el_of] in *. cbv beta iota delta [el_same] in S.
  rewrite pxy_c in E0, K. assert (X0 := f_equal fst E0). assert (Y0 := f_equal snd E0). assert (X1 := f_equal fst K).
  assert (Y1 := f_equal snd K). cbn [fst snd] in X0, Y0, X1, Y1. apply coset_test. rewrite <- X0, <- Y0, <- X1, <- Y1.
  unfold el_x33, el_y33. rewrite <- !toF_mul.
  apply orb_true_iff in S. destruct S as [S|S]; [left|right]; apply zeq_ok; exact S.
Qed.
Lemma C86_sixteen_stmt : exists A l, on_curve A /\ NoDup l /\ length l = 16%nat /\
  forall r0, In r0 l -> exists B, elligator_image r0 B /\ coset4 A B.
Proof.
  set (rs := map el_of el_full).
  exists (pxy (el_pt (toF 33%Z))), (map toF (rs ++ map (fun z => (p - z)%Z) rs)).
  split; [apply pt_on|]. split; [|split].
  - assert (F : forallb (fun z => (0 <=? z)%Z && (z <? p)%Z) (rs ++ map (fun z => (p - z)%Z) rs) = true) by (vm_compute; reflexivity).
    assert (N : NoDup (rs ++ map (fun z => (p - z)%Z) rs)) by (apply nodupb_ok; vm_compute; reflexivity).
    revert F N. generalize (rs ++ map (fun z => (p - z)%Z) rs). clear rs. intros l F N. rewrite forallb_forall in F.
    induction N as [|x l Hx N IH]; [constructor|]. cbn [map]. constructor.
    + intros K. apply in_map_iff in K. destruct K as (y & E & K). apply Hx.
      pose proof (F x (or_introl eq_refl)) as Fx. pose proof (F y (or_intror K)) as Fy. apply andb_true_iff in Fx, Fy.
      apply (f_equal Fval) in E. rewrite !Fval_toF, !Z.mod_small in E by lia. rewrite <- E. exact K.
    + apply IH. intros y Hy. apply F. right. exact Hy.
  - rewrite map_length, app_length, !map_length. reflexivity.
  - intros r0 I. apply in_map_iff in I. destruct I as (z & <- & I). exists (pxy (el_pt (toF z))). split; [apply el_image|].
    apply coset4_iff. apply in_app_iff in I. destruct I as [I|I].
    + apply in_map_iff in I. destruct I as (e & <- & I). apply el_full_coset. exact I.
    + apply in_map_iff in I. destruct I as (z' & <- & I). apply in_map_iff in I. destruct I as (e & <- & I).
      assert (E : toF (p - el_of e) = - toF (el_of e)).
      { rewrite toF_sub, toF_p. ring. }
      rewrite E, el_opp. apply el_full_coset. exact I.
Qed.

(** Uniform bytes: no Ristretto element is the result of more than 2^264 of the 2^512
    strings, about twice the share 2^512/L of a uniform choice. *)
Definition pre_bytes (r : F) : list (list Z) := map (fun k => dalek_le_bytes 32 (Fval r + p * Z.of_nat k)) (seq 0 16).
Lemma pre_bytes_in b : is_bytes 32 b -> In b (pre_bytes (toF (le_value b))).
Proof.
  intros B. pose proof (le_value_bound 32 b B) as R. change (256 ^ Z.of_nat 32)%Z with (2 ^ 256)%Z in R. pose proof p_pos as Pp.
  assert (Q : (2 ^ 256 <= p * 16)%Z) by (vm_compute; discriminate).
  pose proof (Z.div_mod (le_value b) p ltac:(lia)) as DM. pose proof (Z.div_pos (le_value b) p ltac:(lia) Pp) as D0.
  pose proof (Z.div_lt_upper_bound (le_value b) p 16 Pp ltac:(lia)) as D1.
  unfold pre_bytes. apply in_map_iff. exists (Z.to_nat (le_value b / p)). split; [|apply in_seq; lia].
  rewrite Fval_toF, Z2Nat.id by exact D0.
  assert (E : (le_value b mod p + p * (le_value b / p) = le_value b)%Z) by lia. rewrite E.
  destruct (dalek_le_bytes_ok 32 (le_value b)) as [B' V]; [exact R|]. apply bytes_value_inj; [exact B'|exact B|exact V].
Qed.
Lemma C86_uniform_stmt : forall A, on_curve A -> exists l, (Z.of_nat (length l) <= 2 ^ 264)%Z /\
  forall ck b P B, is_bytes 64 b -> rp_from_uniform_bytes ck b = Ok P -> ext_rep P B -> coset4 A B -> In b l.
Proof.
  intros A C. set (Q := pt_of A C).
  destruct (exactly_residue 0 0 (Z.to_nat (2 ^ 256)) ltac:(lia) ltac:(lia)) as (l1 & _ & Ln & H1).
  { rewrite Z2Nat.id; [reflexivity|lia]. }
  set (f := fun h : list Z => map (fun h' => h ++ h')
    (flat_map pre_bytes (pre_coset (padd Q (popp (el_pt (toF (le_value h)))))))).
  exists (flat_map f l1). split.
  - assert (Lf : forall h, (length (f h) <= 256)%nat).
    { intros h. unfold f. rewrite map_length. pose proof (pre_coset_length (padd Q (popp (el_pt (toF (le_value h)))))) as K.
      pose proof (flat_map_le pre_bytes 16 (pre_coset (padd Q (popp (el_pt (toF (le_value h))))))) as K'.
      assert (Lp : forall x, (length (pre_bytes x) <= 16)%nat).
      { intros x. unfold pre_bytes. rewrite map_length, seq_length. apply le_n. }
      specialize (K' Lp). clear - K K'. lia. }
    pose proof (flat_map_le f 256 l1 Lf) as K. rewrite Ln in K. apply Nat2Z.inj_le in K.
    rewrite Nat2Z.inj_mul, Z2Nat.id in K by lia. apply (Z.le_trans _ _ _ K). vm_compute. discriminate.
  - intros ck b P B Hb E R K. destruct (rp_from_uniform_bytes_ok b Hb) as (z & N & G). rewrite G in E. apply Ok_inj in E. subst P.
    set (h1 := firstn 32 b) in *. set (h2 := skipn 32 b) in *.
    apply ext_rep_rext in R. destruct R as (B' & -> & R).
    rewrite <- (rext_det _ _ _ (rext_ext (padd (el_pt (toF (le_value h1))) (el_pt (toF (le_value h2)))) z N) R) in K.
    rewrite <- (pxy_of A C) in K. apply coset4_iff in K. fold Q in K.
    destruct Hb as [Lb Fb].
    assert (B1 : is_bytes 32 h1).
    { split; [unfold h1; rewrite firstn_length, Lb; reflexivity|]. apply Forall_forall. intros x Hx.
      rewrite Forall_forall in Fb. apply Fb. rewrite <- (firstn_skipn 32 b). apply in_or_app. left. exact Hx. }
    assert (B2 : is_bytes 32 h2).
    { split; [unfold h2; rewrite skipn_length, Lb; reflexivity|]. apply Forall_forall. intros x Hx.
      rewrite Forall_forall in Fb. apply Fb. rewrite <- (firstn_skipn 32 b). apply in_or_app. right. exact Hx. }
    apply in_flat_map. exists h1. split; [apply H1; split; [exact B1|apply Z.mod_1_r]|].
    unfold f. apply in_map_iff. exists h2. split; [apply firstn_skipn|].
    apply in_flat_map. exists (toF (le_value h2)). split; [|apply pre_bytes_in; exact B2].
    apply pre_coset_in. pose proof (coset_padd _ _ _ _ K (coset_refl (popp (el_pt (toF (le_value h1)))))) as K'.
    rewrite (padd_comm (el_pt (toF (le_value h1)))), padd_assoc, padd_opp_r, padd_O_r in K'. exact K'.
Qed.
Lemma C86_random_stmt : forall A, on_curve A -> exists l, (Z.of_nat (length l) <= 2 ^ 264)%Z /\
  forall ck b P B, is_bytes 64 b -> rp_new_random_point ck b = Ok P -> ext_rep P B -> coset4 A B -> In b l.
Proof.
  intros A C. destruct (C86_uniform_stmt A C) as (l & Ln & H). exists l. split; [exact Ln|].
  intros ck b P B Hb E. rewrite (proj1 (C53_random_stmt ck b Hb)) in E. exact (H ck b P B Hb E).
Qed.
(** 2^264 in comparison with that share. *)
Lemma C86_share_stmt : (2 ^ 264 * L < 2 * 2 ^ 512 + 2 ^ 388)%Z.
Proof. vm_compute. reflexivity. Qed.
(** The hypotheses hold for the element of the residue 33. *)
Lemma C86_ex : (forall ck, exists P B, rp_elligator ck (FE 33 0 0 0 0) = Ok P /\ ext_rep P B /\
    on_curve (el_x33, el_y33) /\ coset4 (el_x33, el_y33) B) /\ floadable (FE 33 0 0 0 0) /\
  exists m, Forall on_curve m /\
    forall ck r, fcanon r -> exists P A B, rp_elligator ck r = Ok P /\ ext_rep P B /\ In A m /\ coset4 A B.
Proof.
  assert (E0 : (el_x33, el_y33) = pxy (el_pt (toF 33%Z))).
  { apply image_pt. exact el_33. }
  assert (Ld : floadable (FE 33 0 0 0 0)) by (apply fcanon_loadable, canon_check; vm_compute; reflexivity).
  assert (G : forall r, floadable r -> forall ck, exists P, rp_elligator ck r = Ok P /\ ext_rep P (pxy (el_pt (fF r)))).
  { intros r Fr ck. destruct (rp_elligator_ok r Fr) as (z & N & K). exists (ext (el_pt (fF r)) z). split; [apply K|].
    apply rext_rep, rext_ext. exact N. }
  split; [|split; [exact Ld|]].
  - intros ck. destruct (G _ Ld ck) as (P & E & R). exists P, (pxy (el_pt (fF (FE 33 0 0 0 0)))). split; [exact E|].
    split; [exact R|]. rewrite E0. split; [apply pt_on|]. apply coset4_iff. apply coset_refl.
  - destruct all_F as (l & _ & _ & All). exists (map (fun x => pxy (el_pt x)) l). split.
    + apply Forall_forall. intros A HA. apply in_map_iff in HA. destruct HA as (x & <- & _). apply pt_on.
    + intros ck r Fr. destruct (G r (fcanon_loadable r Fr) ck) as (P & E & R). exists P, (pxy (el_pt (fF r))), (pxy (el_pt (fF r))).
      split; [exact E|]. split; [exact R|]. split; [|apply coset4_iff, coset_refl]. apply in_map_iff. exists (fF r).
      split; [reflexivity|apply All].
Qed.
