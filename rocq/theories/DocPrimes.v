(** * Primes behind the security criteria, and the arithmetic on the order of the curve

    Pocklington certificates for the prime factors of the twist order, of the order of the
    multiplicative group modulo L and of the discriminant of the endomorphism ring. *)

From Coq Require Import ZArith List Lia Znumtheory.
From Verif Require Import Spec NumTheory Primes.
Import ListNotations.
Open Scope Z_scope.

Lemma pr101 : prime 101.
Proof. apply trial_prime. vm_compute. reflexivity. Qed.
Lemma pr16363 : prime 16363.
Proof.
  apply (pock_prime (fun x e => powm x e 16363) 16363 2 81 101 [2]).
  - intros x e He; exact (powm_ok x e _ He).
  - exact pr101.
  - apply Forall_cons; [exact pr2|]. apply Forall_nil.
  - vm_compute. reflexivity.
Qed.
Lemma pr281 : prime 281.
Proof. apply trial_prime. vm_compute. reflexivity. Qed.
Lemma pr99436412879 : prime 99436412879.
Proof.
  apply (pock_prime (fun x e => powm x e 99436412879) 99436412879 2 21626 16363 [281]).
  - intros x e He; exact (powm_ok x e _ He).
  - exact pr16363.
  - apply Forall_cons; [exact pr281|]. apply Forall_nil.
  - vm_compute. reflexivity.
Qed.
Lemma pr198872825759 : prime 198872825759.
Proof.
  apply (pock_prime (fun x e => powm x e 198872825759) 198872825759 2 2 99436412879 []).
  - intros x e He; exact (powm_ok x e _ He).
  - exact pr99436412879.
  - apply Forall_nil.
  - vm_compute. reflexivity.
Qed.
Lemma pr144390024159715879 : prime 144390024159715879.
Proof.
  apply (pock_prime (fun x e => powm x e 144390024159715879) 144390024159715879 2 726042 198872825759 []).
  - intros x e He; exact (powm_ok x e _ He).
  - exact pr198872825759.
  - apply Forall_nil.
  - vm_compute. reflexivity.
Qed.
Lemma pr741298384035981322787 : prime 741298384035981322787.
Proof.
  apply (pock_prime (fun x e => powm x e 741298384035981322787) 741298384035981322787 2 5134 144390024159715879 []).
  - intros x e He; exact (powm_ok x e _ He).
  - exact pr144390024159715879.
  - apply Forall_nil.
  - vm_compute. reflexivity.
Qed.
Lemma pr7365150704979913443124612950202067 : prime 7365150704979913443124612950202067.
Proof.
  apply (pock_prime (powr (quo_red 115 234270370805989723734526283810155600 7365150704979913443124612950202067) 7365150704979913443124612950202067) 7365150704979913443124612950202067 2 9935473843718 741298384035981322787 []).
  - intros x e He. apply powr_ok; [intros y; now apply quo_red_ok|assumption].
  - exact pr741298384035981322787.
  - apply Forall_nil.
  - vm_compute. reflexivity.
Qed.
Lemma pr7777599144458788595939591275413382753 : prime 7777599144458788595939591275413382753.
Proof.
  apply (pock_prime (powr (quo_red 125 232623379108202159616150220239126628145 7777599144458788595939591275413382753) 7777599144458788595939591275413382753) 7777599144458788595939591275413382753 2 1056 7365150704979913443124612950202067 []).
  - intros x e He. apply powr_ok; [intros y; now apply quo_red_ok|assumption].
  - exact pr7365150704979913443124612950202067.
  - apply Forall_nil.
  - vm_compute. reflexivity.
Qed.
Lemma pr47 : prime 47.
Proof. apply trial_prime. vm_compute. reflexivity. Qed.
Lemma pr1809251394333065553493296640760748560192233568137954612408278327457774000433 : prime 1809251394333065553493296640760748560192233568137954612408278327457774000433.
Proof.
  apply (pock_prime (powr (quo_red 252 28948022309329048855892746252171976963559255242613008221196338764632180813042 1809251394333065553493296640760748560192233568137954612408278327457774000433) 1809251394333065553493296640760748560192233568137954612408278327457774000433) 1809251394333065553493296640760748560192233568137954612408278327457774000433 2 4949433598046854459918089792321843152 7777599144458788595939591275413382753 [47]).
  - intros x e He. apply powr_ok; [intros y; now apply quo_red_ok|assumption].
  - exact pr7777599144458788595939591275413382753.
  - apply Forall_cons; [exact pr47|]. apply Forall_nil.
  - vm_compute. reflexivity.
Qed.
Lemma pr6563 : prime 6563.
Proof. apply trial_prime. vm_compute. reflexivity. Qed.
Lemma pr155385589 : prime 155385589.
Proof.
  apply (pock_prime (fun x e => powm x e 155385589) 155385589 2 11838 6563 [2]).
  - intros x e He; exact (powm_ok x e _ He).
  - exact pr6563.
  - apply Forall_cons; [exact pr2|]. apply Forall_nil.
  - vm_compute. reflexivity.
Qed.
Lemma pr557 : prime 557.
Proof. apply trial_prime. vm_compute. reflexivity. Qed.
Lemma pr379 : prime 379.
Proof. apply trial_prime. vm_compute. reflexivity. Qed.
Lemma pr131893 : prime 131893.
Proof.
  apply (pock_prime (fun x e => powm x e 131893) 131893 2 348 379 []).
  - intros x e He; exact (powm_ok x e _ He).
  - exact pr379.
  - apply Forall_nil.
  - vm_compute. reflexivity.
Qed.
Lemma pr15846943951 : prime 15846943951.
Proof.
  apply (pock_prime (fun x e => powm x e 15846943951) 15846943951 2 120150 131893 []).
  - intros x e He; exact (powm_ok x e _ He).
  - exact pr131893.
  - apply Forall_nil.
  - vm_compute. reflexivity.
Qed.
Lemma pr1284268031676943 : prime 1284268031676943.
Proof.
  apply (pock_prime (fun x e => powm x e 1284268031676943) 1284268031676943 2 81042 15846943951 []).
  - intros x e He; exact (powm_ok x e _ He).
  - exact pr15846943951.
  - apply Forall_nil.
  - vm_compute. reflexivity.
Qed.
Lemma pr239 : prime 239.
Proof. apply trial_prime. vm_compute. reflexivity. Qed.
Lemma pr90821 : prime 90821.
Proof.
  apply (pock_prime (fun x e => powm x e 90821) 90821 2 190 239 [2]).
  - intros x e He; exact (powm_ok x e _ He).
  - exact pr239.
  - apply Forall_cons; [exact pr2|]. apply Forall_nil.
  - vm_compute. reflexivity.
Qed.
Lemma pr9314420119 : prime 9314420119.
Proof.
  apply (pock_prime (fun x e => powm x e 9314420119) 9314420119 3 51279 90821 [2]).
  - intros x e He; exact (powm_ok x e _ He).
  - exact pr90821.
  - apply Forall_cons; [exact pr2|]. apply Forall_nil.
  - vm_compute. reflexivity.
Qed.
Lemma pr5 : prime 5.
Proof. apply trial_prime. vm_compute. reflexivity. Qed.
Lemma pr983030834487880084651 : prime 983030834487880084651.
Proof.
  apply (pock_prime (fun x e => powm x e 983030834487880084651) 983030834487880084651 2 21107719470 9314420119 [5]).
  - intros x e He; exact (powm_ok x e _ He).
  - exact pr9314420119.
  - apply Forall_cons; [exact pr5|]. apply Forall_nil.
  - vm_compute. reflexivity.
Qed.
Lemma pr373 : prime 373.
Proof. apply trial_prime. vm_compute. reflexivity. Qed.
Lemma pr149 : prime 149.
Proof. apply trial_prime. vm_compute. reflexivity. Qed.
Lemma pr8003089 : prime 8003089.
Proof.
  apply (pock_prime (fun x e => powm x e 8003089) 8003089 2 144 373 [149]).
  - intros x e He; exact (powm_ok x e _ He).
  - exact pr373.
  - apply Forall_cons; [exact pr149|]. apply Forall_nil.
  - vm_compute. reflexivity.
Qed.
Lemma pr6043 : prime 6043.
Proof. apply trial_prime. vm_compute. reflexivity. Qed.
Lemma pr1810634771647000234619 : prime 1810634771647000234619.
Proof.
  apply (pock_prime (fun x e => powm x e 1810634771647000234619) 1810634771647000234619 2 37438687534 8003089 [6043]).
  - intros x e He; exact (powm_ok x e _ He).
  - exact pr8003089.
  - apply Forall_cons; [exact pr6043|]. apply Forall_nil.
  - vm_compute. reflexivity.
Qed.
Lemma pr1881753370316552587875387939158653037 : prime 1881753370316552587875387939158653037.
Proof.
  apply (pock_prime (powr (quo_red 123 60091940808797030463057816908222904187 1881753370316552587875387939158653037) 1881753370316552587875387939158653037) 1881753370316552587875387939158653037 2 1039278268474244 1810634771647000234619 []).
  - intros x e He. apply powr_ok; [intros y; now apply quo_red_ok|assumption].
  - exact pr1810634771647000234619.
  - apply Forall_nil.
  - vm_compute. reflexivity.
Qed.

(** ** The multiplicative order of p modulo L *)
Lemma exact_order n b e fs : 1 < n -> 0 < e -> Forall prime fs -> zprod fs = e -> (b ^ e) mod n = 1 ->
  Forall (fun f => (b ^ (e / f)) mod n <> 1) fs -> forall k, 0 < k -> ((b ^ k) mod n = 1 <-> (e | k)).
Proof.
  intros Hn He Pf Ef E1 E2 k Hk. split.
  - intros Ek. pose proof (pow_one_gcd n b k e Hn ltac:(lia) ltac:(lia) Ek E1) as G.
    pose proof (Z.gcd_divide_l k e) as D1. pose proof (Z.gcd_divide_r k e) as D2. pose proof (Z.gcd_nonneg k e) as N.
    remember (Z.gcd k e) as g eqn:Eg. clear Eg. destruct D2 as [m Em].
    assert (Hg : 0 < g) by (clear - N Em He; destruct (Z.eq_dec g 0) as [G0|]; [rewrite G0 in Em|]; lia). assert (Hm : 0 < m) by (clear - Hg Em He; rewrite Em in He; apply (proj1 (Z.mul_pos_cancel_r m g Hg)); exact He).
    destruct (Z.eq_dec m 1) as [->|M]; [rewrite Em, Z.mul_1_l; exact D1|]. exfalso.
    destruct (prime_divisor m ltac:(lia)) as (f & Hf & [c Ec]).
    assert (I : In f fs).
    { apply prime_div_zprod; [exact Hf|exact Pf|]. rewrite Ef. exists (c * g). rewrite Em, Ec. ring. }
    pose proof (proj1 (Forall_forall _ _) E2 f I) as Q. apply Q.
    assert (F2 : 2 <= f) by (destruct Hf; lia).
    assert (X : e / f = g * c). { rewrite Em, Ec. replace (c * f * g) with (g * c * f) by ring. apply Z.div_mul. lia. }
    rewrite X. assert (0 < c) by (clear - Hm Ec F2; nia). apply pow_one_mul; [exact Hn|lia|lia|exact G].
  - intros [c ->]. rewrite Z.mul_comm. apply pow_one_mul; [exact Hn|lia|clear - He Hk; nia|exact E1].
Qed.
Definition big_factor : Z := 194060402252303413788402286645422500134630096612112378773286921059.
Definition y_L : Z := 133011825290216493788010150087793817007568489565199021360355706963087126404.
Lemma y_L_ok : (p ^ big_factor) mod L = y_L.
Proof. rewrite <- pwL_ok by (vm_compute; discriminate). vm_compute. reflexivity. Qed.
Lemma p_mul_big k : 0 <= k -> (p ^ (big_factor * k)) mod L = pwL y_L k.
Proof.
  intros Hk. rewrite pwL_ok by exact Hk. rewrite <- pow_mod_pow by (exact Hk || (vm_compute; discriminate)). rewrite y_L_ok. reflexivity.
Qed.
Lemma order_p_mod_L k : 0 < k -> ((p ^ k) mod L = 1 <-> ((L - 1) / 15 | k)).
Proof.
  assert (E : (L - 1) / 15 = big_factor * 310771178) by (vm_compute; reflexivity).
  rewrite E. apply (exact_order L p (big_factor * 310771178) [2; 155385589; big_factor]).
  - reflexivity.
  - reflexivity.
  - repeat apply Forall_cons; [exact pr2|exact pr155385589|exact pr194060402252303413788402286645422500134630096612112378773286921059|apply Forall_nil].
  - vm_compute. reflexivity.
  - rewrite p_mul_big by discriminate. vm_compute. reflexivity.
  - repeat apply Forall_cons; try apply Forall_nil.
    + assert (D : big_factor * 310771178 / 2 = big_factor * 155385589) by (vm_compute; reflexivity).
      rewrite D, p_mul_big by discriminate. vm_compute. discriminate.
    + assert (D : big_factor * 310771178 / 155385589 = big_factor * 2) by (vm_compute; reflexivity).
      rewrite D, p_mul_big by discriminate. vm_compute. discriminate.
    + assert (D : big_factor * 310771178 / big_factor = 310771178) by (vm_compute; reflexivity).
      rewrite D, <- pwL_ok by discriminate. vm_compute. discriminate.
Qed.

(** ** Squares dividing the discriminant *)
Lemma strip f M s : prime f -> ~ (f | M) -> (s * s | f * M) -> (s * s | M).
Proof.
  intros Hf N D. destruct (Zdivide_dec f s) as [F|F].
  - exfalso. apply N. destruct F as [c ->]. destruct D as [k Ek]. exists (k * c * c).
    assert (Nf : f <> 0) by (destruct Hf; lia). apply (Z.mul_cancel_l _ _ f Nf). rewrite Ek. ring.
  - apply (Gauss _ f); [exact D|]. apply rel_prime_sym.
    apply rel_prime_mult; apply prime_rel_prime; assumption.
Qed.
Lemma not_div f M : 0 < f -> M mod f <> 0 -> ~ (f | M).
Proof. intros Hf N D. apply N. apply Z.mod_divide; [lia|exact D]. Qed.
Definition trace : Z := p + 1 - 8 * L.
Lemma discriminant s : (s * s | 4 * p - trace * trace) -> (s * s | 16).
Proof.
  assert (E : 4 * p - trace * trace = 557 * (1284268031676943 * (983030834487880084651 * (1881753370316552587875387939158653037 * 16)))) by (vm_compute; reflexivity).
  rewrite E. clear E. intros D.
  apply (strip _ _ s pr557) in D; [|apply not_div; vm_compute; [reflexivity|discriminate]].
  apply (strip _ _ s pr1284268031676943) in D; [|apply not_div; vm_compute; [reflexivity|discriminate]].
  apply (strip _ _ s pr983030834487880084651) in D; [|apply not_div; vm_compute; [reflexivity|discriminate]].
  apply (strip _ _ s pr1881753370316552587875387939158653037) in D; [|apply not_div; vm_compute; [reflexivity|discriminate]].
  exact D.
Qed.
Lemma discriminant_large s : 0 < s -> (s * s | 4 * p - trace * trace) -> 2 ^ 100 < (4 * p - trace * trace) / (s * s).
Proof.
  intros Hs D. assert (K : 0 < s * s <= 16).
  { split; [nia|]. apply Z.divide_pos_le; [lia|]. exact (discriminant s D). }
  assert (B : 16 * 2 ^ 101 <= 4 * p - trace * trace) by (vm_compute; discriminate).
  apply Z.lt_le_trans with (2 ^ 101); [reflexivity|]. apply Z.div_le_lower_bound; [lia|].
  change (2 ^ 101) with 2535301200456458802993406410752 in *. remember (4 * p - trace * trace) as T eqn:ET. clear ET D. lia.
Qed.
