(** * The field modulus and the group order are prime

    Pocklington certificates, each step checked by computation in the kernel. *)

From Coq Require Import ZArith Znumtheory List.
From Verif Require Import Spec NumTheory.
Import ListNotations.
Open Scope Z_scope.

(** Exponentiation modulo p and modulo L for the certificates. *)
Definition pwp : Z -> Z -> Z := powr (fold2 252 27742317777372353535851937790883648493) 7237005577332262213973186563042994240857116359379907606001950938285454250989.
Definition pwL : Z -> Z -> Z := powr (fold2 249 14490550575682688738086195780655237219) 904625697166532776746648320380374280118162305775999595296348570842476562531.
Lemma pwp_ok x e : 0 <= e -> pwp x e = (x ^ e) mod p.
Proof. apply powr_ok. intros y. now apply fold2_ok. Qed.
Lemma pwL_ok x e : 0 <= e -> pwL x e = (x ^ e) mod L.
Proof. apply powr_ok. intros y. now apply fold2_ok. Qed.

Lemma pr2 : prime 2.
Proof. apply trial_prime. vm_compute. reflexivity. Qed.
Lemma pr3 : prime 3.
Proof. apply trial_prime. vm_compute. reflexivity. Qed.
Lemma pr13 : prime 13.
Proof. apply trial_prime. vm_compute. reflexivity. Qed.
Lemma pr31 : prime 31.
Proof. apply trial_prime. vm_compute. reflexivity. Qed.
Lemma pr131 : prime 131.
Proof. apply trial_prime. vm_compute. reflexivity. Qed.
Lemma pr601 : prime 601.
Proof. apply trial_prime. vm_compute. reflexivity. Qed.
Lemma pr2551 : prime 2551.
Proof. apply trial_prime. vm_compute. reflexivity. Qed.
Lemma pr3797 : prime 3797.
Proof. apply trial_prime. vm_compute. reflexivity. Qed.
Lemma pr531581 : prime 531581.
Proof.
  apply (pock_prime (fun x e => powm x e 531581) 531581 2 140 3797 []).
  - intros x e He; exact (powm_ok x e _ He).
  - exact pr3797.
  - apply Forall_nil.
  - vm_compute. reflexivity.
Qed.
Lemma pr1224481 : prime 1224481.
Proof.
  apply (pock_prime (fun x e => powm x e 1224481) 1224481 2 480 2551 []).
  - intros x e He; exact (powm_ok x e _ He).
  - exact pr2551.
  - apply Forall_nil.
  - vm_compute. reflexivity.
Qed.
Lemma pr1257559732178653 : prime 1257559732178653.
Proof.
  apply (pock_prime (fun x e => powm x e 1257559732178653) 1257559732178653 2 1932 1224481 [531581]).
  - intros x e He; exact (powm_ok x e _ He).
  - exact pr1224481.
  - apply Forall_cons; [exact pr531581|]. apply Forall_nil.
  - vm_compute. reflexivity.
Qed.
Lemma pr4434155615661930479 : prime 4434155615661930479.
Proof.
  apply (pock_prime (fun x e => powm x e 4434155615661930479) 4434155615661930479 2 3526 1257559732178653 []).
  - intros x e He; exact (powm_ok x e _ He).
  - exact pr1257559732178653.
  - apply Forall_nil.
  - vm_compute. reflexivity.
Qed.
Lemma pr172054593956031949258510691 : prime 172054593956031949258510691.
Proof.
  apply (pock_prime (fun x e => powm x e 172054593956031949258510691) 172054593956031949258510691 2 38802110 4434155615661930479 []).
  - intros x e He; exact (powm_ok x e _ He).
  - exact pr4434155615661930479.
  - apply Forall_nil.
  - vm_compute. reflexivity.
Qed.
Lemma pr19757330305831588566944191468367130476339 : prime 19757330305831588566944191468367130476339.
Proof.
  apply (pock_prime (powr (quo_red 134 24005490123129489549962785823870946901924 19757330305831588566944191468367130476339) 19757330305831588566944191468367130476339) 19757330305831588566944191468367130476339 2 114831751082918 172054593956031949258510691 []).
  - intros x e He. apply powr_ok; [intros y; now apply quo_red_ok|assumption].
  - exact pr172054593956031949258510691.
  - apply Forall_nil.
  - vm_compute. reflexivity.
Qed.
Lemma pr276602624281642239937218680557139826668747 : prime 276602624281642239937218680557139826668747.
Proof.
  apply (pock_prime (powr (quo_red 138 438957533680082094627890940779354457635181 276602624281642239937218680557139826668747) 276602624281642239937218680557139826668747) 276602624281642239937218680557139826668747 2 14 19757330305831588566944191468367130476339 []).
  - intros x e He. apply powr_ok; [intros y; now apply quo_red_ok|assumption].
  - exact pr19757330305831588566944191468367130476339.
  - apply Forall_nil.
  - vm_compute. reflexivity.
Qed.
Lemma prime_p : prime p.
Proof.
  apply (pock_prime pwp p 2 26163907866482859529727157400808004 276602624281642239937218680557139826668747 []).
  - exact pwp_ok.
  - exact pr276602624281642239937218680557139826668747.
  - apply Forall_nil.
  - vm_compute. reflexivity.
Qed.
Lemma pr1510693 : prime 1510693.
Proof.
  apply (pock_prime (fun x e => powm x e 1510693) 1510693 2 372 131 [31]).
  - intros x e He; exact (powm_ok x e _ He).
  - exact pr131.
  - apply Forall_cons; [exact pr31|]. apply Forall_nil.
  - vm_compute. reflexivity.
Qed.
Lemma pr18128317 : prime 18128317.
Proof.
  apply (pock_prime (fun x e => powm x e 18128317) 18128317 2 12 1510693 []).
  - intros x e He; exact (powm_ok x e _ He).
  - exact pr1510693.
  - apply Forall_nil.
  - vm_compute. reflexivity.
Qed.
Lemma pr54091 : prime 54091.
Proof.
  apply (pock_prime (fun x e => powm x e 54091) 54091 2 90 601 []).
  - intros x e He; exact (powm_ok x e _ He).
  - exact pr601.
  - apply Forall_nil.
  - vm_compute. reflexivity.
Qed.
Lemma pr54740093 : prime 54740093.
Proof.
  apply (pock_prime (fun x e => powm x e 54740093) 54740093 2 1012 54091 []).
  - intros x e He; exact (powm_ok x e _ He).
  - exact pr54091.
  - apply Forall_nil.
  - vm_compute. reflexivity.
Qed.
Lemma pr623489659271 : prime 623489659271.
Proof.
  apply (pock_prime (fun x e => powm x e 623489659271) 623489659271 2 11390 54740093 []).
  - intros x e He; exact (powm_ok x e _ He).
  - exact pr54740093.
  - apply Forall_nil.
  - vm_compute. reflexivity.
Qed.
Lemma pr4987917274169 : prime 4987917274169.
Proof.
  apply (pock_prime (fun x e => powm x e 4987917274169) 4987917274169 2 8 623489659271 []).
  - intros x e He; exact (powm_ok x e _ He).
  - exact pr623489659271.
  - apply Forall_nil.
  - vm_compute. reflexivity.
Qed.
Lemma pr1473397327204484414562622435849 : prime 1473397327204484414562622435849.
Proof.
  apply (pock_prime (powr (quo_red 101 4362538236194241463377253313436 1473397327204484414562622435849) 1473397327204484414562622435849) 1473397327204484414562622435849 2 16294579176 4987917274169 [18128317]).
  - intros x e He. apply powr_ok; [intros y; now apply quo_red_ok|assumption].
  - exact pr4987917274169.
  - apply Forall_cons; [exact pr18128317|]. apply Forall_nil.
  - vm_compute. reflexivity.
Qed.
Lemma pr194060402252303413788402286645422500134630096612112378773286921059 : prime 194060402252303413788402286645422500134630096612112378773286921059.
Proof.
  apply (pock_prime (powr (quo_red 217 228602613367026921853967352844943792663896831347122490857286201734 194060402252303413788402286645422500134630096612112378773286921059) 194060402252303413788402286645422500134630096612112378773286921059) 194060402252303413788402286645422500134630096612112378773286921059 2 187620348119010958150115029532471 1473397327204484414562622435849 [2; 3; 3; 3; 13]).
  - intros x e He. apply powr_ok; [intros y; now apply quo_red_ok|assumption].
  - exact pr1473397327204484414562622435849.
  - apply Forall_cons; [exact pr2|]. apply Forall_cons; [exact pr3|]. apply Forall_cons; [exact pr3|]. apply Forall_cons; [exact pr3|]. apply Forall_cons; [exact pr13|]. apply Forall_nil.
  - vm_compute. reflexivity.
Qed.
Lemma prime_L : prime L.
Proof.
  apply (pock_prime pwL L 2 4661567670 194060402252303413788402286645422500134630096612112378773286921059 []).
  - exact pwL_ok.
  - exact pr194060402252303413788402286645422500134630096612112378773286921059.
  - apply Forall_nil.
  - vm_compute. reflexivity.
Qed.
