(** * The scalar multiplications of /repo/src/edwards.rs with a log of the point operations

    The same loops as in EdwardsModel.v and RistrettoModel.v; in addition they return
    the calls of the point operations in the order in which they are made, which is
    what an observer of the running time or of the memory accesses can see. *)

From Coq Require Import ZArith List Bool.
From Verif Require Import Machine FieldModel ScalarModel EdwardsModel TableModel RistrettoModel.
Import ListNotations.
Open Scope Z_scope.

(** One call: `double`, `+`, `-` with the point, or `+`/`-` with the table entry of the
    index |d| (subtracted when d is negative). *)
Inductive op := ODbl | OAdd | OSub | OTab (d : Z).

(** Adds calls in front of a log (no code of its own). *)
Definition logged {T : Type} (l : list op) (o : res (T * list op)) : res (T * list op) :=
  r <- o ;; Ok (fst r, l ++ snd r).

(** edwards.rs 111-118 loop of `double_and_add`, with log. *)
Fixpoint double_and_add_loop_log {T : Type} (add : T -> T -> res T) (double : T -> res T)
  (fuel : nat) (N : T) (n : sc) (Q : T) : res (T * list op) :=
  match fuel with
  | O => NoFuel
  | S fuel' =>
    if negb (sc_eqb n sc_zero) then
      if negb (sc_is_even n) then
        Q <- add Q N ;;
        N <- double N ;;
        logged [OAdd; ODbl] (double_and_add_loop_log add double fuel' N (sc_half_without_mod n) Q)
      else
        N <- double N ;;
        logged [ODbl] (double_and_add_loop_log add double fuel' N (sc_half_without_mod n) Q)
    else Ok (Q, [])
  end.

(** edwards.rs 102-120 `double_and_add`, with log. *)
Definition double_and_add_log {T : Type} (add : T -> T -> res T) (double : T -> res T) (identity : T)
  (point : T) (scalar : sc) : res (T * list op) :=
  double_and_add_loop_log add double loop_fuel point scalar identity.

(** edwards.rs 129-132 loop of `ltr_bin_mul`, with log. *)
Fixpoint ltr_bin_mul_loop_log {T : Type} (add : T -> T -> res T) (double : T -> res T)
  (point : T) (bits : list Z) (i : nat) (Q : T) : res (T * list op) :=
  match i with
  | O => Ok (Q, [])
  | S i' =>
    Q <- double Q ;;
    b <- unwrap (nth_error bits i') ;;
    if b =? 1 then
      Q <- add Q point ;;
      logged [ODbl; OAdd] (ltr_bin_mul_loop_log add double point bits i' Q)
    else logged [ODbl] (ltr_bin_mul_loop_log add double point bits i' Q)
  end.

(** edwards.rs 122-134 `ltr_bin_mul`, with log. *)
Definition ltr_bin_mul_log {T : Type} (add : T -> T -> res T) (double : T -> res T) (identity : T)
  (point : T) (scalar : sc) : res (T * list op) :=
  ltr_bin_mul_loop_log add double point (sc_into_bits scalar) 249 identity.

(** edwards.rs 144-151 loop of `binary_naf_mul`, with log. *)
Fixpoint binary_naf_mul_loop_log {T : Type} (add sub : T -> T -> res T) (double : T -> res T)
  (point : T) (k_naf : list Z) (i : nat) (Q : T) : res (T * list op) :=
  match i with
  | O => Ok (Q, [])
  | S i' =>
    Q <- double Q ;;
    k <- unwrap (nth_error k_naf i') ;;
    if k =? 1 then
      Q <- add Q point ;;
      logged [ODbl; OAdd] (binary_naf_mul_loop_log add sub double point k_naf i' Q)
    else if k =? -1 then
      Q <- sub Q point ;;
      logged [ODbl; OSub] (binary_naf_mul_loop_log add sub double point k_naf i' Q)
    else logged [ODbl] (binary_naf_mul_loop_log add sub double point k_naf i' Q)
  end.

(** edwards.rs 136-153 `binary_naf_mul`, with log. *)
Definition binary_naf_mul_log {T : Type} (ck : bool) (add sub : T -> T -> res T) (double : T -> res T)
  (identity : T) (point : T) (scalar : sc) : res (T * list op) :=
  k_naf <- sc_compute_NAF ck scalar ;;
  binary_naf_mul_loop_log add sub double point k_naf 250 identity.

(** edwards.rs 160-169 loop of `window_naf_mul`, with log. *)
Fixpoint window_naf_mul_loop_log (ck : bool) (wnaf : list Z) (i : nat) (Q : ept) : res (ept * list op) :=
  match i with
  | O => Ok (Q, [])
  | S i' =>
    Q <- rp_double ck Q ;;
    ki <- unwrap (nth_error wnaf i') ;;
    if ki =? 0 then logged [ODbl] (window_naf_mul_loop_log ck wnaf i' Q)
    else if 0 <? ki then
      t <- unwrap (nth_error BASEPOINT_ODD_MULTIPLES_TABLE (Z.to_nat ki)) ;;
      Q <- rp_add ck Q t ;;
      logged [ODbl; OTab ki] (window_naf_mul_loop_log ck wnaf i' Q)
    else
      a <- i8abs ck ki ;;
      _ <- rassert (0 <=? a) ;;
      t <- unwrap (nth_error BASEPOINT_ODD_MULTIPLES_TABLE (Z.to_nat a)) ;;
      Q <- rp_sub ck Q t ;;
      logged [ODbl; OTab ki] (window_naf_mul_loop_log ck wnaf i' Q)
  end.

(** edwards.rs 155-171 `window_naf_mul`, with log. *)
Definition window_naf_mul_log (ck : bool) (scalar : sc) (w : Z) : res (ept * list op) :=
  wnaf <- sc_compute_window_NAF ck scalar w ;;
  window_naf_mul_loop_log ck wnaf 250 rp_identity.
