(** * What the scalar multiplications should do, call by call *)

From Coq Require Import ZArith List Bool.
From Verif Require Import TraceModel.
Import ListNotations.
Open Scope Z_scope.

(** Number of binary digits. *)
Definition bit_length (k : Z) : nat := if k <=? 0 then 0%nat else Z.to_nat (Z.log2 k + 1).

(** Number of ones among the [n] lowest binary digits. *)
Definition ones (n : nat) (k : Z) : Z := Z.of_nat (length (filter (fun i => Z.testbit k (Z.of_nat i)) (seq 0 n))).

(** Right to left: for each digit a doubling, before it an addition if the digit is one. *)
Definition rtl_trace (k : Z) : list op :=
  flat_map (fun i => if Z.testbit k (Z.of_nat i) then [OAdd; ODbl] else [ODbl]) (seq 0 (bit_length k)).

(** Left to right over the [n] lowest digits. *)
Definition ltr_trace (n : nat) (k : Z) : list op :=
  flat_map (fun i => if Z.testbit k (Z.of_nat i) then [ODbl; OAdd] else [ODbl]) (rev (seq 0 n)).

(** Left to right over the [n] lowest signed digits; [call] is what a digit asks for. *)
Definition digit_trace (call : Z -> list op) (n : nat) (ds : list Z) : list op :=
  flat_map (fun i => ODbl :: call (nth i ds 0)) (rev (seq 0 n)).
Definition naf_call (d : Z) : list op := if d =? 1 then [OAdd] else if d =? -1 then [OSub] else [].
Definition tab_call (d : Z) : list op := if d =? 0 then [] else [OTab d].

(** Number of doublings, and of the other operations, in a log. *)
Definition doublings (l : list op) : Z := Z.of_nat (length (filter (fun o => match o with ODbl => true | _ => false end) l)).
Definition additions (l : list op) : Z := Z.of_nat (length (filter (fun o => match o with ODbl => false | _ => true end) l)).
