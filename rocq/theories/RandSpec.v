(** * Counting the generator outputs that lead to a result *)
From Coq Require Import List.
Import ListNotations.

(** Exactly [n] values satisfy [P]: a list without repetition enumerates them. *)
Definition exactly {A : Type} (n : nat) (P : A -> Prop) : Prop :=
  exists l, NoDup l /\ length l = n /\ forall x, In x l <-> P x.
