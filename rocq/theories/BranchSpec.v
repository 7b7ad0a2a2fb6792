(** * Vocabulary for statements about logs of branches *)

From Coq Require Import ZArith List Bool.
From Verif Require Import BranchModel.
Import ListNotations.
Open Scope Z_scope.

(** The outcomes of the decisions taken at one line, in order. *)
Definition at_line (n : Z) (l : list branch) : list Z :=
  map outcome (filter (fun b => line b =? n) l).

(** What the log of a call contains. *)
Definition log_of {A : Type} (m : lres A) : list branch := fst m.
(** What the call returns. *)
Definition result_of {A : Type} (m : lres A) : Machine.res A := snd m.
