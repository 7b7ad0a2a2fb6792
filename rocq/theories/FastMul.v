(** * Multiplication in base 16

    Generated by tools/genhex.py.  The independent checker evaluates numerical checks without
    a virtual machine, one bit of a product at a time.  [hexmul] is the product of the integers
    computed on hexadecimal digits; it is proved equal to the product of the library, and
    only makes checking faster. *)

From Coq Require Import ZArith Lia Bool.
Open Scope Z_scope.

(** Hexadecimal digits, lowest first. *)
Inductive hx : Set := HN | H0 (t : hx) | H1 (t : hx) | H2 (t : hx) | H3 (t : hx) | H4 (t : hx) | H5 (t : hx) | H6 (t : hx) | H7 (t : hx) | H8 (t : hx) | H9 (t : hx) | HA (t : hx) | HB (t : hx) | HC (t : hx) | HD (t : hx) | HE (t : hx) | HF (t : hx).
Fixpoint hval (x : hx) : Z :=
  match x with
  | HN => 0
  | H0 t => 16 * hval t
  | H1 t => 1 + 16 * hval t
  | H2 t => 2 + 16 * hval t
  | H3 t => 3 + 16 * hval t
  | H4 t => 4 + 16 * hval t
  | H5 t => 5 + 16 * hval t
  | H6 t => 6 + 16 * hval t
  | H7 t => 7 + 16 * hval t
  | H8 t => 8 + 16 * hval t
  | H9 t => 9 + 16 * hval t
  | HA t => 10 + 16 * hval t
  | HB t => 11 + 16 * hval t
  | HC t => 12 + 16 * hval t
  | HD t => 13 + 16 * hval t
  | HE t => 14 + 16 * hval t
  | HF t => 15 + 16 * hval t
  end.
Fixpoint hsucc (x : hx) : hx :=
  match x with
  | HN => H1 HN
  | H0 t => H1 t
  | H1 t => H2 t
  | H2 t => H3 t
  | H3 t => H4 t
  | H4 t => H5 t
  | H5 t => H6 t
  | H6 t => H7 t
  | H7 t => H8 t
  | H8 t => H9 t
  | H9 t => HA t
  | HA t => HB t
  | HB t => HC t
  | HC t => HD t
  | HD t => HE t
  | HE t => HF t
  | HF t => H0 (hsucc t)
  end.
Lemma hsucc_ok x : hval (hsucc x) = 1 + hval x.
Proof. induction x; cbn [hsucc hval]; rewrite ?IHx; lia. Qed.

(** Sum with a carry. *)
Fixpoint hadd (c : bool) (x y : hx) {struct x} : hx :=
  match x with
  | HN => if c then hsucc y else y
  | H0 s => match y with
    | HN => if c then hsucc x else x
    | H0 t => if c then H1 (hadd false s t) else H0 (hadd false s t)
    | H1 t => if c then H2 (hadd false s t) else H1 (hadd false s t)
    | H2 t => if c then H3 (hadd false s t) else H2 (hadd false s t)
    | H3 t => if c then H4 (hadd false s t) else H3 (hadd false s t)
    | H4 t => if c then H5 (hadd false s t) else H4 (hadd false s t)
    | H5 t => if c then H6 (hadd false s t) else H5 (hadd false s t)
    | H6 t => if c then H7 (hadd false s t) else H6 (hadd false s t)
    | H7 t => if c then H8 (hadd false s t) else H7 (hadd false s t)
    | H8 t => if c then H9 (hadd false s t) else H8 (hadd false s t)
    | H9 t => if c then HA (hadd false s t) else H9 (hadd false s t)
    | HA t => if c then HB (hadd false s t) else HA (hadd false s t)
    | HB t => if c then HC (hadd false s t) else HB (hadd false s t)
    | HC t => if c then HD (hadd false s t) else HC (hadd false s t)
    | HD t => if c then HE (hadd false s t) else HD (hadd false s t)
    | HE t => if c then HF (hadd false s t) else HE (hadd false s t)
    | HF t => if c then H0 (hadd true s t) else HF (hadd false s t)
    end
  | H1 s => match y with
    | HN => if c then hsucc x else x
    | H0 t => if c then H2 (hadd false s t) else H1 (hadd false s t)
    | H1 t => if c then H3 (hadd false s t) else H2 (hadd false s t)
    | H2 t => if c then H4 (hadd false s t) else H3 (hadd false s t)
    | H3 t => if c then H5 (hadd false s t) else H4 (hadd false s t)
    | H4 t => if c then H6 (hadd false s t) else H5 (hadd false s t)
    | H5 t => if c then H7 (hadd false s t) else H6 (hadd false s t)
    | H6 t => if c then H8 (hadd false s t) else H7 (hadd false s t)
    | H7 t => if c then H9 (hadd false s t) else H8 (hadd false s t)
    | H8 t => if c then HA (hadd false s t) else H9 (hadd false s t)
    | H9 t => if c then HB (hadd false s t) else HA (hadd false s t)
    | HA t => if c then HC (hadd false s t) else HB (hadd false s t)
    | HB t => if c then HD (hadd false s t) else HC (hadd false s t)
    | HC t => if c then HE (hadd false s t) else HD (hadd false s t)
    | HD t => if c then HF (hadd false s t) else HE (hadd false s t)
    | HE t => if c then H0 (hadd true s t) else HF (hadd false s t)
    | HF t => if c then H1 (hadd true s t) else H0 (hadd true s t)
    end
  | H2 s => match y with
    | HN => if c then hsucc x else x
    | H0 t => if c then H3 (hadd false s t) else H2 (hadd false s t)
    | H1 t => if c then H4 (hadd false s t) else H3 (hadd false s t)
    | H2 t => if c then H5 (hadd false s t) else H4 (hadd false s t)
    | H3 t => if c then H6 (hadd false s t) else H5 (hadd false s t)
    | H4 t => if c then H7 (hadd false s t) else H6 (hadd false s t)
    | H5 t => if c then H8 (hadd false s t) else H7 (hadd false s t)
    | H6 t => if c then H9 (hadd false s t) else H8 (hadd false s t)
    | H7 t => if c then HA (hadd false s t) else H9 (hadd false s t)
    | H8 t => if c then HB (hadd false s t) else HA (hadd false s t)
    | H9 t => if c then HC (hadd false s t) else HB (hadd false s t)
    | HA t => if c then HD (hadd false s t) else HC (hadd false s t)
    | HB t => if c then HE (hadd false s t) else HD (hadd false s t)
    | HC t => if c then HF (hadd false s t) else HE (hadd false s t)
    | HD t => if c then H0 (hadd true s t) else HF (hadd false s t)
    | HE t => if c then H1 (hadd true s t) else H0 (hadd true s t)
    | HF t => if c then H2 (hadd true s t) else H1 (hadd true s t)
    end
  | H3 s => match y with
    | HN => if c then hsucc x else x
    | H0 t => if c then H4 (hadd false s t) else H3 (hadd false s t)
    | H1 t => if c then H5 (hadd false s t) else H4 (hadd false s t)
    | H2 t => if c then H6 (hadd false s t) else H5 (hadd false s t)
    | H3 t => if c then H7 (hadd false s t) else H6 (hadd false s t)
    | H4 t => if c then H8 (hadd false s t) else H7 (hadd false s t)
    | H5 t => if c then H9 (hadd false s t) else H8 (hadd false s t)
    | H6 t => if c then HA (hadd false s t) else H9 (hadd false s t)
    | H7 t => if c then HB (hadd false s t) else HA (hadd false s t)
    | H8 t => if c then HC (hadd false s t) else HB (hadd false s t)
    | H9 t => if c then HD (hadd false s t) else HC (hadd false s t)
    | HA t => if c then HE (hadd false s t) else HD (hadd false s t)
    | HB t => if c then HF (hadd false s t) else HE (hadd false s t)
    | HC t => if c then H0 (hadd true s t) else HF (hadd false s t)
    | HD t => if c then H1 (hadd true s t) else H0 (hadd true s t)
    | HE t => if c then H2 (hadd true s t) else H1 (hadd true s t)
    | HF t => if c then H3 (hadd true s t) else H2 (hadd true s t)
    end
  | H4 s => match y with
    | HN => if c then hsucc x else x
    | H0 t => if c then H5 (hadd false s t) else H4 (hadd false s t)
    | H1 t => if c then H6 (hadd false s t) else H5 (hadd false s t)
    | H2 t => if c then H7 (hadd false s t) else H6 (hadd false s t)
    | H3 t => if c then H8 (hadd false s t) else H7 (hadd false s t)
    | H4 t => if c then H9 (hadd false s t) else H8 (hadd false s t)
    | H5 t => if c then HA (hadd false s t) else H9 (hadd false s t)
    | H6 t => if c then HB (hadd false s t) else HA (hadd false s t)
    | H7 t => if c then HC (hadd false s t) else HB (hadd false s t)
    | H8 t => if c then HD (hadd false s t) else HC (hadd false s t)
    | H9 t => if c then HE (hadd false s t) else HD (hadd false s t)
    | HA t => if c then HF (hadd false s t) else HE (hadd false s t)
    | HB t => if c then H0 (hadd true s t) else HF (hadd false s t)
    | HC t => if c then H1 (hadd true s t) else H0 (hadd true s t)
    | HD t => if c then H2 (hadd true s t) else H1 (hadd true s t)
    | HE t => if c then H3 (hadd true s t) else H2 (hadd true s t)
    | HF t => if c then H4 (hadd true s t) else H3 (hadd true s t)
    end
  | H5 s => match y with
    | HN => if c then hsucc x else x
    | H0 t => if c then H6 (hadd false s t) else H5 (hadd false s t)
    | H1 t => if c then H7 (hadd false s t) else H6 (hadd false s t)
    | H2 t => if c then H8 (hadd false s t) else H7 (hadd false s t)
    | H3 t => if c then H9 (hadd false s t) else H8 (hadd false s t)
    | H4 t => if c then HA (hadd false s t) else H9 (hadd false s t)
    | H5 t => if c then HB (hadd false s t) else HA (hadd false s t)
    | H6 t => if c then HC (hadd false s t) else HB (hadd false s t)
    | H7 t => if c then HD (hadd false s t) else HC (hadd false s t)
    | H8 t => if c then HE (hadd false s t) else HD (hadd false s t)
    | H9 t => if c then HF (hadd false s t) else HE (hadd false s t)
    | HA t => if c then H0 (hadd true s t) else HF (hadd false s t)
    | HB t => if c then H1 (hadd true s t) else H0 (hadd true s t)
    | HC t => if c then H2 (hadd true s t) else H1 (hadd true s t)
    | HD t => if c then H3 (hadd true s t) else H2 (hadd true s t)
    | HE t => if c then H4 (hadd true s t) else H3 (hadd true s t)
    | HF t => if c then H5 (hadd true s t) else H4 (hadd true s t)
    end
  | H6 s => match y with
    | HN => if c then hsucc x else x
    | H0 t => if c then H7 (hadd false s t) else H6 (hadd false s t)
    | H1 t => if c then H8 (hadd false s t) else H7 (hadd false s t)
    | H2 t => if c then H9 (hadd false s t) else H8 (hadd false s t)
    | H3 t => if c then HA (hadd false s t) else H9 (hadd false s t)
    | H4 t => if c then HB (hadd false s t) else HA (hadd false s t)
    | H5 t => if c then HC (hadd false s t) else HB (hadd false s t)
    | H6 t => if c then HD (hadd false s t) else HC (hadd false s t)
    | H7 t => if c then HE (hadd false s t) else HD (hadd false s t)
    | H8 t => if c then HF (hadd false s t) else HE (hadd false s t)
    | H9 t => if c then H0 (hadd true s t) else HF (hadd false s t)
    | HA t => if c then H1 (hadd true s t) else H0 (hadd true s t)
    | HB t => if c then H2 (hadd true s t) else H1 (hadd true s t)
    | HC t => if c then H3 (hadd true s t) else H2 (hadd true s t)
    | HD t => if c then H4 (hadd true s t) else H3 (hadd true s t)
    | HE t => if c then H5 (hadd true s t) else H4 (hadd true s t)
    | HF t => if c then H6 (hadd true s t) else H5 (hadd true s t)
    end
  | H7 s => match y with
    | HN => if c then hsucc x else x
    | H0 t => if c then H8 (hadd false s t) else H7 (hadd false s t)
    | H1 t => if c then H9 (hadd false s t) else H8 (hadd false s t)
    | H2 t => if c then HA (hadd false s t) else H9 (hadd false s t)
    | H3 t => if c then HB (hadd false s t) else HA (hadd false s t)
    | H4 t => if c then HC (hadd false s t) else HB (hadd false s t)
    | H5 t => if c then HD (hadd false s t) else HC (hadd false s t)
    | H6 t => if c then HE (hadd false s t) else HD (hadd false s t)
    | H7 t => if c then HF (hadd false s t) else HE (hadd false s t)
    | H8 t => if c then H0 (hadd true s t) else HF (hadd false s t)
    | H9 t => if c then H1 (hadd true s t) else H0 (hadd true s t)
    | HA t => if c then H2 (hadd true s t) else H1 (hadd true s t)
    | HB t => if c then H3 (hadd true s t) else H2 (hadd true s t)
    | HC t => if c then H4 (hadd true s t) else H3 (hadd true s t)
    | HD t => if c then H5 (hadd true s t) else H4 (hadd true s t)
    | HE t => if c then H6 (hadd true s t) else H5 (hadd true s t)
    | HF t => if c then H7 (hadd true s t) else H6 (hadd true s t)
    end
  | H8 s => match y with
    | HN => if c then hsucc x else x
    | H0 t => if c then H9 (hadd false s t) else H8 (hadd false s t)
    | H1 t => if c then HA (hadd false s t) else H9 (hadd false s t)
    | H2 t => if c then HB (hadd false s t) else HA (hadd false s t)
    | H3 t => if c then HC (hadd false s t) else HB (hadd false s t)
    | H4 t => if c then HD (hadd false s t) else HC (hadd false s t)
    | H5 t => if c then HE (hadd false s t) else HD (hadd false s t)
    | H6 t => if c then HF (hadd false s t) else HE (hadd false s t)
    | H7 t => if c then H0 (hadd true s t) else HF (hadd false s t)
    | H8 t => if c then H1 (hadd true s t) else H0 (hadd true s t)
    | H9 t => if c then H2 (hadd true s t) else H1 (hadd true s t)
    | HA t => if c then H3 (hadd true s t) else H2 (hadd true s t)
    | HB t => if c then H4 (hadd true s t) else H3 (hadd true s t)
    | HC t => if c then H5 (hadd true s t) else H4 (hadd true s t)
    | HD t => if c then H6 (hadd true s t) else H5 (hadd true s t)
    | HE t => if c then H7 (hadd true s t) else H6 (hadd true s t)
    | HF t => if c then H8 (hadd true s t) else H7 (hadd true s t)
    end
  | H9 s => match y with
    | HN => if c then hsucc x else x
    | H0 t => if c then HA (hadd false s t) else H9 (hadd false s t)
    | H1 t => if c then HB (hadd false s t) else HA (hadd false s t)
    | H2 t => if c then HC (hadd false s t) else HB (hadd false s t)
    | H3 t => if c then HD (hadd false s t) else HC (hadd false s t)
    | H4 t => if c then HE (hadd false s t) else HD (hadd false s t)
    | H5 t => if c then HF (hadd false s t) else HE (hadd false s t)
    | H6 t => if c then H0 (hadd true s t) else HF (hadd false s t)
    | H7 t => if c then H1 (hadd true s t) else H0 (hadd true s t)
    | H8 t => if c then H2 (hadd true s t) else H1 (hadd true s t)
    | H9 t => if c then H3 (hadd true s t) else H2 (hadd true s t)
    | HA t => if c then H4 (hadd true s t) else H3 (hadd true s t)
    | HB t => if c then H5 (hadd true s t) else H4 (hadd true s t)
    | HC t => if c then H6 (hadd true s t) else H5 (hadd true s t)
    | HD t => if c then H7 (hadd true s t) else H6 (hadd true s t)
    | HE t => if c then H8 (hadd true s t) else H7 (hadd true s t)
    | HF t => if c then H9 (hadd true s t) else H8 (hadd true s t)
    end
  | HA s => match y with
    | HN => if c then hsucc x else x
    | H0 t => if c then HB (hadd false s t) else HA (hadd false s t)
    | H1 t => if c then HC (hadd false s t) else HB (hadd false s t)
    | H2 t => if c then HD (hadd false s t) else HC (hadd false s t)
    | H3 t => if c then HE (hadd false s t) else HD (hadd false s t)
    | H4 t => if c then HF (hadd false s t) else HE (hadd false s t)
    | H5 t => if c then H0 (hadd true s t) else HF (hadd false s t)
    | H6 t => if c then H1 (hadd true s t) else H0 (hadd true s t)
    | H7 t => if c then H2 (hadd true s t) else H1 (hadd true s t)
    | H8 t => if c then H3 (hadd true s t) else H2 (hadd true s t)
    | H9 t => if c then H4 (hadd true s t) else H3 (hadd true s t)
    | HA t => if c then H5 (hadd true s t) else H4 (hadd true s t)
    | HB t => if c then H6 (hadd true s t) else H5 (hadd true s t)
    | HC t => if c then H7 (hadd true s t) else H6 (hadd true s t)
    | HD t => if c then H8 (hadd true s t) else H7 (hadd true s t)
    | HE t => if c then H9 (hadd true s t) else H8 (hadd true s t)
    | HF t => if c then HA (hadd true s t) else H9 (hadd true s t)
    end
  | HB s => match y with
    | HN => if c then hsucc x else x
    | H0 t => if c then HC (hadd false s t) else HB (hadd false s t)
    | H1 t => if c then HD (hadd false s t) else HC (hadd false s t)
    | H2 t => if c then HE (hadd false s t) else HD (hadd false s t)
    | H3 t => if c then HF (hadd false s t) else HE (hadd false s t)
    | H4 t => if c then H0 (hadd true s t) else HF (hadd false s t)
    | H5 t => if c then H1 (hadd true s t) else H0 (hadd true s t)
    | H6 t => if c then H2 (hadd true s t) else H1 (hadd true s t)
    | H7 t => if c then H3 (hadd true s t) else H2 (hadd true s t)
    | H8 t => if c then H4 (hadd true s t) else H3 (hadd true s t)
    | H9 t => if c then H5 (hadd true s t) else H4 (hadd true s t)
    | HA t => if c then H6 (hadd true s t) else H5 (hadd true s t)
    | HB t => if c then H7 (hadd true s t) else H6 (hadd true s t)
    | HC t => if c then H8 (hadd true s t) else H7 (hadd true s t)
    | HD t => if c then H9 (hadd true s t) else H8 (hadd true s t)
    | HE t => if c then HA (hadd true s t) else H9 (hadd true s t)
    | HF t => if c then HB (hadd true s t) else HA (hadd true s t)
    end
  | HC s => match y with
    | HN => if c then hsucc x else x
    | H0 t => if c then HD (hadd false s t) else HC (hadd false s t)
    | H1 t => if c then HE (hadd false s t) else HD (hadd false s t)
    | H2 t => if c then HF (hadd false s t) else HE (hadd false s t)
    | H3 t => if c then H0 (hadd true s t) else HF (hadd false s t)
    | H4 t => if c then H1 (hadd true s t) else H0 (hadd true s t)
    | H5 t => if c then H2 (hadd true s t) else H1 (hadd true s t)
    | H6 t => if c then H3 (hadd true s t) else H2 (hadd true s t)
    | H7 t => if c then H4 (hadd true s t) else H3 (hadd true s t)
    | H8 t => if c then H5 (hadd true s t) else H4 (hadd true s t)
    | H9 t => if c then H6 (hadd true s t) else H5 (hadd true s t)
    | HA t => if c then H7 (hadd true s t) else H6 (hadd true s t)
    | HB t => if c then H8 (hadd true s t) else H7 (hadd true s t)
    | HC t => if c then H9 (hadd true s t) else H8 (hadd true s t)
    | HD t => if c then HA (hadd true s t) else H9 (hadd true s t)
    | HE t => if c then HB (hadd true s t) else HA (hadd true s t)
    | HF t => if c then HC (hadd true s t) else HB (hadd true s t)
    end
  | HD s => match y with
    | HN => if c then hsucc x else x
    | H0 t => if c then HE (hadd false s t) else HD (hadd false s t)
    | H1 t => if c then HF (hadd false s t) else HE (hadd false s t)
    | H2 t => if c then H0 (hadd true s t) else HF (hadd false s t)
    | H3 t => if c then H1 (hadd true s t) else H0 (hadd true s t)
    | H4 t => if c then H2 (hadd true s t) else H1 (hadd true s t)
    | H5 t => if c then H3 (hadd true s t) else H2 (hadd true s t)
    | H6 t => if c then H4 (hadd true s t) else H3 (hadd true s t)
    | H7 t => if c then H5 (hadd true s t) else H4 (hadd true s t)
    | H8 t => if c then H6 (hadd true s t) else H5 (hadd true s t)
    | H9 t => if c then H7 (hadd true s t) else H6 (hadd true s t)
    | HA t => if c then H8 (hadd true s t) else H7 (hadd true s t)
    | HB t => if c then H9 (hadd true s t) else H8 (hadd true s t)
    | HC t => if c then HA (hadd true s t) else H9 (hadd true s t)
    | HD t => if c then HB (hadd true s t) else HA (hadd true s t)
    | HE t => if c then HC (hadd true s t) else HB (hadd true s t)
    | HF t => if c then HD (hadd true s t) else HC (hadd true s t)
    end
  | HE s => match y with
    | HN => if c then hsucc x else x
    | H0 t => if c then HF (hadd false s t) else HE (hadd false s t)
    | H1 t => if c then H0 (hadd true s t) else HF (hadd false s t)
    | H2 t => if c then H1 (hadd true s t) else H0 (hadd true s t)
    | H3 t => if c then H2 (hadd true s t) else H1 (hadd true s t)
    | H4 t => if c then H3 (hadd true s t) else H2 (hadd true s t)
    | H5 t => if c then H4 (hadd true s t) else H3 (hadd true s t)
    | H6 t => if c then H5 (hadd true s t) else H4 (hadd true s t)
    | H7 t => if c then H6 (hadd true s t) else H5 (hadd true s t)
    | H8 t => if c then H7 (hadd true s t) else H6 (hadd true s t)
    | H9 t => if c then H8 (hadd true s t) else H7 (hadd true s t)
    | HA t => if c then H9 (hadd true s t) else H8 (hadd true s t)
    | HB t => if c then HA (hadd true s t) else H9 (hadd true s t)
    | HC t => if c then HB (hadd true s t) else HA (hadd true s t)
    | HD t => if c then HC (hadd true s t) else HB (hadd true s t)
    | HE t => if c then HD (hadd true s t) else HC (hadd true s t)
    | HF t => if c then HE (hadd true s t) else HD (hadd true s t)
    end
  | HF s => match y with
    | HN => if c then hsucc x else x
    | H0 t => if c then H0 (hadd true s t) else HF (hadd false s t)
    | H1 t => if c then H1 (hadd true s t) else H0 (hadd true s t)
    | H2 t => if c then H2 (hadd true s t) else H1 (hadd true s t)
    | H3 t => if c then H3 (hadd true s t) else H2 (hadd true s t)
    | H4 t => if c then H4 (hadd true s t) else H3 (hadd true s t)
    | H5 t => if c then H5 (hadd true s t) else H4 (hadd true s t)
    | H6 t => if c then H6 (hadd true s t) else H5 (hadd true s t)
    | H7 t => if c then H7 (hadd true s t) else H6 (hadd true s t)
    | H8 t => if c then H8 (hadd true s t) else H7 (hadd true s t)
    | H9 t => if c then H9 (hadd true s t) else H8 (hadd true s t)
    | HA t => if c then HA (hadd true s t) else H9 (hadd true s t)
    | HB t => if c then HB (hadd true s t) else HA (hadd true s t)
    | HC t => if c then HC (hadd true s t) else HB (hadd true s t)
    | HD t => if c then HD (hadd true s t) else HC (hadd true s t)
    | HE t => if c then HE (hadd true s t) else HD (hadd true s t)
    | HF t => if c then HF (hadd true s t) else HE (hadd true s t)
    end
  end.
Lemma hadd_ok x : forall c y, hval (hadd c x y) = (if c then 1 else 0) + hval x + hval y.
Proof.
  induction x as [|s IH|s IH|s IH|s IH|s IH|s IH|s IH|s IH|s IH|s IH|s IH|s IH|s IH|s IH|s IH|s IH]; intros c y;
    [destruct c; cbn [hadd hval]; rewrite ?hsucc_ok; lia|..];
    (destruct y as [|t|t|t|t|t|t|t|t|t|t|t|t|t|t|t|t];
     [destruct c; cbn [hadd]; rewrite ?hsucc_ok; cbn [hval]; lia|..];
     destruct c; cbn [hadd hval]; rewrite IH; lia).
Qed.

(** Product: the multiples of the right factor by the digits are computed once. *)
Fixpoint hmul_tab (t1 t2 t3 t4 t5 t6 t7 t8 t9 tA tB tC tD tE tF : hx) (x : hx) : hx :=
  match x with
  | HN => HN
  | H0 t => H0 (hmul_tab t1 t2 t3 t4 t5 t6 t7 t8 t9 tA tB tC tD tE tF t)
  | H1 t => hadd false t1 (H0 (hmul_tab t1 t2 t3 t4 t5 t6 t7 t8 t9 tA tB tC tD tE tF t))
  | H2 t => hadd false t2 (H0 (hmul_tab t1 t2 t3 t4 t5 t6 t7 t8 t9 tA tB tC tD tE tF t))
  | H3 t => hadd false t3 (H0 (hmul_tab t1 t2 t3 t4 t5 t6 t7 t8 t9 tA tB tC tD tE tF t))
  | H4 t => hadd false t4 (H0 (hmul_tab t1 t2 t3 t4 t5 t6 t7 t8 t9 tA tB tC tD tE tF t))
  | H5 t => hadd false t5 (H0 (hmul_tab t1 t2 t3 t4 t5 t6 t7 t8 t9 tA tB tC tD tE tF t))
  | H6 t => hadd false t6 (H0 (hmul_tab t1 t2 t3 t4 t5 t6 t7 t8 t9 tA tB tC tD tE tF t))
  | H7 t => hadd false t7 (H0 (hmul_tab t1 t2 t3 t4 t5 t6 t7 t8 t9 tA tB tC tD tE tF t))
  | H8 t => hadd false t8 (H0 (hmul_tab t1 t2 t3 t4 t5 t6 t7 t8 t9 tA tB tC tD tE tF t))
  | H9 t => hadd false t9 (H0 (hmul_tab t1 t2 t3 t4 t5 t6 t7 t8 t9 tA tB tC tD tE tF t))
  | HA t => hadd false tA (H0 (hmul_tab t1 t2 t3 t4 t5 t6 t7 t8 t9 tA tB tC tD tE tF t))
  | HB t => hadd false tB (H0 (hmul_tab t1 t2 t3 t4 t5 t6 t7 t8 t9 tA tB tC tD tE tF t))
  | HC t => hadd false tC (H0 (hmul_tab t1 t2 t3 t4 t5 t6 t7 t8 t9 tA tB tC tD tE tF t))
  | HD t => hadd false tD (H0 (hmul_tab t1 t2 t3 t4 t5 t6 t7 t8 t9 tA tB tC tD tE tF t))
  | HE t => hadd false tE (H0 (hmul_tab t1 t2 t3 t4 t5 t6 t7 t8 t9 tA tB tC tD tE tF t))
  | HF t => hadd false tF (H0 (hmul_tab t1 t2 t3 t4 t5 t6 t7 t8 t9 tA tB tC tD tE tF t))
  end.
Definition hmul (x y : hx) : hx :=
  let t1 := y in
  let t2 := hadd false t1 t1 in
  let t3 := hadd false t2 y in
  let t4 := hadd false t2 t2 in
  let t5 := hadd false t4 y in
  let t6 := hadd false t3 t3 in
  let t7 := hadd false t6 y in
  let t8 := hadd false t4 t4 in
  let t9 := hadd false t8 y in
  let tA := hadd false t5 t5 in
  let tB := hadd false tA y in
  let tC := hadd false t6 t6 in
  let tD := hadd false tC y in
  let tE := hadd false t7 t7 in
  let tF := hadd false tE y in
  hmul_tab t1 t2 t3 t4 t5 t6 t7 t8 t9 tA tB tC tD tE tF x.
Lemma hmul_tab_ok (y : Z) (t1 t2 t3 t4 t5 t6 t7 t8 t9 tA tB tC tD tE tF : hx) (x : hx) :
  hval t1 = 1 * y ->
  hval t2 = 2 * y ->
  hval t3 = 3 * y ->
  hval t4 = 4 * y ->
  hval t5 = 5 * y ->
  hval t6 = 6 * y ->
  hval t7 = 7 * y ->
  hval t8 = 8 * y ->
  hval t9 = 9 * y ->
  hval tA = 10 * y ->
  hval tB = 11 * y ->
  hval tC = 12 * y ->
  hval tD = 13 * y ->
  hval tE = 14 * y ->
  hval tF = 15 * y ->
  hval (hmul_tab t1 t2 t3 t4 t5 t6 t7 t8 t9 tA tB tC tD tE tF x) = hval x * y.
Proof.
  intros. induction x as [|t IH|t IH|t IH|t IH|t IH|t IH|t IH|t IH|t IH|t IH|t IH|t IH|t IH|t IH|t IH|t IH]; cbn [hmul_tab]; rewrite ?hadd_ok; cbn [hval]; try lia; rewrite IH; nia.
Qed.
Lemma hmul_ok x y : hval (hmul x y) = hval x * hval y.
Proof. unfold hmul. apply hmul_tab_ok; rewrite ?hadd_ok; lia. Qed.

(** Conversions. *)
Fixpoint hof (x : positive) : hx :=
  match x with
  | xH => H1 HN
  | xO xH => H2 HN
  | xI xH => H3 HN
  | xO (xO xH) => H4 HN
  | xI (xO xH) => H5 HN
  | xO (xI xH) => H6 HN
  | xI (xI xH) => H7 HN
  | xO (xO (xO xH)) => H8 HN
  | xI (xO (xO xH)) => H9 HN
  | xO (xI (xO xH)) => HA HN
  | xI (xI (xO xH)) => HB HN
  | xO (xO (xI xH)) => HC HN
  | xI (xO (xI xH)) => HD HN
  | xO (xI (xI xH)) => HE HN
  | xI (xI (xI xH)) => HF HN
  | xO (xO (xO (xO x))) => H0 (hof x)
  | xI (xO (xO (xO x))) => H1 (hof x)
  | xO (xI (xO (xO x))) => H2 (hof x)
  | xI (xI (xO (xO x))) => H3 (hof x)
  | xO (xO (xI (xO x))) => H4 (hof x)
  | xI (xO (xI (xO x))) => H5 (hof x)
  | xO (xI (xI (xO x))) => H6 (hof x)
  | xI (xI (xI (xO x))) => H7 (hof x)
  | xO (xO (xO (xI x))) => H8 (hof x)
  | xI (xO (xO (xI x))) => H9 (hof x)
  | xO (xI (xO (xI x))) => HA (hof x)
  | xI (xI (xO (xI x))) => HB (hof x)
  | xO (xO (xI (xI x))) => HC (hof x)
  | xI (xO (xI (xI x))) => HD (hof x)
  | xO (xI (xI (xI x))) => HE (hof x)
  | xI (xI (xI (xI x))) => HF (hof x)
  end%positive.
Lemma hof_ok : forall x, hval (hof x) = Zpos x.
Proof.
  fix IH 1. intros [[[[x|x|]|[x|x|]|]|[[x|x|]|[x|x|]|]|]|[[[x|x|]|[x|x|]|]|[[x|x|]|[x|x|]|]|]|]; cbn [hof hval];
    rewrite ?IH; clear IH; lia.
Qed.
Definition push (b : bool) (z : Z) : Z :=
  match z with Z0 => if b then 1 else 0 | Zpos x => Zpos (if b then xI x else xO x) | Zneg x => z end.
Fixpoint hto (x : hx) : Z :=
  match x with
  | HN => 0
  | H0 t => push false (push false (push false (push false (hto t))))
  | H1 t => push true (push false (push false (push false (hto t))))
  | H2 t => push false (push true (push false (push false (hto t))))
  | H3 t => push true (push true (push false (push false (hto t))))
  | H4 t => push false (push false (push true (push false (hto t))))
  | H5 t => push true (push false (push true (push false (hto t))))
  | H6 t => push false (push true (push true (push false (hto t))))
  | H7 t => push true (push true (push true (push false (hto t))))
  | H8 t => push false (push false (push false (push true (hto t))))
  | H9 t => push true (push false (push false (push true (hto t))))
  | HA t => push false (push true (push false (push true (hto t))))
  | HB t => push true (push true (push false (push true (hto t))))
  | HC t => push false (push false (push true (push true (hto t))))
  | HD t => push true (push false (push true (push true (hto t))))
  | HE t => push false (push true (push true (push true (hto t))))
  | HF t => push true (push true (push true (push true (hto t))))
  end.
Lemma push_ok b z : 0 <= z -> push b z = (if b then 1 else 0) + 2 * z /\ 0 <= push b z.
Proof. destruct z, b; cbn [push]; lia. Qed.
Lemma push4 a b c d z : 0 <= z ->
  push a (push b (push c (push d z))) =
    (if a then 1 else 0) + 2 * ((if b then 1 else 0) + 2 * ((if c then 1 else 0) + 2 * ((if d then 1 else 0) + 2 * z))) /\
  0 <= push a (push b (push c (push d z))).
Proof.
  intros H. destruct (push_ok d z H) as [E1 N1]. destruct (push_ok c _ N1) as [E2 N2].
  destruct (push_ok b _ N2) as [E3 N3]. destruct (push_ok a _ N3) as [E4 N4].
  split; [rewrite E4, E3, E2, E1; reflexivity|exact N4].
Qed.
Lemma hto_ok x : hto x = hval x /\ 0 <= hto x.
Proof.
  induction x as [|t [E N]|t [E N]|t [E N]|t [E N]|t [E N]|t [E N]|t [E N]|t [E N]|t [E N]|t [E N]|t [E N]|t [E N]|t [E N]|t [E N]|t [E N]|t [E N]]; cbn [hto hval]; [lia|..];
    match goal with |- push ?a (push ?b (push ?c (push ?d _))) = _ /\ _ =>
      destruct (push4 a b c d _ N) as [K M]; split; [rewrite K, E; lia|exact M] end.
Qed.

Definition pmulz (x y : positive) : Z := hto (hmul (hof x) (hof y)).
Definition hexmul (a b : Z) : Z :=
  match a, b with
  | Zpos x, Zpos y | Zneg x, Zneg y => pmulz x y
  | Zpos x, Zneg y | Zneg x, Zpos y => - pmulz x y
  | _, _ => 0
  end.
Theorem hexmul_eq a b : hexmul a b = a * b.
Proof.
  assert (K : forall x y, pmulz x y = Zpos x * Zpos y).
  { intros x y. unfold pmulz. rewrite (proj1 (hto_ok _)), hmul_ok, !hof_ok. reflexivity. }
  destruct a, b; cbn [hexmul]; rewrite ?K; lia.
Qed.
