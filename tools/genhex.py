# Writes theories/FastMul.v: multiplication of integers digit by digit in base 16.
H = "0123456789ABCDEF"
o = []
w = o.append
w("""(** * Multiplication in base 16

    Generated by tools/genhex.py.  The independent checker evaluates numerical checks without
    a virtual machine, one bit of a product at a time.  [hexmul] is the product of the integers
    computed on hexadecimal digits; it is proved equal to the product of the library, and
    only makes checking faster. *)

From Coq Require Import ZArith Lia Bool.
Open Scope Z_scope.

(** Hexadecimal digits, lowest first. *)
Inductive hx : Set := HN""" + "".join(f" | H{c} (t : hx)" for c in H) + ".")
w("Fixpoint hval (x : hx) : Z :=\n  match x with\n  | HN => 0")
for i, c in enumerate(H):
    w(f"  | H{c} t => {i} + 16 * hval t" if i else f"  | H{c} t => 16 * hval t")
w("  end.")
w("Fixpoint hsucc (x : hx) : hx :=\n  match x with\n  | HN => H1 HN")
for i, c in enumerate(H):
    w(f"  | H{c} t => H{H[i+1]} t" if i < 15 else f"  | H{c} t => H0 (hsucc t)")
w("  end.")
w("""Lemma hsucc_ok x : hval (hsucc x) = 1 + hval x.
Proof. induction x; cbn [hsucc hval]; rewrite ?IHx; lia. Qed.
""")
w("(** Sum with a carry. *)")
w("Fixpoint hadd (c : bool) (x y : hx) {struct x} : hx :=\n  match x with\n  | HN => if c then hsucc y else y")
for i, a in enumerate(H):
    w(f"  | H{a} s => match y with\n    | HN => if c then hsucc x else x")
    for j, b in enumerate(H):
        n = i + j
        def br(k): return f"H{H[k % 16]} (hadd {'true' if k > 15 else 'false'} s t)"
        w(f"    | H{b} t => if c then {br(n+1)} else {br(n)}")
    w("    end")
w("  end.")
w("""Lemma hadd_ok x : forall c y, hval (hadd c x y) = (if c then 1 else 0) + hval x + hval y.
Proof.
  induction x as [""" + "|".join(["" if k == 0 else "s IH" for k in range(17)]) + """]; intros c y;
    [destruct c; cbn [hadd hval]; rewrite ?hsucc_ok; lia|..];
    (destruct y as [""" + "|".join(["" if k == 0 else "t" for k in range(17)]) + """];
     [destruct c; cbn [hadd]; rewrite ?hsucc_ok; cbn [hval]; lia|..];
     destruct c; cbn [hadd hval]; rewrite IH; lia).
Qed.
""")
w("(** Product: the multiples of the right factor by the digits are computed once. *)")
ts = " ".join(f"t{c}" for c in H[1:])
w(f"Fixpoint hmul_tab ({ts} : hx) (x : hx) : hx :=\n  match x with\n  | HN => HN")
for i, c in enumerate(H):
    r = f"H0 (hmul_tab {ts} t)"
    w(f"  | H{c} t => {r}" if i == 0 else f"  | H{c} t => hadd false t{c} ({r})")
w("  end.")
w("Definition hmul (x y : hx) : hx :=")
for i, c in enumerate(H[1:], 1):
    if i == 1: w("  let t1 := y in")
    elif i % 2 == 0: w(f"  let t{c} := hadd false t{H[i//2]} t{H[i//2]} in")
    else: w(f"  let t{c} := hadd false t{H[i-1]} y in")
w(f"  hmul_tab {ts} x.")
w(f"Lemma hmul_tab_ok (y : Z) ({ts} : hx) (x : hx) :")
for i, c in enumerate(H[1:], 1):
    w(f"  hval t{c} = {i} * y ->")
w(f"  hval (hmul_tab {ts} x) = hval x * y.")
w("""Proof.
  intros. induction x as [""" + "|".join(["" if k == 0 else "t IH" for k in range(17)]) + """]; cbn [hmul_tab]; rewrite ?hadd_ok; cbn [hval]; try lia; rewrite IH; nia.
Qed.
Lemma hmul_ok x y : hval (hmul x y) = hval x * hval y.
Proof. unfold hmul. apply hmul_tab_ok; rewrite ?hadd_ok; lia. Qed.
""")
w("(** Conversions. *)")
w("Fixpoint hof (x : positive) : hx :=\n  match x with")
def pat(bits, tail):
    s = tail
    for b in reversed(bits):
        s = f"{'xI' if b else 'xO'} {s if s == tail else '(' + s + ')'}"
    return s
for n in range(1, 16):
    bits = []
    m = n
    while m > 1: bits.append(m & 1); m >>= 1
    w(f"  | {pat(bits, 'xH')} => H{H[n]} HN")
for n in range(16):
    bits = [(n >> k) & 1 for k in range(4)]
    w(f"  | {pat(bits, 'x')} => H{H[n]} (hof x)")
w("  end%positive.")
w("""Lemma hof_ok : forall x, hval (hof x) = Zpos x.
Proof.
  fix IH 1. intros [[[[x|x|]|[x|x|]|]|[[x|x|]|[x|x|]|]|]|[[[x|x|]|[x|x|]|]|[[x|x|]|[x|x|]|]|]|]; cbn [hof hval];
    rewrite ?IH; clear IH; lia.
Qed.
Definition push (b : bool) (z : Z) : Z :=
  match z with Z0 => if b then 1 else 0 | Zpos x => Zpos (if b then xI x else xO x) | Zneg x => z end.
Fixpoint hto (x : hx) : Z :=
  match x with
  | HN => 0""")
for n, c in enumerate(H):
    s = "hto t"
    for k in (3, 2, 1, 0):
        s = f"push {'true' if (n >> k) & 1 else 'false'} ({s})"
    w(f"  | H{c} t => {s}")
w("""  end.
Lemma push_ok b z : 0 <= z -> push b z = (if b then 1 else 0) + 2 * z /\\ 0 <= push b z.
Proof. destruct z, b; cbn [push]; lia. Qed.
Lemma push4 a b c d z : 0 <= z ->
  push a (push b (push c (push d z))) =
    (if a then 1 else 0) + 2 * ((if b then 1 else 0) + 2 * ((if c then 1 else 0) + 2 * ((if d then 1 else 0) + 2 * z))) /\\
  0 <= push a (push b (push c (push d z))).
Proof.
  intros H. destruct (push_ok d z H) as [E1 N1]. destruct (push_ok c _ N1) as [E2 N2].
  destruct (push_ok b _ N2) as [E3 N3]. destruct (push_ok a _ N3) as [E4 N4].
  split; [rewrite E4, E3, E2, E1; reflexivity|exact N4].
Qed.
Lemma hto_ok x : hto x = hval x /\\ 0 <= hto x.
Proof.
  induction x as [""" + "|".join(["" if k == 0 else "t [E N]" for k in range(17)]) + """]; cbn [hto hval]; [lia|..];
    match goal with |- push ?a (push ?b (push ?c (push ?d _))) = _ /\\ _ =>
      destruct (push4 a b c d _ N) as [K M]; split; [rewrite K, E; lia|exact M] end.
Qed.

Definition pmulz (x y : positive) : Z := hto (hmul (hof x) (hof y)).
Definition hexmul (a b : Z) : Z :=
  match a, b with
  | Zpos x, Zpos y | Zneg x, Zneg y => pmulz x y
  | Zpos x, Zneg y | Zneg x, Zpos y => - pmulz x y
  | _, _ => 0
  end.
Theorem hexmul_eq a b : hexmul a b = a * b.
Proof.
  assert (K : forall x y, pmulz x y = Zpos x * Zpos y).
  { intros x y. unfold pmulz. rewrite (proj1 (hto_ok _)), hmul_ok, !hof_ok. reflexivity. }
  destruct a, b; cbn [hexmul]; rewrite ?K; lia.
Qed.""")
open("/verif/rocq/theories/FastMul.v", "w").write("\n".join(o) + "\n")
