(** * Model of the parameter translator

    The crate in /repo/tools, src/main.rs.  A `BigUint` (num-bigint) is an unbounded
    non-negative integer; its subtraction panics below zero.  Numbers passed or printed as
    decimal or hexadecimal text are modelled by their values, byte strings by their bytes;
    functions that print return what they print.  The translation of numerals to values and
    back is modelled at the end of the file, with the functions that start from text. *)

From Coq Require Import ZArith List Bool.
From Verif Require Import Machine.
Import ListNotations.
Open Scope Z_scope.

(** num-bigint `BigUint - BigUint`, tools/src/main.rs 152, 212, 220, 232, 235. *)
Definition bsub (a b : Z) : res Z := if b <=? a then Ok (a - b) else Panic.

(** num-bigint `bits`, called in main.rs 139-140: length of the binary notation, 0 for 0. *)
Definition bits (m : Z) : Z := if m =? 0 then 0 else Z.log2 m + 1.

(** `as i32` of a usize, main.rs 139. *)
Definition as_i32 (n : Z) : Z := (n + 2 ^ 31) mod 2 ^ 32 - 2 ^ 31.

(** num-bigint `to_bytes_le`: base-256 digits from the lowest, no zeros at the end, [0] for
    0.  [fuel] bounds the number of digits. *)
Fixpoint to_bytes_le_loop (fuel : nat) (x : Z) : list Z :=
  match fuel with
  | O => []
  | S fuel' => if x =? 0 then [] else x mod 256 :: to_bytes_le_loop fuel' (x / 256)
  end.
(** num-bigint `to_bytes_le` with enough fuel, called in main.rs 55. *)
Definition to_bytes_le (x : Z) : list Z :=
  if x =? 0 then [0] else to_bytes_le_loop (Z.to_nat (bits x)) x.

(** main.rs 53-56 `hex_bytes_le`: the bytes printed. *)
Definition hex_bytes_le (num : Z) : list Z := to_bytes_le num.

(** main.rs 59-61 `num_from_bytes_le`: the number printed; `from_bytes_le` of num-bigint. *)
Fixpoint num_from_bytes_le (num : list Z) : Z :=
  match num with
  | [] => 0
  | b :: num' => b + 256 * num_from_bytes_le num'
  end.

(** main.rs 75-78 and 92-95, the loop `for _i in 0..5`. *)
Fixpoint push_digits (n : nat) (base num : Z) : list Z :=
  match n with
  | O => []
  | S n' => num mod base :: push_digits n' base (num / base)
  end.

(** main.rs 69-83 `to_field_elem_51`. *)
Definition to_field_elem_51 (num : Z) : list Z := push_digits 5 2251799813685248 num.

(** main.rs 86-100 `to_scalar_base_52`. *)
Definition to_scalar_base_52 (num : Z) : list Z := push_digits 5 4503599627370496 num.

(** main.rs 103-110 `from_scalar_base_52`, for an array of five limbs: the number printed. *)
Definition from_scalar_base_52 (limbs : list Z) : Z :=
  fold_left (fun r i => r + 4503599627370496 ^ Z.of_nat i * nth i limbs 0) (seq 0 5) 0.

(** main.rs 113-120 `from_field_elem_base_51`. *)
Definition from_field_elem_base_51 (limbs : list Z) : Z :=
  fold_left (fun r i => r + 2251799813685248 ^ Z.of_nat i * nth i limbs 0) (seq 0 5) 0.

(** main.rs 122-129 `struct Montgomery`. *)
Record montgomery : Type := MG { m_base : Z; m_m : Z; m_rrm : Z; m_n : Z }.

(** main.rs 132-144 `Montgomery::new`; [None] is `Err`. *)
Definition montgomery_new (m : Z) : option montgomery :=
  if (m <? 0) || Z.even m then None
  else Some (MG 2 m (Z.shiftl 1 (bits m * 2) mod m) (as_i32 (bits m))).

(** main.rs 148-151, the loop of `reduce`. *)
Fixpoint reduce_loop (n : nat) (m a : Z) : Z :=
  match n with
  | O => a
  | S n' => reduce_loop n' m (Z.shiftr (if negb (Z.even a) then a + m else a) 1)
  end.

(** main.rs 146-154 `reduce`. *)
Definition reduce (M : montgomery) (prop : Z) : res Z :=
  let a := reduce_loop (Z.to_nat (m_n M)) (m_m M) prop in
  if m_m M <=? a then bsub a (m_m M) else Ok a.

(** main.rs 157-184 `reduction`: the numbers printed, in order.  `as usize` of a negative
    `n` gives a shift that cannot be allocated; `modpow` is num-bigint's. *)
Definition reduction (m x1 x2 : Z) : res (list Z) :=
  M <- unwrap (montgomery_new m) ;;
  let t1 := x1 * m_rrm M in
  let t2 := x2 * m_rrm M in
  r1 <- reduce M t1 ;;
  r2 <- reduce M t2 ;;
  r <- (if m_n M <? 0 then Panic else Ok (Z.shiftl 1 (m_n M))) ;;
  v1 <- reduce M r1 ;;
  v2 <- reduce M r2 ;;
  Ok [m_base M; m_n M; r; m; t1; t2; r1; r2; x1; v1; x2; v2; x1 ^ x2 mod m_m M].

(** main.rs 187: the modulus written out in `phase1`. *)
Definition phase1_p : Z := 7237005577332262213973186563042994240832148273380272487819684194273658967345.

(** main.rs 194-229, the loop of `phase1`: u, v, r, s, and r at the end.  The counter k is
    a u64 that counts iterations and is only printed. *)
Fixpoint phase1_loop (fuel : nat) (u v r s : Z) : res Z :=
  match fuel with
  | O => NoFuel
  | S fuel' =>
    if 0 <? v then
      match Z.even u, Z.even v, v <? u, u <=? v with
      | true, _, _, _ => phase1_loop fuel' (u / 2) v r (s * 2)
      | false, true, _, _ => phase1_loop fuel' u (v / 2) (r * 2) s
      | false, false, true, _ => d <- bsub u v ;; phase1_loop fuel' (d / 2) v (r + s) (s * 2)
      | false, false, false, true => d <- bsub v u ;; phase1_loop fuel' u (d / 2) (r * 2) (r + s)
      | false, false, false, false => Panic
      end
    else Ok r
  end.

(** main.rs 186-236 `phase1`. *)
Definition phase1 (fuel : nat) (input : Z) : res Z :=
  r <- phase1_loop fuel phase1_p input 0 1 ;;
  r <- (if phase1_p <=? r then bsub r phase1_p else Ok r) ;;
  bsub phase1_p r.

(** main.rs 262-276 `EdwardsPoint::new`: the four arrays. *)
Definition tools_point (x y z t : Z) : list Z * list Z * list Z * list Z :=
  (to_scalar_base_52 x, to_scalar_base_52 y, to_scalar_base_52 z, to_scalar_base_52 t).

(** main.rs 13-50 `main`: the two arrays printed. *)
Definition tools_main : list Z * list Z :=
  (to_scalar_base_52 452312848583266388373324160190187140059081152887999797648174285421238281266,
   to_scalar_base_52 452312848583266388373324160190187140051835877600158453279131187530910662656).

(** num-bigint `from_str_radix`, the value of one ASCII character as a digit; 255 for
    characters that are none. *)
Definition digit_of (c : Z) : Z :=
  if (48 <=? c) && (c <=? 57) then c - 48
  else if (97 <=? c) && (c <=? 122) then c - 97 + 10
  else if (65 <=? c) && (c <=? 90) then c - 65 + 10
  else 255.

(** num-bigint `from_str_radix`, the loop over the characters from the highest digit. *)
Fixpoint parse_loop (radix acc : Z) (s : list Z) : res Z :=
  match s with
  | [] => Ok acc
  | c :: s' => if digit_of c <? radix then parse_loop radix (acc * radix + digit_of c) s' else Panic
  end.

(** num-bigint `from_str_radix` followed by `unwrap`, main.rs 54, 65, 72, 89: a text without
    digits or with another character panics, as does a radix not between 2 and 36.  The sign
    `+` and the separator `_`, accepted by some versions of the library, are left out. *)
Definition parse (radix : Z) (s : list Z) : res Z :=
  if (2 <=? radix) && (radix <=? 36) then
    match s with
    | [] => Panic
    | _ :: _ => parse_loop radix 0 s
    end
  else Panic.

(** num-bigint `Display` of a `BigUint`, called in main.rs 60 and 65: decimal digits, the
    highest first.  [fuel] bounds their number. *)
Fixpoint show_loop (fuel : nat) (x : Z) (out : list Z) : list Z :=
  match fuel with
  | O => out
  | S fuel' => if x =? 0 then out else show_loop fuel' (x / 10) (48 + x mod 10 :: out)
  end.
(** num-bigint `Display` with enough fuel, called in main.rs 60 and 65. *)
Definition show (x : Z) : list Z := if x =? 0 then [48] else show_loop (Z.to_nat (bits x)) x [].

(** main.rs 64-66 `from_radix_to_radix_10`: the characters printed. *)
Definition from_radix_to_radix_10 (num : list Z) (radix : Z) : res (list Z) :=
  x <- parse radix num ;; Ok (show x).

(** main.rs 53-56 `hex_bytes_le` from the text of its argument. *)
Definition hex_bytes_le_str (num : list Z) : res (list Z) := x <- parse 10 num ;; Ok (hex_bytes_le x).

(** main.rs 59-61 `num_from_bytes_le`: the characters printed. *)
Definition num_from_bytes_le_str (num : list Z) : list Z := show (num_from_bytes_le num).

(** main.rs 86-100 `to_scalar_base_52` from the text of its argument. *)
Definition to_scalar_base_52_str (num : list Z) : res (list Z) := x <- parse 10 num ;; Ok (to_scalar_base_52 x).

(** main.rs 262-276 `EdwardsPoint::new` from the texts of its arguments. *)
Definition tools_point_str (x y z t : list Z) : res (list Z * list Z * list Z * list Z) :=
  a <- to_scalar_base_52_str x ;;
  b <- to_scalar_base_52_str y ;;
  c <- to_scalar_base_52_str z ;;
  d <- to_scalar_base_52_str t ;;
  Ok (a, b, c, d).
