(** Model of how numbers are read from text and written as text: base/string_util.cc 84-105 and 167-177 (FromString and StringToDouble,
    which use operator>> of a stream in the classic locale) and 129-135 (ToString(double), which uses operator<< with precision 15).
    The library: a double is read correctly rounded (IEEE 754 binary64, ties to even), a value too large for it becomes the largest
    double (C++11 [facet.num.get.virtuals]), what is no number becomes zero; it is written with 15 significant digits, correctly
    rounded, in the format %.15g. *)
From Coq Require Import ZArith Floats.SpecFloat.
From Verif Require Import Common StringsModel CoordModel Doubles.
Local Open Scope Z_scope.

(** The integer nearest to a / b (0 < b), the even one of two. *)
Definition nearest_int (a b : Z) : Z :=
  let q := a / b in
  match 2 * (a mod b) ?= b with Lt => q | Gt => q + 1 | Eq => if Z.even q then q else q + 1 end.
(** a / b divided by base^e, as a fraction. *)
Definition scaled (base e a b : Z) : Z * Z := if 0 <=? e then (a, b * base ^ e) else (a * base ^ (- e), b).
(** The k with base^k <= a / b < base^(k+1), for 0 < a and 0 < b. *)
Fixpoint log_up (n : nat) (base a b k : Z) : Z :=
  match n with O => k | S n => if a <? base * b then k else log_up n base a (base * b) (k + 1) end.
Fixpoint log_down (n : nat) (base a b k : Z) : Z :=
  match n with O => k | S n => if b <=? a then k else log_down n base (base * a) b (k - 1) end.
Definition ilog (base a b : Z) : Z :=
  if b <=? a then log_up (S (Z.to_nat (Z.log2 a))) base a b 0 else log_down (S (S (Z.to_nat (Z.log2 b)))) base a b 0.
(** a / b rounded to a multiple of base^e, with p digits. *)
Definition round_at (base p e a b : Z) : Z * Z :=
  let '(a, b) := scaled base e a b in
  let m := nearest_int a b in
  if m =? base ^ p then (base ^ (p - 1), e + 1) else (m, e).

(** The double nearest to a / b: its integer and its exponent of two (IEEE 754, 53 digits, no exponent below -1074). *)
Definition to_binary (a b : Z) : Z * Z := round_at 2 53 (Z.max (ilog 2 a b - 52) (-1074)) a b.
(** The value (-1)^neg * d * 10^e as a double. *)
Definition decimal_to_double (neg : bool) (d e : Z) : double :=
  if d <=? 0 then S754_zero neg
  else
    let '(a, b) := if 0 <=? e then (d * 10 ^ e, 1) else (d, 10 ^ (- e)) in
    let '(m, x) := to_binary a b in
    if 971 <? x then S754_finite neg (2 ^ 53 - 1) 971
    else match m with Zpos p => S754_finite neg p x | _ => S754_zero neg end.

(** Digits as a number. *)
Definition digit_value (c : ascii) : Z := Z.of_N (N_of_ascii c) - 48.
Definition digits_value (s : str) : Z := fold_left (fun v c => 10 * v + digit_value c) s 0.
Definition read_sign (s : str) : bool * str :=
  match s with c :: t => if aeq c "-"%char then (true, t) else if aeq c "+"%char then (false, t) else (false, s) | [] => (false, s) end.
(** What operator>> takes for a double: sign, digits with a point, exponent. None: no number. *)
Definition read_decimal (s : str) : option (bool * Z * Z) :=
  let '(neg, s) := read_sign s in
  let i := take_while isdigit s in
  let s := drop_while isdigit s in
  let '(f, s) := match s with c :: t => if aeq c "."%char then (take_while isdigit t, drop_while isdigit t) else ([], s) | [] => ([], s) end in
  match i ++ f with
  | [] => None
  | ds =>
      let fl := Z.of_nat (length f) in
      match s with
      | c :: t =>
          if aeq c "e"%char || aeq c "E"%char then
            let '(en, t) := read_sign t in
            match take_while isdigit t with
            | [] => None
            | x => Some (neg, digits_value ds, (if en then - digits_value x else digits_value x) - fl)
            end
          else Some (neg, digits_value ds, - fl)
      | [] => Some (neg, digits_value ds, - fl)
      end
  end.
Definition read_double (tok : str) : double :=
  match read_decimal tok with Some (neg, d, e) => decimal_to_double neg d e | None => S754_zero false end.

(** Writing: m * 2^e with 15 significant digits is n * 10^k with 10^14 <= n < 10^15. *)
Definition fraction (m e : Z) : Z * Z := if 0 <=? e then (m * 2 ^ e, 1) else (m, 2 ^ (- e)).
Definition to_decimal (a b : Z) : Z * Z := round_at 10 15 (ilog 10 a b - 14) a b.
(** Trailing zeros are left out: w digits remain. *)
Fixpoint strip (w : nat) (n : Z) : nat * Z :=
  match w with
  | S (S _ as w') => if n mod 10 =? 0 then strip w' (n / 10) else (w, n)
  | _ => (w, n)
  end.
Definition digit_char (d : Z) : ascii := ascii_of_N (Z.to_N (d + 48)).
Fixpoint digits_text (w : nat) (n : Z) : str :=
  match w with O => [] | S w => digits_text w (n / 10) ++ [digit_char (n mod 10)] end.
Definition zeros (n : Z) : str := repeat "0"%char (Z.to_nat n).
(** The digits [n] ([w] of them) with the decimal exponent [x] of the first, in the format %.15g. *)
Definition general_text (w : nat) (n x : Z) : str :=
  let ds := digits_text w n in
  if (x <? -4) || (15 <=? x) then
    firstn 1 ds ++ match skipn 1 ds with [] => [] | r => S_ "." ++ r end ++ S_ "e" ++
    (if x <? 0 then S_ "-" else S_ "+") ++ digits_text (if Z.abs x <? 100 then 2 else 3) (Z.abs x)
  else if x <? 0 then S_ "0." ++ zeros (- x - 1) ++ ds
  else
    let k := Z.to_nat (x + 1) in
    if (w <=? k)%nat then ds ++ zeros (x + 1 - Z.of_nat w) else firstn k ds ++ S_ "." ++ skipn k ds.
Definition print_positive (m e : Z) : str :=
  let '(a, b) := fraction m e in
  let '(n, k) := to_decimal a b in
  let '(w, d) := strip 15 n in
  general_text w d (k + 14).
(** string_util.cc:129-135 ToString(double). *)
Definition print_double (x : double) : str :=
  match x with
  | S754_zero s => (if s then S_ "-" else []) ++ S_ "0"
  | S754_infinity s => (if s then S_ "-" else []) ++ S_ "inf"
  | S754_nan => S_ "nan"
  | S754_finite s m e => (if s then S_ "-" else []) ++ print_positive (Zpos m) e
  end.

(** string_util.cc:93-105 FromString to int; None: the variable is not written. A number out of range becomes the
    nearest int, what is no number becomes zero. *)
Definition read_int (s : str) : option Z :=
  match s with
  | [] => Some 0
  | _ =>
      match drop_while isspace s with
      | [] => None
      | t =>
          let '(neg, t) := read_sign t in
          let v := digits_value (take_while isdigit t) in
          Some (Z.max (- 2 ^ 31) (Z.min (2 ^ 31 - 1) (if neg then - v else v)))
      end
  end.
(** string_util.h:90-96 ToString of an int. *)
Fixpoint nat_text (fuel : nat) (n : Z) : str :=
  match fuel with O => [] | S f => (if n <? 10 then [] else nat_text f (n / 10)) ++ [digit_char (n mod 10)] end.
Definition print_int (z : Z) : str := (if z <? 0 then S_ "-" else []) ++ nat_text 20 (Z.abs z).
