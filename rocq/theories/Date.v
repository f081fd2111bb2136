(** nodes/node_date.py:47-48:
      sec = int(self.attrs.timestamp) / 1000
      return str(datetime.fromtimestamp(sec, tz=timezone.utc).date())
    with CPython's arithmetic written out over Z. *)
From Coq Require Import List NArith ZArith Bool String.
From Verif Require Import PyStr Values.
Import ListNotations.
Open Scope list_scope.
Open Scope Z_scope.

(** ---------------------------------------------------------------- int(x) *)
(** White space skipped by [int(str)] (CPython PyLong_FromUnicodeObject: ASCII blanks
    9..13 and 32, plus every non-ASCII [isspace] character). *)
Definition int_ws (c : N) : bool :=
  (((9 <=? c) && (c <=? 13)) || (c =? 32) || ((128 <=? c) && is_ws c))%N.

(** Decimal digit value; [digit] gives the value of non-ASCII decimal digits. *)
Definition digit_val (digit : N -> option Z) (c : N) : option Z :=
  if ((48 <=? c) && (c <=? 57))%N then Some (Z.of_N c - 48)
  else if (c <? 128)%N then None else digit c.

(** digit+ ('_' digit+)* : returns value and number of digits. [ok_us]: the previous
    character was a digit, so an underscore or the end may come. *)
Fixpoint int_digits (digit : N -> option Z) (x : str) (acc : Z) (cnt : nat) (prev_digit : bool) : option (Z * nat) :=
  match x with
  | [] => if prev_digit then Some (acc, cnt) else None
  | c :: r =>
      if (c =? 95)%N then (if prev_digit then int_digits digit r acc cnt false else None)
      else match digit_val digit c with
           | Some v => int_digits digit r (acc * 10 + v) (S cnt) true
           | None => None
           end
  end.

(** CPython's default limit on the number of digits (sys.int_info.default_max_str_digits). *)
Definition max_str_digits : N := 4300%N.

Definition int_of_str (digit : N -> option Z) (x : str) : res Z :=
  let y := lstrip_by int_ws (rstrip_by int_ws x) in
  let '(neg, z) := match y with
                   | c :: r => if (c =? 45)%N then (true, r) else if (c =? 43)%N then (false, r) else (false, y)
                   | [] => (false, y)
                   end in
  match int_digits digit z 0 0 false with
  | Some (v, cnt) => if (max_str_digits <? N.of_nat cnt)%N then Err ValueError
                     else Ok (if neg : bool then - v else v)
  | None => Err ValueError
  end.

(** [int(v)]. *)
Definition py_int (digit : N -> option Z) (v : value) : res Z :=
  match v with
  | VInt z => Ok z
  | VBool b => Ok (if b then 1 else 0)
  | VFloat (FFin m e) => Ok (if 0 <=? e then m * 2 ^ e else Z.quot m (2 ^ (- e)))
  | VFloat (FInf _) => Err ERange
  | VFloat FNaN => Err ValueError
  | VStr x => int_of_str digit x
  | VNone | VList _ | VDict _ | VOpt => Err TypeError
  end.

(** ---------------------------------------------------------------- int / 1000 *)
(** Round-half-even of num/den (num >= 0, den > 0). *)
Definition rne (num den : Z) : Z :=
  let q := num / den in
  let r := num mod den in
  if 2 * r <? den then q else if den <? 2 * r then q + 1 else if Z.even q then q else q + 1.

(** [n / 1000] for n > 0, correctly rounded to binary64: mantissa and exponent (m * 2^e).
    Subnormals cannot occur (n/1000 >= 0.001); overflow is subsumed by the year check,
    both raising a member of [ERange]. *)
Definition div1000 (n : Z) : Z * Z :=
  let l := Z.log2 n in
  let top := if 1000 * 2 ^ l <=? n * 2 ^ 9 then l - 9 else l - 10 in
  let e := top - 52 in
  if 0 <=? e then (rne n (1000 * 2 ^ e), e) else (rne (n * 2 ^ (- e)) 1000, e).

(** ---------------------------------------------------------------- fromtimestamp *)
(** Round the non-negative integer [p] to 53 significant bits, half to even. *)
Definition round53 (p : Z) : Z :=
  let b := Z.log2 p in
  if b <=? 52 then p else rne p (2 ^ (b - 52)) * 2 ^ (b - 52).

(** _PyTime_DoubleToDenominator (CPython Python/pytime.c) with denominator 1e6 and
    ROUND_HALF_EVEN on the double [(-1)^neg * m * 2^e]: the whole seconds. *)
Definition whole_seconds (neg : bool) (m e : Z) : Z :=
  if 0 <=? e then (if neg then - (m * 2 ^ e) else m * 2 ^ e)
  else
    let d := 2 ^ (- e) in
    let ip := m / d in                          (* modf *)
    let fr := m mod d in
    let us := rne (round53 (fr * 1000000)) d in (* floatpart *= 1e6; round *)
    if neg
    then (if 0 <? us then - ip - 1 else - ip)   (* floatpart < 0: intpart -= 1 *)
    else (if 1000000 <=? us then ip + 1 else ip).

(** gmtime: days since 1970-01-01 to the proleptic Gregorian (year, month, day)
    (the usual era-based algorithm). *)
Definition civil_of_days (days : Z) : Z * Z * Z :=
  let z := days + 719468 in
  let era := z / 146097 in
  let doe := z mod 146097 in
  let yoe := (doe - doe / 1460 + doe / 36524 - doe / 146096) / 365 in
  let doy := doe - (365 * yoe + yoe / 4 - yoe / 100) in
  let mp := (5 * doy + 2) / 153 in
  let d := doy - (153 * mp + 2) / 5 + 1 in
  let m := if mp <? 10 then mp + 3 else mp - 9 in
  let y := yoe + era * 400 + (if m <=? 2 then 1 else 0) in
  (y, m, d).

(** Zero-padded decimal. *)
Definition pad (w : nat) (n : Z) : str :=
  let x := dec n in repeat_nat (s "0") (w - List.length x) ++ x.

(** [str(date)]: ISO format; years outside 1..9999 raise. *)
Definition date_of_seconds (sec : Z) : res str :=
  let '(y, m, d) := civil_of_days (sec / 86400) in
  if (1 <=? y) && (y <=? 9999)
  then Ok (pad 4 y ++ s "-" ++ pad 2 m ++ s "-" ++ pad 2 d)
  else Err ERange.

(** node_date.py:47-48. *)
Definition date_to_markdown (digit : N -> option Z) (timestamp : value) : res str :=
  do n <- py_int digit timestamp;
  if n =? 0 then date_of_seconds 0
  else let '(m, e) := div1000 (Z.abs n) in
       date_of_seconds (whole_seconds (n <? 0) m e).
