(** The proleptic Gregorian calendar and ISO dates, as a specification: day 0 is 1970-01-01,
    and consecutive days are related by the usual rules. *)
From Coq Require Import List NArith ZArith Bool String.
From Verif Require Import PyStr.
Import ListNotations.
Open Scope Z_scope.

Definition leap (y : Z) : bool := (y mod 4 =? 0) && (negb (y mod 100 =? 0) || (y mod 400 =? 0)).
Definition month_length (y m : Z) : Z :=
  if m =? 2 then (if leap y then 29 else 28)
  else if (m =? 4) || (m =? 6) || (m =? 9) || (m =? 11) then 30 else 31.
Definition valid_date (x : Z * Z * Z) : Prop :=
  let '(y, m, d) := x in 1 <= m <= 12 /\ 1 <= d <= month_length y m.
Definition next_day (x : Z * Z * Z) : Z * Z * Z :=
  let '(y, m, d) := x in
  if d <? month_length y m then (y, m, d + 1) else if m <? 12 then (y, m + 1, 1) else (y + 1, 1, 1).

(** [calendar n x]: the n-th day after 1970-01-01 is x. *)
Inductive calendar : Z -> Z * Z * Z -> Prop :=
| cal_epoch : calendar 0 (1970, 1, 1)
| cal_next n x : calendar n x -> calendar (n + 1) (next_day x)
| cal_prev n x : valid_date x -> calendar n (next_day x) -> calendar (n - 1) x.

(** YYYY-MM-DD. *)
Definition digit_char (d : Z) : N := Z.to_N (48 + d).
Definition iso_date (x : Z * Z * Z) : str :=
  let '(y, m, d) := x in
  [digit_char (y / 1000); digit_char (y / 100 mod 10); digit_char (y / 10 mod 10); digit_char (y mod 10)]
  ++ s "-" ++ [digit_char (m / 10); digit_char (m mod 10)]
  ++ s "-" ++ [digit_char (d / 10); digit_char (d mod 10)].
