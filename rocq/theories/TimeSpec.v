(** Calendar specification, written independently of the code: Gregorian calendar by counting. *)
From Verif Require Import TimeModel.
Open Scope Z_scope.

Definition leap (y : Z) : bool := ((y mod 4 =? 0) && negb (y mod 100 =? 0)) || (y mod 400 =? 0).
Definition year_len (y : Z) : Z := if leap y then 366 else 365.
Definition month_len (y m : Z) : Z :=
  if m =? 2 then (if leap y then 29 else 28)
  else if (m =? 4) || (m =? 6) || (m =? 9) || (m =? 11) then 30 else 31.

(** days from 1970-01-01 to 1 January of year [1970 + n] *)
Fixpoint years_days (n : nat) : Z :=
  match n with O => 0 | S k => years_days k + year_len (1970 + Z.of_nat k) end.
(** days from 1 January to the first of month [1 + n] *)
Fixpoint months_days (y : Z) (n : nat) : Z :=
  match n with O => 0 | S k => months_days y k + month_len y (1 + Z.of_nat k) end.

(** number of days from 1970-01-01 to the first of month m of year y *)
Definition month_start (y m : Z) : Z := years_days (Z.to_nat (y - 1970)) + months_days y (Z.to_nat (m - 1)).
Definition day_number (y m d : Z) : Z := month_start y m + d - 1.

Definition valid_date (y m d : Z) : Prop :=
  1970 <= y <= 2099 /\ 1 <= m <= 12 /\ 1 <= d <= month_len y m.
Definition valid_tod (U h mi s : Z) : Prop := 0 <= h < 24 /\ 0 <= mi < 60 /\ 0 <= s < 60 * U.

(** total number of ticks since 1970-01-01 denoted by an internal time *)
Definition ticks (U : Z) (t : gtime) : Z := gt t * U + gs t.
Definition normal (U : Z) (t : gtime) : Prop := 0 <= gs t < U.

(** dates (UTC) on which a leap second became effective, since the GPS epoch (IERS Bulletin C) *)
Definition leap_dates : list (Z * Z * Z) :=
  [ (1981, 7, 1); (1982, 7, 1); (1983, 7, 1); (1985, 7, 1); (1988, 1, 1); (1990, 1, 1);
    (1991, 1, 1); (1992, 7, 1); (1993, 7, 1); (1994, 7, 1); (1996, 1, 1); (1997, 7, 1);
    (1999, 1, 1); (2006, 1, 1); (2009, 1, 1); (2012, 7, 1); (2015, 7, 1); (2017, 1, 1) ].
Definition leap_days : list Z := map (fun '(y, m, d) => day_number y m d) leap_dates.

(** number of leap seconds inserted up to the UTC instant [u] (ticks) *)
Definition leap_count (U : Z) (u : Z) : Z :=
  Z.of_nat (length (filter (fun dn => dn * 86400 * U <=? u) leap_days)).
