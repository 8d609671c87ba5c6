(** Calendars and dates as used by geocat/comp/climatologies.py through pandas, cftime and xarray (the trusted calendar
    semantics): CF calendars, timestamps, calendar periods (resampling frequencies) and their boundaries.

    Simplifications: timestamps have whole seconds; the mixed calendar "standard" is treated as "proleptic_gregorian"
    (they agree from 1582-10-15 on). *)
From Coq Require Import ZArith List Bool Lia.
Import ListNotations.
Local Open Scope Z_scope.

(** proleptic_gregorian (and np.datetime64, climatologies.py:119-120), julian, noleap, all_leap, 360_day *)
Inductive cal := Greg | Julian | NoLeap | AllLeap | D360.

(** Not in /repo: leap years of the CF calendars. *)
Definition leap (c : cal) (y : Z) : bool :=
  match c with
  | Greg => (y mod 4 =? 0) && (negb (y mod 100 =? 0) || (y mod 400 =? 0))
  | Julian => y mod 4 =? 0
  | NoLeap | D360 => false
  | AllLeap => true
  end.
(** days in month m (1..12), .dt.days_in_month *)
Definition mlen (c : cal) (y m : Z) : Z :=
  match c with
  | D360 => 30
  | _ => if m =? 2 then (if leap c y then 29 else 28)
         else if (m =? 4) || (m =? 6) || (m =? 9) || (m =? 11) then 30 else 31
  end.
(** days before 1 January of year y, counted from 0001-01-01 *)
Definition ystart (c : cal) (y : Z) : Z :=
  match c with
  | Greg => 365 * (y - 1) + (y - 1) / 4 - (y - 1) / 100 + (y - 1) / 400
  | Julian => 365 * (y - 1) + (y - 1) / 4
  | NoLeap => 365 * (y - 1)
  | AllLeap => 366 * (y - 1)
  | D360 => 360 * (y - 1)
  end.
(** months are numbered q = 12 year + (month - 1) *)
Definition mnum (y m : Z) : Z := 12 * y + (m - 1).
(** Not in /repo: days in month q. *)
Definition qlen (c : cal) (q : Z) : Z := mlen c (q / 12) (q mod 12 + 1).
(** days before the first of month q *)
Definition mstart (c : cal) (q : Z) : Z :=
  ystart c (q / 12) + fold_left Z.add (map (fun j => mlen c (q / 12) (Z.of_nat j + 1)) (seq 0 (Z.to_nat (q mod 12)))) 0.

(** a timestamp: year, month, day, second of the day *)
Record time := mkTime { yr : Z; mo : Z; dy : Z; sec : Z }.
(** Not in /repo: an existing timestamp. *)
Definition valid (c : cal) (t : time) : Prop := 1 <= mo t <= 12 /\ 1 <= dy t <= mlen c (yr t) (mo t) /\ 0 <= sec t < 86400.
(** Not in /repo: the month number of a timestamp. *)
Definition tmonth (t : time) : Z := mnum (yr t) (mo t).
(** seconds since 0001-01-01 *)
Definition instant (c : cal) (t : time) : Z := 86400 * (mstart c (tmonth t) + (dy t - 1)) + sec t.

(** resampling frequencies 'h', 'D', 'MS', 'QS-..' (anchored at a month number 1..12), 'YS' *)
Inductive per := Hour | Day | Month | Quarter (anchor : Z) | Year.
(** first month of period p, for the frequencies made of whole months *)
Definition pmonth (f : per) (p : Z) : Z :=
  match f with Quarter a => 3 * p + (a - 1) | Year => 12 * p | _ => p end.
(** the instant at which period p begins *)
Definition pstart (c : cal) (f : per) (p : Z) : Z :=
  match f with
  | Hour => 3600 * p
  | Day => 86400 * p
  | _ => 86400 * mstart c (pmonth f p)
  end.
(** the period of a timestamp: the offset's rollback *)
Definition pnum (c : cal) (f : per) (t : time) : Z :=
  match f with
  | Hour => instant c t / 3600
  | Day => instant c t / 86400
  | Month => tmonth t
  | Quarter a => (tmonth t - (a - 1)) / 3
  | Year => tmonth t / 12
  end.

(** the date r days after the first of month q, at most n months later *)
Fixpoint advance (c : cal) (n : nat) (q r : Z) : Z * Z :=
  match n with
  | O => (q, r)
  | S n => if r <? qlen c q then (q, r) else advance c n (q + 1) (r - qlen c q)
  end.
(** a year at most two years before the one containing day n *)
Definition year_guess (c : cal) (n : Z) : Z :=
  1 + match c with
      | Greg => 400 * (n / 146097) + (n mod 146097) / 366
      | Julian => 4 * (n / 1461) + (n mod 1461) / 366
      | NoLeap => n / 365
      | AllLeap => n / 366
      | D360 => n / 360
      end.
(** the timestamp of an instant *)
Definition date_of (c : cal) (z : Z) : time :=
  let n := z / 86400 in
  let y := year_guess c n in
  let '(q, r) := advance c 36 (mnum y 1) (n - ystart c y) in
  mkTime (q / 12) (q mod 12 + 1) (r + 1) (z mod 86400).
