(** Dates.  The pandas / cftime routines that metsim/datetime.py and
    metsim/metsim.py call are external; the definitions of this file are
    their documented behaviour on whole days and minutes.

    A time stamp of the standard calendar is its number of minutes since
    1970-01-01 00:00 ([Z]); a day is its number of days since 1970-01-01. *)
From Coq Require Import ZArith List Bool QArith String Ascii.
From Verif Require Import Model.Py.
Import ListNotations.
Local Open Scope Z_scope.

Definition minutes_per_day : Z := 1440.

(** Timestamp.floor('D') as a day number *)
Definition day_of (t : Z) : Z := t / minutes_per_day.
Definition midnight (d : Z) : Z := d * minutes_per_day.

(** ** Proleptic Gregorian civil dates (days since 1970-01-01 <-> y/m/d) *)
Record civil := mkcivil { c_year : Z; c_month : Z; c_day : Z }.

Definition days_from_civil (c : civil) : Z :=
  let y := if c_month c <=? 2 then c_year c - 1 else c_year c in
  let era := y / 400 in
  let yoe := y - era * 400 in
  let mp := (c_month c + 9) mod 12 in
  let doy := (153 * mp + 2) / 5 + c_day c - 1 in
  let doe := yoe * 365 + yoe / 4 - yoe / 100 + doy in
  era * 146097 + doe - 719468.

Definition civil_from_days (z : Z) : civil :=
  let z := z + 719468 in
  let era := z / 146097 in
  let doe := z - era * 146097 in
  let yoe := (doe - doe / 1460 + doe / 36524 - doe / 146096) / 365 in
  let y := yoe + era * 400 in
  let doy := doe - (365 * yoe + yoe / 4 - yoe / 100) in
  let mp := (5 * doy + 2) / 153 in
  let d := doy - (153 * mp + 2) / 5 + 1 in
  let m := if mp <? 10 then mp + 3 else mp - 9 in
  mkcivil (if m <=? 2 then y + 1 else y) m d.

Definition is_leap (y : Z) : bool :=
  (y mod 4 =? 0) && (negb (y mod 100 =? 0) || (y mod 400 =? 0)).

(** DatetimeIndex.dayofyear (1-based) *)
Definition dayofyear (d : Z) : Z :=
  d - days_from_civil (mkcivil (c_year (civil_from_days d)) 1 1) + 1.
(** DatetimeIndex.month *)
Definition month_of (d : Z) : Z := c_month (civil_from_days d).

(** ** pd.date_range(start, end, freq = step): start + i*step while not
    beyond end.  [step] is non-zero. *)
Definition zrange (start step : Z) (n : Z) : list Z :=
  map (fun i => start + Z.of_nat i * step) (seq 0 (Z.to_nat n)).

Definition pd_date_range (start stop step : Z) : res (list Z) :=
  if step =? 0 then Err ValueError
  else Ok (zrange start step ((stop - start) / step + 1)).
