(** Vocabulary for statements about output times and files. *)
From Coq Require Import ZArith String List Bool Sorting.Sorted.
From Verif Require Import Model.Calendar.
Import ListNotations.
Local Open Scope Z_scope.

(** the time steps a run can use *)
Definition legal_time_step (ts : Z) : Prop :=
  0 < ts /\ (1440 mod ts = 0) /\ (ts <= 360 \/ ts = 1440).

(** earlier stamps never fall into later bins *)
Definition monotone_bins (bin : Z -> Z) : Prop := forall t t', t <= t' -> bin t <= bin t'.

(** every bin is a union of whole days *)
Definition whole_day_bins (bin : Z -> Z) : Prop :=
  forall t t', t / 1440 = t' / 1440 -> bin t = bin t'.

(** stamps from 0000-03-01 to 9999-12-31, whose year has at most four digits *)
Definition four_digit_year (t : Z) : Prop := -719468 * 1440 <= t < 2932897 * 1440.

(** bins of two days, for examples *)
Definition two_days (t : Z) : Z := t / 2880.

(** a day later the bin is the same or the next one *)
Definition daily_steps (bin : Z -> Z) : Prop := forall t, bin (t + 1440) <= bin t + 1.

(** the frequencies of output files, and when two stamps belong to the same
    period: a date, a week from Monday (1969-12-29 was one), a month, a year *)
Definition date_of (t : Z) : civil := civil_from_days (t / 1440).
Definition monday_of (t : Z) : Z := t / 1440 - (t / 1440 + 3) mod 7.
Definition same_date (t t' : Z) : Prop := date_of t = date_of t'.
Definition same_week (t t' : Z) : Prop := monday_of t = monday_of t'.
Definition same_month (t t' : Z) : Prop :=
  c_year (date_of t) = c_year (date_of t') /\ c_month (date_of t) = c_month (date_of t').
Definition same_year (t t' : Z) : Prop := c_year (date_of t) = c_year (date_of t').
Definition periods : list (string * (Z -> Z -> Prop)) :=
  [("D", same_date); ("W", same_week); ("M", same_month); ("MS", same_month);
   ("A", same_year); ("AS", same_year); ("Y", same_year); ("YS", same_year)]%string.

(** [s] is the date of day [d] as YYYYMMDD *)
Definition number_text (s : string) : Prop :=
  forall i c, String.get i s = Some c -> (48 <= Ascii.nat_of_ascii c <= 57)%nat.
Fixpoint number_value (acc : Z) (s : string) : Z :=
  match s with EmptyString => acc | String c r => number_value (10 * acc + (Z.of_nat (Ascii.nat_of_ascii c) - 48)) r end.
Definition date_text (s : string) (d : Z) : Prop :=
  String.length s = 8%nat /\ number_text s /\
  days_from_civil (mkcivil (number_value 0 (substring 0 4 s)) (number_value 0 (substring 4 2 s)) (number_value 0 (substring 6 2 s))) = d.
