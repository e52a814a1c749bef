(** metsim/datetime.py, [date_range] (:11-72) as a whole.  Time stamps are
    minutes since 1970-01-01 00:00 of the standard calendar; the result is
    exact (the linspace of :63-66 is in 128 bit floats there). *)
From Coq Require Import ZArith QArith Qround String Ascii List Bool.
From Verif Require Import Model.Py Model.Calendar Model.Datetime Model.Header Model.Output.
Import ListNotations.
Local Open Scope Z_scope.

(** the calendars cftime knows, by CF name.  [None]: not modelled (julian,
    366_day, all_leap, and names cftime rejects). *)
Definition cf_calendar (name : string) : option calendar :=
  if str_in name ["proleptic_gregorian"]%string then Some Standard
  else if str_in name ["noleap"; "365_day"]%string then Some (Fixed NoLeap)
  else if str_in name ["360_day"]%string then Some (Fixed Days360)
  else None.

(** 0001-01-01, DEFAULT_ORIGIN (:8) *)
Definition default_origin : Z := -719162.

(** date2num in minutes since DEFAULT_ORIGIN (:58-60) *)
Definition minute_num (c : calendar) (t : Z) : res Z :=
  match c with
  | Standard => Ok (t - midnight default_origin)
  | Fixed k =>
      do d <- fixed_day_num k (civil_from_days (day_of t));
      Ok (d * minutes_per_day + t mod minutes_per_day)
  end.

(** cftime: the date of day [n] since DEFAULT_ORIGIN in a calendar of fixed
    year length *)
Definition fixed_month (doy : Z) : Z :=
  fold_left (fun m k => if noleap_cum k <=? doy then k else m) [2; 3; 4; 5; 6; 7; 8; 9; 10; 11; 12] 1.
Definition fixed_date (k : fixed_calendar) (n : Z) : civil :=
  match k with
  | NoLeap =>
      let m := fixed_month (n mod 365) in
      mkcivil (n / 365 + 1) m (n mod 365 - noleap_cum m + 1)
  | Days360 => mkcivil (n / 360 + 1) (n mod 360 / 30 + 1) (n mod 30 + 1)
  end.

(** number of days of a month of the standard calendar *)
Definition month_days (y m : Z) : Z :=
  if m =? 2 then (if is_leap y then 29 else 28)
  else if (m =? 4) || (m =? 6) || (m =? 9) || (m =? 11) then 30 else 31.

(** CFTimeIndex.to_datetimeindex (:67): the same date and time of day in the
    standard calendar, a ValueError if it has no such date *)
Definition real_day (k : fixed_calendar) (n : Z) : res Z :=
  let d := fixed_date k n in
  if c_day d <=? month_days (c_year d) (c_month d) then Ok (days_from_civil d) else Err ValueError.

Definition real_stamp (c : calendar) (q : Q) : res Q :=
  match c with
  | Standard => Ok (q + inject_Z (midnight default_origin))%Q
  | Fixed k =>
      let n := Qfloor (q / inject_Z minutes_per_day) in
      do d <- real_day k n;
      Ok (inject_Z (midnight d) + (q - inject_Z (midnight n)))%Q
  end.

(** pandas reads the frequency strings of MetSim as [decode_freq] does *)
Definition freq_step (freq : string) : res Z :=
  do nu <- decode_freq freq; Ok (fst nu * minutes_in (snd nu)).

Definition date_range (calendar : string) (start stop : Z) (freq : string) : option (res (list Q)) :=
  if is_standard calendar then                                              (* :50-53 *)
    Some (do s <- freq_step freq; do l <- pd_date_range start stop s; Ok (map inject_Z l))
  else
    match cf_calendar calendar with
    | None => None
    | Some c => Some (
        do s <- freq_step freq;                                             (* :57 *)
        do a <- minute_num c start; do b <- minute_num c stop;              (* :58-60 *)
        do l <- date_range_other a b s;                                     (* :61-66 *)
        mapM (real_stamp c) l)                                              (* :67 *)
    end.

(** ** The callers *)
(** the axis of the output files, metsim.py:530-549 *)
Definition calendar_axis (calendar : string) (start stop : Z) (ts : nat) (period_ending : bool)
  : option (res (list Q)) :=
  let ts' := Z.of_nat ts in
  let delta := if (ts' <? 1440)%Z then (1440 - ts')%Z else 0%Z in
  let offset := if period_ending then ts' else 0%Z in
  date_range calendar (start + offset) (stop + offset + delta) (freq_minutes ts).
