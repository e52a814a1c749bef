(** metsim/datetime.py *)
From Coq Require Import ZArith List Bool QArith String Ascii.
From Verif Require Import Model.Py Model.Calendar.
Import ListNotations.
Local Open Scope Z_scope.

(** ** Calendars.  [date_range] distinguishes the names of
    datetime.py:50 (including the misspelt one) from all others. *)
Definition is_standard (calendar : string) : bool :=
  str_in calendar ["standard"; "gregorian"; "propoleptic_gregorian"]%string.

(** Calendars of fixed year length (external: cftime).  Minutes since
    0001-01-01 00:00 of that calendar. *)
Inductive fixed_calendar := NoLeap | Days360.

Definition noleap_cum (m : Z) : Z :=
  nth (Z.to_nat (m - 1)) [0; 31; 59; 90; 120; 151; 181; 212; 243; 273; 304; 334] 0.

(** date2num in days: ValueError for a date the calendar does not have *)
Definition fixed_day_num (c : fixed_calendar) (d : civil) : res Z :=
  match c with
  | NoLeap =>
      if (c_month d =? 2) && (c_day d =? 29) then Err ValueError
      else Ok (365 * (c_year d - 1) + noleap_cum (c_month d) + c_day d - 1)
  | Days360 =>
      if 30 <? c_day d then Err ValueError
      else Ok (360 * (c_year d - 1) + 30 * (c_month d - 1) + c_day d - 1)
  end.

(** ** [units_from_freq], datetime.py:85-94, and [decode_freq], :75-82 *)
Inductive time_unit := Hours | Days | Minutes.
Definition minutes_in (u : time_unit) : Z :=
  match u with Hours => 60 | Days => 1440 | Minutes => 1 end.

Fixpoint has_char (c : ascii) (s : string) : bool :=
  match s with
  | EmptyString => false
  | String c' r => Ascii.eqb c c' || has_char c r
  end.

Definition units_from_freq (freq : string) : res time_unit :=
  if has_char "H" freq then Ok Hours
  else if has_char "D" freq then Ok Days
  else if has_char "T" freq then Ok Minutes
  else Err NotImplementedError.

Definition is_digit (c : ascii) : bool :=
  let n := nat_of_ascii c in (48 <=? n)%nat && (n <=? 57)%nat.
Definition is_alpha (c : ascii) : bool :=
  let n := nat_of_ascii c in
  ((65 <=? n)%nat && (n <=? 90)%nat) || ((97 <=? n)%nat && (n <=? 122)%nat).

(** longest prefix of characters satisfying p, and the rest *)
Fixpoint span (p : ascii -> bool) (s : string) : string * string :=
  match s with
  | EmptyString => (EmptyString, EmptyString)
  | String c r => if p c then let (a, b) := span p r in (String c a, b)
                  else (EmptyString, s)
  end.

(** int(digits) *)
Fixpoint digits_val (acc : Z) (s : string) : Z :=
  match s with
  | EmptyString => acc
  | String c r => digits_val (acc * 10 + Z.of_nat (nat_of_ascii c - 48)) r
  end.

(** re.match('([0-9]+)([a-zA-Z]+)', freq).groups(); a failed match is
    [None.groups()], an AttributeError *)
Definition decode_freq (freq : string) : res (Z * time_unit) :=
  if (1 <? String.length freq)%nat then
    let (ds, rest) := span is_digit freq in
    let (us, _) := span is_alpha rest in
    match ds, us with
    | String _ _, String _ _ => do u <- units_from_freq us; Ok (digits_val 0 ds, u)
    | _, _ => Err AttributeError
    end
  else do u <- units_from_freq freq; Ok (1, u).

(** '{}T'.format(n) for n >= 0 needs decimal printing *)
Fixpoint nat_digits (fuel n : nat) (acc : string) : string :=
  match fuel with
  | O => acc
  | S f =>
      let acc := String (ascii_of_nat (48 + n mod 10)) acc in
      if (n <? 10)%nat then acc else nat_digits f (n / 10) acc
  end.
Definition nat_str (n : nat) : string := nat_digits (S n) n EmptyString.
Definition freq_minutes (ts : nat) : string := append (nat_str ts) "T".

(** ** [date_range] for other calendars, datetime.py:55-68.
    [start_num], [end_num] are date2num of start and end in units of
    [decode_freq freq]; the stamps are the linspace of :63-66 as exact
    rationals in that unit. *)
Definition linspace_Q (a b : Z) (n : Z) : list Q :=
  if n <=? 1 then (if n <=? 0 then [] else [inject_Z a])
  else map (fun k => inject_Z a + inject_Z (Z.of_nat k) * (inject_Z (b - a) / inject_Z (n - 1)))%Q
           (seq 0 (Z.to_nat n)).

Definition date_range_other (start_num end_num steps : Z) : res (list Q) :=
  if steps =? 0 then Err ZeroDivisionError
  else
    let periods := Z.quot (end_num - start_num) steps + 1 in      (* int(a/b) + 1, :61 *)
    if periods <? 0 then Err ValueError
    else Ok (linspace_Q start_num end_num periods).

(** daily range (freq='D', the default) between two midnights of the
    standard calendar, for a fixed-length calendar: number of stamps *)
Definition date_range_days (c : fixed_calendar) (start stop : civil) : res (list Q) :=
  do a <- fixed_day_num c start;
  do b <- fixed_day_num c stop;
  date_range_other a b 1.
