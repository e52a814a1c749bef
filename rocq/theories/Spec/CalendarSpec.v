(** Which dates of the standard calendar other calendars have. *)
From Coq Require Import ZArith QArith String List Bool.
From Verif Require Import Model.Py Model.Calendar Model.Datetime Model.Header.
Import ListNotations.
Local Open Scope Z_scope.

(** the date of time stamp [t] *)
Definition date_of (t : Z) : civil := civil_from_days (t / 1440).

(** noleap has no 29 February, 360_day no 31st *)
Definition has_date (k : fixed_calendar) (t : Z) : bool :=
  match k with
  | NoLeap => negb ((c_month (date_of t) =? 2) && (c_day (date_of t) =? 29))
  | Days360 => c_day (date_of t) <=? 30
  end.

(** the names of the two calendars *)
Definition named (name : string) (k : fixed_calendar) : Prop :=
  In (name, k) [("noleap", NoLeap); ("365_day", NoLeap); ("360_day", Days360)]%string.

(** [t], [t + step], ... up to [stop] *)
Definition stamps (start stop step : Z) : list Z :=
  map (fun i => start + Z.of_nat i * step) (seq 0 (Z.to_nat ((stop - start) / step + 1))).

(** the end of a February lies between two time stamps *)
Definition crosses_february (a b : Z) : Prop :=
  exists y, a < 1440 * days_from_civil (mkcivil y 3 1) <= b.

(** the same rational numbers *)
Definition same_stamps (l : list Q) (l' : list Z) : Prop := Forall2 (fun x y => x == inject_Z y)%Q l l'.

(** frequency strings: a number of minutes, hours or days, or one of them *)
Definition every (freq : string) (step : Z) : Prop :=
  exists u s, In (u, s) [(1, "T"); (60, "H"); (1440, "D")]%string /\
    (freq = s /\ step = u \/ exists n, freq = append (nat_str n) s /\ step = Z.of_nat n * u).
