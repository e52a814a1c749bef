(** Forcing files of 365 day years. *)
From Coq Require Import ZArith List Bool.
From Verif Require Import Model.Calendar Model.Datetime Model.DateRange Spec.CalendarSpec.
Import ListNotations.
Local Open Scope Z_scope.

(** [n] consecutive days from [a] on, all at the same time of the day *)
Definition daily_times (a : Z) (n : nat) (s : Z) : list (Z * Z) := map (fun i => (a + Z.of_nat i, s)) (seq 0 n).

(** before the last second of the day *)
Definition early (s : Z) : Prop := 0 <= s < 86399 * 1000000000.

(** such a file has the day [d] of the standard calendar: the same year, month
    and day of the month *)
Definition in_file (a : Z) (n : nat) (d : Z) : Prop :=
  exists i, (i < n)%nat /\ fixed_date NoLeap (a + Z.of_nat i) = civil_from_days d.

(** the dates from [s] to [t] that are not 29 February *)
Definition dates_between (s t : Z) : list Z :=
  filter (fun d => has_date NoLeap (1440 * d)) (map (fun i => s + Z.of_nat i) (seq 0 (Z.to_nat (t - s + 1)))).
