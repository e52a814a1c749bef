(** Workers whose calendar has just the dates of the forcing. *)
From Coq Require Import ZArith String List Bool.
From Verif Require Import Model.Py Model.Fl Model.Calendar Model.Datetime Model.Params Model.State Model.Validate Model.Output Model.Cell
  Model.Worker Spec.CalendarSpec.
Import ListNotations.
Local Open Scope list_scope.
Local Open Scope Z_scope.

(** all dates of the calendar from the first to the last one *)
Definition all_dates (k : fixed_calendar) (days : list Z) : Prop :=
  exists a b, a <= b /\ has_date k (1440 * a) = true /\ has_date k (1440 * b) = true /\
    days = filter (fun d => has_date k (1440 * d)) (map (fun i => a + Z.of_nat i) (seq 0 (Z.to_nat (b - a + 1)))).

(** a date that the calendar lacks in the 90 days before the start *)
Definition lacking_window (k : fixed_calendar) (start : Z) : Prop :=
  exists d, start - 90 <= d <= start - 1 /\ has_date k (1440 * d) = false.
