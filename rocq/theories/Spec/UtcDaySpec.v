(** Where the pieces of a UTC day come from. *)
From Coq Require Import ZArith Reals List.
From Verif Require Import Model.Fl Model.Constants Model.Cell Spec.SeriesSpec Spec.ShortSpec Spec.CellSpec.
Import ListNotations.
Local Open Scope R_scope.

(** the clock of longitude [lon] is [m] whole half-minutes ahead of UTC, or
    behind it; the date line is left out *)
Definition ahead (lon : R) (m : nat) : Prop :=
  exists n, 0 <= lon - 360 * IZR n < 180 /\ INR m <= 8 * (lon - 360 * IZR n) < INR m + 1.
Definition behind (lon : R) (m : nat) : Prop :=
  exists n, -180 < lon - 360 * IZR n <= 0 /\ INR m <= 8 * (360 * IZR n - lon) < INR m + 1.

(** neighbours on a ring of [n] places *)
Definition next_of (n d : nat) : nat := ((d + 1) mod n)%nat.
Definition prev_of (n d : nat) : nat := ((d + n - 1) mod n)%nat.

(** [mean] is the mean of UTC day [d] (day of year [k]) when day [d] of the
    [local] daily means is distributed by row [k - 1] of the table: ahead of
    UTC the day lacks its first [m] half-minutes and has those of the next
    day instead; behind UTC it begins with the last [m] of the day before *)
Definition shifted_day (lon : R) (tiny : list (list R)) (local : list fl) (d k : nat) (mean : fl) : Prop :=
  forall m X Y row row2, nth_error local d = Some (Some X) -> nth_error tiny (k - 1) = Some row ->
  (ahead lon m -> nth_error local (next_of (List.length local) d) = Some (Some Y) ->
     nth_error tiny (next_of (List.length tiny) (k - 1)) = Some row2 ->
     mean = Some (X * total (skipn m row) + Y * total (firstn m row2))) /\
  (behind lon m -> nth_error local (prev_of (List.length local) d) = Some (Some Y) ->
     nth_error tiny (prev_of (List.length tiny) (k - 1)) = Some row2 ->
     mean = Some (Y * total (skipn (RAD_STEPS - m) row2) + X * total (firstn (RAD_STEPS - m) row))).

(** ** material for examples *)
(** all radiation in the first, or in the last, 12 hours *)
Definition morning_row : list R := repeat (/ 1440) MIN_PER_DAY ++ repeat 0 MIN_PER_DAY.
Definition evening_row : list R := repeat 0 MIN_PER_DAY ++ repeat (/ 1440) MIN_PER_DAY.
(** the sun of every day shines in the morning; or in the evening, except on
    the first of January *)
Definition morning_table : list (list R) := repeat morning_row 366.
Definition evening_table : list (list R) := morning_row :: repeat evening_row 365.

(** the cell on the equator of CellSpec, at 90 E *)
Definition indian_cell : cell_data := mk_cell_data 0 90 0 (cd_daily equator_cell) (cd_state_tmin equator_cell) (cd_state_tmax equator_cell).
