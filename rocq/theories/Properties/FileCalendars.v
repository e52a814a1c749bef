(** C118: the calendar of a forcing file. *)
From Coq Require Import ZArith Reals String List Bool Arith Sorting.Sorted.
From Verif Require Import Model.Py Model.Fl Model.Calendar Model.Datetime Model.DateRange Model.Params Model.Validate Model.Output Model.Cell Model.Worker Model.CalendarRun Model.FileCalendar
  Spec.StateSpec Spec.RowsSpec Spec.WorkerSpec Spec.CellSpec Spec.GapSpec Spec.CalendarSpec Spec.CalendarRunSpec Spec.FileCalendarSpec
  Proofs.WorkerTotal Proofs.FileCalendarProofs.
Import ListNotations.
Local Open Scope list_scope.
Local Open Scope Z_scope.

(** C118: a file of daily data in 365 day years is read as the same dates of
    the standard calendar, in order *)
Theorem C118_dates : forall name a n s c, named name NoLeap -> early s ->
  open_times name (daily_times a n s) = Some c -> exists c', read_times c = Ok c' /\ StronglySorted Z.lt (coord_days c') /\
    (forall d, In d (coord_days c') <-> in_file a n d).
Proof. exact noleap_file_dates. Qed.
Print Assumptions C118_dates.

Example C118_dates_case : exists c c', open_times "noleap" (daily_times 729692 4 noon) = Some c /\ read_times c = Ok c' /\
  coord_days c' = [11014; 11015; 11017; 11018] /\ in_file 729692 4 11017 /\ ~ in_file 729692 4 11016.
Proof. exact short_file. Qed.

(** C118: a dataset in memory that knows its calendar decides the calendar of
    the run *)
Theorem C118_memory_partial : forall l name rest param, run_calendar (mk_time_coord (Datetimes l) (("calendar"%string, name) :: rest)) param = name.
Proof. exact memory_calendar. Qed.
Print Assumptions C118_memory_partial.

(** C118: when the configuration names the calendar of the file, a run of 365
    day years finishes *)
Theorem C118_named_partial : forall name param a k s prm w n, named name NoLeap -> named param NoLeap -> early s ->
  in_file a k (wk_start w) -> in_file a k (wk_stop w) -> wk_start w <= wk_stop w ->
  ~ lacking_window NoLeap (wk_start w) -> n = List.length (dates_between (wk_start w) (wk_stop w)) ->
  (0 < p_tmax_frac prm <= 1)%R -> 0 < p_time_step prm -> List.length (wk_cells w) = List.length (indices (wk_shape w)) ->
  (forall r, In r (wk_cells w) -> loadable prm n r) ->
  (forall i c r, nth_error (indices (wk_shape w)) i = Some c -> nth_error (wk_cells w) i = Some r -> active (wk_mask w c) -> good_raw prm n r) ->
  validate_setup (wk_setup w) = Ok tt -> describes (wk_setup w) prm (wk_out_vars w) -> requestable (wk_out_vars w) (wk_cells w) ->
  exists N, forall fuel, (fuel >= N)%nat -> exists out, run_file_worker name param (daily_times a k s) fuel prm w = Some (Ok out).
Proof. exact named_runs. Qed.
Print Assumptions C118_named_partial.

(** an opened file knows its calendar ... *)
Theorem C118_noted : forall name l c param, open_times name l = Some c -> run_calendar c param = name.
Proof. exact file_noted. Qed.
Print Assumptions C118_noted.

(** C118 is false: ... but the calendar of a file is forgotten while it is read *)
Theorem C118_refuted : forall c c' param, read_times c = Ok c' -> run_calendar c' param = param.
Proof. exact file_calendar_ignored. Qed.
Print Assumptions C118_refuted.

(** so that, with the default calendar, no run of 365 day years over a
    29 February produces output *)
Theorem C118_default_refuted : forall name param a n s fuel prm w f out i c r, named name NoLeap -> early s ->
  In param ["standard"; "gregorian"; "proleptic_gregorian"]%string -> 0 < p_time_step prm -> 1440 mod p_time_step prm = 0 ->
  in_file a n (wk_start w) -> in_file a n (wk_stop w) ->
  wk_start w < f < wk_stop w -> has_date NoLeap (1440 * f) = false ->
  nth_error (indices (wk_shape w)) i = Some c -> nth_error (wk_cells w) i = Some r -> active (wk_mask w c) ->
  run_file_worker name param (daily_times a n s) fuel prm w <> Some (Ok out).
Proof. exact default_refused. Qed.
Print Assumptions C118_default_refuted.

(** and a file of 360 day years with a date that the standard calendar lacks
    is refused, whatever the configuration says *)
Theorem C118_days360_refuted : forall name param l fuel prm w n s, named name Days360 -> In (n, s) l ->
  (forall d, civil_from_days d <> fixed_date Days360 n) -> run_file_worker name param l fuel prm w = Some (Err ValueError).
Proof. exact days360_file. Qed.
Print Assumptions C118_days360_refuted.

(** such as 30 February 2000 *)
Example C118_days360_case : fixed_date Days360 (360 * 1999 + 59) = mkcivil 2000 2 30 /\ forall d, civil_from_days d <> fixed_date Days360 (360 * 1999 + 59).
Proof. exact days360_case. Qed.

(** a run from 28 February to 1 March 2000 *)
Example C118_case : 
  (exists N, forall fuel, (fuel >= N)%nat -> exists out,
     run_file_worker "noleap" "noleap" (daily_times 729685 19 noon) fuel (demo_method "mtclim" 60) leap_run = Some (Ok out)) /\
  (forall fuel out, run_file_worker "noleap" "standard" (daily_times 729685 19 noon) fuel (demo_method "mtclim" 60) leap_run <> Some (Ok out)).
Proof.
  split.
  - exact (leap_set "mtclim" (or_intror (or_introl eq_refl))).
  - intros fuel out. exact (leap_default fuel "mtclim" "standard" out (or_intror (or_introl eq_refl)) (or_introl eq_refl)).
Qed.
