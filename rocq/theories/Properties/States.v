(** C48-C52, C71: state window and seasonal predictors. *)
From Coq Require Import ZArith Reals String List Bool Arith Lia Lra.
From Verif Require Import Model.Py Model.Fl Model.Np Model.Constants Model.Calendar Model.Datetime
  Model.State Model.Params Model.Worker Spec.StateSpec Spec.WorkerSpec
  Proofs.ArrayProofs Proofs.StateProofs Proofs.WorkerProofs.
Import ListNotations.
Local Open Scope list_scope.

(** C48: the windows are the 90 and 30 days that end on the day itself;
    [shaped n ...]: 90-day state, [n]-day record. *)
Theorem C48_trailing_windows : forall start n sp stn stx pr tmin tmax out,
  shaped n sp stn stx pr tmin tmax ->
  aggregate_state start (start + Z.of_nat n - 1) (dates_from start n) sp stn stx pr tmin tmax = Ok out ->
  List.length (ag_seasonal out) = n /\ List.length (ag_smoothed out) = n /\
  forall i, (i < n)%nat ->
    let rain := last_days 90 (up_to sp pr i) in
    let range := last_days 30 (map2 fsub (up_to stx tmax i) (up_to stn tmin i)) in
    List.length rain = 90%nat /\ List.length range = 30%nat /\
    nth_error (ag_seasonal out) i = Some (fmul (Some 365.25%R) (fmean rain)) /\
    nth_error (ag_smoothed out) i = Some (fmean range).
Proof. exact seasonal_predictors. Qed.
Print Assumptions C48_trailing_windows.

(** C48: no predictor is missing when the inputs are complete. *)
Theorem C48_none_missing : forall start n sp stn stx pr tmin tmax out,
  shaped n sp stn stx pr tmin tmax ->
  aggregate_state start (start + Z.of_nat n - 1) (dates_from start n) sp stn stx pr tmin tmax = Ok out ->
  no_missing (sp ++ pr) -> no_missing (stn ++ tmin) -> no_missing (stx ++ tmax) ->
  no_missing (ag_seasonal out) /\ no_missing (ag_smoothed out).
Proof. exact seasonal_not_missing. Qed.
Print Assumptions C48_none_missing.

(** A dry state and 9 mm on the first of two days: 365.25 * 9 / 90. *)
Example C48_case : exists out,
  aggregate_state 100 101 (dates_from 100 2) (repeat (Some 0%R) 90) (repeat (Some 1%R) 90) (repeat (Some 3%R) 90)
    [Some 9%R; Some 0%R] [Some 1%R; Some 1%R] [Some 3%R; Some 3%R] = Ok out /\
  nth_error (ag_seasonal out) 0 = Some (Some 36.525%R) /\
  nth_error (ag_smoothed out) 1 = Some (Some 2%R).
Proof. exact demo_predictors. Qed.

(** C49 *)
Theorem C49_split_runs_agree : forall start n m sp stn stx pr tmin tmax full,
  shaped n sp stn stx pr tmin tmax -> (m <= n)%nat ->
  aggregate_state start (start + Z.of_nat n - 1) (dates_from start n) sp stn stx pr tmin tmax = Ok full ->
  exists first second,
    aggregate_state start (start + Z.of_nat m - 1) (dates_from start m) sp stn stx
      (firstn m pr) (firstn m tmin) (firstn m tmax) = Ok first /\
    aggregate_state (start + Z.of_nat m) (start + Z.of_nat m + Z.of_nat (n - m) - 1)
      (dates_from (start + Z.of_nat m) (n - m))
      (last_days 90 (sp ++ firstn m pr)) (last_days 90 (stn ++ firstn m tmin)) (last_days 90 (stx ++ firstn m tmax))
      (skipn m pr) (skipn m tmin) (skipn m tmax) = Ok second /\
    ag_seasonal full = ag_seasonal first ++ ag_seasonal second /\
    ag_dtr full = ag_dtr first ++ ag_dtr second /\
    ag_smoothed full = ag_smoothed first ++ ag_smoothed second.
Proof. exact split_run. Qed.
Print Assumptions C49_split_runs_agree.

Example C49_case : shaped 2 (repeat (Some 0%R) 90) (repeat (Some 1%R) 90) (repeat (Some 3%R) 90)
    [Some 9%R; Some 0%R] [Some 1%R; Some 1%R] [Some 3%R; Some 3%R] /\ (1 <= 2)%nat.
Proof. repeat split; auto. Qed.

(** C50: one inverted day in any cell of the slice, masked or not, fails
    the worker whatever the parameters. *)
Theorem C50_inverted_rejected : forall fuel prm w n,
  (forall r, In r (wk_cells w) -> raw_shaped n r) ->
  (exists r, In r (wk_cells w) /\ raw_inverted r) ->
  run_worker fuel prm w = Some (Err ValueError).
Proof. exact inverted_rejected. Qed.
Print Assumptions C50_inverted_rejected.

(** C50: otherwise the inputs load. *)
Theorem C50_others_loaded : forall start n cells,
  (forall r, In r cells -> raw_shaped n r) -> (forall r, In r cells -> ~ raw_inverted r) ->
  exists data, load_slice start (start + Z.of_nat n - 1) (dates_from start n) cells = Ok data /\
               List.length data = List.length cells.
Proof. exact not_inverted_loaded. Qed.
Print Assumptions C50_others_loaded.

Example C50_case :
  raw_shaped 1 (demo_raw 2 3) /\ ~ raw_inverted (demo_raw 2 3) /\
  raw_shaped 1 (demo_raw 4 3) /\ raw_inverted (demo_raw 4 3).
Proof. exact demo_raw_case. Qed.

(** C51 in the standard calendar *)
Theorem C51_standard_window_partial : forall ff fl' start stop a b,
  validate_force_times ff fl' start stop = Ok (a, b) ->
  List.length (record_dates a b) = 90%nat /\
  (forall d, In d (record_dates a b) <-> (start - 90 <= d <= start - 1)%Z) /\
  record_dates a b = dates_from (start - 90) 90 /\
  last (record_dates a b) 0%Z = (start - 1)%Z.
Proof. exact state_window_90. Qed.
Print Assumptions C51_standard_window_partial.

Example C51_case : validate_force_times 0 500 100 200 = Ok (10%Z, 99%Z).
Proof. reflexivity. Qed.

(** C51 is false in the noleap calendar: the window is computed in the
    standard calendar, so a window over 29 February has 89 dates ... *)
Theorem C51_noleap_refuted :
  exists start l, date_range_days NoLeap (civil_from_days (start - 90)) (civil_from_days (start - 1)) = Ok l /\
    civil_from_days start = mkcivil 2000 3 15 /\ List.length l = 89%nat.
Proof. exact noleap_window_short. Qed.
Print Assumptions C51_noleap_refuted.

(** ... or does not exist. *)
Theorem C51_noleap_start_refuted :
  exists start, civil_from_days start = mkcivil 2000 5 29 /\
   date_range_days NoLeap (civil_from_days (start - 90)) (civil_from_days (start - 1)) = Err ValueError.
Proof. exact noleap_window_rejected. Qed.
Print Assumptions C51_noleap_start_refuted.

(** C52: January to November follow the table whose labels are the month
    numbers; December keeps the precipitation. *)
Theorem C52_monthly_values_partial : forall param days (pr l : list fl) i d,
  List.length pr = List.length days -> convert_monthly_param param days pr = Ok l ->
  nth_error days i = Some d ->
  (month_of d <> 12%Z -> exists v, zlookup param (month_of d) = Ok v /\ nth_error l i = Some v) /\
  (month_of d = 12%Z -> nth_error l i = nth_error pr i).
Proof. exact monthly_param. Qed.
Print Assumptions C52_monthly_values_partial.

(** 2000-01-31 and 2000-12-01, a table labelled 0..11 with value 100+m *)
Example C52_case :
  convert_monthly_param (map (fun m => (Z.of_nat m, Some (100 + INR m)%R)) (seq 0 12)) [10987%Z; 11292%Z]
    [Some 7%R; Some 5%R] = Ok [Some (100 + INR 1)%R; Some 5%R] /\
  civil_from_days 10987 = mkcivil 2000 1 31 /\ civil_from_days 11292 = mkcivil 2000 12 1.
Proof. exact demo_months. Qed.

(** C52 is false for a table labelled 1..12. *)
Theorem C52_calendar_table_refuted : forall (param : list (Z * fl)) days (pr : list fl),
  (forall m v, In (m, v) param -> (1 <= m <= 12)%Z) -> convert_monthly_param param days pr = Err KeyError.
Proof. exact monthly_1_12. Qed.
Print Assumptions C52_calendar_table_refuted.

(** C71 *)
Theorem C71_state_update : forall (old run : list fl) last_day, List.length old = 90%nat ->
  unpack_state old run = last_days 90 (old ++ run) /\
  List.length (unpack_state old run) = 90%nat /\
  unpack_state_dates last_day = dates_from (last_day - 89) 90.
Proof. exact unpack_keeps_90. Qed.
Print Assumptions C71_state_update.

Example C71_case : nth_error (unpack_state (repeat (Some 0%R) 90) [Some 1%R; Some 2%R]) 88 = Some (Some 1%R) /\
  last (unpack_state_dates 89) 0%Z = 89%Z.
Proof. split; reflexivity. Qed.
