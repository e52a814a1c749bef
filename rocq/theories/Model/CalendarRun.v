(** The worker of one slice in the calendar of its forcing: the dates of the
    state (metsim/metsim.py:594-596) and the time axis of the cells
    (disaggregate.py:71-73, metsim.py:776-790) come from [date_range] with
    params['calendar'].  See Model/Worker.v for the rest. *)
From Coq Require Import ZArith QArith Qround Reals String List Bool Arith.
From Verif Require Import Model.Py Model.Fl Model.Np Model.Calendar Model.Datetime Model.DateRange Model.Params Model.Disagg
  Model.State Model.Validate Model.Output Model.Cell Model.Worker.
Import ListNotations.
Local Open Scope string_scope.
Local Open Scope list_scope.

(** date_range(a, b) of midnights, as day numbers *)
Definition calendar_dates (name : string) (a b : Z) : option (res (list Z)) :=
  option_map (fun r => do l <- r; Ok (map (fun q => (Qfloor q / minutes_per_day)%Z) l))
    (date_range name (midnight a) (midnight b) "D").

(** the number of days of steps between the first and the last date *)
Definition calendar_span (name : string) (days : list Z) (ts : Z) : option (res nat) :=
  match days with
  | [] => Some (Ok 0%nat)
  | d :: r =>
      option_map (fun o => do l <- o; Ok (Z.to_nat (Z.of_nat (List.length l) * ts / minutes_per_day)))
        (date_range name (midnight d) (midnight (last r d) + minutes_per_day - ts) (freq_minutes (Z.to_nat ts)))
  end.

Definition load_slice_in (dates : res (list Z)) (start stop : Z) (days : list Z) (cells : list raw_cell)
  : res (list cell_data) :=
  do _ <- mapM (fun r => if (List.length (rc_st_prec r) =? 90)%nat then Ok tt else Err AssertionError)
               cells;                                                            (* :593 *)
  do dates <- dates;                                                             (* :594 *)
  do _ <- (if (List.length dates =? 90)%nat then Ok tt else Err ValueError);     (* :598 *)
  do _ <- slice_dtr_check cells;                                                 (* :612 *)
  mapM (load_cell_over dates start stop days) cells.

(** [None] when the dewpoint loop of some cell runs out of fuel, or for
    calendars that are not modelled.  An error of the time axis arises in the
    first cell that is computed; here it is raised before. *)
Definition run_worker_in (name : string) (fuel : nat) (prm : params) (w : worker_in) : option (res slice_out) :=
  match calendar_dates name (wk_start w - 90) (wk_start w - 1), calendar_span name (wk_days w) (p_time_step prm) with
  | Some dates, Some span =>
      let prep :=
        do data <- load_slice_in dates (wk_start w) (wk_stop w) (wk_days w) (wk_cells w);
        do _ <- validate_setup (wk_setup w);
        do data <- mapM (fun rc => monthly_cell prm (wk_days w) (fst rc) (snd rc)) (combine (wk_cells w) data);
        do span <- span; Ok (data, span) in
      match prep with
      | Err e => Some (Err e)
      | Ok (data, span) =>
          match run_slice_by (run_cell_over span fuel) (wk_out_vars w) (wk_shape w) (wk_mask w)
                  (nth_cell (indices (wk_shape w)) data no_cell) prm with
          | None => None
          | Some (r, _) => Some r
          end
      end
  | _, _ => None
  end.
