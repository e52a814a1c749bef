(** metsim/metsim.py: state window, seasonal predictors, monthly parameters *)
From Coq Require Import ZArith Reals String List Bool Arith.
From Verif Require Import Model.Py Model.Fl Model.Np Model.Constants Model.Calendar
  Model.Datetime.
Import ListNotations.
Local Open Scope list_scope.

(** ** [_validate_force_times], metsim.py:260-268, on day numbers (times
    are midnights after the normalisation in [read_netcdf]).
    Returns (state_start, state_stop). *)
Definition validate_force_times (force_first force_last start stop : Z) : res (Z * Z) :=
  if (force_first <=? start)%Z then
    if (stop <=? force_last)%Z then Ok ((start - 90)%Z, (start - 1)%Z)
    else Err AssertionError
  else Err AssertionError.

(** record_dates, metsim.py:594-596, standard calendars: day numbers *)
Definition record_dates (state_start state_stop : Z) : list Z :=
  zrange state_start 1 (state_stop - state_start + 1).

(** ** Labelled series: (day, value) *)
Definition series := list (Z * fl).
Definition labels (s : series) : list Z := map fst s.
Definition vals (s : series) : list fl := map snd s.

(** trailing['time'] = record_dates, metsim.py:598: ValueError when the
    lengths differ *)
Definition relabel (s : list fl) (dates : list Z) : res series :=
  if (List.length s =? List.length dates)%nat then Ok (combine dates s) else Err ValueError.

(** rolling(time=w).mean(): NaN until w values are available *)
Definition rolling_mean (w : nat) (l : list fl) : list fl :=
  map (fun i => if (S i <? w)%nat then None
                else fmean (list_slice l (S i - w) (S i)))
      (seq 0 (List.length l)).
Definition rolling (w : nat) (s : series) : series := combine (labels s) (rolling_mean w (vals s)).

(** .sel(time=slice(a, b)) *)
Definition sel_slice (a b : Z) (s : series) : series :=
  filter (fun p => (a <=? fst p)%Z && (fst p <=? b)%Z) s.
(** .drop(dates, dim='time'): KeyError when a date is absent *)
Definition zmem (d : Z) (l : list Z) : bool := existsb (Z.eqb d) l.
Definition drop (dates : list Z) (s : series) : res series :=
  if forallb (fun d => zmem d (labels s)) dates
  then Ok (filter (fun p => negb (zmem (fst p) dates)) s) else Err KeyError.

(** assignment of a series to the dataset: aligned to the dataset's time
    axis, NaN where the series has no such date *)
Fixpoint lookup (d : Z) (s : series) : fl :=
  match s with
  | [] => None
  | (d', v) :: r => if (d =? d')%Z then v else lookup d r
  end.
Definition align (days : list Z) (s : series) : list fl := map (fun d => lookup d s) days.

Record agg_out := { ag_seasonal : list fl; ag_dtr : list fl; ag_smoothed : list fl }.

(** [_aggregate_state], metsim.py:589-618, for one cell.  [days] are the
    dates of met_data, [dates] those of :594-596.  The t_max < t_min check
    (:612) looks at the whole slice; see [dtr_check]. *)
Definition aggregate_over (dates : list Z) (start stop : Z) (days : list Z)
    (st_prec st_tmin st_tmax prec tmin tmax : list fl) : res agg_out :=
  if negb (List.length st_prec =? 90)%nat then Err AssertionError                 (* :593 *)
  else
    do trailing <- relabel st_prec dates;                                        (* :598 *)
    let total := trailing ++ combine days prec in                                (* :599 *)
    let total := map (fun p => (fst p, fmul (Some DAYS_PER_YEAR) (snd p)))
                     (sel_slice start stop (rolling 90 total)) in                (* :601 *)
    do trailing <- relabel (map2 fsub st_tmax st_tmin) dates;                     (* :608 *)
    let dtr := map2 fsub tmax tmin in                                            (* :611 *)
    if existsb (fun x => flt x (Some 0%R)) dtr then Err ValueError                (* :612 *)
    else
      do sm <- drop dates (rolling 30 (trailing ++ combine days dtr));           (* :615 *)
      Ok {| ag_seasonal := align days total; ag_dtr := dtr; ag_smoothed := align days sm |}.

(** standard calendars *)
Definition aggregate_state (start : Z) := aggregate_over (record_dates (start - 90) (start - 1)) start.

(** the check over all cells of a slice, metsim.py:611-614 *)
Definition dtr_check (cells : list (list fl * list fl)) : res unit :=
  if existsb (fun c => existsb (fun x => flt x (Some 0%R)) (map2 fsub (snd c) (fst c))) cells
  then Err ValueError else Ok tt.

(** ** [_unpack_state], metsim.py:495-510 (not called by the package):
    new state arrays and the dates they get *)
Definition unpack_state (old result : list fl) : list fl :=
  let all := old ++ result in
  skipn (List.length all - 90) all.
Definition unpack_state_dates (last_day : Z) : list Z := record_dates (last_day - 89) last_day.

(** ** [convert_monthly_param], metsim.py:278-284, for one cell.
    [param] is the domain variable with its month coordinate
    (coordinate value -> value); sel(month=m) is a KeyError when m is not
    among the coordinates.  [days] are the dates, [init] the series copied
    from 'prec'. *)
Definition set_months (months : list Z) (m : Z) (v : fl) (l : list fl) : list fl :=
  map2 (fun m' x => if (m' =? m)%Z then v else x) months l.

Fixpoint zlookup (param : list (Z * fl)) (m : Z) : res fl :=
  match param with
  | [] => Err KeyError
  | (m', v) :: r => if (m =? m')%Z then Ok v else zlookup r m
  end.

Definition convert_monthly_param (param : list (Z * fl)) (days : list Z) (prec : list fl)
  : res (list fl) :=
  let months := map month_of days in
  fold_left (fun acc m =>
               do l <- acc;
               do v <- zlookup param m;
               Ok (set_months months m v l))
            (map Z.of_nat (seq 0 12)) (Ok prec).
