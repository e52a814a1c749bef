(** The period of a run: metsim/io.py:297-300 and :313-316 (slice of the
    forcing), metsim/metsim.py:243-268 (resolution of start and stop), on
    day numbers.

    External: [parse] is pandas' parser of a text used as a slice bound,
    the days the text covers ("2000-02" is a month); its first day is
    pd.to_datetime.  [parse_int] is Python's int(). *)
From Coq Require Import ZArith String Ascii List Bool.
From Verif Require Import Model.Py Model.Calendar Model.Datetime Model.Reader Model.State.
Import ListNotations.
Local Open Scope list_scope.

(** params['start'] and params['stop']: a date or a text *)
Inductive time_param := Given (d : Z) | Text (s : string).

Section Period.
  Variable parse : string -> option (Z * Z).
  Variable parse_int : string -> option Z.

  (** slice(start, stop) on a DatetimeIndex: a text that is no date is a
      TypeError; the upper bound is the last day of the text *)
  Definition slice_from (p : time_param) : res Z :=
    match p with
    | Given d => Ok d
    | Text s => match parse s with Some (a, _) => Ok a | None => Err TypeError end
    end.
  Definition slice_to (p : time_param) : res Z :=
    match p with
    | Given d => Ok d
    | Text s => match parse s with Some (_, b) => Ok b | None => Err TypeError end
    end.

  (** ds.sel(time=slice(start, stop)), io.py:298 and :314, for ascending
      times *)
  Definition read_period (times : list Z) (start stop : time_param) : res (list Z) :=
    do a <- slice_from start;
    do b <- slice_to stop;
    Ok (filter (fun d => (a <=? d)%Z && (d <=? b)%Z) times).

  (** datetime(year, month, day): ValueError for a date that does not exist *)
  Definition make_date (y m d : Z) : res Z :=
    let c := mkcivil y m d in
    let n := days_from_civil c in
    let c' := civil_from_days n in
    if ((1 <=? y) && (y <=? 9999) && (c_year c' =? y) && (c_month c' =? m) && (c_day c' =? d))%Z
    then Ok n else Err ValueError.

  (** year, month, day = map(int, s.split('/')) *)
  Definition slash_date (s : string) : res Z :=
    match split_char "/" s EmptyString with
    | [y; m; d] =>
        match parse_int y, parse_int m, parse_int d with
        | Some y, Some m, Some d => make_date y m d
        | _, _, _ => Err ValueError
        end
    | _ => Err ValueError
    end.

  (** metsim.py:244-254; [edge] is force_times.values[i] *)
  Definition resolve (edge : res Z) (p : time_param) : res Z :=
    match p with
    | Given d => Ok d
    | Text s =>
        if String.eqb s "forcing" then edge
        else if has_char "/" s then slash_date s
        else match parse s with Some (a, _) => Ok a | None => Err ValueError end
    end.

  Definition first_of (l : list Z) : res Z :=
    match l with [] => Err IndexError | d :: _ => Ok d end.
  Definition last_of (l : list Z) : res Z :=
    match l with [] => Err IndexError | d :: _ => Ok (last l d) end.

  (** what is known once met_data has been read *)
  Record period := mk_period { pr_days : list Z; pr_start : Z; pr_stop : Z;
                               pr_state_start : Z; pr_state_stop : Z }.

  (** met_data, metsim.py:293-310, as far as times are concerned *)
  Definition load_period (times : list Z) (start stop : time_param) : res period :=
    do days <- read_period times start stop;
    do a <- resolve (first_of days) start;
    do b <- resolve (last_of days) stop;
    do first <- first_of days;
    do last <- last_of days;
    do st <- validate_force_times first last a b;
    Ok (mk_period days a b (fst st) (snd st)).
End Period.
