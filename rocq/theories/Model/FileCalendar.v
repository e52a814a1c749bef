(** The calendar of a forcing file: xr.open_dataset decodes its times and
    notes the calendar in the encoding of the coordinate; metsim/io.py:291-296
    replaces the coordinate by dates of the standard calendar, without an
    encoding; metsim/metsim.py:257-258 then asks the encoding. *)
From Coq Require Import ZArith Reals String List Bool.
From Verif Require Import Model.Py Model.Fl Model.Calendar Model.Datetime Model.Header Model.DateRange Model.Params Model.Reader
  Model.Validate Model.Output Model.Cell Model.Worker Model.CalendarRun.
Import ListNotations.
Local Open Scope string_scope.
Local Open Scope list_scope.
Local Open Scope Z_scope.

(** ds.indexes['time']: dates and nanoseconds of the day; a DatetimeIndex has
    days since 1970-01-01, a CFTimeIndex days since 0001-01-01 of its calendar *)
Inductive time_index := Datetimes (l : list (Z * Z)) | CFTimes (k : fixed_calendar) (l : list (Z * Z)).
Record time_coord := mk_time_coord { tc_index : time_index; tc_encoding : dict string }.

(** xr.open_dataset of a file with these times in the calendar [name].
    [None]: calendars that are not modelled. *)
Definition open_times (name : string) (l : list (Z * Z)) : option time_coord :=
  if str_in name ["standard"; "gregorian"; "proleptic_gregorian"]
  then Some (mk_time_coord (Datetimes l) [("calendar", name)])
  else match cf_calendar name with
       | Some (Fixed k) => Some (mk_time_coord (CFTimes k l) [("calendar", name)])
       | _ => None
       end.

(** io.py:291-296 *)
Definition normalize_pair (p : Z * Z) : Z * Z :=
  (normalize_time (fst p * ns_per_day + snd p) / ns_per_day, 0).

Definition read_times (c : time_coord) : res time_coord :=
  do l <- (match tc_index c with
           | CFTimes k l => mapM (fun p => do d <- real_day k (fst p); Ok (d, snd p)) l     (* :293 *)
           | Datetimes l => Ok l
           end);
  Ok (mk_time_coord (Datetimes (map normalize_pair l)) []).                                (* :294-295 *)

(** params['calendar'], metsim.py:257-258 *)
Definition run_calendar (c : time_coord) (param : string) : string :=
  match dict_get (tc_encoding c) "calendar" with Some name => name | None => param end.

Definition coord_days (c : time_coord) : list Z :=
  match tc_index c with Datetimes l | CFTimes _ l => map fst l end.

(** a worker with the dates of the file from its start to its stop,
    io.py:298; [w] has the rest *)
Definition file_worker (c : time_coord) (w : worker_in) : worker_in :=
  mk_worker_in (wk_start w) (wk_stop w)
    (filter (fun d => (wk_start w <=? d) && (d <=? wk_stop w)) (coord_days c))
    (wk_shape w) (wk_cells w) (wk_mask w) (wk_setup w) (wk_out_vars w).

(** the worker of a run whose forcing file has these times in the calendar
    [name]; [param] is the calendar of the configuration ('standard' when it
    has none) *)
Definition run_file_worker (name param : string) (l : list (Z * Z)) (fuel : nat) (prm : params) (w : worker_in) : option (res slice_out) :=
  match open_times name l with
  | None => None
  | Some c =>
      match read_times c with
      | Err e => Some (Err e)
      | Ok c => run_worker_in (run_calendar c param) fuel prm (file_worker c w)
      end
  end.
