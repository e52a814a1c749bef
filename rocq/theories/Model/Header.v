(** The description part of an output file: [setup_netcdf_output],
    metsim/metsim.py:363-436, and the module-level attributes it records
    (attrs['_global'], :118-122, and attrs['time'], :269-276).

    External: netCDF4's [createDimension] and [createVariable] reject a name
    that is in use (RuntimeError); an attribute must be a text or a number
    (TypeError otherwise).  cftime's [date2num] counts minutes in the
    calendar of the file. *)
From Coq Require Import ZArith QArith String Ascii List Bool Arith.
From Verif Require Import Model.Py Model.Calendar Model.Datetime Model.Output.
Import ListNotations.
Local Open Scope string_scope.
Local Open Scope list_scope.

(** ** Values of MetSim.params *)
Inductive pvalue :=
| PvStr (s : string)
| PvInt (z : Z)
| PvFloat (q : Q)
| PvBool (b : bool)
| PvNone
| PvTime (minute : Z)                 (* datetime / Timestamp *)
| PvDict (json : option string)       (* json.dumps; None = TypeError *)
| PvList (items : list (option string)).  (* an iterable; None = an item that is no text *)

(** Python's truth value *)
Definition truthy (v : pvalue) : bool :=
  match v with
  | PvStr s => negb (s =? "")
  | PvInt z => negb (z =? 0)%Z
  | PvFloat q => negb (Qnum q =? 0)%Z
  | PvBool b => b
  | PvNone => false
  | PvTime _ => true
  | PvDict j => match j with Some t => negb (t =? "{}") | None => true end
  | PvList l => match l with [] => false | _ => true end
  end.

(** what a netCDF attribute is set to; [AOther] stands for the values
    netCDF4 has no type for *)
Inductive aval := AText (s : string) | AInt (z : Z) | AFloat (q : Q) | ANan | AOther.

(** both kinds of quotes removed, :423 *)
Fixpoint remove_char (c : ascii) (s : string) : string :=
  match s with
  | EmptyString => EmptyString
  | String c' r => if Ascii.eqb c c' then remove_char c r else String c' (remove_char c r)
  end.
Definition unquote (s : string) : string := remove_char """" (remove_char "'" s).

(** ', '.join(items): TypeError at an item that is no text *)
Fixpoint join (items : list (option string)) : res string :=
  match items with
  | [] => Ok ""
  | None :: _ => Err TypeError
  | [Some s] => Ok s
  | Some s :: r => do t <- join r; Ok (append s (append ", " t))
  end.

(** :403-406, :413 and :411 *)
Definition skip_params : list string :=
  ["elev"; "lat"; "lon"; "is_worker"; "out_vars"; "forcing_vars"; "domain_vars"; "state_vars";
   "constant_vars"; "references"; "verbose"; "num_workers"].
Definition skip_later : list string := ["state_start"; "state_stop"; "out_freq"].
Definition as_text : list string := ["start"; "stop"; "utc_offset"; "period_ending"].

(** attrs['_global'] of a fresh process, :118-122 *)
Definition base_global (history : string) : dict aval :=
  [("conventions", AText "1.6"); ("title", AText "Output from MetSim");
   ("institution", AText "University of Washington"); ("source", AText "metsim.py");
   ("history", AText history); ("comment", AText "no comment at this time")].

Section Header.
  (** str() *)
  Variable py_str : pvalue -> string.

  (** the attribute value of one parameter, :411-424 *)
  Definition attribute (k : string) (v : pvalue) : res aval :=
    let v := if str_in k as_text then PvStr (py_str v) else v in
    match v with
    | PvStr s => Ok (AText (unquote s))
    | PvDict (Some s) => Ok (AText (unquote s))
    | PvDict None => Err TypeError
    | PvList l => do s <- join l; Ok (AText (unquote s))
    | PvInt z => Ok (AInt z)
    | PvFloat q => Ok (AFloat q)
    | _ => Ok AOther
    end.

  (** the loop over self.params, :407-424: attrs['_global'] as it is left,
      and the exception that ended the loop, if any *)
  Fixpoint record_params (params : dict pvalue) (g : dict aval) : dict aval * res unit :=
    match params with
    | [] => (g, Ok tt)
    | (k, v) :: r =>
        if str_in k skip_params then record_params r g
        else if str_in k skip_later then record_params r g
        else match attribute k v with
             | Ok a => record_params r (dict_set g k a)
             | Err e => (g, Err e)
             end
    end.

  (** ** Time coordinate, :388-391 *)

  (** the calendars modelled: 'standard' and the like, 365 and 360 days *)
  Inductive calendar := Standard | Fixed (c : fixed_calendar).

  (** 2000-01-01, DEFAULT_TIME_UNITS *)
  Definition origin_day : Z := 10957.

  (** date2num(t, 'minutes since 2000-01-01', calendar) for a time stamp in
      minutes since 1970; ValueError for a date the calendar lacks *)
  Definition date2num (c : calendar) (t : Z) : res Z :=
    match c with
    | Standard => Ok (t - midnight origin_day)%Z
    | Fixed c =>
        do o <- fixed_day_num c (civil_from_days origin_day);
        do d <- fixed_day_num c (civil_from_days (day_of t));
        Ok ((d - o) * minutes_per_day + t mod minutes_per_day)%Z
    end.

  (** ** The file *)
  Record ncvar := mk_ncvar {
    nv_type : string; nv_dims : list string;
    nv_chunks : list Z;                 (* [] = the library's choice *)
    nv_values : list Q;                 (* coordinates only *)
    nv_attrs : dict aval }.
  Record ncfile := mk_ncfile {
    nc_dims : dict (option nat);        (* None = unlimited *)
    nc_vars : dict ncvar;
    nc_attrs : dict aval }.

  Definition create_dimension (f : ncfile) (d : string * option nat) : res ncfile :=
    if dict_mem (nc_dims f) (fst d) then Err RuntimeError
    else Ok (mk_ncfile (nc_dims f ++ [d]) (nc_vars f) (nc_attrs f)).
  Definition create_variable (f : ncfile) (name : string) (v : ncvar) : res ncfile :=
    if dict_mem (nc_vars f) name then Err RuntimeError
    else Ok (mk_ncfile (nc_dims f) (nc_vars f ++ [(name, v)]) (nc_attrs f)).

  (** setattr(obj, key, val) for all items *)
  Definition set_attrs (a : dict aval) (items : list (string * aval)) : res (dict aval) :=
    fold_left (fun acc kv =>
                 do a <- acc;
                 match snd kv with AOther => Err TypeError | v => Ok (dict_set a (fst kv) v) end)
              items (Ok a).

  (** setattr on ncout.variables[name] *)
  Definition set_var_attrs (f : ncfile) (name : string) (items : list (string * aval)) : res ncfile :=
    do v <- dict_getitem (nc_vars f) name;
    do a <- set_attrs (nv_attrs v) items;
    Ok (mk_ncfile (nc_dims f)
          (dict_set (nc_vars f) name (mk_ncvar (nv_type v) (nv_dims v) (nv_chunks v) (nv_values v) a))
          (nc_attrs f)).

  Fixpoint foldM {A B} (step : A -> B -> res A) (l : list B) (a : A) : res A :=
    match l with
    | [] => Ok a
    | x :: r => do a' <- step a x; foldM step r a'
    end.

  (** what the header is made from *)
  Record header_in := mk_header_in {
    hi_dims : dimlist;                    (* self.domain['mask'].dims and shape *)
    hi_coords : string -> list Q;         (* self.domain[dim].values *)
    hi_coord_type : string -> string;     (* dtype_map, :393-398 *)
    hi_chunks : dict Z;
    hi_outputs : list (string * string);  (* out_vars: variable -> out_name *)
    hi_precision : string;
    hi_calendar : calendar;
    hi_calendar_name : string;
    hi_var_attrs : string -> dict aval;   (* attrs.get(varname, {}) *)
    hi_times : list Z }.

  (** attrs['time'], :269-276; None before any forcing has been read *)
  Definition time_units : string := "minutes since 2000-01-01 00:00:00.0".
  Definition time_attrs (utc : bool) : dict aval :=
    if utc then [("units", AText time_units); ("long_name", AText "UTC time");
                 ("standard_name", AText "utc_time")]
    else [("units", AText time_units); ("long_name", AText "local time at grid location");
          ("standard_name", AText "local_time")].

  (** dimensions, variables and coordinates, :367-400; [label] tells
      whether attrs['time'] exists *)
  Definition define_file (i : header_in) (label : option bool) : res ncfile :=
    let var_dims := "time" :: keys (hi_dims i) in
    let chunks := Z.of_nat (List.length (hi_times i)) :: storage_chunks (hi_chunks i) (hi_dims i) in
    do f <- foldM create_dimension
              (("time", None) :: map (fun d => (fst d, Some (snd d))) (hi_dims i))
              (mk_ncfile [] [] []);                                                    (* :377 *)
    do f <- foldM (fun f kv => create_variable f (snd kv)
                                 (mk_ncvar (hi_precision i) var_dims chunks [] []))
                  (hi_outputs i) f;                                                    (* :380 *)
    do _ <- (if dict_mem (nc_vars f) "time" then Err RuntimeError else Ok tt);         (* :386 *)
    do _ <- (match label with Some _ => Ok tt | None => Err KeyError end);             (* :390 *)
    do nums <- mapM (date2num (hi_calendar i)) (hi_times i);                           (* :388 *)
    do f <- create_variable f "time"
              (mk_ncvar "i4" ["time"] [] (map inject_Z nums)
                        [("calendar", AText (hi_calendar_name i))]);
    foldM (fun f d => create_variable f d
                        (mk_ncvar (hi_coord_type i d) [d] [] (hi_coords i d) []))
          (keys (hi_dims i)) f.                                                        (* :395 *)

  (** :426-436; [g] is attrs['_global'] *)
  Definition describe_file (i : header_in) (label : option bool) (g : dict aval) (f : ncfile)
    : res ncfile :=
    do ga <- set_attrs (nc_attrs f) g;                                                 (* :427 *)
    let f := mk_ncfile (nc_dims f) (nc_vars f) ga in
    do f <- set_var_attrs f "time" (match label with Some utc => time_attrs utc | None => [] end);
    foldM (fun f kv => set_var_attrs f (snd kv) (hi_var_attrs i (fst kv)))
          (hi_outputs i) f.                                                            (* :433 *)

  (** ** The process: MetSim.params, attrs['_global'], attrs['time'] *)
  Record process := mk_process {
    pc_params : dict pvalue; pc_global : dict aval; pc_label : option bool }.

  Definition utc_given (params : dict pvalue) : res bool :=
    do v <- dict_getitem params "utc_offset"; Ok (truthy v).

  (** __init__, :183, then met_data and _validate_force_times, :243-276.
      [load]: the values written to the parameters (start, stop, calendar,
      state_start, state_stop) or the exception raised on the way. *)
  Definition new_object (p : process) (given : dict pvalue) (load : res (dict pvalue))
    : process * res unit :=
    let params := dict_update (pc_params p) given in
    match load with
    | Err e => (mk_process params (pc_global p) (pc_label p), Err e)
    | Ok resolved =>
        let params := dict_update params resolved in
        match utc_given params with
        | Err e => (mk_process params (pc_global p) (pc_label p), Err e)
        | Ok utc => (mk_process params (pc_global p) (Some utc), Ok tt)
        end
    end.

  (** setup_netcdf_output in that process *)
  Definition write_header (p : process) (i : header_in) : process * res ncfile :=
    match define_file i (pc_label p) with
    | Err e => (p, Err e)
    | Ok f =>
        let (g, ended) := record_params (pc_params p) (pc_global p) in
        (mk_process (pc_params p) g (pc_label p),
         do _ <- ended; describe_file i (pc_label p) g f)
    end.
End Header.
