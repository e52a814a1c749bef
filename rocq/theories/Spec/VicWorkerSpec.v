(** Vocabulary for statements about runs on files in the formats of VIC. *)
From Coq Require Import ZArith Reals String List Bool.
From Verif Require Import Model.Py Model.Fl Model.Reader Model.Vic Model.Output Model.Worker Model.Align Spec.CellSpec Spec.AlignSpec Spec.StateSpec Spec.WorkerSpec.
Import ListNotations.
Local Open Scope string_scope.
Local Open Scope list_scope.

(** a domain over lat and lon, in either order, with distinct labels *)
Definition lat_lon (axes : dict (list R)) : Prop :=
  exists la lo, NoDup la /\ NoDup lo /\ la <> [] /\ lo <> [] /\
    (axes = [("lat", la); ("lon", lo)] \/ axes = [("lon", lo); ("lat", la)]).

(** the name of the file ends in the coordinates of the cell *)
Definition names_cell (parse_float : string -> option R) (axes : dict (list R)) (job : string) (c : cell) : Prop :=
  exists lat lon, parse_job parse_float job = Ok (lat, lon) /\ has_coord axes c "lat" lat /\ has_coord axes c "lon" lon.

(** [job] is the only file for the cell *)
Definition only_file_of (parse_float : string -> option R) (axes : dict (list R)) (jobs : list string) (job : string) (c : cell) : Prop :=
  In job jobs /\ names_cell parse_float axes job c /\ forall job', In job' jobs -> names_cell parse_float axes job' c -> job' = job.

(** no file could be read for the cell *)
Definition no_file_of (parse_float : string -> option R) (axes : dict (list R)) (read : string -> res (dict (list fl)))
    (jobs : list string) (c : cell) : Prop :=
  forall job, In job jobs -> names_cell parse_float axes job c -> exists e, read job = Err e.

(** every variable missing on every day *)
Definition missing_cols (names : list string) (n : nat) : dict (list fl) := map (fun k => (k, repeat (None : fl) n)) names.

(** [cols] are the series of the cell: for an active cell those of a file
    named after it, for all other cells none *)
Definition file_columns (parse_float : string -> option R) (read : string -> res (dict (list fl))) (names : list string) (n : nat)
    (jobs : list string) (inp : grid_inputs) (c : cell) (cols : dict (list fl)) : Prop :=
  (active (gi_mask inp c) ->
     (exists job, In job jobs /\ names_cell parse_float (gi_axes inp) job c /\ read job = Ok cols) \/
     (no_file_of parse_float (gi_axes inp) read jobs c /\ cols = missing_cols names n)) /\
  (~ active (gi_mask inp c) -> cols = missing_cols names n).

(** a reader gives the variables of the table, one value per day *)
Definition proper_reader (read : string -> res (dict (list fl))) (names : list string) (n : nat) : Prop :=
  forall job d, read job = Ok d -> keys d = names /\ forall k v, dict_get d k = Some v -> List.length v = n.

(** state files with the 90 days before the start *)
Definition full_state (inp : grid_inputs) : Prop :=
  forall c sp sn sx, on_grid (gi_axes inp) c -> holds_at (gi_state inp) (gi_axes inp) c (sp, sn, sx) ->
    List.length sp = 90%nat /\ List.length sn = 90%nat /\ List.length sx = 90%nat.

(** mask, place, monthly values and state of the cell, whatever its forcing *)
Record own_place (inp : grid_inputs) (c : cell) (r : raw_cell) : Prop := {
  op_place : rc_lat r = gi_lat inp c /\ rc_lon r = gi_lon inp c /\ rc_elev r = gi_elev inp c;
  op_months : rc_dur r = gi_dur inp c /\ rc_tpk r = gi_tpk inp c;
  op_state : holds_at (gi_state inp) (gi_axes inp) c (rc_st_prec r, rc_st_tmin r, rc_st_tmax r) }.

(** the state can be read by coordinates *)
Record good_state (inp : grid_inputs) : Prop := {
  gs_state : readable (nc_axes (gi_state inp)) (gi_axes inp);
  gs_dims : incl (keys (gi_axes inp)) (keys (nc_axes (gi_state inp))) }.

(** the same with both cells in the mask *)
Definition both_inputs : grid_inputs :=
  mk_grid_inputs (gi_axes demo_inputs) (fun _ => Some 1%R) (gi_lat demo_inputs) (gi_lon demo_inputs) (gi_elev demo_inputs)
    (gi_dur demo_inputs) (gi_tpk demo_inputs) (gi_forcing demo_inputs) (gi_state demo_inputs)
    (gi_start demo_inputs) (gi_stop demo_inputs) (gi_days demo_inputs) (gi_setup demo_inputs) (gi_out_vars demo_inputs).

(** a directory with one file, of two days, for the cell at 0, 0 *)
Definition zero_float (s : string) : option R := if String.eqb s "0" then Some 0%R else if String.eqb s "1" then Some 1%R else None.
Definition equator_names : list string := ["t_min"; "t_max"; "prec"; "shortwave"].
Definition equator_lines (job : string) : list (list fl) := [map Some [10; 20; 0; 200]; map Some [12; 25; 5; 250]]%R.
Definition equator_read (job : string) : res (dict (list fl)) := read_ascii (equator_lines job) equator_names 2.
Definition equator_jobs : list string := ["/data/readme"; "/data/full_0_0"].
