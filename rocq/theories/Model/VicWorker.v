(** Workers whose forcing is a directory of files in the formats of VIC:
    [met_data] of a slice (metsim/metsim.py:293-310) read by [process_vic]
    (metsim/io.py:213-249) over the domain of the slice.  The dimensions of
    the domain are lat and lon, in either order. *)
From Coq Require Import ZArith Reals String List Bool Arith.
From Verif Require Import Model.Py Model.Fl Model.Params Model.Reader Model.Vic Model.Output Model.Cell Model.Worker Model.Align.
Import ListNotations.
Local Open Scope string_scope.
Local Open Scope list_scope.

Definition labels_of (axes : dict (list R)) (k : string) : list R :=
  match dict_get axes k with Some l => l | None => [] end.

(** the cell at position [i] of lat and [j] of lon *)
Definition vic_point (axes : dict (list R)) (i j : nat) : cell :=
  map (fun k => if String.eqb k "lat" then i else if String.eqb k "lon" then j else 0%nat) (keys axes).

(** the domain of the worker of slice [ds] as [process_vic] uses it *)
Definition slice_vic_domain (inp : grid_inputs) (ds : dict pyslice) : vic_domain :=
  let axes := slice_axes (gi_axes inp) ds in
  mk_vic_domain (labels_of axes "lat") (labels_of axes "lon")
    (fun i j => gi_mask inp (globalize (axes_ranges (gi_axes inp) ds) (vic_point axes i j))).

(** the dataset over (time, lat, lon), io.py:222-233 *)
Definition vic_nc (names : list string) (n_days : nat) (axes : dict (list R)) (g : met_grid (dict (list fl))) : nc (dict (list fl)) :=
  mk_nc [("lat", labels_of axes "lat"); ("lon", labels_of axes "lon")]
    (fun c => match c with [i; j] => vic_cell names n_days g i j | _ => [] end).

Section VicWorker.
  Variable parse_float : string -> option R.
  Variable read : string -> res (dict (list fl)).   (* reader of one file, [read_vic] *)
  Variable names : list string.                     (* params['forcing_vars'] *)
  Variable n_days : nat.
  Variable jobs : list string.                      (* params['forcing'] *)

  Definition vic_slice_worker (inp : grid_inputs) (ds : dict pyslice) : res worker_in :=
    do g <- process_vic parse_float (slice_vic_domain inp ds) read jobs;
    worker_with inp ds (vic_nc names n_days (slice_axes (gi_axes inp) ds) g).

  Definition vic_file_worker (fuel : nat) (prm : params) (inp : grid_inputs) (ds : dict pyslice) : option (res slice_out) :=
    match vic_slice_worker inp ds with
    | Err e => Some (Err e)
    | Ok w => run_worker fuel prm w
    end.
End VicWorker.
