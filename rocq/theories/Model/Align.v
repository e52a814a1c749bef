(** Bringing forcing, state and domain together: [domain], [met_data] and
    [state] of a worker (metsim/metsim.py:286-317) with the selection by
    coordinates of [read_netcdf] (metsim/io.py:279-282), [read_data]
    (io.py:303-321), and the cells of [run_slice] (metsim.py:477-487). *)
From Coq Require Import ZArith Reals String List Bool Arith.
From Verif Require Import Model.Py Model.Fl Model.Params Model.Reader Model.Output Model.Validate Model.Cell Model.Worker.
Import ListNotations.
Local Open Scope string_scope.
Local Open Scope list_scope.

(** a dataset over named dimensions with coordinates; a point is a position
    per dimension, in the order of the axes.  [V]: everything stored at a
    point, time series included *)
Record nc (V : Type) := mk_nc { nc_axes : dict (list R); nc_at : cell -> V }.
Arguments mk_nc {V} _ _.
Arguments nc_axes {V} _.
Arguments nc_at {V} _ _.

(** ** the domain of a worker, metsim.py:288-290: read_domain().isel(slice) *)
Definition axes_dims (axes : dict (list R)) : dimlist := map (fun a => (fst a, List.length (snd a))) axes.

(** positions of the slice along each axis *)
Definition axes_ranges (axes : dict (list R)) (ds : dict pyslice) : list (list nat) :=
  isel_ranges (axes_dims axes) ds.

Definition slice_axes (axes : dict (list R)) (ds : dict pyslice) : dict (list R) :=
  map (fun ar => (fst (fst ar), map (fun i => nth i (snd (fst ar)) 0%R) (snd ar)))
      (combine axes (axes_ranges axes ds)).

(** ** ds.sel({k: domain[k] ...}), io.py:279-282 *)

Fixpoint distinct (l : list R) : bool :=
  match l with [] => true | x :: r => negb (existsb (fun y => if Req_EM_T x y then true else false) r) && distinct r end.

(** pandas.Index.get_indexer: InvalidIndexError for labels that are not
    unique, KeyError (from xarray) for a label that is absent *)
Definition positions (have want : list R) : res (list nat) :=
  if distinct have then mapM (fun x => find_coord have x 0) want else Err InvalidIndexError.

(** one axis: the selected positions and the labels of the result *)
Definition sel_axis (axes : dict (list R)) (a : string * list R) : res (list nat * (string * list R)) :=
  match dict_get axes (fst a) with
  | Some want => do ps <- positions (snd a) want; Ok (ps, (fst a, want))
  | None => Ok (seq 0 (List.length (snd a)), a)
  end.

Definition sel {V} (ds : nc V) (axes : dict (list R)) : res (nc V) :=
  do pa <- mapM (sel_axis axes) (nc_axes ds);
  Ok (mk_nc (map snd pa) (fun c => nc_at ds (globalize (map fst pa) c))).

(** ** [read_data]: no selection.  met_data['lat'] = domain['lat'] and the
    same for 'lon' (metsim.py:297-298) overwrite the coordinates of the
    dataset, ValueError when the sizes differ *)
Definition overwrite_axis (axes : dict (list R)) (a : string * list R) : res (string * list R) :=
  if str_in (fst a) ["lat"; "lon"] then
    match dict_get axes (fst a) with
    | Some want => if (List.length want =? List.length (snd a))%nat then Ok (fst a, want) else Err ValueError
    | None => Ok a
    end
  else Ok a.

Definition overwrite {V} (ds : nc V) (axes : dict (list R)) : res (nc V) :=
  do axes' <- mapM (overwrite_axis axes) (nc_axes ds);
  Ok (mk_nc axes' (nc_at ds)).

(** ** ds.isel( **locs ), metsim.py:484-485.  A dimension of [ds] that is not
    among the names of [locs] would remain; that case is left out (ValueError). *)
Definition isel_axis (locs : dict nat) (a : string * list R) : res nat :=
  match dict_get locs (fst a) with
  | Some i => if (i <? List.length (snd a))%nat then Ok i else Err IndexError
  | None => Err ValueError
  end.

(** met_data: all mask dimensions exist there, because elev has been added
    to it (:296); a variable that lacks one of them is repeated along it *)
Definition isel_met {V} (ds : nc V) (locs : dict nat) : res V :=
  do p <- mapM (isel_axis locs) (nc_axes ds);
  Ok (nc_at ds p).

(** state: ValueError for a dimension that does not exist *)
Definition isel_state {V} (ds : nc V) (locs : dict nat) : res V :=
  if forallb (fun k => dict_mem (nc_axes ds) k) (keys locs) then isel_met ds locs else Err ValueError.

(** zip(mask.dims, index), :479 *)
Definition locs_of (axes : dict (list R)) (l : cell) : dict nat := combine (keys axes) l.

(** what a worker finds for its local cell [l] in forcing passed in memory *)
Definition memory_cell {V} (ds : nc V) (dom : dict (list R)) (sl : dict pyslice) (l : cell) : res V :=
  do sub <- overwrite ds (slice_axes dom sl);
  isel_met sub (locs_of dom l).

(** ** all inputs of a run *)
Record grid_inputs := mk_grid_inputs {
  gi_axes : dict (list R);                      (* mask.dims with their coordinates *)
  gi_mask : cell -> fl;
  gi_lat : cell -> R; gi_lon : cell -> R; gi_elev : cell -> R;
  gi_dur : cell -> list (Z * fl); gi_tpk : cell -> list (Z * fl);
  gi_forcing : nc (dict (list fl));             (* forcing file, cut to the period *)
  gi_state : nc (list fl * list fl * list fl);  (* state file: prec, t_min, t_max *)
  gi_start : Z; gi_stop : Z; gi_days : list Z;
  gi_setup : setup; gi_out_vars : dict string }.

(** everything the worker of slice [ds] has for its local cell [l] *)
Definition gather (inp : grid_inputs) (ds : dict pyslice) (met : nc (dict (list fl)))
    (state : nc (list fl * list fl * list fl)) (l : cell) : res raw_cell :=
  let g := globalize (axes_ranges (gi_axes inp) ds) l in
  do cols <- isel_met met (locs_of (gi_axes inp) l);
  do st <- isel_state state (locs_of (gi_axes inp) l);
  let '(sp, sn, sx) := st in
  Ok (mk_raw_cell (gi_lat inp g) (gi_lon inp g) (gi_elev inp g) cols (gi_dur inp g) (gi_tpk inp g) sp sn sx).

(** the inputs of the worker of slice [ds] once its forcing has been read *)
Definition worker_with (inp : grid_inputs) (ds : dict pyslice) (met : nc (dict (list fl))) : res worker_in :=
  let ranges := axes_ranges (gi_axes inp) ds in
  do state <- sel (gi_state inp) (slice_axes (gi_axes inp) ds);
  let shape := map (@List.length nat) ranges in
  do cells <- mapM (gather inp ds met state) (indices shape);
  Ok (mk_worker_in (gi_start inp) (gi_stop inp) (gi_days inp) shape cells
        (fun l => gi_mask inp (globalize ranges l)) (gi_setup inp) (gi_out_vars inp)).

(** for netCDF forcing *)
Definition slice_worker (inp : grid_inputs) (ds : dict pyslice) : res worker_in :=
  do met <- sel (gi_forcing inp) (slice_axes (gi_axes inp) ds);
  worker_with inp ds met.

Definition file_worker (fuel : nat) (prm : params) (inp : grid_inputs) (ds : dict pyslice) : option (res slice_out) :=
  match slice_worker inp ds with
  | Err e => Some (Err e)
  | Ok w => run_worker fuel prm w
  end.
