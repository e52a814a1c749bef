(** A whole run: workers ([wrap_run_slice], metsim/metsim.py:799-805) built
    from the slices of the grid, and the writing machine they drive. *)
From Coq Require Import ZArith Reals String List Bool Arith.
From Verif Require Import Model.Py Model.Fl Model.Params Model.Output Model.Cell Model.Machine.
Import ListNotations.
Local Open Scope list_scope.

Record run_input := mk_run_input {
  ri_dims : dimlist;                  (* mask dimensions *)
  ri_mask : cell -> fl;
  ri_data : cell -> cell_data;        (* inputs of every cell of the grid *)
  ri_prm : params;
  ri_out_vars : dict string;          (* variable -> units *)
  ri_axis : list Z;                   (* full output time axis *)
  ri_groups : list (list Z) }.        (* self._times: one entry per file *)

(** run_slice of the worker of slice [ds]: the sub-domain is the grid under
    isel(domain_slice) (metsim.py:289-290, :483-484).  [prm0] is the
    parameter dictionary the worker starts from. *)
Definition worker_run (fuel : nat) (inp : run_input) (prm0 : params) (ds : dict pyslice)
  : option (res slice_out * params) :=
  let ranges := isel_ranges (ri_dims inp) ds in
  run_slice fuel (ri_out_vars inp) (map (@List.length nat) ranges)
            (fun l => ri_mask inp (globalize ranges l))
            (fun l => ri_data inp (globalize ranges l)) prm0.

(** the series of one variable at a local cell: the NaN initialisation of
    [setup_output] (metsim.py:584) where no result was stored *)
Definition cell_series (inp : run_input) (name : string) (o : option (dict (list fl))) : list fl :=
  match o with
  | Some d => match dict_get d name with Some x => x | None => repeat None (List.length (ri_axis inp)) end
  | None => repeat None (List.length (ri_axis inp))
  end.

(** records of variable number [v] for file number [f] *)
Definition cell_records (inp : run_input) (f v : nat) (o : option (dict (list fl))) : list fl :=
  let name := nth v (keys (ri_out_vars inp)) ""%string in
  file_records (ri_axis inp) (cell_series inp name o) (nth f (ri_groups inp) []).

(** what the worker of slice [ds] with slice result [out] assigns to the
    points of a file: the points that [write_values] changes in an empty
    file *)
Definition slice_payload (inp : run_input) (ds : dict pyslice) (out : slice_out)
    (f v : nat) (c : cell) : option (list fl) :=
  match write_values (ri_dims inp) ds (fun l => cell_records inp f v (out l)) (fun _ => None) with
  | Err _ => None
  | Ok file => file c
  end.

(** the machine of a run over the slices [ss] whose workers produced [outs] *)
Definition run_system (inp : run_input) (ss : list (dict pyslice)) (outs : list slice_out)
    (proc_of : nat -> nat) (proc_first : nat -> bool) : system cell (list fl) :=
  {| nfiles := List.length (ri_groups inp);
     nvars := List.length (ri_out_vars inp);
     nworkers := List.length ss;
     proc_of := proc_of; proc_first := proc_first;
     payload := fun w f v c => slice_payload inp (nth w ss []) (nth w outs (fun _ => None)) f v c |}.
