(** Vocabulary for statements about places on a grid. *)
From Coq Require Import ZArith Reals String List Bool.
From Verif Require Import Model.Py Model.Fl Model.Calendar Model.Output Model.Worker Model.Align Spec.StateSpec Spec.WorkerSpec.
Import ListNotations.
Local Open Scope string_scope.
Local Open Scope list_scope.

(** the point [c] of a grid with these axes has coordinate [x] in dimension [k] *)
Definition has_coord (axes : dict (list R)) (c : cell) (k : string) (x : R) : Prop :=
  exists i labels n, nth_error axes i = Some (k, labels) /\ nth_error c i = Some n /\ nth_error labels n = Some x.

(** [c] is a point of the grid *)
Definition on_grid (axes : dict (list R)) (c : cell) : Prop :=
  Forall2 (fun n a => (n < List.length (snd a))%nat) c axes.

(** the point [p] of one grid lies, in all of its dimensions, at the
    coordinates of the point [c] of another *)
Definition at_place (axes : dict (list R)) (p : cell) (axes' : dict (list R)) (c : cell) : Prop :=
  on_grid axes p /\ forall k x, has_coord axes p k x -> has_coord axes' c k x.

(** grids that can be read by coordinates: distinct dimensions, all of which
    the domain has, with distinct labels *)
Record readable (axes dom : dict (list R)) : Prop := {
  rd_names : NoDup (keys axes);
  rd_known : incl (keys axes) (keys dom);
  rd_labels : forall k labels, In (k, labels) axes -> NoDup labels }.

(** every label of the domain is a label of the grid *)
Definition labels_cover (axes dom : dict (list R)) : Prop :=
  forall k have want, dict_get axes k = Some have -> dict_get dom k = Some want -> incl want have.

(** [v] is what the dataset holds at the place of the domain point [c] *)
Definition holds_at {V} (ds : nc V) (dom : dict (list R)) (c : cell) (v : V) : Prop :=
  (exists p, at_place (nc_axes ds) p dom c) /\ forall p, at_place (nc_axes ds) p dom c -> v = nc_at ds p.

(** [r] is what the input files hold for the place of the domain cell [c] *)
Record own_inputs (inp : grid_inputs) (c : cell) (r : raw_cell) : Prop := {
  oi_place : rc_lat r = gi_lat inp c /\ rc_lon r = gi_lon inp c /\ rc_elev r = gi_elev inp c;
  oi_months : rc_dur r = gi_dur inp c /\ rc_tpk r = gi_tpk inp c;
  oi_forcing : holds_at (gi_forcing inp) (gi_axes inp) c (rc_cols r);
  oi_state : holds_at (gi_state inp) (gi_axes inp) c (rc_st_prec r, rc_st_tmin r, rc_st_tmax r) }.

(** the files of a run can be read by coordinates *)
Record good_files (inp : grid_inputs) : Prop := {
  gf_names : NoDup (keys (gi_axes inp));
  gf_sizes : forall k labels, In (k, labels) (gi_axes inp) -> labels <> [];
  gf_forcing : readable (nc_axes (gi_forcing inp)) (gi_axes inp);
  gf_state : readable (nc_axes (gi_state inp)) (gi_axes inp);
  gf_state_dims : incl (keys (gi_axes inp)) (keys (nc_axes (gi_state inp))) }.

(** ** material for examples *)

(** a domain with two rows, and a dataset whose rows are in the opposite order *)
Definition demo_domain : dict (list R) := [("lat", [47; 48]); ("lon", [-121])]%R.
Definition demo_reversed : nc nat :=
  mk_nc [("lat", [48; 47]); ("lon", [-121])]%R (fun p => match p with j :: _ => j | [] => 9%nat end).

(** two cells on the equator, of which the first is in the mask; the forcing
    has one column more, in the opposite order and with the dimensions
    exchanged; the columns of the state are exchanged as well *)
Definition cold_raw : raw_cell :=
  mk_raw_cell 0 1 0 [("t_min", map Some [-5; -4]); ("t_max", map Some [1; 2]); ("prec", map Some [3; 3])]%R
    [] [] (repeat (Some 2%R) 90) (repeat (Some (-6)%R) 90) (repeat (Some 0%R) 90).
Definition demo_inputs : grid_inputs :=
  mk_grid_inputs [("lat", [0]); ("lon", [0; 1])]%R (wk_mask equator_worker)
    (fun _ => 0%R) (fun c => match c with [_; 1%nat] => 1%R | _ => 0%R end) (fun _ => 0%R) (fun _ => []) (fun _ => [])
    (mk_nc [("lon", [2; 1; 0]); ("lat", [0])]%R
       (fun p => match p with [2; 0]%nat => rc_cols equator_raw | [1; 0]%nat => rc_cols cold_raw | _ => [] end))
    (mk_nc [("lat", [0]); ("lon", [1; 0])]%R
       (fun p => let r := match p with [0; 1]%nat => equator_raw | _ => cold_raw end in (rc_st_prec r, rc_st_tmin r, rc_st_tmax r)))
    0 1 (dates_from 0 2) (wk_setup equator_worker) (wk_out_vars equator_worker).

(** the same with another forcing *)
Definition with_forcing (inp : grid_inputs) (f : nc (dict (list fl))) : grid_inputs :=
  mk_grid_inputs (gi_axes inp) (gi_mask inp) (gi_lat inp) (gi_lon inp) (gi_elev inp) (gi_dur inp) (gi_tpk inp) f (gi_state inp)
    (gi_start inp) (gi_stop inp) (gi_days inp) (gi_setup inp) (gi_out_vars inp).
Definition short_inputs : grid_inputs :=
  with_forcing demo_inputs (mk_nc [("lat", [0]); ("lon", [0])]%R (fun _ => rc_cols equator_raw)).
(** the same with a state that has rows only *)
Definition flat_inputs : grid_inputs :=
  mk_grid_inputs (gi_axes demo_inputs) (gi_mask demo_inputs) (gi_lat demo_inputs) (gi_lon demo_inputs) (gi_elev demo_inputs)
    (gi_dur demo_inputs) (gi_tpk demo_inputs) (gi_forcing demo_inputs)
    (mk_nc [("lat", [0])]%R (fun _ => (rc_st_prec cold_raw, rc_st_tmin cold_raw, rc_st_tmax cold_raw)))
    (gi_start demo_inputs) (gi_stop demo_inputs) (gi_days demo_inputs) (gi_setup demo_inputs) (gi_out_vars demo_inputs).
