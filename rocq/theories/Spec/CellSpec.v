(** Vocabulary for statements about slices and whole runs. *)
From Coq Require Import ZArith Reals String List Bool Arith.
From Verif Require Import Model.Py Model.Fl Model.Params Model.Disagg Model.Output Model.Cell Model.Run.
Import ListNotations.

(** two parameter dictionaries that agree except for the entries of the
    current cell (elev, lat, lon) *)
Definition same_settings (p q : params) : Prop :=
  set_location p 0 0 0 = set_location q 0 0 0.

Definition active (m : fl) : Prop := exists x, m = Some x /\ (x > 0)%R.

(** the cell run on its own, from the user's settings [prm], yields the
    converted series [vs] *)
Definition cell_alone (fuel : nat) (out_vars : dict string) (prm : params) (c : cell_data)
    (vs : dict (list fl)) : Prop :=
  exists df prm', run_cell fuel prm c = Some (Ok df, prm') /\
    convert_outputs out_vars (p_time_step prm) df = Ok vs.

(** index vectors of the grid *)
Definition cell_in_grid (dims : dimlist) (c : cell) : Prop :=
  Forall2 (fun i (d : string * nat) => i < snd d) c dims.

(** what a file must hold at a cell: the records of the cell run alone, or
    all-NaN records for an inactive cell *)
Definition right_records (fuel : nat) (inp : run_input) (f v : nat) (c : cell) (x : list fl) : Prop :=
  (active (ri_mask inp c) /\
   exists vs, cell_alone fuel (ri_out_vars inp) (ri_prm inp) (ri_data inp c) vs /\
     x = cell_records inp f v (Some vs)) \/
  (~ active (ri_mask inp c) /\ x = cell_records inp f v None).

(** one worker per slice, every one starting from the user's settings with
    arbitrary location entries and finishing without an exception *)
Definition workers_ok (fuel : nat) (inp : run_input) (ss : list (dict pyslice)) (outs : list slice_out) : Prop :=
  Forall2 (fun ds out => exists prm0 prm1, same_settings prm0 (ri_prm inp) /\
             worker_run fuel inp prm0 ds = Some (Ok out, prm1)) ss outs.

(** ** material for examples *)

(** default options with method m and time step ts *)
Definition demo_method (m : string) (ts : Z) : params :=
  mkparams ts false false m "" "uniform" "prata" "cloud_deardorff" 0 0.75 1e-6 0.45 0.67 0.0065 0 0 0 0.

(** two days at sea level on the equator, with shortwave in W/m2 *)
Definition equator_cell : cell_data :=
  mk_cell_data 0 0 0
    (mkdaily [("t_min", map Some [10; 12]); ("t_max", map Some [20; 25]); ("prec", map Some [0; 5]);
              ("dtr", map Some [10; 13]); ("smoothed_dtr", map Some [11; 12]); ("seasonal_prec", map Some [400; 410]);
              ("shortwave", map Some [200; 250])]%string%R [1; 2])
    (map Some [9; 9]%R) (map Some [21; 22]%R).

(** two such days at the pole in June, when the sun does not set *)
Definition polar_cell : cell_data :=
  mk_cell_data 90 0 0 (mkdaily (dl_cols (cd_daily equator_cell)) [173; 174]) (map Some [9; 9]%R) (map Some [21; 22]%R).

(** four such days; rain and wind are not measured on the second one.  The
    shower of the fourth day falls between two whole minutes. *)
Definition gappy_cell : cell_data :=
  mk_cell_data 0 0 0
    (mkdaily [("t_min", map Some [10; 12; 11; 11]); ("t_max", map Some [20; 25; 22; 21]); ("prec", [Some 6; None; Some 5; Some 2]);
              ("dtr", map Some [10; 13; 11; 10]); ("smoothed_dtr", map Some [11; 12; 11; 10]); ("seasonal_prec", map Some [400; 410; 405; 400]);
              ("shortwave", map Some [200; 250; 220; 210]); ("wind", [Some 3; None; Some 4; Some 1]);
              ("t_pk", map Some [720; 720; 720; 720.5]); ("dur", map Some [60; 60; 60; 0.5])]%string%R [1; 2; 3; 4])
    (map Some [9; 9]%R) (map Some [21; 22]%R).

(** default options with hourly steps and the given kind of precipitation *)
Definition demo_rain (kind : string) : params :=
  mkparams 60 false false "passthrough" "" kind "prata" "cloud_deardorff" 0 0.75 1e-6 0.45 0.67 0.0065 0 0 0 0.

(** a run of two cells, of which only the first is in the mask, over two days
    with one file per day *)
Definition two_cells (axis : list Z) (groups : list (list Z)) : run_input :=
  mk_run_input [("lat", 1); ("lon", 2)]%string (fun c => match c with [0; 0] => Some 1%R | _ => Some 0%R end)
    (fun _ => equator_cell) (demo_method "passthrough" 60) [("prec", "mm timestep-1"); ("temp", "K")]%string axis groups.
