(** The worker of one slice from its raw inputs: [load_inputs]
    (metsim/metsim.py:354-361, which triggers [_aggregate_state] through the
    [state] property, :312-317), [_validate_setup] and [run_slice]
    (:456-493), in the order of [wrap_run_slice] (:799-805). *)
From Coq Require Import ZArith Reals String List Bool Arith.
From Verif Require Import Model.Py Model.Fl Model.Np Model.Calendar Model.Params Model.Disagg
  Model.State Model.Validate Model.Output Model.Cell.
Import ListNotations.
Local Open Scope string_scope.
Local Open Scope list_scope.

(** what met_data, domain and state hold for one cell *)
Record raw_cell := mk_raw_cell {
  rc_lat : R; rc_lon : R; rc_elev : R;
  rc_cols : dict (list fl);                 (* forcing variables, one value per day *)
  rc_dur : list (Z * fl); rc_tpk : list (Z * fl);   (* domain['dur'], domain['t_pk'] by month *)
  rc_st_prec : list fl; rc_st_tmin : list fl; rc_st_tmax : list fl }.

Definition raw_col (r : raw_cell) (k : string) : res (list fl) := dict_getitem (rc_cols r) k.

(** (dtr < 0).any() over all cells of the slice, masked ones included *)
Definition slice_dtr_check (cells : list raw_cell) : res unit :=
  do tt_ <- mapM (fun r => do a <- raw_col r "t_min"; do b <- raw_col r "t_max"; Ok (a, b)) cells;
  dtr_check tt_.

(** one cell of met_data after [_aggregate_state]; [dates]: see
    [aggregate_over] *)
Definition load_cell_over (dates : list Z) (start stop : Z) (days : list Z) (r : raw_cell) : res cell_data :=
  do pr <- raw_col r "prec"; do tmin <- raw_col r "t_min"; do tmax <- raw_col r "t_max";
  do ag <- aggregate_over dates start stop days (rc_st_prec r) (rc_st_tmin r) (rc_st_tmax r) pr tmin tmax;
  let cols := dict_set (rc_cols r) "seasonal_prec" (ag_seasonal ag) in
  let cols := dict_set cols "dtr" (ag_dtr ag) in
  let cols := dict_set cols "smoothed_dtr" (ag_smoothed ag) in
  Ok (mk_cell_data (rc_lat r) (rc_lon r) (rc_elev r)
        (mkdaily cols (map (fun d => Z.to_nat (dayofyear d)) days))
        (rc_st_tmin r) (rc_st_tmax r)).

Definition load_cell (start : Z) := load_cell_over (record_dates (start - 90) (start - 1)) start.

(** metsim.py:469-471: dur and t_pk for triangle and mix *)
Definition monthly_cell (prm : params) (days : list Z) (r : raw_cell) (c : cell_data) : res cell_data :=
  if str_in (upper (p_prec_type prm)) ["TRIANGLE"; "MIX"] then
    do pr <- raw_col r "prec";
    do dur <- convert_monthly_param (rc_dur r) days pr;
    do tpk <- convert_monthly_param (rc_tpk r) days pr;
    Ok (mk_cell_data (cd_lat c) (cd_lon c) (cd_elev c)
          (set_col (set_col (cd_daily c) "dur" dur) "t_pk" tpk)
          (cd_state_tmin c) (cd_state_tmax c))
  else Ok c.

(** the prepared cells of the slice *)
Definition load_slice (start stop : Z) (days : list Z) (cells : list raw_cell) : res (list cell_data) :=
  do _ <- mapM (fun r => if (List.length (rc_st_prec r) =? 90)%nat then Ok tt else Err AssertionError)
               cells;                                                            (* :593 *)
  do _ <- slice_dtr_check cells;                                                 (* :612 *)
  mapM (load_cell start stop days) cells.

Record worker_in := mk_worker_in {
  wk_start : Z; wk_stop : Z;
  wk_days : list Z;                         (* dates of met_data *)
  wk_shape : list nat;
  wk_cells : list raw_cell;                 (* in the order of [indices wk_shape] *)
  wk_mask : cell -> fl;
  wk_setup : setup;
  wk_out_vars : dict string }.

Definition nth_cell (cells : list cell) (data : list cell_data) (dflt : cell_data) (c : cell) : cell_data :=
  match find (fun p => cell_eqb c (fst p)) (combine cells data) with
  | Some p => snd p | None => dflt end.

Definition no_cell : cell_data := mk_cell_data 0 0 0 (mkdaily [] []) [] [].

(** days from the first to the last date of met_data, both included *)
Definition date_span (days : list Z) : nat :=
  match days with [] => 0%nat | d :: r => Z.to_nat (last r d - d + 1) end.

(** [None] only when the dewpoint loop of some cell runs out of fuel *)
Definition run_worker (fuel : nat) (prm : params) (w : worker_in) : option (res slice_out) :=
  let prep :=
    do data <- load_slice (wk_start w) (wk_stop w) (wk_days w) (wk_cells w);
    do _ <- validate_setup (wk_setup w);
    mapM (fun rc => monthly_cell prm (wk_days w) (fst rc) (snd rc)) (combine (wk_cells w) data) in
  match prep with
  | Err e => Some (Err e)
  | Ok data =>
      match run_slice_by (run_cell_over (date_span (wk_days w)) fuel) (wk_out_vars w) (wk_shape w) (wk_mask w)
              (nth_cell (indices (wk_shape w)) data no_cell) prm with
      | None => None
      | Some (r, _) => Some r
      end
  end.
