(** metsim/metsim.py: running one cell and one slice *)
From Coq Require Import ZArith Reals String List Bool Arith.
From Verif Require Import Model.Py Model.Fl Model.Np Model.Constants Model.Physics
  Model.Params Model.Disagg Model.Mtclim Model.Units Model.Output.
Import ListNotations.
Local Open Scope string_scope.
Local Open Scope list_scope.

(** forcing and location of one cell: what ds.isel(locs) and
    state.isel(locs) hold *)
Record cell_data := mk_cell_data {
  cd_lat : R; cd_lon : R; cd_elev : R;
  cd_daily : daily;                   (* forcing + seasonal predictors *)
  cd_state_tmin : list fl;            (* state['t_min'] *)
  cd_state_tmax : list fl }.

(** a[yday] for every row, metsim.py:737-739 *)
Definition by_yday (table : list R) (doy : list nat) : res (list fl) :=
  mapM (fun d => do x <- getitem table (d - 1)%nat; Ok (Some x)) doy.

(** self.method.run, metsim.py:462 and :744.  [None]: the dewpoint loop did
    not finish within the fuel. *)
Definition run_method (fuel : nat) (df : daily) (prm : params) : option (res daily) :=
  if p_method prm =? "mtclim" then mtclim_run fuel df prm
  else if p_method prm =? "passthrough" then Some (passthrough_run df prm)
  else Some (Err KeyError).

Definition last_value (l : list fl) : res fl :=
  match rev l with [] => Err IndexError | x :: _ => Ok x end.

(** [wrap_run_cell], metsim.py:693-796.  The [params] argument is mutated:
    the second component is the dictionary the caller sees afterwards.
    The final .loc (:795) selects the whole frame and is omitted.  t_end is
    always None (:756-761: the day after the last one is never in the
    dataset).  [span]: number of days from the first to the last date of the
    frame. *)
Definition run_cell_by (span : daily -> nat) (fuel : nat) (prm : params) (c : cell_data)
  : option (res (dict (list fl)) * params) :=
  let prm := set_location prm (cd_elev c) (cd_lat c) (cd_lon c) in           (* :726-728 *)
  let disagg := (p_time_step prm <? 1440)%Z in                               (* :461 *)
  let prep :=
    do sg <- solar_geom (p_elev prm) (p_lat prm) (p_lapse_rate prm);          (* :733 *)
    let df := cd_daily c in
    do dl <- by_yday (sg_daylengths sg) (dl_doy df);
    do po <- by_yday (flat_potrad sg) (dl_doy df);
    do tt_ <- by_yday (tt_max0 sg) (dl_doy df);
    Ok (sg, set_col (set_col (set_col df "daylength" dl) "potrad" po) "tt_max" tt_) in
  match prep with
  | Err e => Some (Err e, prm)
  | Ok (sg, df) =>
      match run_method fuel df prm with
      | None => None
      | Some (Err e) => Some (Err e, prm)
      | Some (Ok df) =>
          if disagg then
            let out :=
              do a <- last_value (cd_state_tmin c);
              do b <- last_value (cd_state_tmax c);
              do tb <- finite [a; b];
              disaggregate_over (span df) df prm (tiny_rad_fract sg) (Some tb) None in
            Some (out, set_lon prm (remainder360 (p_lon prm)))               (* disaggregate.py:67 *)
          else
            let out :=
              do sw <- col df "shortwave"; do dl <- col df "daylength";
              do sw' <- zipw (fun s d => fmul s (fdiv d (Some SEC_PER_DAY))) sw dl;  (* :781 *)
              (* df_base.index = new_times, :788-791 *)
              if (span df =? List.length (dl_doy df))%nat
              then Ok (dl_cols (set_col df "shortwave" sw')) else Err ValueError in
            Some (out, prm)
      end
  end.

Definition run_cell_over (span : nat) := run_cell_by (fun _ => span).
(** dates without gaps: as many days as rows *)
Definition run_cell := run_cell_by (fun df => List.length (dl_doy df)).

(** unit conversion and cut to the requested variables, metsim.py:489-493.
    [out_vars]: variable -> desired units. *)
Definition convert_outputs (out_vars : dict string) (ts : Z) (df : dict (list fl))
  : res (dict (list fl)) :=
  mapM (fun vu => do f <- converter_for (fst vu) (snd vu);
                  do x <- dict_getitem df (fst vu);
                  Ok (fst vu, map (fun y => f y ts) x)) out_vars.

(** ** [run_slice], metsim.py:477-493: loop over the cells of the slice.
    [out]: local cell -> converted variables, absent = still the NaN
    initialisation of [setup_output].  The params dictionary is threaded
    through the cells.  [one]: the run of a single cell. *)
Definition slice_out := cell -> option (dict (list fl)).

Fixpoint run_cells_by (one : params -> cell_data -> option (res (dict (list fl)) * params)) (out_vars : dict string) (mask : cell -> fl)
    (data : cell -> cell_data) (cells : list cell) (prm : params) (out : slice_out)
  : option (res slice_out * params) :=
  match cells with
  | [] => Some (Ok out, prm)
  | c :: r =>
      if fgt (mask c) (Some 0%R) then
        match one prm (data c) with
        | None => None
        | Some (Err e, prm') => Some (Err e, prm')
        | Some (Ok df, prm') =>
            match convert_outputs out_vars (p_time_step prm') df with
            | Err e => Some (Err e, prm')
            | Ok vs => run_cells_by one out_vars mask data r prm'
                         (fun c' => if cell_eqb c' c then Some vs else out c')
            end
        end
      else run_cells_by one out_vars mask data r prm out
  end.

Definition run_cells (fuel : nat) := run_cells_by (run_cell fuel).

Definition run_slice_by (one : params -> cell_data -> option (res (dict (list fl)) * params))
    (out_vars : dict string) (shape : list nat)
    (mask : cell -> fl) (data : cell -> cell_data) (prm : params) : option (res slice_out * params) :=
  run_cells_by one out_vars mask data (indices shape) prm (fun _ => None).
Definition run_slice (fuel : nat) := run_slice_by (run_cell fuel).
