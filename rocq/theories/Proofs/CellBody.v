(** [run_cell] written out: the dates have no gaps *)
From Coq Require Import ZArith Reals String List Bool Arith.
From Verif Require Import Model.Py Model.Fl Model.Np Model.Constants Model.Physics
  Model.Params Model.Disagg Model.Mtclim Model.Units Model.Output Model.Cell.
Import ListNotations.
Local Open Scope string_scope.
Local Open Scope list_scope.

Lemma run_cell_eq fuel prm c : run_cell fuel prm c =
  let prm := set_location prm (cd_elev c) (cd_lat c) (cd_lon c) in
  let disagg := (p_time_step prm <? 1440)%Z in
  let prep :=
    do sg <- solar_geom (p_elev prm) (p_lat prm) (p_lapse_rate prm);
    let df := cd_daily c in
    do dl <- by_yday (sg_daylengths sg) (dl_doy df);
    do po <- by_yday (flat_potrad sg) (dl_doy df);
    do tt_ <- by_yday (tt_max0 sg) (dl_doy df);
    Ok (sg, set_col (set_col (set_col df "daylength" dl) "potrad" po) "tt_max" tt_) in
  match prep with
  | Err e => Some (Err e, prm)
  | Ok (sg, df) =>
      match run_method fuel df prm with
      | None => None
      | Some (Err e) => Some (Err e, prm)
      | Some (Ok df) =>
          if disagg then
            let out :=
              do a <- last_value (cd_state_tmin c);
              do b <- last_value (cd_state_tmax c);
              do tb <- finite [a; b];
              disaggregate df prm (tiny_rad_fract sg) (Some tb) None in
            Some (out, set_lon prm (remainder360 (p_lon prm)))
          else
            let out :=
              do sw <- col df "shortwave"; do dl <- col df "daylength";
              do sw' <- zipw (fun s d => fmul s (fdiv d (Some SEC_PER_DAY))) sw dl;
              Ok (dl_cols (set_col df "shortwave" sw')) in
            Some (out, prm)
      end
  end.
Proof.
  unfold run_cell, run_cell_by. cbv zeta. destruct (bind _ _) as [[sg df]|e]; [|reflexivity].
  destruct (run_method _ _ _) as [[df1|e]|]; [|reflexivity|reflexivity]. now rewrite Nat.eqb_refl.
Qed.
