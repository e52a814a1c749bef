(** C104, C105: the values of one output step, and output without gaps. *)
From Coq Require Import ZArith Reals String List.
From Verif Require Import Model.Py Model.Fl Model.Params Model.Physics Model.Disagg Model.Cell
  Spec.TimeSpec Spec.SeriesSpec Spec.TempSpec Spec.FrameSpec Spec.DewSpec Spec.CellSpec Spec.StepSpec
  Proofs.TempProofs Proofs.StepProofs Proofs.WholeProofs.
Import ListNotations.
Local Open Scope string_scope.
Local Open Scope list_scope.
Local Open Scope R_scope.

(** C104: humidity and pressure of a step follow from its own temperature
    (C) and vapor pressure (kPa), for every method, ... *)
Theorem C104_step_values : forall fuel prm c out prm' k T e,
  (p_time_step prm < 1440)%Z -> run_cell fuel prm c = Some (Ok out, prm') ->
  entry out "temp" k T -> entry out "vapor_pressure" k e ->
  (-237.3 < T -> entry out "rel_humid" k (Rmin 100 (100 * (1000 * e / saturation T)))) /\
  (0 < 273.15 + T - 0.5 * cd_elev c * p_lapse_rate prm ->
     let p := column_pressure T (cd_elev c) (p_lapse_rate prm) in
     entry out "air_pressure" k p /\ (0 <= e < p -> entry out "spec_humid" k (moisture e p))).
Proof. exact cell_step. Qed.
Print Assumptions C104_step_values.

Example C104_case : exists fuel out prm', run_cell fuel (demo_method "mtclim" 60) equator_cell = Some (Ok out, prm') /\
  forall name k, In name (sub_daily_names false) -> (k < 48)%nat -> exists x, entry out name k x.
Proof. exact equator_whole. Qed.

(** ... and longwave from these and the clouds, when clouds are known on
    every day and longwave is not supplied. *)
Theorem C104_longwave : forall df prm tiny tb te out ck k T e c,
  disaggregate df prm tiny tb te = Ok out -> numbers df "tskc" ck -> dict_get (dl_cols df) "longwave" = None ->
  entry out "temp" k T -> entry out "vapor_pressure" k e -> entry out "tskc" k c -> -273.15 < T -> 0 < e ->
  exists L, entry out "longwave" k L /\ sky_longwave prm T e c L.
Proof. exact step_longwave. Qed.
Print Assumptions C104_longwave.

(** in a cell with complete forcing that is so at every step *)
Theorem C104_cell_longwave : forall fuel prm c out prm' k,
  complete_cell prm c -> dict_get (dl_cols (cd_daily c)) "longwave" = None -> run_cell fuel prm c = Some (Ok out, prm') ->
  (k < List.length (dl_doy (cd_daily c)) * steps (p_time_step prm))%nat ->
  exists T e s L, entry out "temp" k T /\ entry out "vapor_pressure" k e /\ entry out "tskc" k s /\ entry out "longwave" k L /\
    sky_longwave prm T e s L.
Proof. exact cell_sky. Qed.
Print Assumptions C104_cell_longwave.

(** Without the cloud cover of a day it is false: clouds and longwave are
    filled separately, and a warm noon gets the longwave of the night before. *)
Theorem C104_cloud_gap_refuted : exists out T e c L L', disaggregate clear_frame tva_params dark_year None None = Ok out /\
  entry out "temp" 36 T /\ entry out "vapor_pressure" 36 e /\ entry out "tskc" 36 c /\ -273.15 < T /\ 0 < e /\
  entry out "longwave" 36 L /\ sky_longwave tva_params T e c L' /\ L < L'.
Proof. exact cloud_gap. Qed.
Print Assumptions C104_cloud_gap_refuted.

(** C105: complete forcing gives complete output: any run has the columns of
    an output, each with a number at every step, ... *)
Theorem C105_no_gaps : forall fuel prm c out prm', complete_cell prm c -> run_cell fuel prm c = Some (Ok out, prm') ->
  all_whole out /\ map fst out = sub_daily_names (match dict_get (dl_cols (cd_daily c)) "wind" with Some _ => true | None => false end) /\
  forall name v, In (name, v) out -> List.length v = (List.length (dl_doy (cd_daily c)) * steps (p_time_step prm))%nat.
Proof. exact cell_whole. Qed.
Print Assumptions C105_no_gaps.

(** ... and there is such a run. *)
Theorem C105_runs : forall prm c g, complete_cell prm c -> solar_geom (cd_elev c) (cd_lat c) (p_lapse_rate prm) = Ok g -> 0 < p_tdew_tol prm ->
  exists M, forall fuel, (fuel >= M)%nat -> exists out prm', run_cell fuel prm c = Some (Ok out, prm') /\ all_whole out.
Proof. exact cell_complete. Qed.
Print Assumptions C105_runs.

Example C105_case : complete_cell (demo_method "mtclim" 60) equator_cell.
Proof. exact (equator_complete 60 legal_60 ltac:(discriminate)). Qed.

(** For any method: what the daily frame must have. *)
Theorem C105_frame : forall df prm tiny tb te out v ck lo hi,
  good_options prm -> good_table (dl_doy df) tiny -> (p_time_step prm <= 360)%Z -> p_utc_offset prm = false \/ p_theta_s prm = 0 ->
  (2 <= List.length (dl_doy df))%nat -> disaggregate df prm tiny tb te = Ok out ->
  measured df "shortwave" -> measured df "daylength" -> rain_known df prm -> measured df "wind" -> measured df "longwave" ->
  numbers df "vapor_pressure" v -> (forall z, In z v -> lo <= z <= hi) -> 0 < lo ->
  numbers df "tskc" ck -> (upper (p_lw_cloud prm) = "CLOUD_DEARDORFF" -> forall c, In c ck -> 0 <= c <= 1) ->
  (forall k T, entry out "temp" k T -> -237.3 < T /\ 0 < 273.15 + T - 0.5 * p_elev prm * p_lapse_rate prm /\
     hi / 1000 < column_pressure T (p_elev prm) (p_lapse_rate prm)) ->
  all_whole out.
Proof. exact frame_whole. Qed.
Print Assumptions C105_frame.
