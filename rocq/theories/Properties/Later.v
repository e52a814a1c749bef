(** C125: forcing and state of earlier days do not change later output. *)
From Coq Require Import ZArith Reals String List Lra.
From Verif Require Import Model.Py Model.Fl Model.Np Model.Params Model.Disagg Model.Cell
  Spec.TimeSpec Spec.SeriesSpec Spec.TempSpec Spec.FrameSpec Spec.CellSpec Spec.LaterSpec Proofs.LaterProofs Proofs.LaterRuns.
Import ListNotations.
Local Open Scope string_scope.
Local Open Scope list_scope.
Local Open Scope R_scope.

(** C125: without the UTC shift, two records that agree from day m on are
    disaggregated to the same steps from day m + 1 on, whatever comes before
    and whatever is known of the day before the record; a series with a gap
    at the beginning of that day may differ in one value up to the end of the gap. *)
Theorem C125_steps_partial : forall m df df' prm tiny tb tb' te out out',
  legal_time_step (p_time_step prm) -> p_utc_offset prm = false -> p_tmax_frac prm <= 1 ->
  (S m < List.length (dl_doy df))%nat -> (forall row, In row tiny -> usable row) ->
  (forall k, In k ["t_min"; "t_max"] -> if_present df k) ->
  (exists v e0 e1, dict_get (dl_cols df) "vapor_pressure" = Some v /\ nth_error v m = Some (Some e0) /\ nth_error v (S m) = Some (Some e1)) ->
  late_days m df df' ->
  disaggregate df prm tiny (pair_list tb) (pair_list te) = Ok out -> disaggregate df' prm tiny (pair_list tb') (pair_list te) = Ok out' ->
  late_outputs (S m * steps (p_time_step prm)) ["temp"; "vapor_pressure"] out out'.
Proof. exact later_steps. Qed.
Print Assumptions C125_steps_partial.

(** The same holds of the runs of a cell with supplied radiation, *)
Theorem C125_cell_partial : forall fuel fuel' m prm c c' out out' q q',
  p_method prm = "passthrough" -> legal_time_step (p_time_step prm) -> (p_time_step prm < 1440)%Z -> p_utc_offset prm = false -> p_tmax_frac prm <= 1 ->
  (S m < List.length (dl_doy (cd_daily c)))%nat ->
  -90 <= cd_lat c <= 90 -> (forall k, In k ["t_min"; "t_max"] -> if_present (cd_daily c) k) ->
  (exists v e0 e1, dict_get (dl_cols (cd_daily c)) "vapor_pressure" = Some v /\ nth_error v m = Some (Some e0) /\ nth_error v (S m) = Some (Some e1)) ->
  late_cell m c c' -> run_cell fuel prm c = Some (Ok out, q) -> run_cell fuel' prm c' = Some (Ok out', q') ->
  late_outputs (S m * steps (p_time_step prm)) ["temp"; "vapor_pressure"] out out'.
Proof. exact later_cell. Qed.
Print Assumptions C125_cell_partial.

Example C125_case : forall w w',
  (exists out q, run_cell 0 (with_utc false (demo_method "passthrough" 60)) (gusty_cell w) = Some (Ok out, q)) /\
  late_cell 1 (gusty_cell w) (gusty_cell w') /\ (2 < List.length (dl_doy (cd_daily (gusty_cell w))))%nat /\
  dict_get (dl_cols (cd_daily (gusty_cell w))) "wind" = Some [Some w; Some 3; Some 3; Some 3].
Proof. exact gusty_case. Qed.

(** with the UTC shift, east of Greenwich, the output ends with the first day, *)
Theorem C125_wraps : forall x ts prm, legal_time_step ts -> p_utc_offset prm = true -> x <> [] ->
  (ts <= utc_minutes (p_lon prm) <= 1440)%Z ->
  exists out, wind x ts prm = Ok out /\ nth_error out (List.length x * steps ts - 1) = Some (hd None x).
Proof. exact wind_wraps_east. Qed.
Print Assumptions C125_wraps.

Example C125_wraps_case : forall fuel w out q,
  run_cell fuel (with_utc true (demo_method "passthrough" 60)) (gusty_cell w) = Some (Ok out, q) ->
  exists v, dict_get out "wind" = Some v /\ nth_error v 95 = Some (Some w) /\ nth_error v 48 = Some (Some 3).
Proof. exact gusty_wraps. Qed.

(** so that C125 is false of it. *)
Theorem C125_refuted : ~ forall fuel fuel' m prm c c' out out' q q',
  p_method prm = "passthrough" -> legal_time_step (p_time_step prm) -> (p_time_step prm < 1440)%Z -> p_tmax_frac prm <= 1 ->
  (S m < List.length (dl_doy (cd_daily c)))%nat ->
  -90 <= cd_lat c <= 90 -> (forall k, In k ["t_min"; "t_max"] -> if_present (cd_daily c) k) ->
  (exists v e0 e1, dict_get (dl_cols (cd_daily c)) "vapor_pressure" = Some v /\ nth_error v m = Some (Some e0) /\ nth_error v (S m) = Some (Some e1)) ->
  late_cell m c c' -> run_cell fuel prm c = Some (Ok out, q) -> run_cell fuel' prm c' = Some (Ok out', q') ->
  late_outputs (S m * steps (p_time_step prm)) ["temp"; "vapor_pressure"] out out'.
Proof. exact earlier_refuted. Qed.
Print Assumptions C125_refuted.
