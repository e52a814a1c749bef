(** C122: forcing of later days does not change earlier output. *)
From Coq Require Import ZArith Reals String List Lra.
From Verif Require Import Model.Py Model.Fl Model.Np Model.Params Model.Disagg Model.Cell
  Spec.TimeSpec Spec.SeriesSpec Spec.TempSpec Spec.FrameSpec Spec.CellSpec Spec.EarlierSpec Proofs.EarlierProofs Proofs.EarlierRuns.
Import ListNotations.
Local Open Scope string_scope.
Local Open Scope list_scope.
Local Open Scope R_scope.

(** C122: without the UTC shift, two records that agree on their first m days
    are disaggregated to the same steps on all but the last of these days,
    whatever follows and whatever is known of the day after the record; a
    series that differs has no measurement on these days. *)
Theorem C122_steps_partial : forall m df df' prm tiny tb te te' out out',
  legal_time_step (p_time_step prm) -> p_utc_offset prm = false -> (2 <= m)%nat -> (forall row, In row tiny -> usable row) ->
  (forall k, In k ["t_min"; "t_max"] -> if_present df k /\ if_present df' k) ->
  (exists v e0 e1, dict_get (dl_cols df) "vapor_pressure" = Some v /\ nth_error v 0 = Some (Some e0) /\ nth_error v 1 = Some (Some e1)) ->
  same_days m df df' ->
  disaggregate df prm tiny (pair_list tb) (pair_list te) = Ok out -> disaggregate df' prm tiny (pair_list tb) (pair_list te') = Ok out' ->
  same_outputs ((m - 1) * steps (p_time_step prm)) ["temp"; "vapor_pressure"] out out'.
Proof. exact earlier_steps. Qed.
Print Assumptions C122_steps_partial.

(** The same holds of the runs of a cell with supplied radiation; *)
Theorem C122_cell_partial : forall fuel fuel' m prm c c' out out' q q',
  p_method prm = "passthrough" -> legal_time_step (p_time_step prm) -> (p_time_step prm < 1440)%Z -> p_utc_offset prm = false -> (2 <= m)%nat ->
  -90 <= cd_lat c <= 90 -> (forall k, In k ["t_min"; "t_max"] -> if_present (cd_daily c) k /\ if_present (cd_daily c') k) ->
  (exists v e0 e1, dict_get (dl_cols (cd_daily c)) "vapor_pressure" = Some v /\ nth_error v 0 = Some (Some e0) /\ nth_error v 1 = Some (Some e1)) ->
  same_cell m c c' -> run_cell fuel prm c = Some (Ok out, q) -> run_cell fuel' prm c' = Some (Ok out', q') ->
  same_outputs ((m - 1) * steps (p_time_step prm)) ["temp"; "vapor_pressure"] out out'.
Proof. exact earlier_cell. Qed.
Print Assumptions C122_cell_partial.

Example C122_case : forall w w',
  (exists out q, run_cell 0 (with_utc false (demo_method "passthrough" 60)) (windy_cell w) = Some (Ok out, q)) /\
  same_cell 2 (windy_cell w) (windy_cell w') /\ nth_error (map Some [3; 3; w]) 2 = Some (Some w) /\
  dict_get (dl_cols (cd_daily (windy_cell w))) "wind" = Some (map Some [3; 3; w]).
Proof. exact windy_case. Qed.

(** with the UTC shift, west of Greenwich, the record begins with its last day, *)
Theorem C122_wraps : forall x ts prm, legal_time_step ts -> p_utc_offset prm = true -> x <> [] ->
  (-1440 <= utc_minutes (p_lon prm) <= - ts)%Z ->
  exists out, wind x ts prm = Ok out /\ nth_error out 0 = Some (last x None).
Proof. exact wind_wraps. Qed.
Print Assumptions C122_wraps.

Example C122_wraps_case : forall fuel w out q,
  run_cell fuel (with_utc true (demo_method "passthrough" 60)) (windy_cell w) = Some (Ok out, q) ->
  exists v, dict_get out "wind" = Some v /\ nth_error v 0 = Some (Some w) /\ nth_error v 6 = Some (Some 3).
Proof. exact windy_wraps. Qed.

(** so that C122 is false of it. *)
Theorem C122_refuted : ~ forall fuel fuel' m prm c c' out out' q q',
  p_method prm = "passthrough" -> legal_time_step (p_time_step prm) -> (p_time_step prm < 1440)%Z -> (2 <= m)%nat ->
  -90 <= cd_lat c <= 90 -> (forall k, In k ["t_min"; "t_max"] -> if_present (cd_daily c) k /\ if_present (cd_daily c') k) ->
  (exists v e0 e1, dict_get (dl_cols (cd_daily c)) "vapor_pressure" = Some v /\ nth_error v 0 = Some (Some e0) /\ nth_error v 1 = Some (Some e1)) ->
  same_cell m c c' -> run_cell fuel prm c = Some (Ok out, q) -> run_cell fuel' prm c' = Some (Ok out', q') ->
  same_outputs ((m - 1) * steps (p_time_step prm)) ["temp"; "vapor_pressure"] out out'.
Proof. exact later_refuted. Qed.
Print Assumptions C122_refuted.
