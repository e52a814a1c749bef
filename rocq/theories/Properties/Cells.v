(** C46, C47, C75, C110: one cell from its forcing to its output. *)
From Coq Require Import ZArith Reals String List.
From Verif Require Import Model.Py Model.Fl Model.Params Model.Physics Model.Disagg Model.Cell
  Spec.TimeSpec Spec.SeriesSpec Spec.SolarSpec Spec.TempSpec Spec.FrameSpec Spec.CellSpec Spec.StepSpec Proofs.TempProofs Proofs.CellProofs Proofs.CellTotal Proofs.DewCell Proofs.PolarCell.
Import ListNotations.
Local Open Scope string_scope.
Local Open Scope list_scope.
Local Open Scope R_scope.

(** C46: at sub-daily steps the mean of a day is the supplied value, except
    in polar night (0) and midnight sun (smaller).  Missing for the full
    statement: utc_offset, which moves radiation between days. *)
Theorem C46_sub_daily_partial : forall fuel prm c out prm' sw,
  legal_time_step (p_time_step prm) -> (p_time_step prm < 1440)%Z -> p_utc_offset prm = false ->
  p_method prm = "passthrough" -> p_sw_averaging prm <> "daylight" ->
  -90 <= cd_lat c <= 90 -> days_valid (dl_doy (cd_daily c)) ->
  dict_get (dl_cols (cd_daily c)) "shortwave" = Some sw -> run_cell fuel prm c = Some (Ok out, prm') ->
  exists v, dict_get out "shortwave" = Some v /\ List.length v = (List.length sw * steps (p_time_step prm))%nat /\
  forall d S k, nth_error sw d = Some (Some S) -> nth_error (dl_doy (cd_daily c)) d = Some k ->
    let i := Nat.min (k - 1) 364 in let mean := fmean (day_part (steps (p_time_step prm)) d v) in
    (polar_night (cd_lat c) i -> mean = Some 0) /\
    (~ polar_night (cd_lat c) i -> ~ midnight_sun (cd_lat c) i -> mean = Some S) /\
    (midnight_sun (cd_lat c) i -> exists T, 0 < T < 1 /\ mean = Some (S * T)).
Proof. exact pass_sub_daily. Qed.
Print Assumptions C46_sub_daily_partial.

(** At the daily step the supplied 24-hour mean is multiplied by the daylit
    part of the day ... *)
Theorem C46_daily_value : forall fuel prm c out prm' sw,
  (1440 <= p_time_step prm)%Z -> p_method prm = "passthrough" ->
  -90 <= cd_lat c <= 90 -> days_valid (dl_doy (cd_daily c)) ->
  dict_get (dl_cols (cd_daily c)) "shortwave" = Some sw -> run_cell fuel prm c = Some (Ok out, prm') ->
  exists v, dict_get out "shortwave" = Some v /\ List.length v = List.length sw /\
  forall d S k, nth_error sw d = Some (Some S) -> nth_error (dl_doy (cd_daily c)) d = Some k ->
    nth_error v d = Some (Some (S * (sg_daylength (cd_lat c) (Nat.min (k - 1) 364) / 86400))).
Proof. exact pass_daily. Qed.
Print Assumptions C46_daily_value.

(** ... so C46 is false there: on the equator half of it is lost. *)
Theorem C46_daily_refuted : ~ (forall fuel prm c out prm' sw, legal_time_step (p_time_step prm) -> p_utc_offset prm = false ->
  p_method prm = "passthrough" -> p_sw_averaging prm <> "daylight" -> good_options prm -> good_forcing (cd_daily c) prm ->
  -90 <= cd_lat c <= 90 -> dict_get (dl_cols (cd_daily c)) "shortwave" = Some sw -> run_cell fuel prm c = Some (Ok out, prm') ->
  exists v, dict_get out "shortwave" = Some v /\
  forall d S k, nth_error sw d = Some (Some S) -> nth_error (dl_doy (cd_daily c)) d = Some k ->
    ~ polar_night (cd_lat c) (Nat.min (k - 1) 364) -> ~ midnight_sun (cd_lat c) (Nat.min (k - 1) 364) ->
    fmean (day_part (steps (p_time_step prm)) d v) = Some S).
Proof. exact pass_daily_refuted. Qed.
Print Assumptions C46_daily_refuted.

(** Under the midnight sun it is false at sub-daily steps too: the part of the
    daylight before midnight is not counted.  The case is a cell at the pole. *)
Theorem C46_midnight_refuted : ~ (forall fuel prm c out prm' sw, legal_time_step (p_time_step prm) -> (p_time_step prm < 1440)%Z -> p_utc_offset prm = false ->
  p_method prm = "passthrough" -> p_sw_averaging prm <> "daylight" -> good_options prm -> good_forcing (cd_daily c) prm ->
  -90 <= cd_lat c <= 90 -> dict_get (dl_cols (cd_daily c)) "shortwave" = Some sw -> run_cell fuel prm c = Some (Ok out, prm') ->
  exists v, dict_get out "shortwave" = Some v /\
  forall d S k, nth_error sw d = Some (Some S) -> nth_error (dl_doy (cd_daily c)) d = Some k ->
    ~ polar_night (cd_lat c) (Nat.min (k - 1) 364) -> fmean (day_part (steps (p_time_step prm)) d v) = Some S).
Proof. exact pass_midnight_refuted. Qed.
Print Assumptions C46_midnight_refuted.

Example C46_case : exists out prm', run_cell 0 (demo_method "passthrough" 60) equator_cell = Some (Ok out, prm').
Proof. exact (equator_runs 0 60 legal_60). Qed.

(** C47: the mean of a sub-daily day is the value of the daily run; under
    the midnight sun, where the fractions of a row add up to less than 1, it
    is smaller.  Missing for the full statement: utc_offset. *)
Theorem C47_agree_partial : forall fuel prm c out1 p1 out2 p2,
  legal_time_step (p_time_step prm) -> (p_time_step prm < 1440)%Z -> p_utc_offset prm = false -> p_method prm = "mtclim" ->
  -90 <= cd_lat c <= 90 -> days_valid (dl_doy (cd_daily c)) ->
  run_cell fuel prm c = Some (Ok out1, p1) -> run_cell fuel (with_step 1440 prm) c = Some (Ok out2, p2) ->
  exists v1 v2, dict_get out1 "shortwave" = Some v1 /\ dict_get out2 "shortwave" = Some v2 /\
  List.length v2 = List.length (dl_doy (cd_daily c)) /\ List.length v1 = (List.length v2 * steps (p_time_step prm))%nat /\
  forall d x k, nth_error v2 d = Some (Some x) -> nth_error (dl_doy (cd_daily c)) d = Some k ->
    let i := Nat.min (k - 1) 364 in let mean := fmean (day_part (steps (p_time_step prm)) d v1) in
    (~ midnight_sun (cd_lat c) i -> mean = Some x) /\
    (midnight_sun (cd_lat c) i -> exists T, 0 < T < 1 /\ mean = Some (x * T)).
Proof. exact daily_agrees. Qed.
Print Assumptions C47_agree_partial.

Example C47_case : exists fuel out1 p1 out2 p2,
  run_cell fuel (demo_method "mtclim" 60) equator_cell = Some (Ok out1, p1) /\
  run_cell fuel (with_step 1440 (demo_method "mtclim" 60)) equator_cell = Some (Ok out2, p2).
Proof. exact equator_both. Qed.

Theorem C47_midnight_refuted : ~ (forall fuel prm c out1 p1 out2 p2,
  legal_time_step (p_time_step prm) -> (p_time_step prm < 1440)%Z -> p_utc_offset prm = false -> sunlit_cell prm c ->
  run_cell fuel prm c = Some (Ok out1, p1) -> run_cell fuel (with_step 1440 prm) c = Some (Ok out2, p2) ->
  exists v1 v2, dict_get out1 "shortwave" = Some v1 /\ dict_get out2 "shortwave" = Some v2 /\
  forall d x, nth_error v2 d = Some (Some x) -> fmean (day_part (steps (p_time_step prm)) d v1) = Some x).
Proof. exact agree_midnight_refuted. Qed.
Print Assumptions C47_midnight_refuted.

(** C110: radiation estimated by mtclim is 0 in polar night and on no other
    day. *)
Theorem C110_daily : forall fuel prm c out prm', sunlit_cell prm c -> (1440 <= p_time_step prm)%Z -> run_cell fuel prm c = Some (Ok out, prm') ->
  forall d k, nth_error (dl_doy (cd_daily c)) d = Some k ->
  exists x, entry out "shortwave" d x /\ 0 <= x /\ (x = 0 <-> polar_night (cd_lat c) (Nat.min (k - 1) 364)).
Proof. exact radiation_daily. Qed.
Print Assumptions C110_daily.

Theorem C110_sub_daily : forall fuel prm c out prm', sunlit_cell prm c -> legal_time_step (p_time_step prm) -> (p_time_step prm < 1440)%Z -> p_utc_offset prm = false ->
  run_cell fuel prm c = Some (Ok out, prm') ->
  exists v, dict_get out "shortwave" = Some v /\ forall d k, nth_error (dl_doy (cd_daily c)) d = Some k ->
  exists x, fmean (day_part (steps (p_time_step prm)) d v) = Some x /\ 0 <= x /\ (x = 0 <-> polar_night (cd_lat c) (Nat.min (k - 1) 364)).
Proof. exact radiation_sub_daily. Qed.
Print Assumptions C110_sub_daily.

Example C110_case : exists fuel out prm' x, run_cell fuel (demo_method "mtclim" 1440) polar_cell = Some (Ok out, prm') /\ entry out "shortwave" 0 x /\ 0 < x.
Proof. exact polar_case. Qed.

(** C75: a cell with acceptable forcing is run without an exception. *)
Theorem C75_passthrough_total : forall fuel prm c g a b,
  p_method prm = "passthrough" -> good_options prm -> good_forcing (cd_daily c) prm -> complete (cd_daily c) "shortwave" ->
  -90 <= cd_lat c <= 90 -> solar_geom (cd_elev c) (cd_lat c) (p_lapse_rate prm) = Ok g ->
  last_value (cd_state_tmin c) = Ok (Some a) -> last_value (cd_state_tmax c) = Ok (Some b) ->
  exists out prm', run_cell fuel prm c = Some (Ok out, prm').
Proof. exact pass_cell_total. Qed.
Print Assumptions C75_passthrough_total.

Example C75_case : good_options (demo_method "passthrough" 60) /\
  good_forcing (cd_daily equator_cell) (demo_method "passthrough" 60) /\ complete (cd_daily equator_cell) "shortwave" /\
  exists g, solar_geom 0 0 0.0065 = Ok g.
Proof. exact (conj (demo_options _ _ legal_60) (conj (equator_forcing _ _) (conj (ex_intro _ _ (conj eq_refl eq_refl)) (SolarExamples.equator_ok 0 0.0065)))). Qed.
