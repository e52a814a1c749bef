(** C106: what the shortwave of a UTC day consists of. *)
From Coq Require Import ZArith Reals String List.
From Verif Require Import Model.Py Model.Fl Model.Params Model.Physics Model.Disagg Model.Cell
  Spec.TimeSpec Spec.SeriesSpec Spec.ShortSpec Spec.TempSpec Spec.CellSpec Spec.UtcDaySpec Proofs.UtcDayProofs.
Import ListNotations.
Local Open Scope string_scope.
Local Open Scope list_scope.
Local Open Scope R_scope.

(** C106: with utc_offset the mean of a UTC day is made of the two local days
    it overlaps, each with its share of the radiation; record and table are
    read as rings.  Supplied shortwave (24-hour means): *)
Theorem C106_passthrough : forall fuel prm c out prm' sw,
  legal_time_step (p_time_step prm) -> (p_time_step prm < 1440)%Z -> p_utc_offset prm = true ->
  p_method prm = "passthrough" -> p_sw_averaging prm <> "daylight" ->
  -90 <= cd_lat c <= 90 -> days_valid (dl_doy (cd_daily c)) ->
  dict_get (dl_cols (cd_daily c)) "shortwave" = Some sw -> run_cell fuel prm c = Some (Ok out, prm') ->
  exists g v, solar_geom (cd_elev c) (cd_lat c) (p_lapse_rate prm) = Ok g /\
  dict_get out "shortwave" = Some v /\ List.length v = (List.length sw * steps (p_time_step prm))%nat /\
  forall d k, nth_error (dl_doy (cd_daily c)) d = Some k ->
    shifted_day (cd_lon c) (tiny_rad_fract g) sw d k (fmean (day_part (steps (p_time_step prm)) d v)).
Proof. exact pass_utc. Qed.
Print Assumptions C106_passthrough.

(** computed shortwave, in terms of the output of a run with daily steps: *)
Theorem C106_mtclim : forall fuel prm c out1 p1 out2 p2,
  legal_time_step (p_time_step prm) -> (p_time_step prm < 1440)%Z -> p_utc_offset prm = true -> p_method prm = "mtclim" ->
  -90 <= cd_lat c <= 90 -> days_valid (dl_doy (cd_daily c)) ->
  run_cell fuel prm c = Some (Ok out1, p1) -> run_cell fuel (with_step 1440 prm) c = Some (Ok out2, p2) ->
  exists g v1 v2, solar_geom (cd_elev c) (cd_lat c) (p_lapse_rate prm) = Ok g /\
  dict_get out1 "shortwave" = Some v1 /\ dict_get out2 "shortwave" = Some v2 /\
  List.length v2 = List.length (dl_doy (cd_daily c)) /\ List.length v1 = (List.length v2 * steps (p_time_step prm))%nat /\
  forall d k, nth_error (dl_doy (cd_daily c)) d = Some k ->
    shifted_day (cd_lon c) (tiny_rad_fract g) v2 d k (fmean (day_part (steps (p_time_step prm)) d v1)).
Proof. exact mtclim_utc. Qed.
Print Assumptions C106_mtclim.

(** The rings show at the ends of a record: a day can change although it and
    its neighbours stay as they are ... *)
Theorem C106_ends_refuted : ~ (forall sw sw' dl doy tiny prm out out' d, legal_time_step (p_time_step prm) -> p_utc_offset prm = true ->
  List.length sw = List.length dl -> List.length sw' = List.length dl -> List.length doy = List.length dl -> full_rows tiny -> rows_exist doy tiny ->
  shortwave sw dl doy tiny prm = Ok out -> shortwave sw' dl doy tiny prm = Ok out' ->
  (forall e, (e <= d + 1)%nat -> (d <= e + 1)%nat -> nth_error sw e = nth_error sw' e) ->
  fmean (day_part (steps (p_time_step prm)) d out) = fmean (day_part (steps (p_time_step prm)) d out')).
Proof. exact utc_ends_refuted. Qed.
Print Assumptions C106_ends_refuted.

(** ... and at the end of a common year: the radiation of 1 January that
    falls on 31 December in UTC is distributed by the row of 31 December. *)
Theorem C106_new_year_refuted : ~ (forall sw dl doy tiny prm out d k k2 m X Y D D2 row row2, legal_time_step (p_time_step prm) -> p_utc_offset prm = true ->
  List.length sw = List.length dl -> List.length doy = List.length sw -> List.length tiny = 366%nat -> nth_error tiny 365 = nth_error tiny 364 ->
  full_rows tiny -> rows_exist doy tiny -> shortwave sw dl doy tiny prm = Ok out -> ahead (p_lon prm) m ->
  nth_error doy d = Some k -> nth_error doy (d + 1) = Some k2 ->
  nth_error sw d = Some (Some X) -> nth_error sw (d + 1) = Some (Some Y) -> nth_error dl d = Some (Some D) -> nth_error dl (d + 1) = Some (Some D2) ->
  nth_error tiny (k - 1) = Some row -> nth_error tiny (k2 - 1) = Some row2 ->
  fmean (day_part (steps (p_time_step prm)) d out) = Some (X * D / 86400 * total (skipn m row) + Y * D2 / 86400 * total (firstn m row2))).
Proof. exact utc_new_year_refuted. Qed.
Print Assumptions C106_new_year_refuted.

Example C106_case : exists out prm' g v row row2, run_cell 0 (with_utc true (demo_method "passthrough" 60)) indian_cell = Some (Ok out, prm') /\
  solar_geom 0 0 0.0065 = Ok g /\ dict_get out "shortwave" = Some v /\
  nth_error (tiny_rad_fract g) 0 = Some row /\ nth_error (tiny_rad_fract g) 1 = Some row2 /\
  fmean (day_part 24 0 v) = Some (200 * total (skipn 720 row) + 250 * total (firstn 720 row2)).
Proof. exact indian_day. Qed.
