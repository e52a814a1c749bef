(** C23-C25: sub-daily shortwave and the shift to UTC. *)
From Coq Require Import ZArith Reals List.
From Verif Require Import Model.Py Model.Fl Model.Np Model.Constants Model.Params Model.Disagg
  Spec.TimeSpec Spec.SeriesSpec Spec.ShortSpec Proofs.DisaggProofs Proofs.ShortwaveProofs Proofs.UtcProofs.
Import ListNotations.
Local Open Scope R_scope.

(** C23: without UTC shift the mean over a day is the daily shortwave spread
    over 24 hours, times the sum of that day's fractions, and no value is
    negative. *)
Theorem C23_daily_energy : forall sw dl doy tiny prm,
  legal_time_step (p_time_step prm) -> p_utc_offset prm = false ->
  List.length sw = List.length dl -> List.length doy = List.length sw -> full_rows tiny -> rows_exist doy tiny ->
  exists out, shortwave sw dl doy tiny prm = Ok out /\ List.length out = (List.length sw * steps (p_time_step prm))%nat /\
  forall d S D k row, nth_error sw d = Some (Some S) -> nth_error dl d = Some (Some D) ->
    nth_error doy d = Some k -> nth_error tiny (k - 1) = Some row ->
    fmean (day_part (steps (p_time_step prm)) d out) = Some (S * (D / 86400) * total row) /\
    (0 <= S -> 0 <= D -> (forall x, In x row -> 0 <= x) ->
     nonneg_series (day_part (steps (p_time_step prm)) d out)).
Proof. exact shortwave_day. Qed.
Print Assumptions C23_daily_energy.

Example C23_case : exists out,
  shortwave [Some 0; Some 200] [Some 0; Some 43200] [365; 1]%nat (repeat even_row 366) demo_params = Ok out /\
  List.length out = 48%nat /\ fmean (day_part 24 1 out) = Some 100 /\ nonneg_series (day_part 24 1 out).
Proof. exact shortwave_example. Qed.

(** C24: with UTC shift every 30-second contribution is the product of the
    fraction and of the daily rate found the same number of steps later in
    the year table and in the record, both read as rings. *)
Theorem C24_utc_shift : forall sw dl doy tiny prm,
  legal_time_step (p_time_step prm) -> p_utc_offset prm = true ->
  List.length sw = List.length dl -> List.length doy = List.length sw -> full_rows tiny -> rows_exist doy tiny ->
  let ts := p_time_step prm in let c := Z.to_nat (ts * 2) in let off := utc_rad_steps (p_lon prm) in
  exists out, shortwave sw dl doy tiny prm = Ok out /\ List.length out = (List.length sw * steps ts)%nat /\
  (forall d k s, nth_error doy d = Some k -> (s < steps ts)%nat ->
    nth_error out (d * steps ts + s) = Some (fsum (map (fun j =>
      fmul (Some (fraction_at tiny (Z.of_nat ((k - 1) * RAD_STEPS + s * c + j) + off)))
           (value_at (map2 (step_energy ts) sw dl) (Z.of_nat (d * RAD_STEPS + s * c + j) + off))) (seq 0 c)))) /\
  (nonneg_series sw -> nonneg_series dl -> nonneg_table tiny -> nonneg_series out).
Proof. exact shortwave_utc. Qed.
Print Assumptions C24_utc_shift.

(** C24: the energy is unchanged over a record that is one table cycle. *)
Theorem C24_energy_of_full_cycle : forall sw dl tiny prm,
  legal_time_step (p_time_step prm) -> full_rows tiny ->
  List.length sw = List.length dl -> List.length sw = List.length tiny ->
  exists out out0, shortwave sw dl (seq 1 (List.length sw)) tiny (with_utc true prm) = Ok out /\
    shortwave sw dl (seq 1 (List.length sw)) tiny (with_utc false prm) = Ok out0 /\ fsum out = fsum out0.
Proof. exact shortwave_cycle. Qed.
Print Assumptions C24_energy_of_full_cycle.

Example C24_case : exists out out0,
  shortwave (repeat (Some 200) 366) (repeat (Some 43200) 366) (seq 1 366) (repeat even_row 366) (with_utc true demo_params) = Ok out /\
  shortwave (repeat (Some 200) 366) (repeat (Some 43200) 366) (seq 1 366) (repeat even_row 366) (with_utc false demo_params) = Ok out0 /\
  fsum out = fsum out0 /\ utc_rad_steps (p_lon demo_params) = (-968)%Z.
Proof. exact cycle_example. Qed.

(** C25: the longitude is brought into [-180,180]; the shift is four minutes
    per degree truncated toward zero, and that of the radiation (in
    half-minutes) is less than a minute away from it and of the same sign. *)
Theorem C25_shift_amounts : forall lon, let L := remainder360 lon in
  let m := IZR (utc_minutes L) in let r := IZR (utc_rad_steps L) / 2 in
  (-180 <= L <= 180 /\ exists n, L = lon - 360 * IZR n) /\
  Rabs (r - m) < 1 /\ Rabs (4 * L - m) < 1 /\
  (0 <= L -> 0 <= m <= 4 * L /\ 0 <= r <= 4 * L) /\ (L <= 0 -> 4 * L <= m <= 0 /\ 4 * L <= r <= 0).
Proof. exact shift_amounts. Qed.
Print Assumptions C25_shift_amounts.

(** C25: the times of the extremes move earlier by the shift used for
    precipitation, wind and cloud, when theta_s is not configured. *)
Theorem C25_temperature_times_partial : forall tiny yday n ts prm a b, p_theta_s prm = 0 ->
  set_min_max_hour tiny yday n ts (with_utc false prm) = Ok (a, b) ->
  set_min_max_hour tiny yday n ts (with_utc true prm) =
  Ok (map (fun t => t - IZR (utc_minutes (p_lon prm))) a, map (fun t => t - IZR (utc_minutes (p_lon prm))) b).
Proof. exact times_shift_same. Qed.
Print Assumptions C25_temperature_times_partial.

Theorem C25_theta_s_refuted : exists prm, utc_temp_minutes prm <> utc_minutes (p_lon prm).
Proof. exact theta_differs. Qed.
Print Assumptions C25_theta_s_refuted.

(** C25: 360 degrees more give the same output, except on the date line,
    where +180 and -180 are both kept as they are. *)
Theorem C25_full_turn_partial : forall df prm tiny tb te lon, (forall n, lon <> 360 * IZR n + 180) ->
  disaggregate df (set_lon prm (lon + 360)) tiny tb te = disaggregate df (set_lon prm lon) tiny tb te.
Proof. exact wrap_period. Qed.
Print Assumptions C25_full_turn_partial.

Theorem C25_normalised_longitude : forall x,
  remainder360 (x + 360) = remainder360 x <-> (forall n, x <> 360 * IZR n + 180).
Proof. exact remainder_period. Qed.
Print Assumptions C25_normalised_longitude.

Theorem C25_date_line_refuted : exists w ts prm a b, legal_time_step ts /\ p_utc_offset prm = true /\
  wind w ts (da_prm (set_lon prm 180)) = Ok a /\ wind w ts (da_prm (set_lon prm (180 + 360))) = Ok b /\ a <> b.
Proof. exact wrap_differs. Qed.
Print Assumptions C25_date_line_refuted.

Example C25_case : remainder360 239 = -121 /\ utc_minutes (-121) = (-484)%Z /\ utc_rad_steps (-121) = (-968)%Z /\
  (forall n, 239 <> 360 * IZR n + 180).
Proof. exact shift_example. Qed.
