(** C107, C108: the estimates are those of the published formulas. *)
From Coq Require Import ZArith Reals String List.
From Verif Require Import Model.Py Model.Fl Model.Np Model.Constants Model.Physics Model.Params Model.Disagg Model.Mtclim
  Spec.SeriesSpec Spec.FrameSpec Spec.DailySpec Spec.DewSpec Spec.StepSpec Spec.FormulaSpec Proofs.FormulaProofs.
Import ListNotations.
Local Open Scope string_scope.
Local Open Scope list_scope.
Local Open Scope R_scope.

(** C107: the daily columns of a finished mtclim run are, day by day, the
    values of the published formulas; the dewpoint is one step of the
    iteration away from values that differ from it by the tolerance. *)
Theorem C107_mtclim : forall fuel df prm df', mtclim_run fuel df prm = Some (Ok df') ->
  follows_t_day prm df' /\ follows_tfmax prm df' /\ follows_tskc prm df' /\ follows_vapor df' /\ follows_shortwave df' /\ follows_pet prm df' /\
  exists old new, dict_get (dl_cols df') "tdew" = Some new /\ settled (p_tdew_tol prm) old new /\ follows_from prm df' old.
Proof. exact mtclim_formulas. Qed.
Print Assumptions C107_mtclim.

(** C107 for passthrough: so are the columns it adds. *)
Theorem C107_passthrough : forall df prm df', passthrough_run df prm = Ok df' ->
  (has df "t_day" \/ follows_t_day prm df') /\ (has df "tfmax" \/ follows_tfmax prm df') /\ (has df "tskc" \/ follows_tskc prm df') /\
  (has df "pet" \/ follows_pet prm df') /\ (has df "tdew" \/ follows_tdew df') /\ (has df "vapor_pressure" \/ follows_vapor df').
Proof. exact passthrough_formulas. Qed.
Print Assumptions C107_passthrough.

Example C107_case : exists fuel df', mtclim_run fuel full_frame (demo_step 60) = Some (Ok df') /\
  on_day df' "t_day" 1 6.8 /\ on_day df' "tfmax" 0 0.1 /\ on_day df' "tskc" 0 0.9.
Proof. exact mtclim_example. Qed.

(** C108: the entries of the solar tables for a day of the year are the
    daylight seconds, the mean potential radiation, the transmittance and
    the 30 s shares of the published geometry. *)
Theorem C108_tables : forall elev lat lr g doy, solar_geom elev lat lr = Ok g -> -90 <= lat <= 90 -> lr <> 0 -> lr * elev < 288.15 ->
  (1 <= doy <= 366)%nat ->
  let i := Nat.min (doy - 1) 364 in
  exists row D P T, nth_error (tiny_rad_fract g) (doy - 1) = Some row /\ nth_error (sg_daylengths g) (doy - 1) = Some D /\
    nth_error (flat_potrad g) (doy - 1) = Some P /\ nth_error (tt_max0 g) (doy - 1) = Some T /\
    D = seconds_of_daylight lat i /\ List.length row = RAD_STEPS /\
  (D = 0 -> P = 0 /\ T = 0 /\ forall x, In x row -> x = 0) /\
  (D <> 0 -> exists n, samples lat i n /\
     let E := total (map (fun k => top_radiation lat i (sample lat i k)) (seq 0 n)) in
     0 < E /\ P * D = E /\
     (exists m, (forall k, (k < n)%nat -> 0 < sun_height lat i (sample lat i k) -> air_mass (sun_height lat i (sample lat i k)) (m k)) /\
        T * E = total (map (fun k => Rpower (zenith_trans elev lr) (m k) * top_radiation lat i (sample lat i k)) (seq 0 n))) /\
     (forall j k, (k < n)%nat -> slot (sample lat i k) j -> (forall k', (k < k' < n)%nat -> ~ slot (sample lat i k') j) ->
        nth j row 0 * E = top_radiation lat i (sample lat i k)) /\
     (forall j, (forall k, (k < n)%nat -> ~ slot (sample lat i k) j) -> nth j row 0 = 0)).
Proof. exact sun_formulas. Qed.
Print Assumptions C108_tables.

Example C108_case : (exists g, solar_geom 0 0 0.0065 = Ok g) /\ 43199 < seconds_of_daylight 0 172 < 43201 /\
  seconds_of_daylight (Ropp 80) 172 = 0 /\ slot 0 1440 /\ air_mass 0 30 /\ air_mass 0.5 (1 / 0.5000001).
Proof. exact sun_example. Qed.
