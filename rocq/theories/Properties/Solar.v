(** C66-C69, C72: solar geometry. *)
From Coq Require Import ZArith Reals List.
From Verif Require Import Model.Py Model.Np Model.Constants Model.Physics Model.Calendar Model.Cell
  Spec.SeriesSpec Spec.SolarSpec Proofs.SolarTables Proofs.SolarExamples Proofs.YearProofs.
Import ListNotations.
Local Open Scope R_scope.

(** C66: whatever the location, the tables give for every day of year a
    daylength between 0 and 86400 s, 0 exactly in polar night, and a
    non-negative potential radiation, 0 exactly in polar night. *)
Theorem C66_daylength_and_potential : forall elev lat lr g doy,
  -90 <= lat <= 90 -> (1 <= doy <= 366)%nat -> solar_geom elev lat lr = Ok g ->
  exists dl po,
  nth_error (sg_daylengths g) (doy - 1) = Some dl /\ nth_error (flat_potrad g) (doy - 1) = Some po /\
  0 <= dl <= 86400 /\ (dl = 0 <-> polar_night lat (Nat.min (doy - 1) 364)) /\ 0 <= po /\ (po = 0 <-> dl = 0).
Proof. exact daylength_potrad. Qed.
Print Assumptions C66_daylength_and_potential.

(** C66 for the daylength formula alone, at every location. *)
Theorem C66_daylength_formula : forall lat i, -90 <= lat <= 90 ->
  0 <= sg_daylength lat i <= 86400 /\ (sg_daylength lat i = 0 <-> polar_night lat i).
Proof. exact daylength_formula. Qed.
Print Assumptions C66_daylength_formula.

Example C66_case : (forall elev lr, exists g, solar_geom elev 0 lr = Ok g) /\
  43199 < sg_daylength 0 172 < 43201 /\ polar_night (-80) 172 /\ sg_daylength (-80) 172 = 0.
Proof. exact daylength_example. Qed.

(** C67 does not hold as stated: at 80 N on day 173 the sun does not set and
    the fractions sum to less than 1 (the first two hour angles share slot
    0, so one contribution is overwritten after it was counted). *)
Theorem C67_midnight_sun_refuted : forall elev lr,
  -90 <= 80 <= 90 /\ ~ polar_night 80 172 /\
  exists o, sg_day elev 80 lr 172 = Ok o /\ total (sd_row o) < 1.
Proof. exact midnight_refuted. Qed.
Print Assumptions C67_midnight_sun_refuted.

(** C67, exact extent: the fractions are never negative, all 0 in polar
    night, and sum to 1 exactly on the days when the sun is not above the
    horizon at midnight; on the others the sum is less than 1. *)
Theorem C67_distribution_partial : forall elev lat lr g doy,
  -90 <= lat <= 90 -> (1 <= doy <= 366)%nat -> solar_geom elev lat lr = Ok g ->
  exists row, nth_error (tiny_rad_fract g) (doy - 1) = Some row /\
  List.length row = RAD_STEPS /\ (forall x, In x row -> 0 <= x) /\
  (polar_night lat (Nat.min (doy - 1) 364) -> forall x, In x row -> x = 0) /\
  (~ polar_night lat (Nat.min (doy - 1) 364) -> 0 < total row <= 1 /\
     (total row = 1 <-> ~ midnight_sun lat (Nat.min (doy - 1) 364))).
Proof. exact fractions. Qed.
Print Assumptions C67_distribution_partial.

Example C67_case : ~ polar_night 0 0 /\ ~ midnight_sun 0 0 /\ midnight_sun 80 172.
Proof. exact distribution_example. Qed.

(** C68: transmittance is a fraction on every day with daylight. *)
Theorem C68_transmittance : forall elev lat lr g doy,
  -90 <= lat <= 90 -> 0 < lr -> lr * elev < T_STD -> (1 <= doy <= 366)%nat -> solar_geom elev lat lr = Ok g ->
  exists t, nth_error (tt_max0 g) (doy - 1) = Some t /\
  (polar_night lat (Nat.min (doy - 1) 364) -> t = 0) /\
  (~ polar_night lat (Nat.min (doy - 1) 364) -> 0 < t < 1).
Proof. exact transmittance. Qed.
Print Assumptions C68_transmittance.

(** C68: the air-mass lookup succeeds whenever the sun is up, and low sun
    takes a table entry. *)
Theorem C68_air_mass_lookup : forall cza, 0 < cza ->
  exists a, sg_am cza = Ok a /\ 0 < a /\ (2.9 < 1 / (cza + 0.0000001) -> In a OPTAM).
Proof. exact air_mass. Qed.
Print Assumptions C68_air_mass_lookup.

Example C68_case : sg_am 0.5 = Ok (1.0 / (0.5 + 0.0000001)) /\ 2.9 < 1 / (0.1 + 0.0000001).
Proof. exact air_mass_example. Qed.

(** C69: row 366 is row 365, and a day of year is always a valid index. *)
Theorem C69_last_day : forall elev lat lr g, solar_geom elev lat lr = Ok g ->
  nth_error (tiny_rad_fract g) 365 = nth_error (tiny_rad_fract g) 364 /\
  nth_error (sg_daylengths g) 365 = nth_error (sg_daylengths g) 364 /\
  nth_error (flat_potrad g) 365 = nth_error (flat_potrad g) 364 /\
  nth_error (tt_max0 g) 365 = nth_error (tt_max0 g) 364.
Proof. exact last_day_copied. Qed.
Print Assumptions C69_last_day.

Theorem C69_in_range : forall elev lat lr g dates, solar_geom elev lat lr = Ok g ->
  let doy := map (fun d => Z.to_nat (dayofyear d)) dates in
  exists dl po tt, by_yday (sg_daylengths g) doy = Ok dl /\ by_yday (flat_potrad g) doy = Ok po /\ by_yday (tt_max0 g) doy = Ok tt /\
    List.length dl = List.length dates /\ List.length po = List.length dates /\ List.length tt = List.length dates.
Proof. exact lookups_in_range. Qed.
Print Assumptions C69_in_range.

Theorem C69_days_of_year : forall d, (1 <= dayofyear d <= 366)%Z /\
  (dayofyear d = 366%Z -> is_leap (c_year (civil_from_days d)) = true).
Proof. exact dayofyear_range. Qed.
Print Assumptions C69_days_of_year.

(** 31 December 2000 *)
Example C69_case : dayofyear 11322 = 366%Z /\ civil_from_days 11322 = mkcivil 2000 12 31.
Proof. now vm_compute. Qed.

(** C72: the solar geometry fails exactly when some day of the year has
    daylight, but at most 30 seconds of it ... *)
Theorem C72_fails_exactly : forall elev lat lr, -90 <= lat <= 90 ->
  (exists e, solar_geom elev lat lr = Err e) <-> (exists i, (i < 365)%nat /\ 0 < sg_daylength lat i <= 30).
Proof. exact geom_fails. Qed.
Print Assumptions C72_fails_exactly.

(** ... and there is such a latitude. *)
Theorem C72_total_refuted : exists lat, -90 <= lat <= 90 /\
  forall elev lr, solar_geom elev lat lr = Err ZeroDivisionError.
Proof. exact some_location_fails. Qed.
Print Assumptions C72_total_refuted.

Example C72_case : forall elev lr, exists g, solar_geom elev 0 lr = Ok g.
Proof. exact equator_ok. Qed.
