(** The published formulas, with their numbers. *)
From Coq Require Import ZArith Reals String List Ratan.
From Verif Require Import Model.Py Model.Fl Model.Params Model.Disagg Spec.StepSpec.
Import ListNotations.
Local Open Scope string_scope.
Local Open Scope list_scope.
Local Open Scope R_scope.

(** ** one day *)

(** mean temperature of the daylight hours *)
Definition daylight_temp (coef tn tx : R) : R := (tn + tx) / 2 + coef * (tx - (tn + tx) / 2).

(** fraction of the clear-sky radiation on a dry day with temperature range
    [dtr] in a climate with range [sm] (Bristow and Campbell, Thornton and
    Running) *)
Definition dry_clearness (dtr sm : R) : R :=
  1 - 0.9 * exp (- ((0.031 + 0.201 * exp (- (0.185 * sm))) * (dtr * sqrt dtr))).
Definition clearness (prm : params) (dtr sm p : R) : R :=
  dry_clearness dtr sm * (if Rlt_dec (p_sw_prec_thresh prm) p then p_rain_scalar prm else 1).

(** cloud cover from the clearness *)
Inductive cloud_cover (prm : params) (t : R) : R -> Prop :=
  | Cc_deardorff : upper (p_lw_cloud prm) = "CLOUD_DEARDORFF" -> cloud_cover prm t (1 - t)
  | Cc_other : upper (p_lw_cloud prm) <> "CLOUD_DEARDORFF" -> cloud_cover prm t (sqrt ((1 - t) / 0.65)).

(** radiation at the ground under the vapor pressure [e] *)
Definition received (pot tt e t : R) : R := pot * Rmax (tt - 0.000061 * e) 0.0001 * t.

(** pressure of the standard atmosphere at [z] m, relative to sea level *)
Definition pressure_ratio (z lr : R) : R := Rpower (1 - lr * z / 288.15) (9.80665 * 0.0289644 / (lr * 8.3143)).

(** Priestley and Taylor: potential evaporation in mm per day *)
Definition evaporation (prm : params) (rad T daylight : R) : R :=
  let latent := 2502300 - 2430.54 * T in
  let slope := (saturation (T + 0.2) - saturation (T - 0.2)) / 0.4 in
  let psychrometric := 1010 * (101325 * pressure_ratio (p_elev prm) (p_lapse_rate prm)) / (0.62196351 * latent) in
  1.26 * (slope / (slope + psychrometric)) * (0.72 * rad * daylight) / latent.

(** Kimball, Running and Nemani: dewpoint from the aridity of the season *)
Definition kimball (tn dtr sp pet : R) : R :=
  let a := pet / Rmax 80 sp in
  (tn + 273.15) * (1.121 * (1.003 - 1.444 * a + 12.312 * a ^ 2 - 32.766 * a ^ 3) + 0.0006 * dtr - 0.127) - 273.15.

(** entry of a daily table *)
Definition on_day (df : daily) (name : string) (d : nat) (x : R) : Prop := entry (dl_cols df) name d x.

(** the lapse rate and the height have a pressure *)
Definition has_pressure (prm : params) : Prop := p_lapse_rate prm <> 0 /\ p_lapse_rate prm * p_elev prm < 288.15.

(** ** the sun of one day of the year, counted from 0 *)

(** declination *)
Definition tilt (i : nat) : R := Ropp 0.4092797 * cos ((INR i + 11.25) * 0.017214).

(** sine of the height of the sun at the hour angle [h] *)
Definition sun_height (lat : R) (i : nat) (h : R) : R :=
  sin (lat * 0.01745329) * sin (tilt i) + cos (lat * 0.01745329) * cos (tilt i) * cos h.

(** hour angle of sunset; 0 in polar night, PI under the midnight sun *)
Definition sunset (lat : R) (i : nat) : R :=
  acos (Rmin (Rmax (- (tan (lat * 0.01745329) * tan (tilt i))) (Ropp 1)) 1).

Definition seconds_of_daylight (lat : R) (i : nat) : R := Rmin (2 * sunset lat i * 13750.9871) 86400.

(** the [k]-th of the sampled hour angles, 30 s apart from sunrise on *)
Definition sample (lat : R) (i k : nat) : R := INR k * (30 / 13750.9871) - sunset lat i.
(** there are [n] of them before sunset *)
Definition samples (lat : R) (i n : nat) : Prop := forall k, (k < n)%nat <-> sample lat i k < sunset lat i.

(** J/m2 on a horizontal surface above the atmosphere in 30 s *)
Definition top_radiation (lat : R) (i : nat) (h : R) : R :=
  30 * (1368 + 45.5 * sin (2 * PI * INR i / 365.25 + 1.7)) * Rmax (sun_height lat i h) 0.

(** optical air mass at the zenith angle of [z] whole degrees *)
Definition thick_air : list (Z * R) :=
  [(69%Z, 2.90); (70%Z, 3.05); (71%Z, 3.21); (72%Z, 3.39); (73%Z, 3.69); (74%Z, 3.82); (75%Z, 4.07); (76%Z, 4.37); (77%Z, 4.72); (78%Z, 5.12); (79%Z, 5.60);
   (80%Z, 6.18); (81%Z, 6.88); (82%Z, 7.77); (83%Z, 8.90); (84%Z, 10.39); (85%Z, 12.44); (86%Z, 15.36); (87%Z, 19.79); (88%Z, 26.96); (89%Z, 30)].
(** air mass under the sun whose height has the sine [c] *)
Inductive air_mass (c : R) : R -> Prop :=
  | Am_high : 1 / (c + 0.0000001) <= 2.9 -> air_mass c (1 / (c + 0.0000001))
  | Am_low z m : 2.9 < 1 / (c + 0.0000001) -> IZR z <= acos c / 0.01745329 < IZR z + 1 ->
      In (Z.max 69 (Z.min 89 z), m) thick_air -> air_mass c m.

(** the 30 s of the day, counted from midnight, that the hour angle [h]
    belongs to *)
Definition slot (h : R) (j : nat) : Prop :=
  INR j <= Rmin (Rmax ((43200 + h * 13750.9871) / 30) 0) 2879 < INR j + 1.

(** transmittance of the dry air at [z] m for the sun in the zenith *)
Definition zenith_trans (z lr : R) : R := Rpower 0.87 (pressure_ratio z lr).

(** ** the columns of a daily table *)
Definition follows_t_day (prm : params) (df : daily) : Prop := forall d tn tx,
  on_day df "t_min" d tn -> on_day df "t_max" d tx -> on_day df "t_day" d (daylight_temp (p_tday_coef prm) tn tx).
Definition follows_tfmax (prm : params) (df : daily) : Prop := forall d dtr sm p, 0 <= dtr ->
  on_day df "dtr" d dtr -> on_day df "smoothed_dtr" d sm -> on_day df "prec" d p -> on_day df "tfmax" d (clearness prm dtr sm p).
Definition follows_tskc (prm : params) (df : daily) : Prop := forall d t c, t <= 1 ->
  on_day df "tfmax" d t -> cloud_cover prm t c -> on_day df "tskc" d c.
Definition follows_vapor (df : daily) : Prop := forall d T, -237.3 < T ->
  on_day df "tdew" d T -> on_day df "vapor_pressure" d (saturation T).
Definition follows_shortwave (df : daily) : Prop := forall d t e tt pot,
  on_day df "tfmax" d t -> on_day df "vapor_pressure" d e -> on_day df "tt_max" d tt -> on_day df "potrad" d pot ->
  on_day df "shortwave" d (received pot tt e t).
Definition follows_pet (prm : params) (df : daily) : Prop := forall d s T dl, has_pressure prm -> -237.1 < T < 1029 ->
  on_day df "shortwave" d s -> on_day df "t_day" d T -> on_day df "daylength" d dl -> on_day df "pet" d (evaporation prm s T dl).
Definition follows_tdew (df : daily) : Prop := forall d e tn sp dtr,
  on_day df "pet" d e -> on_day df "t_min" d tn -> on_day df "seasonal_prec" d sp -> on_day df "dtr" d dtr ->
  on_day df "tdew" d (kimball tn dtr sp e).
(** the dewpoint is one step from the values [old] *)
Definition follows_from (prm : params) (df : daily) (old : list fl) : Prop := forall d o t tt pot T dl tn sp dtr,
  has_pressure prm -> -237.1 < T < 1029 -> -237.3 < o -> nth_error old d = Some (Some o) ->
  on_day df "tfmax" d t -> on_day df "tt_max" d tt -> on_day df "potrad" d pot -> on_day df "t_day" d T -> on_day df "daylength" d dl ->
  on_day df "t_min" d tn -> on_day df "seasonal_prec" d sp -> on_day df "dtr" d dtr ->
  on_day df "tdew" d (kimball tn dtr sp (evaporation prm (received pot tt (saturation o) t) T dl)).
