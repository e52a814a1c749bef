(** C30-C40, C43, C44: physical formulas. *)
From Coq Require Import ZArith Reals String List Bool Arith Lra.
From Verif Require Import Model.Py Model.Fl Model.Np Model.Constants Model.Physics Model.Params Model.Disagg
  Model.Mtclim Spec.TimeSpec Spec.SeriesSpec Proofs.SvpProofs Proofs.HumidProofs Proofs.LongwaveProofs
  Proofs.MtclimProofs Proofs.PhysicsExamples.
Import ListNotations.
Local Open Scope list_scope.
Local Open Scope R_scope.

(** C30: relative humidity never exceeds 100. *)
Theorem C30_at_most_100 : forall vp T r, relative_humidity1 vp T = Some r -> r <= 100.
Proof. exact rh_le_100. Qed.
Print Assumptions C30_at_most_100.

(** C30: it is the ratio to saturation in percent, cut at 100. *)
Theorem C30_percentage : forall e T, -237.3 < T -> exists s r,
  svp1 (Some T) = Some s /\ relative_humidity1 (Some e) (Some T) = Some r /\
  r <= 100 /\ (0 <= e -> 0 <= r) /\ (100 * (1000 * e / s) <= 100 -> r = 100 * (1000 * e / s)) /\
  (100 < 100 * (1000 * e / s) -> r = 100).
Proof. exact rh_spec. Qed.
Print Assumptions C30_percentage.

Example C30_case : relative_humidity1 (Some 0.30539) (Some 0) = Some 50 /\
  relative_humidity1 (Some 2) (Some 0) = Some 100.
Proof. exact rh_example. Qed.

(** C31: specific humidity is a fraction, zero only for dry air, and
    strictly increasing. *)
Theorem C31_mass_fraction : forall e p, 0 <= e < p ->
  exists q, specific_humidity1 (Some e) (Some p) = Some q /\
  0 <= q < 1 /\ (q = 0 <-> e = 0) /\
  forall e', e < e' < p -> exists q', specific_humidity1 (Some e') (Some p) = Some q' /\ q < q'.
Proof. exact sh_spec. Qed.
Print Assumptions C31_mass_fraction.

Example C31_case : exists q, specific_humidity1 (Some 1) (Some 100) = Some q /\ 0.006 < q < 0.0063.
Proof. exact sh_example. Qed.

(** C32: air pressure (kPa). *)
Theorem C32_pressure : forall T z lr, 0 <= z -> 0 < 273.15 + T -> 0 < 273.15 + T - 0.5 * z * lr ->
  exists p, pressure1 (Some T) (Some z) (Some lr) = Some p /\ 0 < p <= 101.325 /\ (p = 101.325 <-> z = 0) /\
    forall z', z < z' -> 0 < 273.15 + T - 0.5 * z' * lr ->
      exists p', pressure1 (Some T) (Some z') (Some lr) = Some p' /\ p' < p.
Proof. exact pressure_spec. Qed.
Print Assumptions C32_pressure.

Example C32_case : pressure1 (Some 15) (Some 0) (Some 0.0065) = Some 101.325.
Proof. exact pressure_example. Qed.

(** C33: every pair of accepted options gives positive longwave. *)
Theorem C33_positive : forall (Ts vps cs : list fl) prm out k T vp c,
  longwave Ts vps cs prm None = Ok out ->
  nth_error Ts k = Some (Some T) -> nth_error vps k = Some (Some vp) -> nth_error cs k = Some (Some c) ->
  -273.15 < T -> 0 < vp -> 0 <= c <= 1 ->
  exists L, nth_error out k = Some (Some L) /\ 0 < L.
Proof. exact longwave_positive. Qed.
Print Assumptions C33_positive.

(** C33: clouds never reduce longwave, except with the Deardorff option when
    the clear-sky value exceeds black-body emission; then they always do. *)
Theorem C33_clouds_partial : forall (Ts vps cs cs' : list fl) prm out out' k T vp c,
  longwave Ts vps cs prm None = Ok out -> longwave Ts vps cs' prm None = Ok out' ->
  nth_error Ts k = Some (Some T) -> nth_error vps k = Some (Some vp) ->
  nth_error cs k = Some (Some 0) -> nth_error cs' k = Some (Some c) ->
  -273.15 < T -> 0 < vp -> 0 <= c <= 1 ->
  exists clear L, nth_error out k = Some (Some clear) /\ nth_error out' k = Some (Some L) /\
    ((upper (p_lw_cloud prm) <> "CLOUD_DEARDORFF"%string \/ clear <= 5.669e-8 * (T + 273.15) ^ 4) -> clear <= L) /\
    (upper (p_lw_cloud prm) = "CLOUD_DEARDORFF"%string -> 0 < c -> 5.669e-8 * (T + 273.15) ^ 4 < clear -> L < clear).
Proof. exact longwave_clouds. Qed.
Print Assumptions C33_clouds_partial.

(** C33: the default options lie between clear-sky and black-body. *)
Theorem C33_default_bounds : forall (Ts vps cs cs' : list fl) prm out out' k T vp c,
  upper (p_lw_type prm) = "PRATA"%string -> upper (p_lw_cloud prm) = "CLOUD_DEARDORFF"%string ->
  longwave Ts vps cs prm None = Ok out -> longwave Ts vps cs' prm None = Ok out' ->
  nth_error Ts k = Some (Some T) -> nth_error vps k = Some (Some vp) ->
  nth_error cs k = Some (Some 0) -> nth_error cs' k = Some (Some c) ->
  -273.15 < T -> 0 < vp -> 0 <= c <= 1 ->
  exists clear L, nth_error out k = Some (Some clear) /\ nth_error out' k = Some (Some L) /\
    0 < clear <= L /\ L <= 5.669e-8 * (T + 273.15) ^ 4.
Proof. exact longwave_default_bounds. Qed.
Print Assumptions C33_default_bounds.

(** C33: at 35 C and 55 hPa the TVA emissivity exceeds 1 and full Deardorff
    cloud lowers longwave. *)
Theorem C33_clouds_refuted : exists prm out out',
  upper (p_lw_type prm) = "TVA"%string /\ upper (p_lw_cloud prm) = "CLOUD_DEARDORFF"%string /\
  longwave [Some 35] [Some 5.5] [Some 0] prm None = Ok [Some out] /\
  longwave [Some 35] [Some 5.5] [Some 1] prm None = Ok [Some out'] /\ out' < out.
Proof. exact longwave_clouds_reduce. Qed.
Print Assumptions C33_clouds_refuted.

Example C33_case : exists L,
  longwave [Some 10] [Some 1] [Some 0.5] demo_params None = Ok [Some L] /\ 0 < L.
Proof. exact longwave_example. Qed.

(** C34: supplied daily longwave is the mean of the day's steps, which are
    the unsupplied steps times one factor. *)
Theorem C34_supplied_longwave : forall (Ts vps cs : list fl) prm base daily n,
  legal_time_step (p_time_step prm) ->
  longwave Ts vps cs prm None = Ok base ->
  List.length base = (n * steps (p_time_step prm))%nat -> List.length daily = n ->
  exists out, longwave Ts vps cs prm (Some daily) = Ok out /\
    List.length out = List.length base /\
    forall d v m, nth_error daily d = Some (Some v) ->
      fmean (day_part (steps (p_time_step prm)) d base) = Some m -> m <> 0 ->
      day_part (steps (p_time_step prm)) d out =
        map (fun x => fmul x (Some (v / m))) (day_part (steps (p_time_step prm)) d base) /\
      fmean (day_part (steps (p_time_step prm)) d out) = Some v.
Proof. exact longwave_supplied. Qed.
Print Assumptions C34_supplied_longwave.

Example C34_case : exists base out,
  longwave (repeat (Some 10) 4) (repeat (Some 1) 4) (repeat (Some 0.5) 4)
    (mkparams 360 false false "mtclim" "" "uniform" "prata" "cloud_deardorff" 0 0.75 1e-6 0.45 0.67 0.0065 0 100 47 (-121)) None = Ok base /\
  longwave (repeat (Some 10) 4) (repeat (Some 1) 4) (repeat (Some 0.5) 4)
    (mkparams 360 false false "mtclim" "" "uniform" "prata" "cloud_deardorff" 0 0.75 1e-6 0.45 0.67 0.0065 0 100 47 (-121)) (Some [Some 300]) = Ok out /\
  fmean out = Some 300.
Proof. exact supplied_example. Qed.

(** C35: filling keeps present values and the length, *)
Theorem C35_keeps_values : forall (l : list fl) i x,
  nth_error l i = Some (Some x) -> nth_error (fill_gaps l) i = Some (Some x).
Proof. exact fill_keeps. Qed.
Print Assumptions C35_keeps_values.

Theorem C35_keeps_length : forall l, List.length (fill_gaps l) = List.length l.
Proof. exact fill_gaps_length'. Qed.
Print Assumptions C35_keeps_length.

(** leaves no gap when anything is present, *)
Theorem C35_complete : forall (l : list fl),
  (exists i x, nth_error l i = Some (Some x)) -> ~ In None (fill_gaps l).
Proof. exact fill_complete. Qed.
Print Assumptions C35_complete.

(** uses the nearest earlier value, *)
Theorem C35_nearest_earlier : forall (l : list fl) i j x,
  nth_error l j = Some (Some x) -> (j <= i < List.length l)%nat ->
  (forall k, (j < k <= i)%nat -> nth_error l k = Some None) -> nth_error (fill_gaps l) i = Some (Some x).
Proof. exact fill_forward. Qed.
Print Assumptions C35_nearest_earlier.

(** or the first value before it, *)
Theorem C35_leading_gap : forall (l : list fl) i j x,
  nth_error l j = Some (Some x) -> (i <= j)%nat ->
  (forall k, (k < j)%nat -> nth_error l k = Some None) -> nth_error (fill_gaps l) i = Some (Some x).
Proof. exact fill_backward. Qed.
Print Assumptions C35_leading_gap.

(** and does nothing to an all-missing column. *)
Theorem C35_all_missing : forall (l : list fl), (forall x, ~ In (Some x) l) -> fill_gaps l = l.
Proof. exact fill_empty. Qed.
Print Assumptions C35_all_missing.

Example C35_case :
  fill_gaps [None; Some 1; None; None; Some 2; None] = [Some 1; Some 1; Some 1; Some 1; Some 2; Some 2].
Proof. exact fill_example. Qed.

(** C36 *)
Theorem C36_daylight_temperature : forall prm a b, a <= b -> 0 <= p_tday_coef prm <= 1 ->
  exists t, t_day1 prm (Some a) (Some b) = Some t /\ (a + b) / 2 <= t <= b.
Proof. exact t_day_between. Qed.
Print Assumptions C36_daylight_temperature.

Example C36_case : t_day1 demo_params (Some 0) (Some 10) = Some 7.25.
Proof. exact t_day_example. Qed.

(** C37: [dry] is the value on a dry day with the same ranges. *)
Theorem C37_transmittance : forall prm dtr sm p, 0 <= dtr -> 0 <= p_rain_scalar prm <= 1 ->
  exists dry t, 0.1 <= dry < 1 /\
    tfmax1 prm (Some dtr) (Some sm) (Some p) = Some t /\ 0 <= t < 1 /\
    (p <= p_sw_prec_thresh prm -> t = dry) /\
    (p_sw_prec_thresh prm < p -> t = dry * p_rain_scalar prm /\ 0.1 * p_rain_scalar prm <= t) /\
    (forall p', p' <= p_sw_prec_thresh prm -> tfmax1 prm (Some dtr) (Some sm) (Some p') = Some dry) /\
    forall dtr', dtr < dtr' -> exists t', tfmax1 prm (Some dtr') (Some sm) (Some p) = Some t' /\
      t <= t' /\ (0 < p_rain_scalar prm -> t < t').
Proof. exact tfmax_spec. Qed.
Print Assumptions C37_transmittance.

(** C37: the same range means a clearer sky where ranges are usually
    smaller. *)
Theorem C37_climate : forall prm dtr sm sm' p, 0 < dtr -> sm < sm' -> 0 <= p_rain_scalar prm ->
  exists t t', tfmax1 prm (Some dtr) (Some sm) (Some p) = Some t /\ tfmax1 prm (Some dtr) (Some sm') (Some p) = Some t' /\
    t' <= t /\ (p <= p_sw_prec_thresh prm \/ 0 < p_rain_scalar prm -> t' < t).
Proof. exact tfmax_climate. Qed.
Print Assumptions C37_climate.

Example C37_case : tfmax1 demo_params (Some 0) (Some 10) (Some 5) = Some 0.075.
Proof. exact tfmax_example. Qed.

(** C38: with Deardorff clouds cloud cover is a fraction; with the default
    option exactly when the transmittance is at least 0.35. *)
Theorem C38_deardorff_fraction : forall prm t, upper (p_lw_cloud prm) = "CLOUD_DEARDORFF"%string -> 0 <= t <= 1 ->
  exists c, mt_tskc1 prm (Some t) = Some c /\ 0 <= c <= 1.
Proof. exact tskc_deardorff. Qed.
Print Assumptions C38_deardorff_fraction.

Theorem C38_default_partial : forall prm t, upper (p_lw_cloud prm) <> "CLOUD_DEARDORFF"%string -> 0 <= t <= 1 ->
  exists c, mt_tskc1 prm (Some t) = Some c /\ 0 <= c /\ (c <= 1 <-> 0.35 <= t).
Proof. exact tskc_default. Qed.
Print Assumptions C38_default_partial.

(** C38: a dry day with equal minimum and maximum temperature has cloud
    cover above 1 with lw_cloud = default. *)
Theorem C38_default_refuted : exists prm t c, upper (p_lw_cloud prm) = "DEFAULT"%string /\
  0 <= p_rain_scalar prm <= 1 /\
  tfmax1 prm (Some 0) (Some 10) (Some 0) = Some t /\ mt_tskc1 prm (Some t) = Some c /\ 1 < c.
Proof. exact tskc_above_one. Qed.
Print Assumptions C38_default_refuted.

(** C38: no cloud at full transmittance, and more the lower it is. *)
Theorem C38_decreasing : forall prm t t', 0 <= t < t' -> t' <= 1 ->
  mt_tskc1 prm (Some 1) = Some 0 /\
  exists c c', mt_tskc1 prm (Some t) = Some c /\ mt_tskc1 prm (Some t') = Some c' /\ c' < c.
Proof. exact tskc_decreasing. Qed.
Print Assumptions C38_decreasing.

Example C38_case : mt_tskc1 demo_params (Some 0.4) = Some 0.6.
Proof. exact tskc_example. Qed.

(** C39 *)
Theorem C39_shortwave : forall tf vp tt pot, 0 <= tf -> 0 <= pot -> 0 <= vp ->
  exists s, mt_shortwave1 (Some tf) (Some vp) (Some tt) (Some pot) = Some s /\
    0 <= s <= pot * Rmax tt 0.0001 * tf /\
    (0 < tf -> 0 < pot -> 0 < s) /\
    forall vp', vp <= vp' -> exists s', mt_shortwave1 (Some tf) (Some vp') (Some tt) (Some pot) = Some s' /\ s' <= s.
Proof. exact shortwave_spec. Qed.
Print Assumptions C39_shortwave.

Example C39_case : mt_shortwave1 (Some 0.5) (Some 1000) (Some 0.7) (Some 400) = Some 127.8.
Proof. exact shortwave_example. Qed.

(** C40 *)
Theorem C40_pet : forall prm rad ta dayl, 0 <= rad -> 0 <= dayl -> -237.1 < ta < 1029 ->
  p_lapse_rate prm <> 0 -> p_lapse_rate prm * p_elev prm < T_STD ->
  exists p, pet1 prm (Some rad) (Some ta) (Some dayl) = Some p /\ 0 <= p /\ (0 < p <-> 0 < rad /\ 0 < dayl).
Proof. exact pet_spec. Qed.
Print Assumptions C40_pet.

Example C40_case : exists p, pet1 demo_params (Some 200) (Some 15) (Some 40000) = Some p /\ 0 < p.
Proof. exact pet_example. Qed.

(** C43 *)
Theorem C43_svp_increasing : forall a b, -237.3 < a -> a < b ->
  exists x y, svp1 (Some a) = Some x /\ svp1 (Some b) = Some y /\ 0 < x < y.
Proof. exact svp_increasing. Qed.
Print Assumptions C43_svp_increasing.

Example C43_case : exists x y, svp1 (Some (-10)) = Some x /\ svp1 (Some 20) = Some y /\ 0 < x < y.
Proof. exact svp_example. Qed.

(** C44: [f] is the saturation vapor pressure as a function on reals; above
    freezing the slope is its derivative. *)
Theorem C44_slope_partial : forall f T, (forall t, -237.3 < t -> svp1 (Some t) = Some (f t)) -> 0 < T ->
  exists s, svp_slope1 (Some T) = Some s /\ derivable_pt_lim f T s.
Proof. exact slope_above_freezing. Qed.
Print Assumptions C44_slope_partial.

(** C44: at and below freezing it is the derivative at one single
    temperature, -810/7 C. *)
Theorem C44_slope_refuted : forall f T, (forall t, -237.3 < t -> svp1 (Some t) = Some (f t)) -> -237.3 < T <= 0 ->
  exists s, svp_slope1 (Some T) = Some s /\ (derivable_pt_lim f T s <-> T = - (810 / 7)).
Proof. exact slope_wrong_below. Qed.
Print Assumptions C44_slope_refuted.

Example C44_case : exists f, forall t, -237.3 < t -> svp1 (Some t) = Some (f t).
Proof. exact svp_function. Qed.
