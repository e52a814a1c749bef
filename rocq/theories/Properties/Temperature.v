(** C26-C28: sub-daily temperature. *)
From Coq Require Import ZArith Reals List.
From Verif Require Import Model.Py Model.Constants Model.Physics Model.Params Model.Interp Model.Disagg
  Spec.TimeSpec Spec.SeriesSpec Spec.TempSpec Proofs.TempProofs.
Import ListNotations.
Local Open Scope R_scope.

(** C26: at every location where the solar geometry exists, each day's
    minimum comes before its maximum (by less than 24 h) and that before the
    next day's minimum, with or without UTC shift ... *)
Theorem C26_times_alternate : forall elev lat lr g doy ts prm,
  -90 <= lat <= 90 -> solar_geom elev lat lr = Ok g -> days_valid doy -> 0 < p_tmax_frac prm <= 1 ->
  exists a b,
  set_min_max_hour (tiny_rad_fract g) (map (fun d => d - 1)%nat doy) (List.length doy) ts prm = Ok (a, b) /\
  List.length a = List.length doy /\ alternate a b /\
  (forall d, (d < List.length doy)%nat -> exists row, usable row /\
      nth d a 0 = rise_time row - shift_of prm + 1440 * INR d - IZR ts /\
      nth d b 0 = rise_time row + p_tmax_frac prm * (set_time row - rise_time row) - shift_of prm + 1440 * INR d - IZR ts).
Proof. exact extreme_times. Qed.
Print Assumptions C26_times_alternate.

(** ... so the interpolation is always defined. *)
Theorem C26_interpolation_accepts : forall elev lat lr g doy ts prm tmin tmax tb te m,
  -90 <= lat <= 90 -> solar_geom elev lat lr = Ok g -> days_valid doy -> doy <> [] -> 0 < p_tmax_frac prm <= 1 ->
  List.length tmin = List.length doy -> List.length tmax = List.length doy ->
  exists a b out,
    set_min_max_hour (tiny_rad_fract g) (map (fun d => d - 1)%nat doy) (List.length doy) ts prm = Ok (a, b) /\
    temp tmin tmax m a b ts (pair_list tb) (pair_list te) = Ok out /\ List.length out = m.
Proof. exact interpolation_accepts. Qed.
Print Assumptions C26_interpolation_accepts.

Example C26_case : exists g a b, solar_geom 100 0 0.0065 = Ok g /\
  set_min_max_hour (tiny_rad_fract g) (map (fun d => d - 1)%nat [365; 366; 1]%nat) 3 60 demo_params = Ok (a, b) /\
  List.length a = 3%nat /\ alternate a b /\ set_time (repeat 0 RAD_STEPS) = 960 /\ rise_time (repeat 0 RAD_STEPS) = 240.
Proof. exact times_example. Qed.

(** C27: every sub-daily temperature lies between the two extremes that
    surround it in time.  With UTC shift this needs a maximum in the last
    third of the daylight and a shift other than exactly 12 h east. *)
Theorem C27_between_extremes : forall elev lat lr g doy ts prm tmin tmax tb te,
  -90 <= lat <= 90 -> solar_geom elev lat lr = Ok g -> days_valid doy -> doy <> [] -> 0 < p_tmax_frac prm <= 1 ->
  List.length tmin = List.length doy -> List.length tmax = List.length doy -> legal_time_step ts ->
  (p_utc_offset prm = false \/ (2 / 3 <= p_tmax_frac prm /\ (-720 <= utc_temp_minutes prm <= 719)%Z)) ->
  exists a b out,
    set_min_max_hour (tiny_rad_fract g) (map (fun d => d - 1)%nat doy) (List.length doy) ts prm = Ok (a, b) /\
    temp tmin tmax (List.length doy * steps ts) a b ts (pair_list tb) (pair_list te) = Ok out /\
    List.length out = (List.length doy * steps ts)%nat /\
    forall k v, nth_error out k = Some v ->
      surrounded a b tmin tmax (day_before tb tmin tmax) (day_after te tmin tmax) (IZR ts * INR k) v.
Proof. exact curve_surrounded. Qed.
Print Assumptions C27_between_extremes.

(** C27: it never leaves the range of the record and the state day. *)
Theorem C27_record_range : forall elev lat lr g doy ts prm tmin tmax tb te lo hi,
  -90 <= lat <= 90 -> solar_geom elev lat lr = Ok g -> days_valid doy -> doy <> [] -> 0 < p_tmax_frac prm <= 1 ->
  List.length tmin = List.length doy -> List.length tmax = List.length doy -> legal_time_step ts ->
  p_utc_offset prm = false ->
  (forall x, In x (tmin ++ tmax) -> lo <= x <= hi) ->
  (forall p, tb = Some p \/ te = Some p -> lo <= fst p <= hi /\ lo <= snd p <= hi) ->
  exists a b out,
    set_min_max_hour (tiny_rad_fract g) (map (fun d => d - 1)%nat doy) (List.length doy) ts prm = Ok (a, b) /\
    temp tmin tmax (List.length doy * steps ts) a b ts (pair_list tb) (pair_list te) = Ok out /\
    List.length out = (List.length doy * steps ts)%nat /\ forall v, In v out -> lo <= v <= hi.
Proof. exact curve_range. Qed.
Print Assumptions C27_record_range.

Example C27_case : exists g a b out, solar_geom 100 0 0.0065 = Ok g /\
  set_min_max_hour (tiny_rad_fract g) (map (fun d => d - 1)%nat [365; 366; 1]%nat) 3 60 demo_params = Ok (a, b) /\
  temp [1; -3; 2] [11; 9; 14] 72 a b 60 (Some [0; 20]) None = Ok out /\ List.length out = 72%nat /\ (forall v, In v out -> -3 <= v <= 20).
Proof. exact range_example. Qed.

(** C28: the curve, and the output where a step falls on an extreme, has the
    daily value there. *)
Theorem C28_through_extremes : forall a b tmin tmax m ts tb te,
  alternate a b -> a <> [] -> List.length tmin = List.length a -> List.length tmax = List.length a ->
  exists f, PchipInterpolator (temp_times a b) (temp_values tmin tmax (pair_list tb) (pair_list te)) = Ok f /\
    (forall d, (d < List.length a)%nat -> f (nth d a 0) = nth d tmin 0 /\ f (nth d b 0) = nth d tmax 0) /\
    exists out, temp tmin tmax m a b ts (pair_list tb) (pair_list te) = Ok out /\ List.length out = m /\
    (forall k, (k < m)%nat -> nth k out 0 = f (IZR ts * INR k)) /\
    forall k d, (k < m)%nat -> (d < List.length a)%nat ->
      (IZR ts * INR k = nth d a 0 -> nth k out 0 = nth d tmin 0) /\ (IZR ts * INR k = nth d b 0 -> nth k out 0 = nth d tmax 0).
Proof. exact through_extremes. Qed.
Print Assumptions C28_through_extremes.

Example C28_case : alternate [360; 1800] [960; 2400] /\ exists out,
  temp [1; -3] [11; 9] 48 [360; 1800] [960; 2400] 60 (Some [0; 20]) None = Ok out /\
  nth 6 out 0 = 1 /\ nth 16 out 0 = 11 /\ nth 30 out 0 = -3 /\ nth 40 out 0 = 9.
Proof. exact through_example. Qed.
