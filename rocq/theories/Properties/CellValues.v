(** C82-C84: temperature, precipitation and wind of one cell. *)
From Coq Require Import ZArith Reals String List Bool.
From Verif Require Import Model.Py Model.Fl Model.Params Model.Physics Model.Disagg Model.Cell
  Spec.TimeSpec Spec.SeriesSpec Spec.TempSpec Spec.FrameSpec Spec.CellSpec Proofs.TempProofs Proofs.CellTotal Proofs.CellOutputs Proofs.RunTotal.
Import ListNotations.
Local Open Scope string_scope.
Local Open Scope list_scope.
Local Open Scope R_scope.

(** C82: the extremes [a], [b] alternate and lie at sunrise and a fixed part
    of the day after it; the extremes before the first day are those of the
    last day of the state. *)
Theorem C82_temperature : forall fuel prm c out prm' tmin tmax,
  legal_time_step (p_time_step prm) -> (p_time_step prm < 1440)%Z ->
  -90 <= cd_lat c <= 90 -> days_valid (dl_doy (cd_daily c)) -> dl_doy (cd_daily c) <> [] -> 0 < p_tmax_frac prm <= 1 ->
  let place := set_lon prm (remainder360 (cd_lon c)) in
  (p_utc_offset prm = false \/ (2 / 3 <= p_tmax_frac prm /\ (-720 <= utc_temp_minutes place <= 719)%Z)) ->
  numbers (cd_daily c) "t_min" tmin -> numbers (cd_daily c) "t_max" tmax ->
  run_cell fuel prm c = Some (Ok out, prm') ->
  exists s1 s2 a b temps,
    last (cd_state_tmin c) None = Some s1 /\ last (cd_state_tmax c) None = Some s2 /\
    List.length a = List.length (dl_doy (cd_daily c)) /\ alternate a b /\
    (forall d, (d < List.length a)%nat -> exists row, usable row /\
      nth d a 0 = rise_time row - shift_of place + 1440 * INR d - IZR (p_time_step prm) /\
      nth d b 0 = rise_time row + p_tmax_frac prm * (set_time row - rise_time row) - shift_of place + 1440 * INR d - IZR (p_time_step prm)) /\
    dict_get out "temp" = Some (map Some temps) /\
    List.length temps = (List.length (dl_doy (cd_daily c)) * steps (p_time_step prm))%nat /\
    forall k v, nth_error temps k = Some v ->
      surrounded a b tmin tmax (s1, s2) (last tmin 0, last tmax 0) (IZR (p_time_step prm) * INR k) v.
Proof. exact cell_temperature. Qed.
Print Assumptions C82_temperature.

Example C82_case : (exists out prm', run_cell 0 (demo_method "passthrough" 60) equator_cell = Some (Ok out, prm')) /\
  numbers (cd_daily equator_cell) "t_min" [10; 12] /\ numbers (cd_daily equator_cell) "t_max" [20; 25].
Proof. exact (conj (equator_runs 0 60 legal_60) (conj (conj eq_refl eq_refl) (conj eq_refl eq_refl))). Qed.

(** C83, uniform precipitation: a measured day adds up to its amount, a day
    that is not measured repeats the day before. *)
Theorem C83_uniform : forall fuel prm c out prm' P,
  legal_time_step (p_time_step prm) -> (p_time_step prm < 1440)%Z -> p_utc_offset prm = false ->
  str_in (upper (p_prec_type prm)) ["TRIANGLE"; "MIX"]%string = false ->
  dict_get (dl_cols (cd_daily c)) "prec" = Some P -> run_cell fuel prm c = Some (Ok out, prm') ->
  let k := steps (p_time_step prm) in
  exists v, dict_get out "prec" = Some v /\ List.length v = (List.length P * k)%nat /\
    (forall d p, nth_error P d = Some (Some p) ->
       day_part k d v = repeat (Some (p / INR k)) k /\ fsum (day_part k d v) = Some p) /\
    (forall e d p, nth_error P e = Some (Some p) -> (e < d < List.length P)%nat ->
       (forall j, (e < j <= d)%nat -> nth_error P j = Some None) ->
       day_part k d v = repeat (Some (p / INR k)) k /\ fsum (day_part k d v) = Some p).
Proof. exact cell_precipitation. Qed.
Print Assumptions C83_uniform.

Example C83_case : exists out prm' v,
  run_cell 0 (demo_rain "uniform") gappy_cell = Some (Ok out, prm') /\ dict_get out "prec" = Some v /\
  map (fun d => fsum (day_part 24 d v)) [0; 1; 2; 3]%nat = map Some [6; 6; 5; 2].
Proof. exact gappy_uniform. Qed.

(** C83, triangular precipitation: a covered day adds up to its amount; an
    uncovered day, whatever its amount, repeats the last step of the day
    before. *)
Theorem C83_triangle : forall fuel prm c out prm' P pk dur,
  legal_time_step (p_time_step prm) -> (p_time_step prm < 1440)%Z -> p_utc_offset prm = false ->
  upper (p_prec_type prm) = "TRIANGLE" ->
  dict_get (dl_cols (cd_daily c)) "prec" = Some P -> dict_get (dl_cols (cd_daily c)) "t_pk" = Some pk ->
  dict_get (dl_cols (cd_daily c)) "dur" = Some dur -> List.length pk = List.length P -> List.length dur = List.length P ->
  run_cell fuel prm c = Some (Ok out, prm') ->
  let k := steps (p_time_step prm) in
  exists v, dict_get out "prec" = Some v /\ List.length v = (List.length P * k)%nat /\
    (forall d p a b, nth_error P d = Some (Some p) -> nth_error pk d = Some (Some a) -> nth_error dur d = Some (Some b) -> SeriesSpec.covered a b ->
       fsum (day_part k d v) = Some p) /\
    (forall d p p' a b a' b', nth_error P d = Some (Some p) -> nth_error pk d = Some (Some a) -> nth_error dur d = Some (Some b) -> SeriesSpec.covered a b ->
       nth_error P (S d) = Some (Some p') -> nth_error pk (S d) = Some (Some a') -> nth_error dur (S d) = Some (Some b') -> ~ SeriesSpec.covered a' b' ->
       exists last, nth_error v (d * k + (k - 1)) = Some (Some last) /\ day_part k (S d) v = repeat (Some last) k).
Proof. exact cell_triangle. Qed.
Print Assumptions C83_triangle.

Example C83_triangle_case : exists out prm' v x,
  run_cell 0 (demo_rain "triangle") gappy_cell = Some (Ok out, prm') /\ dict_get out "prec" = Some v /\
  fsum (day_part 24 0 v) = Some 6 /\ fsum (day_part 24 2 v) = Some 5 /\ day_part 24 3 v = repeat (Some x) 24.
Proof. exact gappy_triangle. Qed.

(** C83: with a complete uniform record the total is kept, also under
    utc_offset. *)
Theorem C83_total : forall fuel prm c out prm' P,
  legal_time_step (p_time_step prm) -> (p_time_step prm < 1440)%Z ->
  str_in (upper (p_prec_type prm)) ["TRIANGLE"; "MIX"]%string = false ->
  dict_get (dl_cols (cd_daily c)) "prec" = Some (map Some P) -> run_cell fuel prm c = Some (Ok out, prm') ->
  exists v, dict_get out "prec" = Some v /\ fsum v = Some (total P).
Proof. exact cell_record_total. Qed.
Print Assumptions C83_total.

(** C84 *)
Theorem C84_wind : forall fuel prm c out prm' w,
  legal_time_step (p_time_step prm) -> (p_time_step prm < 1440)%Z -> p_utc_offset prm = false ->
  dict_get (dl_cols (cd_daily c)) "wind" = Some w -> run_cell fuel prm c = Some (Ok out, prm') ->
  let k := steps (p_time_step prm) in
  exists v, dict_get out "wind" = Some v /\ List.length v = (List.length w * k)%nat /\
    (forall d x, nth_error w d = Some (Some x) -> day_part k d v = repeat (Some x) k) /\
    (forall e d x, nth_error w e = Some (Some x) -> (e < d < List.length w)%nat ->
       (forall j, (e < j <= d)%nat -> nth_error w j = Some None) -> day_part k d v = repeat (Some x) k).
Proof. exact cell_wind. Qed.
Print Assumptions C84_wind.

Example C84_case : exists out prm' v,
  run_cell 0 (demo_rain "uniform") gappy_cell = Some (Ok out, prm') /\ dict_get out "wind" = Some v /\
  v = repeat (Some 3) 48 ++ repeat (Some 4) 24 ++ repeat (Some 1) 24.
Proof. exact gappy_wind. Qed.
