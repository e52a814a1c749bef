(** C16-C22: precipitation, wind and cloud cover. *)
From Coq Require Import ZArith Reals String List Bool Arith Lia Lra.
From Verif Require Import Model.Py Model.Fl Model.Constants Model.Params Model.Disagg
  Spec.TimeSpec Spec.SeriesSpec Proofs.PrecProofs Proofs.WindProofs Proofs.PrecExamples.
Import ListNotations.
Local Open Scope list_scope.

(** C16: any prec_type other than triangle and mix spreads every day evenly;
    the day's steps sum to the daily amount. *)
Theorem C16_uniform_conserves : forall (P tmin : list fl) ts prm tpk dur,
  legal_time_step ts -> p_utc_offset prm = false ->
  str_in (upper (p_prec_type prm)) ["TRIANGLE"; "MIX"]%string = false ->
  exists out, prec P tmin ts prm tpk dur = Ok out /\
    List.length out = (List.length P * steps ts)%nat /\
    forall d p, nth_error P d = Some p ->
      day_part (steps ts) d out = repeat (fdiv p (Some (INR (steps ts)))) (steps ts) /\
      fsum (day_part (steps ts) d out) = p.
Proof. exact prec_uniform. Qed.
Print Assumptions C16_uniform_conserves.

(** C16: equal shares of a non-negative amount are non-negative. *)
Theorem C16_uniform_nonnegative : forall (P tmin : list fl) ts prm tpk dur out d p,
  legal_time_step ts -> p_utc_offset prm = false ->
  str_in (upper (p_prec_type prm)) ["TRIANGLE"; "MIX"]%string = false ->
  prec P tmin ts prm tpk dur = Ok out ->
  nth_error P d = Some (Some p) -> (0 <= p)%R ->
  forall x, In x (day_part (steps ts) d out) -> exists y, x = Some y /\ (0 <= y)%R.
Proof. exact prec_uniform_nonneg. Qed.
Print Assumptions C16_uniform_nonnegative.

Example C16_case :
  legal_time_step 60 /\ steps 60 = 24%nat /\
  prec [Some 24%R; Some 0%R] [None; None] 60 demo_params None None =
    Ok (repeat (Some 1%R) 24 ++ repeat (Some 0%R) 24).
Proof. exact uniform_example. Qed.

(** C17: a triangle that touches a weighted minute conserves the day. *)
Theorem C17_triangle_conserves : forall (P tmin : list fl) ts prm pk dur,
  legal_time_step ts -> p_utc_offset prm = false -> upper (p_prec_type prm) = "TRIANGLE"%string ->
  List.length pk = List.length P -> List.length dur = List.length P ->
  exists out, prec P tmin ts prm (Some pk) (Some dur) = Ok out /\
    List.length out = (List.length P * steps ts)%nat /\
    forall d p a b, nth_error P d = Some (Some p) -> nth_error pk d = Some (Some a) ->
      nth_error dur d = Some (Some b) -> covered a b ->
      fsum (day_part (steps ts) d out) = Some p /\
      ((0 <= p)%R -> forall x, In x (day_part (steps ts) d out) -> exists y, x = Some y /\ (0 <= y)%R).
Proof. exact prec_triangle_covered. Qed.
Print Assumptions C17_triangle_conserves.

Example C17_case : covered 720 60 /\ covered 1439 0.5 /\ covered 0 1 /\
  upper (p_prec_type (with_prec_type "triangle" demo_params)) = "TRIANGLE"%string.
Proof. exact covered_example. Qed.

(** C18: shape of the minute series; the values at coarser steps are sums
    of consecutive minutes. *)
Theorem C18_triangle_shape : forall (P tmin : list fl) prm pk dur,
  p_utc_offset prm = false -> upper (p_prec_type prm) = "TRIANGLE"%string ->
  List.length pk = List.length P -> List.length dur = List.length P ->
  exists out, prec P tmin 1 prm (Some pk) (Some dur) = Ok out /\
    forall d p a b, nth_error P d = Some (Some p) -> nth_error pk d = Some (Some a) ->
      nth_error dur d = Some (Some b) -> (0 <= p)%R -> covered a b ->
      exists x : nat -> R, day_part MIN_PER_DAY d out = map (fun m => Some (x m)) (seq 0 MIN_PER_DAY) /\
        (forall m, (m < MIN_PER_DAY)%nat -> x m <> 0%R -> (Rabs (INR m - a) <= b / 2)%R) /\
        (forall m m', (m <= m' < MIN_PER_DAY)%nat -> (INR m' <= a)%R -> (x m <= x m')%R) /\
        (forall m m', (m <= m' < MIN_PER_DAY)%nat -> (a <= INR m)%R -> (x m' <= x m)%R).
Proof. exact prec_shape. Qed.
Print Assumptions C18_triangle_shape.

Theorem C18_steps_sum_minutes : forall (P tmin : list fl) ts prm pk dur m,
  legal_time_step ts -> p_utc_offset prm = false ->
  prec P tmin 1 prm pk dur = Ok m ->
  exists out, prec P tmin ts prm pk dur = Ok out /\ List.length out = (List.length P * steps ts)%nat /\
    forall k, (k < List.length out)%nat ->
      nth_error out k = Some (fsum (firstn (Z.to_nat ts) (skipn (k * Z.to_nat ts) m))).
Proof. exact prec_coarse. Qed.
Print Assumptions C18_steps_sum_minutes.

Example C18_case : legal_time_step 1 /\
  exists m, prec [Some 5%R] [None] 1 (with_prec_type "Triangle" demo_params) (Some [Some 720%R]) (Some [Some 60%R]) = Ok m /\
    List.length m = MIN_PER_DAY.
Proof. exact shape_example. Qed.

(** C19: exactly when the triangle misses every weighted minute the whole
    day is missing; otherwise its mass is kept. *)
Theorem C19_missing_iff_uncovered : forall (P tmin : list fl) ts prm pk dur,
  legal_time_step ts -> p_utc_offset prm = false -> upper (p_prec_type prm) = "TRIANGLE"%string ->
  List.length pk = List.length P -> List.length dur = List.length P ->
  exists out, prec P tmin ts prm (Some pk) (Some dur) = Ok out /\
    forall d p a b, nth_error P d = Some (Some p) -> nth_error pk d = Some (Some a) ->
      nth_error dur d = Some (Some b) ->
      (day_part (steps ts) d out = repeat None (steps ts) <-> ~ covered a b) /\
      (fsum (day_part (steps ts) d out) = Some p <-> covered a b).
Proof. exact prec_triangle_iff. Qed.
Print Assumptions C19_missing_iff_uncovered.

(** C19: half a minute of rain between two minutes, and a peak in the last
    minute of the day, are lost. *)
Theorem C19_short_event_lost : ~ covered 720.5 0.5 /\ ~ covered 1439.5 0.25.
Proof. exact uncovered_example. Qed.
Print Assumptions C19_short_event_lost.

Example C19_case : exists out,
  prec [Some 5%R] [None] 60 (with_prec_type "triangle" demo_params) (Some [Some 720.5%R]) (Some [Some 0.5%R]) = Ok out /\
  out = repeat None 24.
Proof. exact lost_example. Qed.

(** C20: mix is uniform on days with t_min < 0 and triangle on the others. *)
Theorem C20_mix : forall (P tmin : list fl) ts prm pk dur,
  legal_time_step ts -> p_utc_offset prm = false ->
  List.length pk = List.length P -> List.length dur = List.length P ->
  exists mix uni tri,
    prec P tmin ts (with_prec_type "mix" prm) (Some pk) (Some dur) = Ok mix /\
    prec P tmin ts (with_prec_type "uniform" prm) (Some pk) (Some dur) = Ok uni /\
    prec P tmin ts (with_prec_type "triangle" prm) (Some pk) (Some dur) = Ok tri /\
    forall d, (d < List.length P)%nat ->
      day_part (steps ts) d mix =
      day_part (steps ts) d (if flt (nth d tmin None) (Some 0%R) then uni else tri).
Proof. exact prec_mix. Qed.
Print Assumptions C20_mix.

Example C20_case :
  flt (nth 0 [Some (-1)%R; Some 0%R] None) (Some 0%R) = true /\
  flt (nth 1 [Some (-1)%R; Some 0%R] None) (Some 0%R) = false.
Proof. exact mix_example. Qed.

(** C21: the UTC shift keeps the record total; step k is the sum of the
    local minutes found [utc_minutes] later in the circular record. *)
Theorem C21_utc_shift : forall (P tmin : list fl) ts prm pk dur m,
  legal_time_step ts ->
  prec P tmin 1 (with_utc false prm) pk dur = Ok m ->
  exists out loc, prec P tmin ts (with_utc true prm) pk dur = Ok out /\
    prec P tmin ts (with_utc false prm) pk dur = Ok loc /\
    fsum out = fsum loc /\ List.length out = List.length loc /\
    forall k, (k < List.length out)%nat ->
      nth_error out k = Some (fsum (map (fun j =>
        circular m (Z.of_nat (k * Z.to_nat ts + j) + utc_minutes (p_lon prm)) None) (seq 0 (Z.to_nat ts)))).
Proof. exact prec_utc. Qed.
Print Assumptions C21_utc_shift.

(** Seattle: -121 degrees is 484 minutes behind UTC. *)
Example C21_case : utc_minutes (-121) = (-484)%Z /\ utc_minutes 90 = 360%Z /\
  exists m, prec [Some 5%R; Some 1%R] [] 1 (with_utc false demo_params) None None = Ok m.
Proof. exact utc_example. Qed.

(** C22: wind and cloud cover repeat the daily value. *)
Theorem C22_constant_through_day : forall (x : list fl) ts prm,
  legal_time_step ts -> p_utc_offset prm = false ->
  exists out, wind x ts prm = Ok out /\ tskc x ts prm = Ok out /\
    List.length out = (List.length x * steps ts)%nat /\
    forall d v, nth_error x d = Some v -> day_part (steps ts) d out = repeat v (steps ts).
Proof. exact wind_tskc_local. Qed.
Print Assumptions C22_constant_through_day.

(** C22: with the UTC shift each step is the mean of the daily values at the
    corresponding local minutes; range and record mean are kept. *)
Theorem C22_utc_shift : forall (x : list fl) ts prm,
  legal_time_step ts -> p_utc_offset prm = true ->
  exists out, wind x ts prm = Ok out /\ tskc x ts prm = Ok out /\
    List.length out = (List.length x * steps ts)%nat /\
    (forall k, (k < List.length out)%nat ->
       nth_error out k = Some (fmean (map (fun j =>
         nth (Z.to_nat ((Z.of_nat (k * Z.to_nat ts + j) + utc_minutes (p_lon prm))
               mod (Z.of_nat (List.length x) * 1440) / 1440)) x None) (seq 0 (Z.to_nat ts))))) /\
    (forall lo hi, (forall v, In v x -> exists y, v = Some y /\ (lo <= y <= hi)%R) ->
       forall v, In v out -> exists y, v = Some y /\ (lo <= y <= hi)%R) /\
    fmean out = fmean x.
Proof. exact wind_tskc_utc. Qed.
Print Assumptions C22_utc_shift.

Example C22_case :
  wind [Some 3%R; None; Some 5%R] 360 demo_params =
    Ok (repeat (Some 3%R) 4 ++ repeat None 4 ++ repeat (Some 5%R) 4).
Proof. exact wind_example. Qed.
