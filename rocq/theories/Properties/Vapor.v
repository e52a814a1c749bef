(** C29, C73, C74: vapor pressure, and the disaggregation as a whole. *)
From Coq Require Import ZArith Reals String List.
From Verif Require Import Model.Py Model.Fl Model.Constants Model.Physics Model.Params Model.Disagg
  Spec.TimeSpec Spec.SeriesSpec Spec.TempSpec Spec.FrameSpec Proofs.UtcProofs Proofs.FrameProofs Proofs.VaporProofs.
Import ListNotations.
Local Open Scope string_scope.
Local Open Scope list_scope.
Local Open Scope R_scope.

(** C29: between the first and the last daily minimum of the record vapor
    pressure (kPa) is at most saturation (Pa) / 1000.  Missing for the full
    statement: the other steps, which copy one of these values. *)
Theorem C29_saturation_partial : forall df prm tiny tb te out v,
  good_options prm -> good_table (dl_doy df) tiny -> numbers df "vapor_pressure" v ->
  disaggregate df prm tiny tb te = Ok out ->
  let ts := p_time_step prm in let n := (List.length (dl_doy df) * steps ts)%nat in
  exists a b temps vp,
    set_min_max_hour tiny (map (fun d => d - 1)%nat (dl_doy df)) (List.length (dl_doy df)) ts
      (set_lon prm (remainder360 (p_lon prm))) = Ok (a, b) /\
    List.length a = List.length (dl_doy df) /\
    dict_get out "temp" = Some (map Some temps) /\ List.length temps = n /\
    dict_get out "vapor_pressure" = Some vp /\ List.length vp = n /\
    (forall k, (k < n)%nat -> nth 0 a 0 <= IZR ts * INR k <= last a 0 ->
       exists u, nth k vp None = Some u /\ forall s, svp1 (Some (nth k temps 0)) = Some s -> u <= s / 1000) /\
    (forall k u, nth k vp None = Some u ->
       exists j, (j < n)%nat /\ nth 0 a 0 <= IZR ts * INR j <= last a 0 /\ nth j vp None = Some u) /\
    ((exists j, (j < n)%nat /\ nth 0 a 0 <= IZR ts * INR j <= last a 0) -> forall k, (k < n)%nat -> exists u, nth k vp None = Some u).
Proof. exact vapor_capped. Qed.
Print Assumptions C29_saturation_partial.

Example C29_case : let df := flat_frame 5 600 [1; 2]%nat in
  good_frame df (demo_step 60) /\ good_options (demo_step 60) /\ good_table (dl_doy df) dark_year /\
  numbers df "vapor_pressure" (repeat 600 2) /\ exists out, disaggregate df (demo_step 60) dark_year None None = Ok out.
Proof. exact (flat_runs 5 600 [1; 2]%nat 60 TempProofs.legal_60 ltac:(discriminate) days_12). Qed.

(** C29 is false as stated: the gaps before the first and after the last
    minimum are filled after the correction, so air colder than the nearest
    corrected step is supersaturated. *)
Theorem C29_every_step_refuted : ~ (forall df prm tiny tb te out temps vp k T v s,
  good_frame df prm -> good_options prm -> good_table (dl_doy df) tiny -> (exists w, numbers df "vapor_pressure" w) ->
  disaggregate df prm tiny (pair_list tb) (pair_list te) = Ok out ->
  dict_get out "temp" = Some temps -> dict_get out "vapor_pressure" = Some vp ->
  nth k temps None = Some T -> nth k vp None = Some v -> svp1 (Some T) = Some s -> v <= s / 1000).
Proof. exact saturation_refuted. Qed.
Print Assumptions C29_every_step_refuted.

(** C73: an acceptable daily frame is always disaggregated, ... *)
Theorem C73_never_fails : forall df prm tiny tb te,
  good_frame df prm -> good_options prm -> good_table (dl_doy df) tiny ->
  exists out, disaggregate df prm tiny (pair_list tb) (pair_list te) = Ok out.
Proof. exact disaggregate_total. Qed.
Print Assumptions C73_never_fails.

(** ... and any result has the same columns, in order, of the same length. *)
Theorem C73_shape : forall df prm tiny tb te out,
  disaggregate df prm tiny tb te = Ok out -> legal_time_step (p_time_step prm) ->
  map fst out = sub_daily_names (match dict_get (dl_cols df) "wind" with Some _ => true | None => false end) /\
  forall name v, In (name, v) out -> List.length v = (List.length (dl_doy df) * steps (p_time_step prm))%nat.
Proof. exact disaggregate_shape. Qed.
Print Assumptions C73_shape.

Example C73_case : let df := flat_frame 5 600 [1; 2]%nat in
  good_frame df (demo_step 360) /\ good_options (demo_step 360) /\ good_table (dl_doy df) dark_year /\
  numbers df "vapor_pressure" (repeat 600 2) /\ exists out, disaggregate df (demo_step 360) dark_year None None = Ok out.
Proof. exact (flat_runs 5 600 [1; 2]%nat 360 legal_360 ltac:(discriminate) days_12). Qed.

(** C74: records of two or more days have vapor pressure at every step ... *)
Theorem C74_defined_partial : forall df prm tiny tb te out v,
  good_options prm -> good_table (dl_doy df) tiny -> numbers df "vapor_pressure" v ->
  (p_time_step prm <= 360)%Z -> p_utc_offset prm = false \/ p_theta_s prm = 0 -> (2 <= List.length (dl_doy df))%nat ->
  disaggregate df prm tiny tb te = Ok out ->
  exists vp, dict_get out "vapor_pressure" = Some vp /\
    List.length vp = (List.length (dl_doy df) * steps (p_time_step prm))%nat /\ forall x, In x vp -> x <> None.
Proof. exact vapor_defined. Qed.
Print Assumptions C74_defined_partial.

(** ... but a record of one day has none, unless a step falls exactly on the
    time of the minimum. *)
Theorem C74_one_day : forall df prm tiny tb te out v,
  good_options prm -> good_table (dl_doy df) tiny -> numbers df "vapor_pressure" v ->
  List.length (dl_doy df) = 1%nat -> disaggregate df prm tiny tb te = Ok out ->
  exists a b, set_min_max_hour tiny (map (fun d => d - 1)%nat (dl_doy df)) 1 (p_time_step prm)
      (set_lon prm (remainder360 (p_lon prm))) = Ok (a, b) /\
    ((forall k, IZR (p_time_step prm) * INR k <> nth 0 a 0) ->
     exists vp, dict_get out "vapor_pressure" = Some vp /\ List.length vp = steps (p_time_step prm) /\ forall x, In x vp -> x = None).
Proof. exact one_day_undefined. Qed.
Print Assumptions C74_one_day.

Theorem C74_defined_refuted : ~ (forall df prm tiny tb te out v,
  good_frame df prm -> good_options prm -> good_table (dl_doy df) tiny -> numbers df "vapor_pressure" v ->
  (p_time_step prm <= 360)%Z -> disaggregate df prm tiny (pair_list tb) (pair_list te) = Ok out ->
  exists vp, dict_get out "vapor_pressure" = Some vp /\ forall x, In x vp -> x <> None).
Proof. exact one_day_refuted. Qed.
Print Assumptions C74_defined_refuted.

Example C74_case : exists out vp, disaggregate (flat_frame 5 600 [1%nat]) (demo_step 360) dark_year None None = Ok out /\
  dict_get out "vapor_pressure" = Some vp /\ List.length vp = 4%nat /\ forall x, In x vp -> x = None.
Proof. exact one_day_example. Qed.
