(** C115: the vapor pressure of every output step. *)
From Coq Require Import ZArith Reals String List.
From Verif Require Import Model.Py Model.Fl Model.Params Model.Disagg Model.Cell
  Spec.TimeSpec Spec.SeriesSpec Spec.TempSpec Spec.FrameSpec Spec.StepSpec Spec.CellSpec Spec.VaporSpec
  Proofs.UtcProofs Proofs.FrameProofs Proofs.VaporProofs Proofs.VaporValues.
Import ListNotations.
Local Open Scope string_scope.
Local Open Scope list_scope.
Local Open Scope R_scope.

(** C115: between the minima of two days ([a] holds their times in minutes) a
    step has the value (kPa) of the line through the two daily values (Pa),
    or saturation if that is less.  Steps before the first minimum repeat the
    first step from it on, steps after the last minimum the last step until
    it.  If no step lies between the first and the last minimum there is no
    value at all. *)
Theorem C115_vapor_values : forall df prm tiny tb te out v,
  good_options prm -> good_table (dl_doy df) tiny -> numbers df "vapor_pressure" v ->
  disaggregate df prm tiny tb te = Ok out ->
  let ts := p_time_step prm in let n := (List.length (dl_doy df) * steps ts)%nat in
  exists a b,
    set_min_max_hour tiny (map (fun d => d - 1)%nat (dl_doy df)) (List.length (dl_doy df)) ts
      (set_lon prm (remainder360 (p_lon prm))) = Ok (a, b) /\
    List.length a = List.length (dl_doy df) /\
    (forall k i T, (k < n)%nat -> (S i < List.length a)%nat -> nth i a 0 <= IZR ts * INR k <= nth (S i) a 0 ->
       entry out "temp" k T -> -237.3 < T ->
       entry out "vapor_pressure" k
         (Rmin (saturation T) (on_line (nth i a 0) (nth i v 0) (nth (S i) a 0) (nth (S i) v 0) (IZR ts * INR k)) / 1000)) /\
    (forall k j e, IZR ts * INR k < nth 0 a 0 -> first_from n (IZR ts) (nth 0 a 0) j -> IZR ts * INR j <= last a 0 ->
       (entry out "vapor_pressure" k e <-> entry out "vapor_pressure" j e)) /\
    (forall k j e, (k < n)%nat -> last a 0 < IZR ts * INR k -> last_until n (IZR ts) (last a 0) j -> nth 0 a 0 <= IZR ts * INR j ->
       (entry out "vapor_pressure" k e <-> entry out "vapor_pressure" j e)) /\
    ((forall k, (k < n)%nat -> ~ nth 0 a 0 <= IZR ts * INR k <= last a 0) -> forall k e, ~ entry out "vapor_pressure" k e).
Proof. exact vapor_values. Qed.
Print Assumptions C115_vapor_values.

(** two days at 0 C with 400 and 800 Pa, minima at 3:00 of each day: the
    values of 0:00, 3:00, 15:00, 3:00 of the next day, and 23:00 *)
Example C115_case : exists out, disaggregate moist_frame (demo_step 60) dark_year None None = Ok out /\
  entry out "vapor_pressure" 0 (400 / 1000) /\ entry out "vapor_pressure" 3 (400 / 1000) /\
  entry out "vapor_pressure" 15 (600 / 1000) /\
  entry out "vapor_pressure" 27 (610.78 / 1000) /\ entry out "vapor_pressure" 47 (610.78 / 1000).
Proof. exact moist_values. Qed.

(** In a whole cell with supplied vapor pressure the minima are one step
    before sunrise, moved by the UTC offset. *)
Theorem C115_supplied : forall fuel prm c out prm' v,
  p_method prm = "passthrough" -> good_options prm -> (p_time_step prm < 1440)%Z ->
  -90 <= cd_lat c <= 90 -> days_valid (dl_doy (cd_daily c)) -> numbers (cd_daily c) "vapor_pressure" v ->
  run_cell fuel prm c = Some (Ok out, prm') ->
  let ts := p_time_step prm in let n := (List.length (dl_doy (cd_daily c)) * steps ts)%nat in
  let place := set_lon prm (remainder360 (cd_lon c)) in
  exists a : list R,
    (List.length a = List.length (dl_doy (cd_daily c)))%nat /\
    (forall d, (d < List.length a)%nat ->
       exists row, usable row /\ nth d a 0 = rise_time row - shift_of place + 1440 * INR d - IZR ts) /\
    (forall k i T, (k < n)%nat -> (S i < List.length a)%nat -> nth i a 0 <= IZR ts * INR k <= nth (S i) a 0 ->
       entry out "temp" k T -> -237.3 < T ->
       entry out "vapor_pressure" k
         (Rmin (saturation T) (on_line (nth i a 0) (nth i v 0) (nth (S i) a 0) (nth (S i) v 0) (IZR ts * INR k)) / 1000)) /\
    (forall k j e, IZR ts * INR k < nth 0 a 0 -> first_from n (IZR ts) (nth 0 a 0) j -> IZR ts * INR j <= last a 0 ->
       (entry out "vapor_pressure" k e <-> entry out "vapor_pressure" j e)) /\
    (forall k j e, (k < n)%nat -> last a 0 < IZR ts * INR k -> last_until n (IZR ts) (last a 0) j -> nth 0 a 0 <= IZR ts * INR j ->
       (entry out "vapor_pressure" k e <-> entry out "vapor_pressure" j e)).
Proof. exact cell_vapor. Qed.
Print Assumptions C115_supplied.

Example C115_supplied_case : good_options (demo_method "passthrough" 60) /\ numbers (cd_daily moist_cell) "vapor_pressure" [900; 1100] /\
  exists out prm', run_cell 0 (demo_method "passthrough" 60) moist_cell = Some (Ok out, prm').
Proof. exact (moist_cell_runs 0). Qed.
