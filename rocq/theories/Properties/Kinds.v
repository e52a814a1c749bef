(** C123: constants and monthly tables through the storage type of the forcing. *)
From Coq Require Import ZArith Reals String List Bool Arith.
From Verif Require Import Model.Py Model.Fl Model.Calendar Model.State Model.Kinds Spec.KindsSpec Proofs.KindsProofs.
Import ListNotations.
Local Open Scope string_scope.
Local Open Scope list_scope.

(** A constant needs a forcing variable to take its shape from, and nothing else. *)
Theorem C123_total : forall (P : Type) nan_as (met : dict (kvar P)) (consts : dict R),
  (exists out, apply_constants_kinds nan_as met consts = Ok out) <-> (met <> [] \/ consts = []).
Proof. exact @kinds_total. Qed.
Print Assumptions C123_total.

(** Variables without a constant keep their values and their storage type. *)
Theorem C123_others : forall (P : Type) nan_as (met out : dict (kvar P)) (consts : dict R) k,
  NoDup (keys consts) -> apply_constants_kinds nan_as met consts = Ok out -> ~ In k (keys consts) ->
  dict_get out k = dict_get met k.
Proof. exact @kinds_others. Qed.
Print Assumptions C123_others.

(** A constant is stored as given when the first forcing variable is
    stored in floats, or the constant is a whole number. *)
Theorem C123_constants_partial : forall (P : Type) nan_as k0 v0 (met out : dict (kvar P)) (consts : dict R) k c,
  NoDup (keys consts) -> apply_constants_kinds nan_as ((k0, v0) :: met) consts = Ok out -> In (k, c) consts ->
  kv_kind v0 = KFloat \/ whole c ->
  exists f, dict_get out k = Some f /\ forall p, kv_at f p = Some c.
Proof. exact @kinds_values. Qed.
Print Assumptions C123_constants_partial.

Example C123_kept_case : forall nan_as, exists out f,
  apply_constants_kinds nan_as (rev whole_forcing) [("wind", 0.5%R); ("prec", 3%R)] = Ok out /\
  dict_get out "wind" = Some f /\ (forall t, kv_at f t = Some 0.5%R) /\
  dict_get out "t_min" = dict_get whole_forcing "t_min".
Proof. exact wind_kept. Qed.

(** Otherwise its fraction is cut off at every time and cell. *)
Theorem C123_cut_off : forall (P : Type) nan_as k0 v0 (met out : dict (kvar P)) (consts : dict R) k c,
  NoDup (keys consts) -> apply_constants_kinds nan_as ((k0, v0) :: met) consts = Ok out -> In (k, c) consts ->
  kv_kind v0 = KInt ->
  exists f y, dict_get out k = Some f /\ cut_off c y /\ forall p, kv_at f p = Some y.
Proof. exact @kinds_cut. Qed.
Print Assumptions C123_cut_off.

Theorem C123_constants_refuted : forall (P : Type) nan_as k0 v0 (met : dict (kvar P)) k c,
  kv_kind v0 = KInt -> ~ whole c ->
  exists out f, apply_constants_kinds nan_as ((k0, v0) :: met) [(k, c)] = Ok out /\
    dict_get out k = Some f /\ forall p, kv_at f p <> Some c.
Proof. exact @kinds_lost. Qed.
Print Assumptions C123_constants_refuted.

(** a wind of 0.5 m/s beside precipitation in whole millimetres is a calm *)
Example C123_lost_case : ~ whole 0.5 /\ forall nan_as, exists out f,
  apply_constants_kinds nan_as whole_forcing [("wind", 0.5%R)] = Ok out /\
  dict_get out "wind" = Some f /\ forall t, kv_at f t = Some 0%R.
Proof. exact (conj half_not_whole wind_lost). Qed.

(** Duration and peak time of storms are stored like precipitation. *)
Theorem C123_monthly_partial : forall nan_as k param days (pr l : list fl) i d x,
  List.length pr = List.length days -> convert_monthly_kinds nan_as k param days pr = Ok l ->
  nth_error days i = Some d -> month_of d <> 12%Z -> zlookup param (month_of d) = Ok (Some x) ->
  (k = KFloat \/ whole x -> nth_error l i = Some (Some x)) /\
  (k = KInt -> exists y, cut_off x y /\ nth_error l i = Some (Some y)).
Proof. exact monthly_values. Qed.
Print Assumptions C123_monthly_partial.

Theorem C123_monthly_refuted : forall nan_as param days (pr l : list fl) i d x,
  List.length pr = List.length days -> convert_monthly_kinds nan_as KInt param days pr = Ok l ->
  nth_error days i = Some d -> month_of d <> 12%Z -> zlookup param (month_of d) = Ok (Some x) -> ~ whole x ->
  nth_error l i <> Some (Some x).
Proof. exact monthly_lost. Qed.
Print Assumptions C123_monthly_refuted.

(** 2000-01-31, a table with 0.5 in every month *)
Example C123_monthly_case : forall nan_as,
  convert_monthly_kinds nan_as KInt (map (fun m => (Z.of_nat m, Some 0.5%R)) (seq 0 12)) [10987%Z] [Some 7%R]
    = Ok [Some 0%R] /\
  convert_monthly_kinds nan_as KFloat (map (fun m => (Z.of_nat m, Some 0.5%R)) (seq 0 12)) [10987%Z] [Some 7%R]
    = Ok [Some 0.5%R].
Proof. exact peak_lost. Qed.
