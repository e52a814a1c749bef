(** C45, C61-C65, C70: passthrough daily values, shared dictionaries of the
    process, units and calendars. *)
From Coq Require Import ZArith Reals String Ascii List Bool Arith Lia Lra QArith.
From Verif Require Import Model.Py Model.Fl Model.Np Model.Params Model.Physics Model.Disagg Model.Mtclim Model.Units Model.Globals
  Model.Calendar Model.Datetime Spec.GlobalsSpec Spec.UnitsSpec Spec.DailySpec
  Proofs.GlobalsProofs Proofs.UnitsProofs Proofs.PassProofs.
Import ListNotations.
Local Open Scope string_scope.
Local Open Scope list_scope.

(** C45: nothing that was supplied changes; what was missing is computed
    with the mtclim formulas from the columns of the result. *)
Theorem C45_keeps_supplied : forall df prm df', passthrough_run df prm = Ok df' ->
  has df "shortwave" /\ keeps df df' /\
  (has df "t_day" \/ row2 df' "t_day" "t_min" "t_max" (t_day1 prm)) /\
  (has df "tfmax" \/ row3 df' "tfmax" "dtr" "smoothed_dtr" "prec" (tfmax1 prm)) /\
  (has df "tskc" \/ row1 df' "tskc" "tfmax" (mt_tskc1 prm)) /\
  (has df "pet" \/ row3 df' "pet" "shortwave" "t_day" "daylength" (pet1 prm)) /\
  (has df "tdew" \/ row4 df' "tdew" "pet" "t_min" "seasonal_prec" "dtr" tdew1) /\
  (has df "vapor_pressure" \/ row1 df' "vapor_pressure" "tdew" svp1).
Proof. exact passthrough_spec. Qed.
Print Assumptions C45_keeps_supplied.

Theorem C45_shortwave_required : forall df prm, ~ has df "shortwave" -> passthrough_run df prm = Err AssertionError.
Proof. exact passthrough_no_shortwave. Qed.
Print Assumptions C45_shortwave_required.

Theorem C45_runs : forall df prm,
  (forall k, In k ["shortwave"; "t_min"; "t_max"; "dtr"; "smoothed_dtr"; "prec"; "daylength"; "seasonal_prec"] -> has df k) ->
  exists df', passthrough_run df prm = Ok df'.
Proof. exact passthrough_total. Qed.
Print Assumptions C45_runs.

(** everything but the vapor pressure supplied *)
Example C45_case : forall prm, passthrough_run
  (mkdaily [("shortwave", [Some 100%R]); ("t_day", [Some 9%R]); ("tfmax", [Some 1%R]); ("tskc", [Some 0%R]);
            ("pet", [Some 2%R]); ("tdew", [Some 5%R])] [1%nat]) prm =
  Ok (mkdaily [("shortwave", [Some 100%R]); ("t_day", [Some 9%R]); ("tfmax", [Some 1%R]); ("tskc", [Some 0%R]);
            ("pet", [Some 2%R]); ("tdew", [Some 5%R]); ("vapor_pressure", [svp1 (Some 5%R)])] [1%nat]).
Proof. intros. reflexivity. Qed.

(** C61: given parameters are used, others keep the value of the class
    dictionary, which for the first object are the defaults. *)
Theorem C61_given_parameters_partial : forall h given ovs h' k, NoDup (keys given) -> construct h given ovs = Ok h' ->
  read_param h' k = match dict_get given k with Some v => Some v | None => read_param h k end.
Proof. exact construct_reads. Qed.
Print Assumptions C61_given_parameters_partial.

Example C61_case : exists h, construct (initial_heap [("method", "mtclim"); ("prec_type", "uniform")]) [("method", "passthrough")] None = Ok h /\
  read_param h "method" = Some "passthrough" /\ read_param h "prec_type" = Some "uniform".
Proof. eexists. repeat split. Qed.

(** C61: without a choice of output variables, the first object writes the
    documented six in their documented units. *)
Theorem C61_default_outputs : forall defaults given h, construct (initial_heap defaults) given None = Ok h ->
  keys (h_out_vars h) = ["temp"; "prec"; "shortwave"; "longwave"; "vapor_pressure"; "rel_humid"] /\
  forall k u, In (k, u) [("temp", "C"); ("prec", "mm timestep-1"); ("shortwave", "W m-2"); ("longwave", "W m-2");
                         ("vapor_pressure", "Pa"); ("rel_humid", "%")] ->
    recorded_units h k = Ok u /\ applied_units h k = Ok u /\
    exists v, dict_get (h_avail h) k = Some v /\ ov_name v = k.
Proof. exact first_outputs. Qed.
Print Assumptions C61_default_outputs.

(** C61 is false: a later object inherits parameters given to an earlier
    one, ... *)
Theorem C61_inherited_parameters_refuted : exists defaults given1 given2 h1 h2 k,
  construct (initial_heap defaults) given1 None = Ok h1 /\ construct h1 given2 None = Ok h2 /\
  dict_get given2 k = None /\ read_param h2 k <> dict_get defaults k.
Proof. exact params_leak. Qed.
Print Assumptions C61_inherited_parameters_refuted.

(** ... and creating it changes parameters of the earlier one. *)
Theorem C61_shared_parameters_refuted : exists defaults given1 given2 h1 h2 k,
  construct (initial_heap defaults) given1 None = Ok h1 /\ construct h1 given2 None = Ok h2 /\
  dict_get given1 k <> None /\ read_param h2 k <> read_param h1 k.
Proof. exact params_shared. Qed.
Print Assumptions C61_shared_parameters_refuted.

(** C62: whatever the history, for entries of available_outputs and for own
    entries with a unit that can be converted to *)
Theorem C62_units_match_partial : forall defaults h given user refs h', history defaults h -> own_refs refs ->
  construct h given (Some (user, refs)) = Ok h' -> forall k r, In (k, r) refs ->
  (r = RAvail k \/ exists v u, dict_get user k = Some v /\ ov_units v = Some u /\ supported k u) ->
  exists u, recorded_units h' k = Ok u /\ applied_units h' k = Ok u /\ supported k u.
Proof. exact units_match. Qed.
Print Assumptions C62_units_match_partial.

(** C62: and it is the requested unit *)
Theorem C62_requested_units : forall defaults h given user refs h', history defaults h -> own_refs refs ->
  construct h given (Some (user, refs)) = Ok h' -> forall k v u, In (k, RUser k) refs ->
  dict_get user k = Some v -> ov_units v = Some u -> supported k u ->
  recorded_units h' k = Ok u /\ applied_units h' k = Ok u.
Proof. exact units_requested. Qed.
Print Assumptions C62_requested_units.

(** C62: every entry, as long as no earlier object changed the units
    attribute of the variable *)
Theorem C62_fallback_partial : forall defaults h given user refs h', history defaults h -> own_refs refs ->
  construct h given (Some (user, refs)) = Ok h' -> forall k r, In (k, r) refs ->
  dict_get (h_attrs h) k = dict_get default_units k ->
  exists u, recorded_units h' k = Ok u /\ applied_units h' k = Ok u /\ supported k u.
Proof. exact units_fallback. Qed.
Print Assumptions C62_fallback_partial.

Example C62_case : exists h, construct (initial_heap []) []
  (Some ([("prec", mk_outvar "pr" (Some "mm s-1")); ("temp", mk_outvar "tas" (Some "furlong"))],
         [("prec", RUser "prec"); ("temp", RUser "temp"); ("wind", RAvail "wind")])) = Ok h /\
  recorded_units h "prec" = Ok "mm s-1" /\ applied_units h "prec" = Ok "mm s-1" /\
  recorded_units h "temp" = Ok "C" /\ applied_units h "temp" = Ok "C".
Proof. eexists. split; [reflexivity|]. repeat split. Qed.

(** C62 is false in general: K recorded, degrees C written *)
Theorem C62_stale_units_refuted : exists h1 h2 user1 user2,
  construct (initial_heap []) [] (Some (user1, [("temp", RUser "temp")])) = Ok h1 /\
  construct h1 [] (Some (user2, [("temp", RUser "temp")])) = Ok h2 /\
  recorded_units h2 "temp" = Ok "K" /\ applied_units h2 "temp" = Ok "C".
Proof. exact stale_units. Qed.
Print Assumptions C62_stale_units_refuted.

(** C63: every conversion but one *)
Theorem C63_conversions_partial : forall k u c d ts x, converter_for k u = Ok c -> dict_get default_units k = Some d ->
  (k, u) <> ("air_pressure", "hPa") -> (0 < ts)%Z ->
  exists y, c (Some x) ts = Some y /\ si u (IZR ts) y = si d (IZR ts) x.
Proof. exact conversions_right. Qed.
Print Assumptions C63_conversions_partial.

Example C63_case : (si "mm h-1" 30 4 = si "mm timestep-1" 30 2 /\ si "K" 60 273.15 = si "C" 60 0 /\ si "%" 60 40 = si "fraction" 60 0.4)%R.
Proof. unfold si. cbn [String.eqb Ascii.eqb Bool.eqb]. repeat split; lra. Qed.

(** C63 is false for air pressure in hPa (ten times too large) ... *)
Theorem C63_air_pressure_hPa_refuted : exists c y, converter_for "air_pressure" "hPa" = Ok c /\
  dict_get default_units "air_pressure" = Some "kPa" /\
  c (Some 100%R) 60%Z = Some y /\ si "hPa" 60 y = (10 * si "kPa" 60 100)%R.
Proof. exact hPa_wrong. Qed.
Print Assumptions C63_air_pressure_hPa_refuted.

(** ... and sub-daily vapor pressure is not in the unit the table gives. *)
Theorem C63_vapor_pressure_refuted : exists vpd tmp tt out,
  vpd = [Some 1000; Some 1000]%R /\ Disagg.vapor_pressure vpd tmp tt 1 60 = Ok out /\ out = [Some 1%R] /\
  dict_get default_units "vapor_pressure" = Some "Pa".
Proof. exact vapor_pressure_kPa. Qed.
Print Assumptions C63_vapor_pressure_refuted.

(** C64 *)
Theorem C64_depth : forall u ts (l : list fl) c, converter_for "prec" u = Ok c -> (0 < ts)%Z ->
  fsum (map (option_map (depth u (IZR ts))) (map (fun x => c x ts) l)) = fsum l.
Proof. exact depth_invariant. Qed.
Print Assumptions C64_depth.

Example C64_case : (exists c, converter_for "prec" "mm h-1" = Ok c) /\ (exists c, converter_for "prec" "mm s-1" = Ok c) /\
  (exists c, converter_for "prec" "mm timestep-1" = Ok c) /\ (depth "mm h-1" 30 4 = depth "mm timestep-1" 30 2)%R.
Proof.
  split; [eexists; reflexivity|]. split; [eexists; reflexivity|]. split; [eexists; reflexivity|].
  unfold depth. cbn [String.eqb Ascii.eqb Bool.eqb]. lra.
Qed.

(** C65: spans that are a multiple of the step *)
Theorem C65_even_axis_partial : forall a b s, (0 < s)%Z -> (a <= b)%Z -> ((b - a) mod s = 0)%Z ->
  exists l l', date_range_other a b s = Ok l /\ pd_date_range a b s = Ok l' /\
    List.length l = Z.to_nat ((b - a) / s + 1)%Z /\ Forall2 (fun x y => x == inject_Z y)%Q l l' /\ evenly l a s /\ last l' a = b.
Proof. exact even_axis. Qed.
Print Assumptions C65_even_axis_partial.

Example C65_case : exists l, date_range_other 0 1380 60 = Ok l /\ List.length l = 24%nat /\
  exists x, nth_error l 23 = Some x /\ (x == 1380)%Q.
Proof.
  eexists. split; [reflexivity|]. split; [reflexivity|]. eexists. split; [reflexivity|]. vm_compute. reflexivity.
Qed.

(** C65 is false for all other spans longer than a step. *)
Theorem C65_uneven_axis_refuted : forall a b s, (0 < s)%Z -> (a + s < b)%Z -> ((b - a) mod s <> 0)%Z ->
  exists l, date_range_other a b s = Ok l /\ ~ evenly l a s.
Proof. exact uneven_axis. Qed.
Print Assumptions C65_uneven_axis_refuted.

(** C65: frequency strings *)
Theorem C65_frequencies : forall n u s, In (u, s) [(Minutes, "T"); (Hours, "H"); (Days, "D")] ->
  decode_freq (append (nat_str n) s) = Ok (Z.of_nat n, u) /\ decode_freq s = Ok (1%Z, u).
Proof. exact freq_roundtrip. Qed.
Print Assumptions C65_frequencies.

Example C65_freq_case : freq_minutes 180 = "180T" /\ decode_freq "180T" = Ok (180%Z, Minutes).
Proof. split; reflexivity. Qed.

(** C70: names given by the configuration itself, and all names in a fresh
    process *)
Theorem C70_own_names_partial : forall h names renames h' refs ns k n, read_ini_out_vars h names renames = Ok (h', refs) ->
  out_names h' refs = Ok ns -> In (k, n) renames -> dict_get ns k = Some (wanted_name renames k).
Proof. exact renamed_names. Qed.
Print Assumptions C70_own_names_partial.

Theorem C70_fresh_process_partial : forall defaults names renames h' refs ns k,
  read_ini_out_vars (initial_heap defaults) names renames = Ok (h', refs) ->
  out_names h' refs = Ok ns -> In k (names ++ map fst renames) -> In k (keys default_units) ->
  dict_get ns k = Some (wanted_name renames k).
Proof. exact fresh_names. Qed.
Print Assumptions C70_fresh_process_partial.

Example C70_case : exists h refs, read_ini_out_vars (initial_heap []) ["prec"] [("temp", "tas")] = Ok (h, refs) /\
  out_names h refs = Ok [("prec", "prec"); ("temp", "tas")].
Proof. eexists. eexists. split; reflexivity. Qed.

(** C70 is false after another configuration. *)
Theorem C70_rename_leaks_refuted : exists h1 r1 h2 r2 ns,
  read_ini_out_vars (initial_heap []) [] [("temp", "tas")] = Ok (h1, r1) /\
  read_ini_out_vars h1 ["temp"] [] = Ok (h2, r2) /\ out_names h2 r2 = Ok ns /\
  dict_get ns "temp" = Some "tas" /\ wanted_name [] "temp" = "temp".
Proof. exact rename_leaks. Qed.
Print Assumptions C70_rename_leaks_refuted.
