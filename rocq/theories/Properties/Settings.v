(** C95-C98: settings read from configuration files. *)
From Coq Require Import ZArith String Ascii List Bool.
From Verif Require Import Model.Py Model.Units Model.Config Model.Globals Model.Settings
  Spec.SettingsSpec Spec.GlobalsSpec Proofs.ReadSettings Proofs.SettingsExamples.
Import ListNotations.
Local Open Scope string_scope.
Local Open Scope list_scope.

(** C95: in a YAML file *)
Theorem C95_yaml_settings : forall list_dir abspath h doc o conf m,
  has_section doc "MetSim" m -> read_yaml list_dir abspath h doc o = Ok conf ->
  dict_get conf "scheduler" = Some (CText (cl_scheduler o)) /\
  dict_get conf "num_workers" = Some (CInt (cl_workers o)) /\
  dict_get conf "verbose" = Some (CInt (if cl_verbose o then 10 else 20)) /\
  dict_get conf "calendar" = calendar_of (dict_get m "calendar") /\
  (exists d, dict_get m "out_dir" = Some (CText d) /\ dict_get conf "out_dir" = Some (CText (abspath d))) /\
  (forall k, ~ In k made_settings -> dict_get conf k = given (dict_get m k)).
Proof. exact yaml_settings. Qed.
Print Assumptions C95_yaml_settings.

(** C95: in an INI file *)
Theorem C95_ini_settings : forall list_dir abspath parse_list h doc o conf hr m,
  dict_get doc "MetSim" = Some m -> NoDup (keys m) ->
  read_ini list_dir abspath parse_list h doc o = Ok (conf, hr) ->
  dict_get conf "scheduler" = Some (CText (cl_scheduler o)) /\
  dict_get conf "num_workers" = Some (CInt (cl_workers o)) /\
  dict_get conf "verbose" = Some (CInt (if cl_verbose o then 10 else 20)) /\
  dict_get conf "calendar" = Some (CText (match dict_get m "calendar" with Some c => c | None => "standard" end)) /\
  dict_get conf "prec_type" = Some (CText (match dict_get m "prec_type" with Some c => c | None => "uniform" end)) /\
  (forall k, In k ["utc_offset"; "period_ending"] -> exists b, dict_get conf k = Some (CBool b) /\
     (b = true <-> exists v, dict_get m k = Some v /\ lower (strip v) = "true")) /\
  (exists d, dict_get m "out_dir" = Some d /\ dict_get conf "out_dir" = Some (CText (abspath d))) /\
  (forall k, ~ In k made_settings -> ~ In k ["prec_type"; "utc_offset"; "period_ending"] ->
     dict_get conf k = option_map CText (dict_get m k)).
Proof. exact ini_settings. Qed.
Print Assumptions C95_ini_settings.

(** C95: the forcing is a file, or the files of a directory *)
Theorem C95_yaml_forcing : forall list_dir abspath h doc o conf m f,
  has_section doc "MetSim" m -> read_yaml list_dir abspath h doc o = Ok conf ->
  dict_get m "forcing" = Some (CText f) -> forcing_setting list_dir f (dict_get conf "forcing").
Proof. exact yaml_forcing. Qed.
Print Assumptions C95_yaml_forcing.

Theorem C95_ini_forcing : forall list_dir abspath parse_list h doc o conf hr m,
  dict_get doc "MetSim" = Some m -> NoDup (keys m) ->
  read_ini list_dir abspath parse_list h doc o = Ok (conf, hr) ->
  exists f, dict_get m "forcing" = Some f /\ forcing_setting list_dir f (dict_get conf "forcing").
Proof. exact ini_forcing. Qed.
Print Assumptions C95_ini_forcing.

Example C95_case : exists c1 hr c2,
  read_ini demo_dir demo_abs demo_list (initial_heap []) (demo_ini "netcdf" "f.nc") demo_cli = Ok (c1, hr) /\
  read_yaml demo_dir demo_abs (initial_heap []) (demo_yaml "netcdf" "f.nc") demo_cli = Ok c2 /\
  dict_get c1 "time_step" = Some (CText "60") /\ dict_get c2 "time_step" = Some (CText "60") /\
  dict_get c1 "scheduler" = Some (CText "distributed") /\ dict_get c2 "scheduler" = Some (CText "distributed") /\
  dict_get c1 "out_dir" = Some (CText "/home/results") /\ dict_get c2 "out_dir" = Some (CText "/home/results") /\
  dict_get c1 "utc_offset" = Some (CBool true) /\
  dict_get c2 "forcing_vars" = Some (CMap [("Prec", CText "prec"); ("Tmin", CText "t_min")]) /\
  dict_get c2 "out_vars" = Some (CMap [("temp", CMap [("out_name", CText "tas"); ("units", CText "C")])]).
Proof. exact demo_reads. Qed.

Example C95_directory_case : exists c, read_yaml demo_dir demo_abs (initial_heap []) (demo_yaml "ascii" "/data/vic") demo_cli = Ok c /\
  dict_get c "forcing" = Some (CList [CText "/data/vic/data_1_2"; CText "/data/vic/data_3_4"]).
Proof. exact demo_directory. Qed.

(** C96: the tables of variables are turned round ... *)
Theorem C96_yaml_tables : forall list_dir abspath h doc o conf m0 t m,
  has_section doc "MetSim" m0 -> read_yaml list_dir abspath h doc o = Ok conf ->
  In t ["forcing_vars"; "domain_vars"; "state_vars"] -> dict_get doc t = Some (CMap (texts m)) ->
  exists r, dict_get conf t = Some (CMap r) /\ by_file_name m r.
Proof. exact yaml_tables. Qed.
Print Assumptions C96_yaml_tables.

(** ... except the forcing variables of an INI file with binary forcing; *)
Theorem C96_ini_tables : forall list_dir abspath parse_list h doc o conf hr m0 t m,
  dict_get doc "MetSim" = Some m0 -> NoDup (keys m0) ->
  read_ini list_dir abspath parse_list h doc o = Ok (conf, hr) ->
  In t ["forcing_vars"; "domain_vars"; "state_vars"] -> dict_get doc t = Some m ->
  exists r, dict_get conf t = Some (CMap r) /\
    (if (String.eqb t "forcing_vars" && match dict_get m0 "forcing_fmt" with Some f => String.eqb f "binary" | None => false end)%bool
     then r = texts m else by_file_name m r).
Proof. exact ini_tables. Qed.
Print Assumptions C96_ini_tables.

(** chunks and constants are kept; *)
Theorem C96_yaml_plain : forall list_dir abspath h doc o conf m0 t m,
  has_section doc "MetSim" m0 -> read_yaml list_dir abspath h doc o = Ok conf ->
  In t ["chunks"; "constant_vars"] -> dict_get doc t = Some (CMap m) -> dict_get conf t = Some (CMap m).
Proof. exact yaml_plain. Qed.
Print Assumptions C96_yaml_plain.

Theorem C96_ini_plain : forall list_dir abspath parse_list h doc o conf hr m0 t m,
  dict_get doc "MetSim" = Some m0 -> NoDup (keys m0) ->
  read_ini list_dir abspath parse_list h doc o = Ok (conf, hr) ->
  In t ["chunks"; "constant_vars"] -> dict_get doc t = Some m -> dict_get conf t = Some (CMap (texts m)).
Proof. exact ini_plain. Qed.
Print Assumptions C96_ini_plain.

(** and output variables of a YAML file get the default units unless they
    have some, whatever was done before. *)
Theorem C96_yaml_outputs : forall list_dir abspath defaults h doc o conf m0 ovs, history defaults h ->
  has_section doc "MetSim" m0 -> read_yaml list_dir abspath h doc o = Ok conf -> dict_get doc "out_vars" = Some (CMap ovs) ->
  exists r, dict_get conf "out_vars" = Some (CMap r) /\ Forall2 units_added ovs r.
Proof. exact yaml_outputs. Qed.
Print Assumptions C96_yaml_outputs.

(** C96: a section may be given as a list of pairs, or as an empty text when
    it has no entries. *)
Theorem C96_yaml_forms : forall list_dir abspath h doc doc' o t m, dict_get doc t = Some (CMap m) -> NoDup (keys m) ->
  dict_get doc' t = Some (CList (map (fun kv => CList [CText (fst kv); snd kv]) m)) \/ (m = [] /\ dict_get doc' t = Some (CText "")) ->
  (forall n, n <> t -> dict_get doc' n = dict_get doc n) ->
  read_yaml list_dir abspath h doc' o = read_yaml list_dir abspath h doc o.
Proof. exact forms_read. Qed.
Print Assumptions C96_yaml_forms.

(** C95: of pairs with the same name the last counts. *)
Theorem C95_yaml_pairs : forall list_dir abspath h doc o conf l,
  dict_get doc "MetSim" = Some (CList (map (fun kv => CList [CText (fst kv); snd kv]) l)) ->
  read_yaml list_dir abspath h doc o = Ok conf ->
  forall k, ~ In k made_settings -> dict_get conf k = given (dict_get (rev l) k).
Proof. exact pair_settings. Qed.
Print Assumptions C95_yaml_pairs.

(** C96 is false when two variables come from the same variable of a file:
    the first is forgotten. *)
Theorem C96_shared_variable_refuted : exists doc c r,
  dict_get doc "forcing_vars" = Some (CMap (texts [("t_min", "tas"); ("t_max", "tas")])) /\
  read_yaml demo_dir demo_abs (initial_heap []) doc demo_cli = Ok c /\
  dict_get c "forcing_vars" = Some (CMap r) /\ ~ exists f, dict_get r f = Some (CText "t_min").
Proof. exact shared_variable. Qed.
Print Assumptions C96_shared_variable_refuted.

(** C97 *)
Theorem C97_yaml_accepted : forall list_dir abspath defaults h doc o, history defaults h -> plain doc ->
  (forall m, dict_get doc "MetSim" = Some (CMap m) -> NoDup (keys m)) ->
  (complete_yaml doc -> exists conf, read_yaml list_dir abspath h doc o = Ok conf) /\
  (~ complete_yaml doc -> read_yaml list_dir abspath h doc o = Err KeyError).
Proof. exact yaml_accepted. Qed.
Print Assumptions C97_yaml_accepted.

Theorem C97_ini_accepted : forall list_dir abspath parse_list defaults h doc o, history defaults h ->
  (forall m, dict_get doc "MetSim" = Some m -> NoDup (keys m)) ->
  ((exists r, read_ini list_dir abspath parse_list h doc o = Ok r) <-> complete_ini parse_list doc).
Proof. exact ini_accepted. Qed.
Print Assumptions C97_ini_accepted.

Example C97_case : plain (demo_yaml "netcdf" "f.nc") /\ complete_yaml (demo_yaml "netcdf" "f.nc") /\
  complete_ini demo_list (demo_ini "netcdf" "f.nc") /\
  read_yaml demo_dir demo_abs (initial_heap []) (removelast (demo_yaml "netcdf" "f.nc")) demo_cli = Err KeyError.
Proof. exact demo_complete. Qed.

(** C97 is false for the defaults: an INI file that names no outputs is
    accepted and nothing is written, not the default variables ... *)
Theorem C97_no_outputs_refuted : exists doc c h refs h',
  (forall m, dict_get doc "MetSim" = Some m -> dict_get m "out_vars" = None) /\ dict_get doc "out_vars" = None /\
  read_ini demo_dir demo_abs demo_list (initial_heap []) doc demo_cli = Ok (c, (h, refs)) /\
  construct h [] (Some ([], refs)) = Ok h' /\ h_out_vars h' = [].
Proof. exact no_outputs. Qed.
Print Assumptions C97_no_outputs_refuted.

(** ... and a file whose forcing is an empty directory has none. *)
Theorem C97_empty_directory_refuted : exists c,
  read_yaml demo_dir demo_abs (initial_heap []) (demo_yaml "ascii" "/data/none/") demo_cli = Ok c /\ dict_get c "forcing" = None.
Proof. exact empty_directory. Qed.
Print Assumptions C97_empty_directory_refuted.

(** C98: for other forcing than binary, and settings other than these four *)
Theorem C98_formats_agree_partial : forall list_dir abspath parse_list h h2 doc ydoc o c1 hr c2 m,
  same_file doc ydoc -> dict_get doc "MetSim" = Some m -> NoDup (keys m) ->
  dict_get m "forcing_fmt" <> Some "binary" ->
  read_ini list_dir abspath parse_list h doc o = Ok (c1, hr) -> read_yaml list_dir abspath h2 ydoc o = Ok c2 ->
  forall k, ~ In k ["out_vars"; "prec_type"; "utc_offset"; "period_ending"] -> dict_get c1 k = dict_get c2 k.
Proof. exact same_settings. Qed.
Print Assumptions C98_formats_agree_partial.

Example C98_case : same_file (demo_ini "netcdf" "f.nc") (demo_yaml "netcdf" "f.nc").
Proof. exact (demo_same "netcdf" "f.nc"). Qed.

(** C98 is false for binary forcing: two of the four variables remain. *)
Theorem C98_binary_refuted : exists doc ydoc c1 hr c2 t,
  same_file doc ydoc /\ dict_get doc "forcing_vars" = Some vic_table /\
  read_ini demo_dir demo_abs demo_list (initial_heap []) doc demo_cli = Ok (c1, hr) /\
  read_yaml demo_dir demo_abs (initial_heap []) ydoc demo_cli = Ok c2 /\
  dict_get c1 "forcing_vars" = Some (CMap (texts vic_table)) /\
  dict_get c2 "forcing_vars" = Some (CMap t) /\ List.length t = 2%nat /\ dict_get t "t_min" = None.
Proof. exact binary_formats. Qed.
Print Assumptions C98_binary_refuted.
