(** C53-C60: forcing files and configuration files. *)
From Coq Require Import ZArith Reals String Ascii List Bool Arith Lia Lra Permutation.
From Verif Require Import Model.Py Model.Fl Model.Config Model.Reader Spec.ReaderSpec
  Proofs.ReaderProofs Proofs.ConfigProofs Proofs.InputExamples Proofs.NameProofs.
Import ListNotations.
Local Open Scope string_scope.
Local Open Scope list_scope.

(** C53: whatever is returned is the right word for day and variable, for
    any number of variables. *)
Theorem C53_decoding : forall vars bytes n cols, vars <> [] -> read_binary bytes vars n = Ok cols ->
  List.length cols = List.length vars /\ (2 * (List.length vars * n) <= List.length bytes)%nat /\
  forall v d bv, nth_error vars v = Some bv -> (d < n)%nat ->
    exists c, nth_error cols v = Some c /\ List.length c = n /\
              nth_error c d = Some (word_value bytes bv (d * List.length vars + v)).
Proof. exact read_binary_sound. Qed.
Print Assumptions C53_decoding.

(** C53: four variables, or fewer in a file of exactly the record length,
    are read. *)
Theorem C53_readable_partial : forall vars bytes n, vars <> [] -> (forall v, In v vars -> bv_scale v <> 0%R) ->
  (List.length vars = 4%nat /\ (2 * (4 * n) <= List.length bytes)%nat) \/
  ((List.length vars <= 4)%nat /\ List.length bytes = (2 * (List.length vars * n))%nat) ->
  exists cols, read_binary bytes vars n = Ok cols.
Proof. exact read_binary_total. Qed.
Print Assumptions C53_readable_partial.

(** prec (unsigned, scale 40), t_max, t_min, wind (signed, scale 100): one
    day with 2.5 mm, 10.5, -0.5 degrees, 3 m/s *)
Example C53_case : read_binary [100; 0; 26; 4; 206; 255; 44; 1]%Z vic_vars 1 = Ok [[100 / 40]; [1050 / 100]; [-50 / 100]; [300 / 100]]%R.
Proof. exact vic_day. Qed.

(** C53 is false for other numbers of variables: with five no file is ever
    read, ... *)
Theorem C53_five_variables_refuted : forall vars bytes n, (4 < List.length vars)%nat -> (0 < n)%nat ->
  exists e, read_binary bytes vars n = Err e.
Proof. exact read_binary_many. Qed.
Print Assumptions C53_five_variables_refuted.

(** ... with fewer than four, files with more days than needed are not. *)
Theorem C53_three_variables_refuted : forall vars bytes n, (0 < List.length vars < 4)%nat -> (0 < n)%nat ->
  (2 * (4 * n) <= List.length bytes)%nat -> exists e, read_binary bytes vars n = Err e.
Proof. exact read_binary_few. Qed.
Print Assumptions C53_three_variables_refuted.

(** C54 *)
Theorem C54_truncated_rejected : forall bytes vars n, vars <> [] ->
  (List.length bytes < 2 * (List.length vars * n))%nat -> exists e, read_binary bytes vars n = Err e.
Proof. exact truncated_fails. Qed.
Print Assumptions C54_truncated_rejected.

(** C54: through [process_vic] the cell of a rejected file stays missing. *)
Theorem C54_rejected_file_missing : forall V pf dom (read : string -> res V) jobs g job i j e,
  distinct_targets pf dom jobs -> process_vic pf dom read jobs = Ok g ->
  In job jobs -> target pf dom job i j -> read job = Err e -> g i j = None.
Proof. exact @failed_file. Qed.
Print Assumptions C54_rejected_file_missing.

(** C54: reading back what was written *)
Theorem C54_write_read : forall zs vars n, vars <> [] -> (List.length vars <= 4)%nat ->
  (forall v, In v vars -> bv_scale v <> 0%R) -> List.length zs = (List.length vars * n)%nat ->
  (forall v d bv z, nth_error vars v = Some bv -> nth_error zs (d * List.length vars + v) = Some z -> representable bv z) ->
  exists cols, read_binary (flat_map bytes_of zs) vars n = Ok cols /\
    forall v d bv z, nth_error vars v = Some bv -> (d < n)%nat ->
      nth_error zs (d * List.length vars + v) = Some z ->
      exists c, nth_error cols v = Some c /\ List.length c = n /\ nth_error c d = Some (IZR z / bv_scale bv)%R.
Proof. exact write_read. Qed.
Print Assumptions C54_write_read.

Example C54_case : flat_map bytes_of [100; 1050; -50; 300]%Z = [100; 0; 26; 4; 206; 255; 44; 1]%Z /\
  read_binary [100; 0; 26; 4; 206; 255]%Z vic_vars 1 = Err ValueError.
Proof. exact vic_truncated. Qed.

(** C55 *)
Theorem C55_order_irrelevant : forall V pf dom (read : string -> res V) jobs jobs' g, Permutation jobs jobs' ->
  distinct_targets pf dom jobs -> process_vic pf dom read jobs = Ok g ->
  exists g', process_vic pf dom read jobs' = Ok g' /\ forall i j, g' i j = g i j.
Proof. exact @order_irrelevant. Qed.
Print Assumptions C55_order_irrelevant.

(** C55: files that designate no active cell of the domain are ignored. *)
Theorem C55_other_files_ignored : forall V pf dom (read : string -> res V) a job b, (forall i j, ~ target pf dom job i j) ->
  process_vic pf dom read (a ++ job :: b) = process_vic pf dom read (a ++ b).
Proof. exact @irrelevant_file. Qed.
Print Assumptions C55_other_files_ignored.

(** C55: and every cell gets the data of its own file. *)
Theorem C55_own_file : forall V pf dom (read : string -> res V) jobs g job i j cols,
  distinct_targets pf dom jobs -> process_vic pf dom read jobs = Ok g ->
  In job jobs -> target pf dom job i j -> read job = Ok cols -> g i j = Some cols.
Proof. exact @own_file. Qed.
Print Assumptions C55_own_file.

(** C55: a file is for the latitude and longitude in its name. *)
Theorem C55_name : forall pf dir pre lat lon,
  lacks "/" pre -> lacks "/" lat -> lacks "/" lon -> lacks "_" lat -> lacks "_" lon ->
  parse_job pf (dir ++ "/" ++ pre ++ "_" ++ lat ++ "_" ++ lon)%string =
  match pf lat, pf lon with Some a, Some b => Ok (a, b) | _, _ => Err ValueError end.
Proof. exact file_position. Qed.
Print Assumptions C55_name.

Example C55_case : distinct_targets demo_float demo_dom ["/data/f_1_2"; "/data/readme"; "/data/f_3_2"] /\
  target demo_float demo_dom "/data/f_3_2" 1 0 /\ (forall i j, ~ target demo_float demo_dom "/data/readme" i j).
Proof. exact demo_jobs. Qed.

(** C56 *)
Theorem C56_mapping : forall (V : Type) (ds : dict V) (m : dict string), NoDup (keys m) -> NoDup (values m) ->
  (forall k f, In (k, f) m -> dict_mem ds f = true) ->
  exists r, select_rename ds (invert_dict m) = Ok r /\ keys r = keys m /\
    forall k, dict_get r k = match dict_get m k with Some f => dict_get ds f | None => None end.
Proof. exact @mapping_ok. Qed.
Print Assumptions C56_mapping.

Theorem C56_missing_variable : forall (V : Type) (ds : dict V) (m : dict string), NoDup (values m) ->
  (exists k f, In (k, f) m /\ dict_mem ds f = false) -> select_rename ds (invert_dict m) = Err KeyError.
Proof. exact @mapping_missing. Qed.
Print Assumptions C56_missing_variable.

(** C56 for data handed over in memory *)
Theorem C56_mapping_in_memory : forall (V : Type) (ds : dict V) (m : dict string), NoDup (keys m) -> NoDup (values m) ->
  forall r, read_data_vars ds (invert_dict m) = Ok r ->
  keys r = keys m /\
  forall k f, In (k, f) m -> exists v, dict_get ds f = Some v /\ dict_get r k = Some v.
Proof. exact @mapping_data. Qed.
Print Assumptions C56_mapping_in_memory.

Example C56_case :
  select_rename [("Tmax", 1); ("Tmin", 2); ("pr", 3); ("other", 4)] (invert_dict [("t_min", "Tmin"); ("prec", "pr")])
  = Ok [("t_min", 2); ("prec", 3)].
Proof. reflexivity. Qed.

(** C57: exactly the files whose first non-comment line reads MetSim: *)
Theorem C57_first_line_decides_partial : forall lines,
  (check_config_type lines = "yaml" <->
   exists pre l post, lines = pre ++ l :: post /\ Forall comment_line pre /\ ~ comment_line l /\ line_text l = "MetSim:") /\
  (check_config_type lines = "yaml" \/ check_config_type lines = "ini").
Proof. exact config_type. Qed.
Print Assumptions C57_first_line_decides_partial.

Example C57_case : check_config_type ["# config"; "  # more"; "MetSim:  # section"] = "yaml" /\
  check_config_type ["# config"; "[MetSim]"] = "ini" /\ check_config_type ["# only"] = "ini".
Proof. repeat split. Qed.

(** C57 is false with a leading blank line. *)
Theorem C57_blank_line_refuted : exists b l, blank_line b /\
  check_config_type [l] = "yaml" /\ check_config_type [b; l] = "ini".
Proof. exact blank_line_breaks_yaml. Qed.
Print Assumptions C57_blank_line_refuted.

(** C58 *)
Theorem C58_booleans : forall conf,
  (forall k, In k ["utc_offset"; "period_ending"] ->
     exists b, dict_get (ini_bools conf) k = Some (PBool b) /\
       (b = true <-> exists v, dict_get conf k = Some v /\ lower (strip v) = "true")) /\
  (forall k, ~ In k ["utc_offset"; "period_ending"] ->
     dict_get (ini_bools conf) k = option_map PStr (dict_get conf k)).
Proof. exact ini_booleans. Qed.
Print Assumptions C58_booleans.

Example C58_case : ini_bools [("utc_offset", " True "); ("method", "mtclim")] =
  [("utc_offset", PBool true); ("method", PStr "mtclim"); ("period_ending", PBool false)].
Proof. reflexivity. Qed.

(** C59: all times of day before the last second *)
Theorem C59_own_day_partial : forall d s, (0 <= s < 86399 * 1000000000)%Z ->
  normalize_time (d * ns_per_day + s) = (d * ns_per_day)%Z.
Proof. exact own_day. Qed.
Print Assumptions C59_own_day_partial.

Example C59_case : normalize_time (3 * ns_per_day + 43200 * 1000000000) = (3 * ns_per_day)%Z.
Proof. reflexivity. Qed.

(** C59 is false after that (and at 23:59:59 of every other day). *)
Theorem C59_last_second_refuted : forall d s,
  (86399 * 1000000000 < s < ns_per_day \/ (s = 86399 * 1000000000 /\ Z.odd d = true))%Z ->
  normalize_time (d * ns_per_day + s) = ((d + 1) * ns_per_day)%Z.
Proof. exact last_second_next_day. Qed.
Print Assumptions C59_last_second_refuted.

(** C60 *)
Theorem C60_constants : forall (P : Type) (met : dict (P -> fl)) (consts : dict R), NoDup (keys consts) ->
  (forall k c, In (k, c) consts -> exists f, dict_get (apply_constants met consts) k = Some f /\ forall p, f p = Some c) /\
  (forall k, ~ In k (keys consts) -> dict_get (apply_constants met consts) k = dict_get met k).
Proof. exact @constants_win. Qed.
Print Assumptions C60_constants.

Example C60_case : exists f,
  dict_get (apply_constants [("wind", fun _ : nat => @None R); ("prec", fun t => Some (INR t))] [("wind", 2%R)]) "wind" = Some f /\
  f 5%nat = Some 2%R.
Proof. eexists. split; reflexivity. Qed.
