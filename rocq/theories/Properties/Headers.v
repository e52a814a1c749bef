(** C89-C92: the description part of the output files. *)
From Coq Require Import ZArith QArith String Ascii List Bool.
From Verif Require Import Model.Py Model.Calendar Model.Datetime Model.Output Model.Header Spec.HeaderSpec
  Proofs.HeaderProofs.
Import ListNotations.
Local Open Scope string_scope.
Local Open Scope list_scope.

(** C89: the numbers of the time axis denote the stamps of the records, in
    the calendar and the unit the file names, and fit their type. *)
Theorem C89_times_encoded : forall py_str p i f, snd (write_header py_str p i) = Ok f ->
  exists v nums, dict_get (nc_vars f) "time" = Some v /\ nv_type v = "i4" /\ nv_dims v = ["time"] /\
    nv_values v = map inject_Z nums /\
    dict_get (nv_attrs v) "calendar" = Some (AText (hi_calendar_name i)) /\
    dict_get (nv_attrs v) "units" = Some (AText "minutes since 2000-01-01 00:00:00.0") /\
    Forall2 (fun t n => denotes (hi_calendar i) n (civil_from_days (t / 1440)) (t mod 1440) /\
                        (pandas_stamp t -> int32 n)) (hi_times i) nums.
Proof. exact times_encoded. Qed.
Print Assumptions C89_times_encoded.

(** C89: later stamps get larger numbers. *)
Theorem C89_times_ordered : forall c t t' n n',
  date2num c t = Ok n -> date2num c t' = Ok n' -> (t < t')%Z -> (n < n')%Z.
Proof. exact encode_order. Qed.
Print Assumptions C89_times_ordered.

(** C89: only the dates a calendar lacks are refused. *)
Theorem C89_times_refused : forall t,
  (date2num (Fixed NoLeap) t = Err ValueError <->
     c_month (civil_from_days (t / 1440)) = 2%Z /\ c_day (civil_from_days (t / 1440)) = 29%Z) /\
  (date2num (Fixed Days360) t = Err ValueError <-> c_day (civil_from_days (t / 1440)) = 31%Z).
Proof. exact encode_none. Qed.
Print Assumptions C89_times_refused.

Example C89_case :
  date2num Standard 15864540 = Ok 86460%Z /\ date2num (Fixed NoLeap) 15864540 = Ok 85020%Z /\ date2num (Fixed Days360) 15864540 = Ok 86460%Z /\
  date2num Standard 15776640 = Ok (-1440)%Z /\ date2num (Fixed NoLeap) 15776640 = Ok (-1440)%Z.
Proof. exact demo_times. Qed.

(** C90: a file has one variable for each output, the time and each
    dimension of the domain, under different names, described as its own. *)
Theorem C90_file_structure : forall py_str p i f, snd (write_header py_str p i) = Ok f ->
  nc_dims f = ("time", None) :: map (fun d => (fst d, Some (snd d))) (hi_dims i) /\
  keys (nc_vars f) = all_names i /\ NoDup (all_names i) /\
  (forall k n, In (k, n) (hi_outputs i) -> exists v, dict_get (nc_vars f) n = Some v /\
     nv_type v = hi_precision i /\ nv_dims v = "time" :: keys (hi_dims i) /\
     nv_chunks v = Z.of_nat (List.length (hi_times i)) :: storage_chunks (hi_chunks i) (hi_dims i) /\
     (NoDup (keys (hi_var_attrs i k)) -> forall a, dict_get (nv_attrs v) a = dict_get (hi_var_attrs i k) a)) /\
  (forall d, In d (keys (hi_dims i)) -> exists v, dict_get (nc_vars f) d = Some v /\
     nv_type v = hi_coord_type i d /\ nv_dims v = [d] /\ nv_values v = hi_coords i d).
Proof. exact header_structure. Qed.
Print Assumptions C90_file_structure.

(** C90: whatever happened in the process before, a header is written
    exactly when nothing in the list [header_ok] is missing. *)
Theorem C90_written_iff : forall py_str history defaults, NoDup (keys defaults) ->
  forall p i, reached py_str history defaults p ->
  ((exists f, snd (write_header py_str p i) = Ok f) <-> header_ok py_str p i).
Proof. exact header_iff. Qed.
Print Assumptions C90_written_iff.

Example C90_case : reached demo_str "h" demo_defaults demo_process /\
  match snd (write_header demo_str demo_process demo_in) with
  | Ok f => keys (nc_vars f) = ["tas"; "pr"; "time"; "lat"; "lon"] /\
      option_map nv_values (dict_get (nc_vars f) "time") = Some [0; 60]%Q /\
      option_map nv_values (dict_get (nc_vars f) "lat") = Some [10; 20]%Q /\
      option_map nv_attrs (dict_get (nc_vars f) "tas") = Some [("units", AText "C"); ("missing_value", ANan)] /\
      dict_get (nc_attrs f) "iter_dims" = Some (AText "lat, lon") /\
      dict_get (nc_attrs f) "out_prefix" = Some (AText "its") /\
      dict_get (nc_attrs f) "utc_offset" = Some (AText "False") /\
      dict_get (nc_attrs f) "time_step" = Some (AInt 60) /\
      dict_get (nc_attrs f) "title" = Some (AText "Output from MetSim") /\
      dict_get (nc_attrs f) "verbose" = None
  | Err _ => False end.
Proof. exact demo_case. Qed.

Example C90_rejected_case :
  snd (write_header demo_str demo_process (demo_header Standard "standard" [0%Z] [("temp", "lat")])) = Err RuntimeError /\
  snd (write_header demo_str demo_process (demo_header Standard "standard" [0%Z] [("temp", "x"); ("prec", "x")])) = Err RuntimeError /\
  snd (write_header demo_str (mk_process demo_defaults (base_global "h") None) demo_in) = Err KeyError /\
  snd (write_header demo_str (fst (new_object demo_process [("x", PvBool true)] (Ok []))) demo_in) = Err TypeError /\
  snd (write_header demo_str demo_process (demo_header (Fixed NoLeap) "noleap" [15863040%Z] [])) = Err ValueError.
Proof. exact demo_rejected. Qed.

(** C91: the global attributes of a file are the options in force when it
    was made, and otherwise what every file says; nothing is left over
    from earlier objects and headers. *)
Theorem C91_options_recorded : forall py_str history defaults, NoDup (keys defaults) ->
  forall p i f, reached py_str history defaults p -> snd (write_header py_str p i) = Ok f ->
  forall k, (forall v, dict_get (pc_params p) k = Some v -> ~ not_recorded k ->
               exists a, shown py_str k v = Some a /\ dict_get (nc_attrs f) k = Some a) /\
            (not_recorded k \/ dict_get (pc_params p) k = None ->
               dict_get (nc_attrs f) k = own_attribute history k).
Proof. exact header_attributes. Qed.
Print Assumptions C91_options_recorded.

Example C91_case : reached demo_str "h" demo_defaults demo_process /\
  match snd (write_header demo_str demo_process demo_in) with
  | Ok f => dict_get (nc_attrs f) "iter_dims" = Some (AText "lat, lon") /\ dict_get (nc_attrs f) "verbose" = None
  | Err _ => False end.
Proof. exact demo_recorded. Qed.

(** C92: after a constructor that succeeded, the time axis is labelled UTC
    or local as the options say. *)
Theorem C92_time_label_partial : forall py_str p given load q q' i f,
  new_object p given load = (q, Ok tt) -> headers_only py_str q q' -> snd (write_header py_str q' i) = Ok f ->
  exists u v, dict_get (pc_params q') "utc_offset" = Some u /\ dict_get (nc_vars f) "time" = Some v /\
    (~ counts_false u -> dict_get (nv_attrs v) "standard_name" = Some (AText "utc_time") /\
                         dict_get (nv_attrs v) "long_name" = Some (AText "UTC time")) /\
    (counts_false u -> dict_get (nv_attrs v) "standard_name" = Some (AText "local_time") /\
                       dict_get (nv_attrs v) "long_name" = Some (AText "local time at grid location")).
Proof. exact label_says. Qed.
Print Assumptions C92_time_label_partial.

Example C92_case :
  match snd (write_header demo_str (fst (new_object demo_process [("utc_offset", PvBool true)] (Ok []))) demo_in) with
  | Ok f => match dict_get (nc_vars f) "time" with
            | Some v => dict_get (nv_attrs v) "standard_name" = Some (AText "utc_time") | None => False end
  | Err _ => False end.
Proof. exact demo_labelled. Qed.

(** C92 fails after a constructor that did not finish: its options are
    already in force, the label is still that of the object before it. *)
Theorem C92_time_label_refuted : exists py_str history defaults p i f u v,
  reached py_str history defaults p /\
  snd (write_header py_str p i) = Ok f /\ dict_get (pc_params p) "utc_offset" = Some u /\ ~ counts_false u /\
  dict_get (nc_vars f) "time" = Some v /\ dict_get (nv_attrs v) "standard_name" = Some (AText "local_time") /\
  dict_get (nc_attrs f) "utc_offset" = Some (AText "True").
Proof. exact (ex_intro _ demo_str (ex_intro _ "h" (ex_intro _ demo_defaults demo_mislabelled))). Qed.
Print Assumptions C92_time_label_refuted.
