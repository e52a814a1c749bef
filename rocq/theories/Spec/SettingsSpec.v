(** What a configuration file says. *)
From Coq Require Import ZArith String Ascii List Bool.
From Verif Require Import Model.Py Model.Units Model.Settings.
Import ListNotations.
Local Open Scope string_scope.
Local Open Scope list_scope.

(** an empty list counts as not given *)
Definition given (v : option cval) : option cval :=
  match v with Some (CList []) => None | x => x end.

(** section [name] of a YAML file is a mapping with distinct keys *)
Definition has_section (doc : dict cval) (name : string) (m : dict cval) : Prop :=
  dict_get doc name = Some (CMap m) /\ NoDup (keys m).

(** a mapping of texts *)
Definition texts (m : dict string) : dict cval := map (fun kv => (fst kv, CText (snd kv))) m.

(** [r] takes every name used in a file to the last entry of [m] with it *)
Definition by_file_name (m : dict string) (r : dict cval) : Prop :=
  forall f v, dict_get r f = Some v <->
    exists pre k post, m = pre ++ (k, f) :: post /\ ~ In f (values post) /\ v = CText k.

(** file [fn] of directory [dir] *)
Definition in_directory (dir fn path : string) : Prop :=
  ((exists d, dir = d ++ "/") /\ path = dir ++ fn)%string \/
  ((~ exists d, dir = d ++ "/") /\ path = dir ++ "/" ++ fn)%string.

(** settings made by the reader itself *)
Definition made_settings : list string :=
  ["forcing_vars"; "domain_vars"; "state_vars"; "out_vars"; "chunks"; "constant_vars";
   "calendar"; "scheduler"; "num_workers"; "verbose"; "forcing"; "out_dir"].

(** the calendar setting *)
Definition calendar_of (v : option cval) : option cval :=
  match v with None => Some (CText "standard") | x => given x end.

(** A YAML file whose sections are mappings, whose tables and paths are
    texts and whose output variables are mappings. *)
Definition plain (doc : dict cval) : Prop :=
  (forall t v, In t ["forcing_vars"; "domain_vars"; "state_vars"] -> dict_get doc t = Some v -> exists m, v = CMap (texts m)) /\
  (forall t v, In t ["MetSim"; "chunks"; "constant_vars"; "out_vars"] -> dict_get doc t = Some v -> exists m, v = CMap m) /\
  (forall m k v, dict_get doc "MetSim" = Some (CMap m) -> In k ["forcing"; "out_dir"] -> dict_get m k = Some v -> exists s, v = CText s) /\
  (forall ovs k v, dict_get doc "out_vars" = Some (CMap ovs) -> In (k, v) ovs -> exists m, v = CMap m).

(** a YAML file with the content of an INI file, except for the outputs *)
Definition same_file (doc : dict (dict string)) (ydoc : dict cval) : Prop :=
  forall n, n <> "out_vars" -> dict_get ydoc n = option_map (fun m => CMap (texts m)) (dict_get doc n).

(** the forcing setting for the path [f] of a file, or of a directory with
    the files [list_dir f] *)
Definition forcing_setting (list_dir : string -> option (list string)) (f : string) (v : option cval) : Prop :=
  match list_dir f with
  | None => v = Some (CText f)
  | Some [] => v = None
  | Some fs => exists paths, Forall2 (in_directory f) fs paths /\ v = Some (CList (map CText paths))
  end.

(** an entry of out_vars, and the same with its units filled in *)
Definition units_added (e e' : string * cval) : Prop :=
  fst e' = fst e /\
  match snd e with
  | CMap m => exists m', snd e' = CMap m' /\ (forall f, f <> "units" -> dict_get m' f = dict_get m f) /\
       dict_get m' "units" = match dict_get m "units" with
                             | Some u => Some u
                             | None => option_map CText (dict_get default_units (fst e)) end /\
       dict_get m' "units" <> None
  | _ => snd e' = snd e
  end.

(** a variable MetSim can write *)
Definition known_output (k : string) : Prop := exists u, dict_get default_units k = Some u.

(** a YAML file with everything that is looked up in it *)
Definition complete_yaml (doc : dict cval) : Prop :=
  (exists m f d, dict_get doc "MetSim" = Some (CMap m) /\ dict_get m "forcing" = Some f /\ dict_get m "out_dir" = Some d) /\
  (forall n, In n ["forcing_vars"; "domain_vars"; "state_vars"; "out_vars"; "chunks"] -> dict_get doc n <> None) /\
  (forall ovs k m, dict_get doc "out_vars" = Some (CMap ovs) -> In (k, CMap m) ovs -> dict_get m "units" = None -> known_output k).

(** the outputs an INI file asks for: its list and its section *)
Definition ini_outputs (parse_list : string -> res (list string)) (doc : dict (dict string)) (names : list string) : Prop :=
  exists m l, dict_get doc "MetSim" = Some m /\
    match dict_get m "out_vars" with Some t => parse_list t = Ok l | None => l = [] end /\
    names = l ++ match dict_get doc "out_vars" with Some r => keys r | None => [] end.

(** an INI file with everything that is looked up in it *)
Definition complete_ini (parse_list : string -> res (list string)) (doc : dict (dict string)) : Prop :=
  (exists m, dict_get doc "MetSim" = Some m /\ forall k, In k ["forcing"; "forcing_fmt"; "out_dir"] -> dict_get m k <> None) /\
  (forall n, In n ["forcing_vars"; "domain_vars"; "state_vars"; "chunks"] -> dict_get doc n <> None) /\
  (exists names, ini_outputs parse_list doc names /\ Forall known_output names).
