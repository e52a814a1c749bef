(** Vocabulary for statements about forcing in the formats of VIC. *)
From Coq Require Import ZArith Reals String Ascii List Bool.
From Verif Require Import Model.Py Model.Fl Model.Globals Model.Reader Model.Settings Model.Vic Spec.ReaderSpec Spec.SettingsSpec.
Import ListNotations.
Local Open Scope string_scope.
Local Open Scope list_scope.

(** how a configuration came about: read from a file of one of the two kinds
    that gives this format, path and table of forcing variables *)
Inductive config_kind := Ini | Yaml.
Inductive vic_config (list_dir : string -> option (list string)) (abspath : string -> string)
    (parse_list : string -> res (list string)) (fmt path : string) (tbl : dict string) : config_kind -> dict cval -> Prop :=
| by_ini : forall h doc o conf hr m,
    dict_get doc "MetSim" = Some m -> NoDup (keys m) ->
    dict_get m "forcing_fmt" = Some fmt -> dict_get m "forcing" = Some path -> dict_get doc "forcing_vars" = Some tbl ->
    read_ini list_dir abspath parse_list h doc o = Ok (conf, hr) ->
    vic_config list_dir abspath parse_list fmt path tbl Ini conf
| by_yaml : forall h doc o conf m,
    has_section doc "MetSim" m ->
    dict_get m "forcing_fmt" = Some (CText fmt) -> dict_get m "forcing" = Some (CText path) ->
    dict_get doc "forcing_vars" = Some (CMap (texts tbl)) ->
    read_yaml list_dir abspath h doc o = Ok conf ->
    vic_config list_dir abspath parse_list fmt path tbl Yaml conf.

(** a table in which every variable is named as itself *)
Definition tautology (tbl : dict string) : Prop := NoDup (keys tbl) /\ forall k f, In (k, f) tbl -> f = k.

(** [job] is the only file of the directory for the cell (i, j) *)
Definition only_file (parse_float : string -> option R) (dom : vic_domain) (dir : string) (fs : list string)
    (job : string) (i j : nat) : Prop :=
  target parse_float dom job i j /\ (exists fn, In fn fs /\ in_directory dir fn job) /\
  forall fn p, In fn fs -> in_directory dir fn p -> target parse_float dom p i j -> p = job.

(** a text without blanks *)
Fixpoint no_blank (s : string) : Prop :=
  match s with EmptyString => True | String c r => is_space c = false /\ no_blank r end.

(** an entry of a table of binary forcing: scale and type *)
Definition declares (parse_float : string -> option R) (s : string) (v : bin_var) : Prop :=
  exists scale, no_blank scale /\ scale <> "" /\ parse_float scale = Some (bv_scale v) /\
    s = (scale ++ " " ++ if bv_signed v then "signed" else "unsigned")%string.

(** a name that is not a number *)
Definition plain_name (parse_float : string -> option R) (k : string) : Prop :=
  no_blank k /\ k <> "" /\ parse_float k = None.

(** an entry with a scale and a type that may be no type *)
Definition scale_and_word (parse_float : string -> option R) (s word : string) : Prop :=
  exists scale x, no_blank scale /\ scale <> "" /\ parse_float scale = Some x /\ no_blank word /\ word <> "" /\
    s = (scale ++ " " ++ word)%string.
