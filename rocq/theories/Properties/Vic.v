(** C102, C103: forcing in the text and binary formats of VIC, from the
    configuration file to the columns of a cell. *)
From Coq Require Import ZArith Reals String Ascii List Bool Arith.
From Verif Require Import Model.Py Model.Fl Model.Config Model.Globals Model.Reader Model.Settings Model.Vic
  Spec.ReaderSpec Spec.SettingsSpec Spec.VicSpec Proofs.SettingsExamples Proofs.VicProofs Proofs.VicCases.
Import ListNotations.
Local Open Scope string_scope.
Local Open Scope list_scope.

(** C102: by either kind of configuration, the order of the variables is the
    order of the columns, and the days are the lines. *)
Theorem C102_text_columns : forall list_dir abspath parse_list pf bytes lines dom n dir tbl kind conf fs job i j,
  vic_config list_dir abspath parse_list "ascii" dir tbl kind conf -> list_dir dir = Some fs -> tautology tbl ->
  only_file pf dom dir fs job i j -> (0 < n)%nat -> (n <= List.length (lines job))%nat ->
  (forall r, In r (lines job) -> List.length r = List.length tbl) ->
  exists g, vic_forcing pf bytes lines dom n conf = Ok g /\
    forall v k, nth_error (keys tbl) v = Some k ->
      exists col, dict_get (vic_cell (keys tbl) n g i j) k = Some col /\ List.length col = n /\
        forall t r, (t < n)%nat -> nth_error (lines job) t = Some r -> nth_error col t = nth_error r v.
Proof. exact text_columns. Qed.
Print Assumptions C102_text_columns.

(** C102: without a file that covers the period the cell is missing on all
    its days. *)
Theorem C102_text_missing : forall list_dir abspath parse_list pf bytes lines dom n dir tbl kind conf fs i j,
  vic_config list_dir abspath parse_list "ascii" dir tbl kind conf -> list_dir dir = Some fs -> fs <> [] -> tautology tbl ->
  (forall fn p, In fn fs -> in_directory dir fn p -> target pf dom p i j -> (List.length (lines p) < n)%nat) ->
  exists g, vic_forcing pf bytes lines dom n conf = Ok g /\
    forall k, In k (keys tbl) -> dict_get (vic_cell (keys tbl) n g i j) k = Some (repeat None n).
Proof. exact text_missing. Qed.
Print Assumptions C102_text_missing.

Example C102_case :
  (exists conf, vic_config demo_dir demo_abs demo_list "ascii" "/data/vic" ascii_table Ini conf) /\
  (exists conf, vic_config demo_dir demo_abs demo_list "ascii" "/data/vic" ascii_table Yaml conf) /\
  tautology ascii_table /\ demo_dir "/data/vic" = Some ["data_1_2"; "data_3_4"] /\
  only_file vic_float vic_dom "/data/vic" ["data_1_2"; "data_3_4"] "/data/vic/data_1_2" 1 0.
Proof. exact (conj ascii_ini_read (conj ascii_yaml_read (conj ascii_tautology vic_only))). Qed.

(** C102 is false for files with more columns: with [extra] columns more
    than variables every variable gets the column [extra] to the right. *)
Theorem C102_extra_columns_refuted : forall list_dir abspath parse_list pf bytes lines dom n dir tbl kind conf fs job i j extra,
  vic_config list_dir abspath parse_list "ascii" dir tbl kind conf -> list_dir dir = Some fs -> tautology tbl ->
  only_file pf dom dir fs job i j -> (0 < n)%nat -> (n <= List.length (lines job))%nat ->
  (forall r, In r (lines job) -> List.length r = (List.length tbl + extra)%nat) ->
  exists g, vic_forcing pf bytes lines dom n conf = Ok g /\
    forall v k, nth_error (keys tbl) v = Some k ->
      exists col, dict_get (vic_cell (keys tbl) n g i j) k = Some col /\ List.length col = n /\
        forall t r, (t < n)%nat -> nth_error (lines job) t = Some r -> nth_error col t = nth_error r (v + extra).
Proof. exact text_values. Qed.
Print Assumptions C102_extra_columns_refuted.

(** precipitation 5 and 0 mm, maximum 11 and 12 degrees: read as precipitation *)
Example C102_extra_columns_case : exists d,
  read_ascii [map Some [5; 11; -2; 3]; map Some [0; 12; -1; 4]]%R ["prec"; "t_max"; "t_min"] 2 = Ok d /\
  dict_get d "prec" = Some [Some 11; Some 12]%R.
Proof. exact four_columns. Qed.

(** C102, C103 are false when the forcing is the path of a single file: every
    cell is missing. *)
Theorem C102_single_file_refuted : forall list_dir abspath parse_list pf bytes lines dom n fmt path tbl kind conf,
  vic_config list_dir abspath parse_list fmt path tbl kind conf -> list_dir path = None ->
  exists g, vic_forcing pf bytes lines dom n conf = Ok g /\ forall i j, g i j = None.
Proof. exact single_path. Qed.
Print Assumptions C102_single_file_refuted.

(** C103: by an INI file, for four variables, or fewer in files of exactly
    the record length (C53) *)
Theorem C103_binary_partial : forall list_dir abspath parse_list pf bytes lines dom n dir tbl conf fs job i j vars g,
  vic_config list_dir abspath parse_list "binary" dir tbl Ini conf -> list_dir dir = Some fs ->
  NoDup (keys tbl) -> tbl <> [] -> Forall2 (declares pf) (values tbl) vars -> (forall v, In v vars -> bv_scale v <> 0%R) ->
  only_file pf dom dir fs job i j ->
  (List.length vars = 4%nat /\ (2 * (4 * n) <= List.length (bytes job))%nat) \/
  ((List.length vars <= 4)%nat /\ List.length (bytes job) = (2 * (List.length vars * n))%nat) ->
  vic_forcing pf bytes lines dom n conf = Ok g ->
  forall v k bv, nth_error (keys tbl) v = Some k -> nth_error vars v = Some bv ->
    exists col, dict_get (vic_cell (keys tbl) n g i j) k = Some col /\ List.length col = n /\
      forall t, (t < n)%nat -> nth_error col t = Some (Some (word_value (bytes job) bv (t * List.length vars + v))).
Proof. exact binary_values. Qed.
Print Assumptions C103_binary_partial.

Example C103_case :
  (exists conf, vic_config demo_dir demo_abs demo_list "binary" "/data/vic" vic_table Ini conf) /\
  Forall2 (declares vic_float) (values vic_table)
    [mk_bin_var 40 false; mk_bin_var 100 true; mk_bin_var 100 true; mk_bin_var 100 true].
Proof. exact (conj binary_ini_read vic_declared). Qed.

(** C103: a table with a type that is none leaves every cell missing *)
Theorem C103_unknown_type : forall list_dir abspath parse_list pf bytes lines dom n dir tbl conf fs words,
  vic_config list_dir abspath parse_list "binary" dir tbl Ini conf -> list_dir dir = Some fs -> fs <> [] ->
  Forall2 (scale_and_word pf) (values tbl) words -> (exists w, In w words /\ w <> "signed" /\ w <> "unsigned") ->
  exists g, vic_forcing pf bytes lines dom n conf = Ok g /\ forall i j, g i j = None.
Proof. exact binary_unknown. Qed.
Print Assumptions C103_unknown_type.

Example C103_unknown_type_case :
  (exists conf, vic_config demo_dir demo_abs demo_list "binary" "/data/vic" capital_table Ini conf) /\
  Forall2 (scale_and_word vic_float) (values capital_table) ["unsigned"; "Signed"; "signed"; "signed"].
Proof. exact (conj capital_read capital_words). Qed.

(** C103 is false by a YAML file: the names are taken for the scales and no
    file is ever read, ... *)
Theorem C103_yaml_refuted : forall list_dir abspath parse_list pf bytes lines dom n path tbl conf fs,
  vic_config list_dir abspath parse_list "binary" path tbl Yaml conf -> list_dir path = Some fs -> fs <> [] ->
  tbl <> [] -> Forall (plain_name pf) (keys tbl) ->
  exists g, vic_forcing pf bytes lines dom n conf = Ok g /\ forall i j, g i j = None.
Proof. exact binary_yaml. Qed.
Print Assumptions C103_yaml_refuted.

Example C103_yaml_case :
  (exists conf, vic_config demo_dir demo_abs demo_list "binary" "/data/vic" vic_table Yaml conf) /\
  Forall (plain_name vic_float) (keys vic_table).
Proof. exact (conj binary_yaml_read vic_plain). Qed.

(** ... and a file that ends in the middle of a word stops the run instead of
    leaving its cell missing. *)
Theorem C103_half_word_refuted : forall list_dir abspath parse_list pf bytes lines dom n dir tbl conf fs job i j vars,
  vic_config list_dir abspath parse_list "binary" dir tbl Ini conf -> list_dir dir = Some fs ->
  tbl <> [] -> Forall2 (declares pf) (values tbl) vars -> (forall v, In v vars -> bv_scale v <> 0%R) ->
  (exists fn, In fn fs /\ in_directory dir fn job) -> target pf dom job i j ->
  Nat.odd (List.length (bytes job)) = true -> (List.length (bytes job) < 2 * (4 * n))%nat ->
  exists e, vic_forcing pf bytes lines dom n conf = Err e.
Proof. exact binary_odd. Qed.
Print Assumptions C103_half_word_refuted.
