(** Cases for forcing in the formats of VIC. *)
From Coq Require Import ZArith Reals String Ascii List Bool Arith Lia Lra.
From Verif Require Import Model.Py Model.Fl Model.Config Model.Globals Model.Reader Model.Settings Model.Vic
  Spec.ReaderSpec Spec.SettingsSpec Spec.VicSpec Proofs.ReaderProofs Proofs.SettingsProofs Proofs.SettingsExamples Proofs.VicProofs.
Import ListNotations.
Local Open Scope string_scope.
Local Open Scope list_scope.

(** files data_1_2 and data_3_4 of /data/vic; the domain has the cells (1, 2) and (3, 2) *)
Definition vic_float (s : string) : option R :=
  if String.eqb s "1" then Some 1%R else if String.eqb s "2" then Some 2%R
  else if String.eqb s "40.0" then Some 40%R else if String.eqb s "100.0" then Some 100%R else None.
Definition vic_dom : vic_domain := mk_vic_domain [3; 1]%R [2]%R (fun _ _ => Some 1%R).

Definition ascii_table : dict string := [("prec", "prec"); ("t_max", "t_max"); ("t_min", "t_min")].
Definition ascii_ini : dict (dict string) := dict_set (demo_ini "ascii" "/data/vic") "forcing_vars" ascii_table.
Definition ascii_yaml : dict cval := dict_set (demo_yaml "ascii" "/data/vic") "forcing_vars" (CMap (texts ascii_table)).
Definition binary_ini : dict (dict string) := dict_set (demo_ini "binary" "/data/vic") "forcing_vars" vic_table.
Definition binary_yaml_doc : dict cval := dict_set (demo_yaml "binary" "/data/vic") "forcing_vars" (CMap (texts vic_table)).

Ltac nodup_text := repeat constructor; cbn; intuition discriminate.

Lemma ini_case doc fmt path tbl conf hr m : dict_get doc "MetSim" = Some m -> NoDup (keys m) ->
  dict_get m "forcing_fmt" = Some fmt -> dict_get m "forcing" = Some path -> dict_get doc "forcing_vars" = Some tbl ->
  read_ini demo_dir demo_abs demo_list (initial_heap []) doc demo_cli = Ok (conf, hr) ->
  vic_config demo_dir demo_abs demo_list fmt path tbl Ini conf.
Proof. intros A B C D E F. exact (by_ini demo_dir demo_abs demo_list fmt path tbl _ doc _ conf hr m A B C D E F). Qed.
Lemma yaml_case doc fmt path tbl conf m : has_section doc "MetSim" m ->
  dict_get m "forcing_fmt" = Some (CText fmt) -> dict_get m "forcing" = Some (CText path) ->
  dict_get doc "forcing_vars" = Some (CMap (texts tbl)) ->
  read_yaml demo_dir demo_abs (initial_heap []) doc demo_cli = Ok conf ->
  vic_config demo_dir demo_abs demo_list fmt path tbl Yaml conf.
Proof. intros A B C D E. exact (by_yaml demo_dir demo_abs demo_list fmt path tbl _ doc _ conf m A B C D E). Qed.

Example ascii_ini_read : exists conf, vic_config demo_dir demo_abs demo_list "ascii" "/data/vic" ascii_table Ini conf.
Proof.
  eexists. eapply (ini_case ascii_ini); try reflexivity. nodup_text.
Qed.
Example ascii_yaml_read : exists conf, vic_config demo_dir demo_abs demo_list "ascii" "/data/vic" ascii_table Yaml conf.
Proof.
  eexists. eapply (yaml_case ascii_yaml); [split; [reflexivity|nodup_text]|reflexivity..].
Qed.
Example binary_ini_read : exists conf, vic_config demo_dir demo_abs demo_list "binary" "/data/vic" vic_table Ini conf.
Proof.
  eexists. eapply (ini_case binary_ini); try reflexivity. nodup_text.
Qed.
Example binary_yaml_read : exists conf, vic_config demo_dir demo_abs demo_list "binary" "/data/vic" vic_table Yaml conf.
Proof.
  eexists. eapply (yaml_case binary_yaml_doc); [split; [reflexivity|nodup_text]|reflexivity..].
Qed.

Lemma vic_target : target vic_float vic_dom "/data/vic/data_1_2" 1 0.
Proof.
  exists 1%R, 2%R. split; [reflexivity|]. cbn. destruct (Req_EM_T 1 3) as [C|_]; [lra|].
  destruct (Req_EM_T 1 1) as [_|C]; [|lra]. split; [reflexivity|]. destruct (Req_EM_T 2 2) as [_|C]; [|lra].
  split; [reflexivity|]. unfold fgt, Rltb. destruct (Rlt_dec 0 1); [reflexivity|lra].
Qed.

Example vic_only : demo_dir "/data/vic" = Some ["data_1_2"; "data_3_4"] /\
  only_file vic_float vic_dom "/data/vic" ["data_1_2"; "data_3_4"] "/data/vic/data_1_2" 1 0.
Proof.
  split; [reflexivity|]. split; [exact vic_target|].
  assert (J : forall fn p, in_directory "/data/vic" fn p -> p = ("/data/vic" ++ "/" ++ fn)%string).
  { intros fn p [[[d D] _]|[_ E]]; [|exact E]. exfalso.
    assert (S : ends_slash "/data/vic" = true) by (apply ends_slash_spec; eauto). discriminate S. }
  assert (N : ~ exists d, "/data/vic" = (d ++ "/")%string).
  { intros H. apply ends_slash_spec in H. discriminate H. }
  split.
  - exists "data_1_2". split; [now left|]. right. split; [exact N|reflexivity].
  - intros fn p [<-|[<-|[]]] D T; apply J in D; subst p; [reflexivity|].
    exfalso. destruct T as (lat & lon & P & _). discriminate P.
Qed.

Example ascii_tautology : tautology ascii_table.
Proof. split; [nodup_text|]. intros k f [E|[E|[E|[]]]]; congruence. Qed.

Example vic_declared : Forall2 (declares vic_float) (values vic_table)
  [mk_bin_var 40 false; mk_bin_var 100 true; mk_bin_var 100 true; mk_bin_var 100 true].
Proof.
  repeat constructor; unfold declares; cbn [bv_scale bv_signed].
  - exists "40.0". repeat split; discriminate.
  - exists "100.0". repeat split; discriminate.
  - exists "100.0". repeat split; discriminate.
  - exists "100.0". repeat split; discriminate.
Qed.

Example vic_plain : Forall (plain_name vic_float) (keys vic_table).
Proof. repeat constructor; discriminate. Qed.

(** three columns asked for, four in the file *)
Example four_columns : exists d,
  read_ascii [map Some [5; 11; -2; 3]; map Some [0; 12; -1; 4]]%R ["prec"; "t_max"; "t_min"] 2 = Ok d /\
  dict_get d "prec" = Some [Some 11; Some 12]%R.
Proof. eexists. split; reflexivity. Qed.

(** a capital letter in a type *)
Definition capital_table : dict string :=
  [("prec", "40.0 unsigned"); ("t_max", "100.0 Signed"); ("t_min", "100.0 signed"); ("wind", "100.0 signed")].
Definition capital_ini : dict (dict string) := dict_set (demo_ini "binary" "/data/vic") "forcing_vars" capital_table.
Example capital_read : exists conf, vic_config demo_dir demo_abs demo_list "binary" "/data/vic" capital_table Ini conf.
Proof. eexists. eapply (ini_case capital_ini); try reflexivity. nodup_text. Qed.
Example capital_words : Forall2 (scale_and_word vic_float) (values capital_table) ["unsigned"; "Signed"; "signed"; "signed"].
Proof.
  repeat constructor.
  - exists "40.0", 40%R. repeat split; discriminate.
  - exists "100.0", 100%R. repeat split; discriminate.
  - exists "100.0", 100%R. repeat split; discriminate.
  - exists "100.0", 100%R. repeat split; discriminate.
Qed.
