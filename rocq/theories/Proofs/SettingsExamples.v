(** Two configuration files with the same content. *)
From Coq Require Import ZArith String Ascii List Bool Lia.
From Verif Require Import Model.Py Model.Units Model.Config Model.Globals Model.Settings
  Spec.SettingsSpec Spec.GlobalsSpec Proofs.Base Proofs.ConfigProofs Proofs.HeaderProofs Proofs.SettingsProofs Proofs.ReadSettings.
Import ListNotations.
Local Open Scope string_scope.
Local Open Scope list_scope.

Definition demo_dir (d : string) : option (list string) :=
  if String.eqb d "/data/vic" then Some ["data_1_2"; "data_3_4"] else if String.eqb d "/data/none/" then Some [] else None.
Definition demo_abs (d : string) : string := ("/home/" ++ d)%string.
Definition demo_list (t : string) : res (list string) :=
  if String.eqb t "['temp']" then Ok ["temp"] else Err ValueError.

Definition demo_ini (fmt forcing : string) : dict (dict string) :=
  [("MetSim", [("time_step", "60"); ("forcing", forcing); ("forcing_fmt", fmt); ("out_dir", "results"); ("utc_offset", "True");
               ("scheduler", "threading")]);
   ("chunks", [("lat", "3")]);
   ("forcing_vars", [("prec", "Prec"); ("t_min", "Tmin")]);
   ("state_vars", [("t_min", "Tmin")]);
   ("domain_vars", [("lat", "y"); ("lon", "x")])].
Definition demo_yaml (fmt forcing : string) : dict cval :=
  map (fun nm => (fst nm, CMap (texts (snd nm)))) (demo_ini fmt forcing) ++
  [("out_vars", CMap [("temp", CMap [("out_name", CText "tas")])])].
Definition demo_cli : cli := mk_cli "distributed" 4 true.

Lemma demo_same fmt forcing : same_file (demo_ini fmt forcing) (demo_yaml fmt forcing).
Proof.
  intros n N. unfold demo_yaml. rewrite get_app, (dict_get_mapval (fun m => CMap (texts m))).
  destruct (dict_get (demo_ini fmt forcing) n); [reflexivity|]. cbn [option_map dict_get].
  destruct (String.eqb_spec n "out_vars"); [contradiction|reflexivity].
Qed.

Example demo_reads : exists c1 hr c2,
  read_ini demo_dir demo_abs demo_list (initial_heap []) (demo_ini "netcdf" "f.nc") demo_cli = Ok (c1, hr) /\
  read_yaml demo_dir demo_abs (initial_heap []) (demo_yaml "netcdf" "f.nc") demo_cli = Ok c2 /\
  dict_get c1 "time_step" = Some (CText "60") /\ dict_get c2 "time_step" = Some (CText "60") /\
  dict_get c1 "scheduler" = Some (CText "distributed") /\ dict_get c2 "scheduler" = Some (CText "distributed") /\
  dict_get c1 "out_dir" = Some (CText "/home/results") /\ dict_get c2 "out_dir" = Some (CText "/home/results") /\
  dict_get c1 "utc_offset" = Some (CBool true) /\
  dict_get c2 "forcing_vars" = Some (CMap [("Prec", CText "prec"); ("Tmin", CText "t_min")]) /\
  dict_get c2 "out_vars" = Some (CMap [("temp", CMap [("out_name", CText "tas"); ("units", CText "C")])]).
Proof. eexists. eexists. eexists. split; [reflexivity|]. split; [reflexivity|]. repeat split. Qed.

Example demo_directory : exists c, read_yaml demo_dir demo_abs (initial_heap []) (demo_yaml "ascii" "/data/vic") demo_cli = Ok c /\
  dict_get c "forcing" = Some (CList [CText "/data/vic/data_1_2"; CText "/data/vic/data_3_4"]).
Proof. eexists. split; reflexivity. Qed.

(** the forcing of an empty directory *)
Theorem empty_directory : exists c, read_yaml demo_dir demo_abs (initial_heap []) (demo_yaml "ascii" "/data/none/") demo_cli = Ok c /\
  dict_get c "forcing" = None.
Proof. eexists. split; reflexivity. Qed.

(** two of MetSim's variables from the same variable of the file *)
Theorem shared_variable : exists doc c r,
  dict_get doc "forcing_vars" = Some (CMap (texts [("t_min", "tas"); ("t_max", "tas")])) /\
  read_yaml demo_dir demo_abs (initial_heap []) doc demo_cli = Ok c /\
  dict_get c "forcing_vars" = Some (CMap r) /\ ~ exists f, dict_get r f = Some (CText "t_min").
Proof.
  exists (dict_set (demo_yaml "netcdf" "f.nc") "forcing_vars" (CMap (texts [("t_min", "tas"); ("t_max", "tas")]))).
  eexists. exists [("tas", CText "t_max")]. split; [reflexivity|]. split; [reflexivity|]. split; [reflexivity|].
  intros [f E]. cbn [dict_get] in E. destruct (String.eqb f "tas"); discriminate.
Qed.

(** a table of binary forcing: scale and type of every variable *)
Definition vic_table : dict string :=
  [("prec", "40.0 unsigned"); ("t_max", "100.0 signed"); ("t_min", "100.0 signed"); ("wind", "100.0 signed")].
Theorem binary_formats : exists doc ydoc c1 hr c2 t,
  same_file doc ydoc /\ dict_get doc "forcing_vars" = Some vic_table /\
  read_ini demo_dir demo_abs demo_list (initial_heap []) doc demo_cli = Ok (c1, hr) /\
  read_yaml demo_dir demo_abs (initial_heap []) ydoc demo_cli = Ok c2 /\
  dict_get c1 "forcing_vars" = Some (CMap (texts vic_table)) /\
  dict_get c2 "forcing_vars" = Some (CMap t) /\ List.length t = 2%nat /\ dict_get t "t_min" = None.
Proof.
  exists (dict_set (demo_ini "binary" "/data/vic") "forcing_vars" vic_table).
  exists (dict_set (demo_yaml "binary" "/data/vic") "forcing_vars" (CMap (texts vic_table))).
  eexists. eexists. eexists. eexists. split.
  - intros n N. rewrite !get_set. destruct (String.eqb n "forcing_vars"); [reflexivity|]. now apply demo_same.
  - repeat split; reflexivity.
Qed.

(** an INI file that names no outputs *)
Theorem no_outputs : exists doc c h refs h',
  (forall m, dict_get doc "MetSim" = Some m -> dict_get m "out_vars" = None) /\ dict_get doc "out_vars" = None /\
  read_ini demo_dir demo_abs demo_list (initial_heap []) doc demo_cli = Ok (c, (h, refs)) /\
  construct h [] (Some ([], refs)) = Ok h' /\ h_out_vars h' = [].
Proof.
  exists (demo_ini "netcdf" "f.nc"). eexists. eexists. eexists. eexists. split.
  - intros m E. cbn in E. injection E as <-. reflexivity.
  - split; [reflexivity|]. split; [reflexivity|]. split; reflexivity.
Qed.

Example demo_complete : plain (demo_yaml "netcdf" "f.nc") /\ complete_yaml (demo_yaml "netcdf" "f.nc") /\
  complete_ini demo_list (demo_ini "netcdf" "f.nc") /\
  read_yaml demo_dir demo_abs (initial_heap []) (removelast (demo_yaml "netcdf" "f.nc")) demo_cli = Err KeyError.
Proof.
  split; [|split; [|split]].
  - unfold plain. split; [|split; [|split]].
    + intros t v I E. destruct I as [<-|[<-|[<-|[]]]]; cbn in E; injection E as <-.
      * exists [("prec", "Prec"); ("t_min", "Tmin")]. reflexivity.
      * exists [("lat", "y"); ("lon", "x")]. reflexivity.
      * exists [("t_min", "Tmin")]. reflexivity.
    + intros t v I E. destruct I as [<-|[<-|[<-|[<-|[]]]]]; cbn in E; try discriminate; injection E as <-; eexists; reflexivity.
    + intros m k v E I G. cbn in E. injection E as <-. destruct I as [<-|[<-|[]]]; cbn in G; injection G as <-; eexists; reflexivity.
    + intros ovs k v E I. cbn in E. injection E as <-. destruct I as [I|[]]. injection I as <- <-. eexists; reflexivity.
  - unfold complete_yaml. split; [|split].
    + eexists. eexists. eexists. split; [reflexivity|]. split; reflexivity.
    + intros n I. cbn in I. decompose [or] I; subst; try contradiction; discriminate.
    + intros ovs k m E I U. cbn in E. injection E as <-. destruct I as [I|[]]. injection I as <- <-. exists "C". reflexivity.
  - unfold complete_ini. split; [|split].
    + eexists. split; [reflexivity|]. intros k I. cbn in I. decompose [or] I; subst; try contradiction; discriminate.
    + intros n I. cbn in I. decompose [or] I; subst; try contradiction; discriminate.
    + exists []. split; [|constructor]. eexists. exists []. split; [reflexivity|]. split; reflexivity.
  - reflexivity.
Qed.
