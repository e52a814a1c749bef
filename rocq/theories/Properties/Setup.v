(** C13-C15, C81: validation of the configuration. *)
From Coq Require Import ZArith Reals String List Bool Arith Lia.
From Verif Require Import Model.Py Model.Fl Model.Params Model.Disagg Model.Units Model.Cell Model.Validate
  Spec.TimeSpec Spec.SetupSpec Proofs.SetupProofs.
Import ListNotations.
Local Open Scope string_scope.
Local Open Scope list_scope.

(** C13 for positive steps: exactly the legal steps are accepted. *)
Theorem C13_positive_steps_validated_partial : forall s,
  validate_setup s = Ok tt -> (0 < v_time_step s)%Z -> legal_time_step (v_time_step s).
Proof. exact accepted_positive_step. Qed.
Print Assumptions C13_positive_steps_validated_partial.

Theorem C13_illegal_steps_refused : forall s,
  (0 < v_time_step s)%Z -> ~ legal_time_step (v_time_step s) ->
  refuses_with s "Time step must be evenly divisible into 1440".
Proof. exact illegal_step_refused. Qed.
Print Assumptions C13_illegal_steps_refused.

Example C13_case :
  validate_setup (demo_setup 180 ["temp"; "prec"]) = Ok tt /\ ~ legal_time_step 720 /\ ~ legal_time_step 7.
Proof.
  split; [reflexivity|]. unfold legal_time_step. split.
  - intros (_ & _ & [H|H]); lia.
  - intros (_ & H & _). discriminate H.
Qed.

(** C13 as stated is false: the default time step -1 (and every negative
    divisor of 1440) passes the check. *)
Theorem C13_refuted :
  exists s, validate_setup s = Ok tt /\ v_time_step s = (-1)%Z /\ ~ legal_time_step (v_time_step s).
Proof. exact negative_step_accepted. Qed.
Print Assumptions C13_refuted.

(** C14: an output name accepted for the time step is a column of the
    cell's result (t_min, t_max, prec and wind when they are supplied). *)
Theorem C14_outputs_available : forall fuel prm c out prm' v,
  run_cell fuel prm c = Some (Ok out, prm') ->
  (p_time_step prm <= 1440)%Z ->
  (In v ["t_min"; "t_max"; "prec"; "wind"] -> dict_mem (dl_cols (cd_daily c)) v = true) ->
  In v (out_var_check (p_time_step prm)) ->
  dict_mem out v = true.
Proof. exact outputs_available. Qed.
Print Assumptions C14_outputs_available.

(** C14: and all but t_day have a unit conversion. *)
Theorem C14_outputs_convertible_partial : forall ts v, In v (out_var_check ts) -> v <> "t_day" ->
  exists u f, dict_get default_units v = Some u /\ converter_for v u = Ok f.
Proof. exact outputs_convertible. Qed.
Print Assumptions C14_outputs_convertible_partial.

(** C14: other names are refused by name. *)
Theorem C14_other_outputs_refused : forall s v, v_time_step s <> 0%Z -> In v (v_out_vars s) ->
  ~ In v (out_var_check (v_time_step s)) -> refuses_with s (append "Cannot output variable " v).
Proof. exact bad_output_refused. Qed.
Print Assumptions C14_other_outputs_refused.

Example C14_case :
  validate_setup (demo_setup 1440 ["pet"; "wind"]) = Ok tt /\
  validate_setup (demo_setup 60 ["pet"]) = Err (SetupError ["Cannot output variable pet"]).
Proof. split; reflexivity. Qed.

(** C14 as stated is false for t_day: accepted at the daily step, but it
    has no unit conversion. *)
Theorem C14_refuted : exists s,
  validate_setup s = Ok tt /\ In "t_day" (v_out_vars s) /\
  forall u, converter_for "t_day" u = Err KeyError.
Proof. exact t_day_accepted. Qed.
Print Assumptions C14_refuted.

(** C15: accepted longwave options always select a formula. *)
Theorem C15_accepted_options_exist : forall s, validate_setup s = Ok tt ->
  (exists f, emissivity_calc (upper (v_lw_type s)) = Ok f) /\
  (exists f, cloud_calc (upper (v_lw_cloud s)) = Ok f).
Proof. exact lw_accepted. Qed.
Print Assumptions C15_accepted_options_exist.

Example C15_case :
  validate_setup (with_lw (demo_setup 60 ["longwave"]) "idso" "default") = Ok tt /\
  emissivity_calc "MADEUP" = Err KeyError.
Proof. split; reflexivity. Qed.

(** C15: capitalization does matter. *)
Theorem C15_capitalization_refuted : exists s lw lw',
  same_letters lw lw' /\ validate_setup (with_lw s lw "default") = Ok tt /\
  validate_setup (with_lw s lw' "default") <> Ok tt.
Proof. exact capitals_refused. Qed.
Print Assumptions C15_capitalization_refuted.

(** C81 ([requirements] lists the conditions with their messages). *)
Theorem C81_reports : forall s, v_time_step s <> 0%Z ->
  (validate_setup s = Ok tt /\ forall m P, In (m, P) (requirements s) -> P) \/
  (exists msgs, validate_setup s = Err (SetupError msgs) /\ msgs <> [] /\
     forall m, In m msgs <-> exists P, In (m, P) (requirements s) /\ ~ P).
Proof. exact setup_reports. Qed.
Print Assumptions C81_reports.

Example C81_case :
  validate_setup (mksetup ["f"] ["prec"] (Some "") (Some "netcdf") 7 ["prec"; "t_min"; "t_max"] ["temp"] "f2" "default" "idso") =
  Err (SetupError ["Cannot have empty value for out_dir"; "Time step must be evenly divisible into 1440";
                   "Invalid option given for out_precision"]).
Proof. reflexivity. Qed.

(** C81: the one time step whose check does not end in a message. *)
Theorem C81_zero_step_refuted : exists s, v_time_step s = 0%Z /\ validate_setup s = Err ZeroDivisionError.
Proof. exact zero_step. Qed.
Print Assumptions C81_zero_step_refuted.
