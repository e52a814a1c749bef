(** Vocabulary for statements about the validation of a configuration. *)
From Coq Require Import ZArith String List Bool.
From Verif Require Import Model.Py Model.Validate.
Import ListNotations.
Local Open Scope string_scope.
Local Open Scope list_scope.

(** the same configuration with other longwave options *)
Definition with_lw (s : setup) (lw_type lw_cloud : string) : setup :=
  mksetup (v_forcing s) (v_forcing_vars s) (v_out_dir s) (v_forcing_fmt s) (v_time_step s)
          (v_met_vars s) (v_out_vars s) (v_out_precision s) lw_cloud lw_type.

(** equal up to capitalization *)
Definition same_letters (a b : string) : Prop := lower a = lower b.

(** setup refuses, and one of its messages is [msg] *)
Definition refuses_with (s : setup) (msg : string) : Prop :=
  exists msgs, validate_setup s = Err (SetupError msgs) /\ In msg msgs.

(** what a configuration must satisfy, each with the message for its
    violation *)
Definition outputs_at (ts : Z) (v : string) : Prop :=
  (ts = 1440%Z /\ In v ["t_min"; "t_max"; "t_day"; "prec"; "vapor_pressure"; "shortwave"; "tskc"; "pet";
                         "wind"; "daylength"]) \/
  (ts <> 1440%Z /\ In v ["temp"; "prec"; "shortwave"; "vapor_pressure"; "air_pressure"; "rel_humid";
                          "spec_humid"; "longwave"; "tskc"; "wind"]).
Definition filled (s : option string) : Prop := exists x, s = Some x /\ x <> "".
Definition requirements (s : setup) : list (string * Prop) :=
  [("Requires input forcings to be specified", v_forcing s <> []);
   ("Requires at least one non-constant forcing", v_forcing_vars s <> []);
   ("Cannot have empty value for out_dir", filled (v_out_dir s));
   ("Cannot have empty value for forcing_fmt", filled (v_forcing_fmt s));
   ("Time step must be evenly divisible into 1440",
     (1440 mod v_time_step s = 0)%Z /\ ((v_time_step s <= 360)%Z \/ v_time_step s = 1440%Z));
   ("Input requires t_min", In "t_min" (v_met_vars s));
   ("Input requires t_max", In "t_max" (v_met_vars s));
   ("Input requires prec", In "prec" (v_met_vars s));
   ("Output variable list must not be empty", v_out_vars s <> [])] ++
  map (fun v => (append "Cannot output variable " v, outputs_at (v_time_step s) v)) (v_out_vars s) ++
  [("Invalid option given for out_precision", v_out_precision s = "f4" \/ v_out_precision s = "f8");
   ("Invalid option given for lw_cloud", In (v_lw_cloud s) ["default"; "cloud_deardorff"]);
   ("Invalid option given for lw_type",
     In (v_lw_type s) ["default"; "tva"; "anderson"; "brutsaert"; "satterlund"; "idso"; "prata"])].
