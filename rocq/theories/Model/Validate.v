(** [MetSim._validate_setup], metsim/metsim.py:620-684 *)
From Coq Require Import ZArith String List Bool.
From Verif Require Import Model.Py.
Import ListNotations.
Local Open Scope string_scope.
Local Open Scope list_scope.

(** what the check reads from the configuration *)
Record setup := mksetup {
  v_forcing : list string;           (* params.get('forcing', []) *)
  v_forcing_vars : list string;      (* keys of params.get('forcing_vars', []) *)
  v_out_dir : option string;         (* None = missing or None *)
  v_forcing_fmt : option string;
  v_time_step : Z;                   (* int(params['time_step']) *)
  v_met_vars : list string;          (* self.met_data.variables *)
  v_out_vars : list string;
  v_out_precision : string;
  v_lw_cloud : string;
  v_lw_type : string }.

Definition check (b : bool) (msg : string) : list string := if b then [] else [msg].
Definition nonempty {A} (l : list A) : bool := match l with [] => false | _ => true end.
Definition present (s : option string) : bool :=
  match s with None => false | Some x => negb (x =? "") end.

Definition sub_daily_out : list string :=                        (* :662-664 *)
  ["temp"; "prec"; "shortwave"; "vapor_pressure"; "air_pressure"; "rel_humid";
   "spec_humid"; "longwave"; "tskc"; "wind"].
Definition daily_out : list string :=                            (* :660-661 *)
  ["t_min"; "t_max"; "t_day"; "prec"; "vapor_pressure"; "shortwave"; "tskc"; "pet";
   "wind"; "daylength"].
Definition out_var_check (ts : Z) : list string :=
  if (ts =? 1440)%Z then daily_out else sub_daily_out.           (* :665 *)

(** the time step test of :641-643; Python's % has the sign of the divisor,
    like Z.modulo.  (1440 % 0 raises ZeroDivisionError.) *)
Definition time_step_rejected (ts : Z) : bool :=
  negb (1440 mod ts =? 0)%Z || ((360 <? ts)%Z && negb (ts =? 1440)%Z).

Definition validate_setup (s : setup) : res unit :=
  if (v_time_step s =? 0)%Z then Err ZeroDivisionError
  else
    let errs :=
      check (nonempty (v_forcing s)) "Requires input forcings to be specified"
      ++ check (nonempty (v_forcing_vars s)) "Requires at least one non-constant forcing"
      ++ check (present (v_out_dir s)) "Cannot have empty value for out_dir"
      ++ check (present (v_forcing_fmt s)) "Cannot have empty value for forcing_fmt"
      ++ check (negb (time_step_rejected (v_time_step s))) "Time step must be evenly divisible into 1440"
      ++ flat_map (fun v => check (str_in v (v_met_vars s)) (append "Input requires " v))
                  ["t_min"; "t_max"; "prec"]
      ++ check (nonempty (v_out_vars s)) "Output variable list must not be empty"
      ++ flat_map (fun v => check (str_in v (out_var_check (v_time_step s)))
                                  (append "Cannot output variable " v)) (v_out_vars s)
      ++ check (str_in (v_out_precision s) ["f4"; "f8"]) "Invalid option given for out_precision"
      ++ check (str_in (v_lw_cloud s) ["default"; "cloud_deardorff"]) "Invalid option given for lw_cloud"
      ++ check (str_in (v_lw_type s) ["default"; "tva"; "anderson"; "brutsaert"; "satterlund";
                                      "idso"; "prata"]) "Invalid option given for lw_type" in
    match errs with [] => Ok tt | _ => Err (SetupError errs) end.
