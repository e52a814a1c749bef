(** Vocabulary for the description part of the output files. *)
From Coq Require Import ZArith QArith String Ascii List Bool.
From Verif Require Import Model.Py Model.Calendar Model.Datetime Model.Output Model.Header.
Import ListNotations.
Local Open Scope string_scope.
Local Open Scope list_scope.

(** ** Time *)

(** number of a date in a calendar *)
Definition day_number (c : calendar) (d : civil) : res Z :=
  match c with Standard => Ok (days_from_civil d) | Fixed k => fixed_day_num k d end.

(** [n] minutes since 2000-01-01 of the calendar are minute [m] of date [d] *)
Definition denotes (c : calendar) (n : Z) (d : civil) (m : Z) : Prop :=
  (0 <= m < 1440)%Z /\ exists a b, day_number c (mkcivil 2000 1 1) = Ok a /\ day_number c d = Ok b /\
  n = ((b - a) * 1440 + m)%Z.

(** time stamps pandas can hold (64 bit nanoseconds) *)
Definition pandas_stamp (t : Z) : Prop := (-153722867 <= t <= 153722867)%Z.
Definition int32 (n : Z) : Prop := (-2147483648 <= n <= 2147483647)%Z.

(** ** Names *)
Definition all_names (i : header_in) : list string :=
  map snd (hi_outputs i) ++ "time" :: keys (hi_dims i).

(** ** Recorded parameters *)
Definition not_recorded (k : string) : Prop :=
  In k ["elev"; "lat"; "lon"; "is_worker"; "out_vars"; "forcing_vars"; "domain_vars"; "state_vars";
        "constant_vars"; "references"; "verbose"; "num_workers"; "state_start"; "state_stop"; "out_freq"].

(** a text without quotes *)
Definition is_quote (c : ascii) : bool := (Ascii.eqb c "'" || Ascii.eqb c """")%bool.
Definition plain (s : string) : string :=
  string_of_list_ascii (filter (fun c => negb (is_quote c)) (list_ascii_of_string s)).

(** a list of texts, if it is one *)
Fixpoint texts (l : list (option string)) : option (list string) :=
  match l with
  | [] => Some []
  | None :: _ => None
  | Some s :: r => option_map (cons s) (texts r)
  end.

Section Shown.
  Variable py_str : pvalue -> string.

  (** how the value of a parameter appears in the file; [None]: netCDF
      cannot hold it *)
  Definition shown (k : string) (v : pvalue) : option aval :=
    if (k =? "start") || (k =? "stop") || (k =? "utc_offset") || (k =? "period_ending")
    then Some (AText (plain (py_str v)))
    else match v with
         | PvStr s => Some (AText (plain s))
         | PvDict (Some s) => Some (AText (plain s))
         | PvList l => option_map (fun ts => AText (plain (String.concat ", " ts))) (texts l)
         | PvInt z => Some (AInt z)
         | PvFloat q => Some (AFloat q)
         | _ => None
         end.

  (** everything that lets a header be written *)
  Record header_ok (p : process) (i : header_in) : Prop := {
    ho_names : NoDup (all_names i);
    ho_label : pc_label p <> None;
    ho_dates : forall t, In t (hi_times i) ->
       exists n, day_number (hi_calendar i) (civil_from_days (t / 1440)) = Ok n;
    ho_params : forall k v, dict_get (pc_params p) k = Some v -> ~ not_recorded k -> shown k v <> None;
    ho_attrs : forall k n a v, In (k, n) (hi_outputs i) -> In (a, v) (hi_var_attrs i k) -> v <> AOther }.

  (** values Python counts as false *)
  Definition counts_false (v : pvalue) : Prop :=
    v = PvStr "" \/ v = PvInt 0 \/ (exists q, v = PvFloat q /\ Qeq q 0) \/ v = PvBool false \/ v = PvNone \/
    v = PvDict (Some "{}"%string) \/ v = PvList [].

  (** what every file says about itself *)
  Definition own_attribute (history k : string) : option aval :=
    if String.eqb k "conventions" then Some (AText "1.6")
    else if String.eqb k "title" then Some (AText "Output from MetSim")
    else if String.eqb k "institution" then Some (AText "University of Washington")
    else if String.eqb k "source" then Some (AText "metsim.py")
    else if String.eqb k "history" then Some (AText history)
    else if String.eqb k "comment" then Some (AText "no comment at this time")
    else None.

  (** ** Histories of a process *)
  Inductive reached (history : string) (defaults : dict pvalue) : process -> Prop :=
  | at_start : reached history defaults (mk_process defaults (base_global history) None)
  | object_made p given load : reached history defaults p ->
      reached history defaults (fst (new_object p given load))
  | header_written p i : reached history defaults p ->
      reached history defaults (fst (write_header py_str p i)).

  (** only headers are written *)
  Inductive headers_only : process -> process -> Prop :=
  | no_header p : headers_only p p
  | one_more p q i : headers_only p q -> headers_only p (fst (write_header py_str q i)).
End Shown.
