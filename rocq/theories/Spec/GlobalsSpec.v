(** Histories of a process that creates MetSim objects and reads INI
    configurations. *)
From Coq Require Import ZArith String List Bool.
From Verif Require Import Model.Py Model.Units Model.Globals.
Import ListNotations.
Local Open Scope string_scope.
Local Open Scope list_scope.

(** an entry of out_vars is the shared entry of the same name or one of the
    user's own *)
Definition own_refs (refs : dict ref) : Prop :=
  NoDup (keys refs) /\ forall k r, In (k, r) refs -> r = RAvail k \/ r = RUser k.

(** everything a process may have done to the shared dictionaries *)
Inductive history (defaults : dict string) : heap -> Prop :=
| fresh : history defaults (initial_heap defaults)
| created h given ovs h' : history defaults h ->
    match ovs with Some (_, refs) => own_refs refs | None => True end ->
    construct h given ovs = Ok h' -> history defaults h'
| ini_read h names renames h' refs : history defaults h ->
    read_ini_out_vars h names renames = Ok (h', refs) -> history defaults h'.

(** [u] is one of the units [k] can be converted to *)
Definition supported (k u : string) : Prop := exists c, converter_for k u = Ok c.

(** the name a configuration asks for: the last rename, or the variable's *)
Definition wanted_name (renames : list (string * string)) (k : string) : string :=
  match dict_get (rev renames) k with Some n => n | None => k end.
