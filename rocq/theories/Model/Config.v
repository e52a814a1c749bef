(** metsim/io.py:38-163: configuration files *)
From Coq Require Import ZArith String Ascii List Bool.
From Verif Require Import Model.Py.
Import ListNotations.
Local Open Scope string_scope.

(** [_invert_dict], io.py:38-39 *)
Definition invert_dict (d : dict string) : dict string :=
  dict_of (map (fun kv => (snd kv, fst kv)) d).

(** [check_config_type], io.py:46-59.  The file is the list of its lines
    (readline returns "" at the end of the file). *)
Fixpoint first_line (lines : list string) : string :=
  match lines with
  | [] => ""
  | l :: r => if starts_with "#" (strip l) then first_line r else l
  end.

Definition check_config_type (lines : list string) : string :=
  let line := strip (before_char "#" (first_line lines)) in
  if line =? "[MetSim]" then "ini"
  else if line =? "MetSim:" then "yaml"
  else "ini".

(** values of a parameter dictionary *)
Inductive pval := PStr (s : string) | PBool (b : bool).

(** INI booleans, io.py:129-134.  At this point every value of the section
    is a string. *)
Definition ini_bool (conf : dict pval) (k : string) : dict pval :=
  match dict_get conf k with
  | Some (PStr v) => dict_set conf k (PBool (String.eqb (lower (strip v)) "true"))
  | _ => dict_set conf k (PBool false)
  end.
Definition ini_bools (conf : dict string) : dict pval :=
  fold_left ini_bool ["utc_offset"; "period_ending"]
            (map (fun kv => (fst kv, PStr (snd kv))) conf).
