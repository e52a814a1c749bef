(** metsim/io.py:213-261, :324-337, :362-368: forcing in the formats of VIC,
    with the names of its variables, from the settings of a configuration. *)
From Coq Require Import ZArith Reals String Ascii List Bool Arith.
From Verif Require Import Model.Py Model.Fl Model.Reader Model.Settings.
Import ListNotations.
Local Open Scope string_scope.
Local Open Scope list_scope.

(** str.split(): the words of a text *)
Fixpoint words_from (s cur : string) : list string :=
  match s with
  | EmptyString => match cur with EmptyString => [] | _ => [string_rev cur] end
  | String c r =>
      if is_space c
      then match cur with EmptyString => words_from r EmptyString | _ => string_rev cur :: words_from r EmptyString end
      else words_from r (String c cur)
  end.
Definition words (s : string) : list string := words_from s EmptyString.

(** ** [read_binary]: the entries of var_dict, io.py:335-337.
    [parse_float]: float() of a text, [None] = ValueError *)
Definition scale_of (parse_float : string -> option R) (s : string) : res R :=
  match words s with
  | [] => Err IndexError
  | w :: _ => match parse_float w with Some x => Ok x | None => Err ValueError end
  end.
Definition type_of (s : string) : res bool :=
  match rev (words s) with
  | [] => Err IndexError
  | w :: _ => if String.eqb w "signed" then Ok true
              else if String.eqb w "unsigned" then Ok false else Err KeyError
  end.
Definition bin_vars (parse_float : string -> option R) (m : dict string) : res (list bin_var) :=
  do scales <- mapM (scale_of parse_float) (values m);
  do types <- mapM type_of (values m);
  Ok (map (fun st => mk_bin_var (fst st) (snd st)) (combine scales types)).

(** the variables of the resulting dataset *)
Definition read_binary_named (parse_float : string -> option R) (bytes : list Z) (m : dict string) (n_days : nat)
  : res (dict (list fl)) :=
  do vars <- bin_vars parse_float m;
  do cols <- read_binary bytes vars n_days;
  Ok (combine (keys m) (map (map Some) cols)).

(** ** [read_ascii], io.py:252-261.  [rows]: the lines of the file.  When the
    first line is wider than [names], pandas takes its leading columns as
    the index; columns that are not there are NaN.  An empty file gives
    EmptyDataError, a ValueError; so does [ds.index = dates] for another
    number of lines. *)
Definition surplus (rows : list (list fl)) (names : list string) : nat :=
  match rows with [] => 0%nat | r :: _ => (List.length r - List.length names)%nat end.

Definition read_ascii (rows : list (list fl)) (names : list string) (n_days : nat) : res (dict (list fl)) :=
  match rows with
  | [] => Err ValueError
  | _ =>
      let head := firstn n_days rows in
      if (List.length head =? n_days)%nat
      then Ok (map (fun iv => (snd iv, map (fun r => nth (surplus rows names + fst iv) r None) head))
                   (combine (seq 0 (List.length names)) names))
      else Err ValueError
  end.

(** ** [process_vic] with the settings, io.py:213-249 *)

(** iterating over params['forcing']: a text is iterated by character *)
Fixpoint characters (s : string) : list string :=
  match s with EmptyString => [] | String c r => String c EmptyString :: characters r end.
Definition as_text_value (v : cval) : res string :=
  match v with CText s => Ok s | _ => Err TypeError end.
Definition vic_jobs (v : cval) : res (list string) :=
  match v with
  | CText s => Ok (characters s)
  | CList l => mapM as_text_value l
  | _ => Err TypeError
  end.

(** params['forcing_vars'] of a configuration *)
Definition vic_names (v : cval) : res (dict string) :=
  match v with
  | CMap m => mapM (fun kv => do s <- as_text_value (snd kv); Ok (fst kv, s)) m
  | _ => Err TypeError
  end.

Section Vic.
  Variable parse_float : string -> option R.
  Variable bytes_of_file : string -> list Z.
  Variable lines_of_file : string -> list (list fl).

  (** read_funcs[params['forcing_fmt']] *)
  Definition read_vic (fmt : string) (m : dict string) (n_days : nat) (job : string) : res (dict (list fl)) :=
    if String.eqb fmt "binary" then read_binary_named parse_float (bytes_of_file job) m n_days
    else read_ascii (lines_of_file job) (keys m) n_days.

  Definition vic_forcing (dom : vic_domain) (n_days : nat) (conf : dict cval) : res (met_grid (dict (list fl))) :=
    do fmt <- (do v <- dict_getitem conf "forcing_fmt"; as_text_value v);
    do m <- (do v <- dict_getitem conf "forcing_vars"; vic_names v);
    do jobs <- (do v <- dict_getitem conf "forcing"; vic_jobs v);
    process_vic parse_float dom (read_vic fmt m n_days) jobs.
End Vic.

(** the columns of a cell: NaN unless something was read, io.py:231-233 *)
Definition vic_cell (names : list string) (n_days : nat) (g : met_grid (dict (list fl))) (i j : nat) : dict (list fl) :=
  match g i j with
  | Some d => d
  | None => map (fun k => (k, repeat (None : fl) n_days)) names
  end.
