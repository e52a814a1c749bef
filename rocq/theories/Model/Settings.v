(** metsim/io.py:62-161: from a parsed configuration file to the
    parameters of a MetSim object ([read_yaml_config], [read_ini_config]).

    The file has been parsed by yaml or configparser; keys are texts, and
    so are the names of variables in files.  Parameters of the
    definitions: the regular files of a directory ([list_dir], [None] = not
    a directory), os.path.abspath and json.loads for a list of texts. *)
From Coq Require Import ZArith QArith String Ascii List Bool.
From Verif Require Import Model.Py Model.Units Model.Config Model.Globals.
Import ListNotations.
Local Open Scope string_scope.
Local Open Scope list_scope.

(** values of a configuration file *)
Inductive cval :=
| CText (s : string) | CInt (z : Z) | CFloat (q : Q) | CBool (b : bool) | CNone | CDate (day : Z)
| CList (l : list cval)
| CMap (m : list (string * cval)).

Record cli := mk_cli { cl_scheduler : string; cl_workers : Z; cl_verbose : bool }.

(** logging.DEBUG and logging.INFO *)
Definition log_level (verbose : bool) : cval := CInt (if verbose then 10 else 20).

(** OrderedDict(v): a mapping, or a sequence of pairs *)
Definition as_pair (v : cval) : res (string * cval) :=
  match v with
  | CList [CText k; x] => Ok (k, x)
  | CText (String a (String b EmptyString)) => Ok (String a EmptyString, CText (String b EmptyString))
  | CText _ | CList _ | CMap _ => Err ValueError
  | _ => Err TypeError
  end.
Definition as_map (v : cval) : res (dict cval) :=
  match v with
  | CMap m => Ok m
  | CList l => do ps <- mapM as_pair l; Ok (dict_of ps)
  | CText "" => Ok []
  | CText _ => Err ValueError
  | _ => Err TypeError
  end.

Definition section (doc : dict cval) (name : string) : res (dict cval) :=
  do v <- dict_getitem doc name; as_map v.

(** [_invert_dict] of a section whose values are names *)
Definition invert (m : dict cval) : res (dict cval) :=
  do l <- mapM (fun kv => match snd kv with CText n => Ok (n, CText (fst kv)) | _ => Err TypeError end) m;
  Ok (dict_of l).

(** os.path.join of a directory and a file name *)
Fixpoint ends_slash (s : string) : bool :=
  match s with
  | EmptyString => false
  | String c EmptyString => Ascii.eqb c "/"
  | String _ r => ends_slash r
  end.
Definition path_join (dir fn : string) : string :=
  if ends_slash dir then append dir fn else append dir (append "/" fn).

Definition is_empty_list (v : cval) : bool := match v with CList [] => true | _ => false end.
(** io.py:103, :160 *)
Definition drop_empty (conf : dict cval) : dict cval :=
  filter (fun kv => negb (is_empty_list (snd kv))) conf.

Definition get_or (conf : dict cval) (k : string) (v : cval) : cval :=
  match dict_get conf k with Some x => x | None => v end.

Section Settings.
  Variable list_dir : string -> option (list string).
  Variable abspath : string -> string.
  Variable parse_list : string -> res (list string).

  (** io.py:88-93, :121-126.  isdir of a number asks about an open file; no
      file is open. *)
  Definition forcing_files (v : cval) : res cval :=
    match v with
    | CText f => Ok (match list_dir f with
                     | Some fs => CList (map (fun fn => CText (path_join f fn)) fs)
                     | None => CText f end)
    | CInt _ | CBool _ => Ok v
    | _ => Err TypeError
    end.
  Definition absolute (v : cval) : res cval :=
    match v with CText d => Ok (CText (abspath d)) | _ => Err TypeError end.

  (** the entries of out_vars, io.py:80-83: 'units' in v is a test for a
      key, an element or a part of a text *)
  Definition has_units (v : cval) : res bool :=
    match v with
    | CMap m => Ok (dict_mem m "units")
    | CList l => Ok (existsb (fun x => match x with CText t => String.eqb t "units" | _ => false end) l)
    | CText t => Ok (match index 0 "units" t with Some _ => true | None => false end)
    | _ => Err TypeError
    end.
  Definition yaml_entry (h : heap) (kv : string * cval) : res (string * cval) :=
    do given <- has_units (snd kv);
    if (given : bool) then Ok kv
    else do u <- avail_units h (fst kv);
         match snd kv with
         | CMap m => Ok (fst kv, CMap (dict_set m "units" (CText u)))
         | _ => Err TypeError
         end.

  (** [read_yaml_config], io.py:72-104 *)
  Definition read_yaml (h : heap) (doc : dict cval) (o : cli) : res (dict cval) :=
    do conf <- section doc "MetSim";
    do fv <- (do s <- section doc "forcing_vars"; invert s);
    let conf := dict_set conf "forcing_vars" (CMap fv) in
    do dv <- (do s <- section doc "domain_vars"; invert s);
    let conf := dict_set conf "domain_vars" (CMap dv) in
    do sv <- (do s <- section doc "state_vars"; invert s);
    let conf := dict_set conf "state_vars" (CMap sv) in
    do ov <- (do s <- section doc "out_vars"; mapM (yaml_entry h) s);
    let conf := dict_set conf "out_vars" (CMap ov) in
    do ch <- section doc "chunks";
    let conf := dict_set conf "chunks" (CMap ch) in
    do conf <- (if dict_mem doc "constant_vars"
                then do cv <- section doc "constant_vars"; Ok (dict_set conf "constant_vars" (CMap cv))
                else Ok conf);
    do files <- (do f <- dict_getitem conf "forcing"; forcing_files f);
    do out <- (do d <- dict_getitem conf "out_dir"; absolute d);
    let conf := dict_update conf
      [("calendar", get_or conf "calendar" (CText "standard"));
       ("scheduler", CText (cl_scheduler o)); ("num_workers", CInt (cl_workers o));
       ("verbose", log_level (cl_verbose o)); ("forcing", files); ("out_dir", out)] in
    Ok (drop_empty conf).

  (** INI values are texts *)
  Definition texts_map (m : dict string) : dict cval := map (fun kv => (fst kv, CText (snd kv))) m.
  Definition ini_truth (conf : dict cval) (k : string) : dict cval :=
    match dict_get conf k with
    | Some (CText v) => dict_set conf k (CBool (String.eqb (lower (strip v)) "true"))
    | _ => dict_set conf k (CBool false)
    end.

  (** [read_ini_config], io.py:107-161.  out_vars is returned as references
      to the shared entries, with the heap after renaming. *)
  Definition read_ini (h : heap) (doc : dict (dict string)) (o : cli) : res (dict cval * (heap * dict ref)) :=
    do conf <- (do m <- dict_getitem doc "MetSim"; Ok (texts_map m));
    do fv <- dict_getitem doc "forcing_vars";
    do fmt <- dict_getitem conf "forcing_fmt";
    let conf := dict_set conf "forcing_vars"
                  (CMap (texts_map (match fmt with CText f => if String.eqb f "binary" then fv else invert_dict fv
                                         | _ => invert_dict fv end))) in
    do dv <- dict_getitem doc "domain_vars";
    let conf := dict_set conf "domain_vars" (CMap (texts_map (invert_dict dv))) in
    do sv <- dict_getitem doc "state_vars";
    let conf := dict_set conf "state_vars" (CMap (texts_map (invert_dict sv))) in
    do ch <- dict_getitem doc "chunks";
    let conf := dict_set conf "chunks" (CMap (texts_map ch)) in
    let conf := match dict_get doc "constant_vars" with
                | Some cv => dict_set conf "constant_vars" (CMap (texts_map cv))
                | None => conf end in
    do files <- (do f <- dict_getitem conf "forcing"; forcing_files f);
    let conf := fold_left ini_truth ["utc_offset"; "period_ending"] conf in
    do out <- (do d <- dict_getitem conf "out_dir"; absolute d);
    let conf := dict_update conf
      [("calendar", get_or conf "calendar" (CText "standard"));
       ("scheduler", CText (cl_scheduler o)); ("num_workers", CInt (cl_workers o));
       ("verbose", log_level (cl_verbose o)); ("forcing", files); ("out_dir", out);
       ("prec_type", get_or conf "prec_type" (CText "uniform"))] in
    do names <- (match dict_get conf "out_vars" with
                 | Some (CText t) => parse_list t
                 | _ => Ok [] end);
    do hr <- read_ini_out_vars h names (match dict_get doc "out_vars" with Some m => m | None => [] end);
    (* conf['out_vars'] is a dictionary from here on *)
    Ok (drop_empty (filter (fun kv => negb (String.eqb (fst kv) "out_vars")) conf), hr).
End Settings.
