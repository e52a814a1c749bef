(** Module-level mutable dictionaries of MetSim and the code that mutates
    them: [MetSim.params] (class attribute, metsim/metsim.py:140-171, updated
    in place by every constructor at :183), [attrs] (:75-124, updated at
    :229-241) and [available_outputs] (:126-127, aliased by the default
    out_vars at :166 and by io.read_ini_config, metsim/io.py:146-160). *)
From Coq Require Import ZArith String List Bool.
From Verif Require Import Model.Py Model.Units.
Import ListNotations.
Local Open Scope string_scope.
Local Open Scope list_scope.

(** an out_vars entry {'out_name': .., 'units': ..}; 'units' may be absent *)
Record outvar := mk_outvar { ov_name : string; ov_units : option string }.

(** reference to an entry: the shared one of available_outputs, or a
    dictionary of the user's own configuration *)
Inductive ref := RAvail (n : string) | RUser (n : string).

(** the parts of the Python heap involved.  [User] entries belong to the
    configuration being used. *)
Record heap := mkheap {
  h_params : dict string;           (* MetSim.params (plain values) *)
  h_out_vars : dict ref;            (* MetSim.params['out_vars'] *)
  h_attrs : dict string;            (* attrs[k]['units'] *)
  h_avail : dict outvar;            (* available_outputs *)
  h_user : dict outvar }.

(** ** constructor, metsim.py:183: self.params is the class dictionary *)
Definition update_params (h : heap) (given : dict string) : heap :=
  mkheap (dict_update (h_params h) given) (h_out_vars h) (h_attrs h) (h_avail h) (h_user h).

(** every object reads its parameters through the class dictionary *)
Definition read_param (h : heap) (k : string) : option string := dict_get (h_params h) k.

(** ** [_update_unit_attrs], metsim.py:229-241 *)
Definition deref (h : heap) (r : ref) : res outvar :=
  match r with
  | RAvail n => dict_getitem (h_avail h) n
  | RUser n => dict_getitem (h_user h) n
  end.
Definition set_units (h : heap) (r : ref) (u : string) : heap :=
  match r with
  | RAvail n => match dict_get (h_avail h) n with
                | Some v => mkheap (h_params h) (h_out_vars h) (h_attrs h)
                              (dict_set (h_avail h) n (mk_outvar (ov_name v) (Some u))) (h_user h)
                | None => h end
  | RUser n => match dict_get (h_user h) n with
               | Some v => mkheap (h_params h) (h_out_vars h) (h_attrs h) (h_avail h)
                             (dict_set (h_user h) n (mk_outvar (ov_name v) (Some u)))
               | None => h end
  end.
Definition set_attr (h : heap) (k u : string) : heap :=
  mkheap (h_params h) (h_out_vars h) (dict_set (h_attrs h) k u) (h_avail h) (h_user h).

(** available_outputs[k]['units'] *)
Definition avail_units (h : heap) (k : string) : res string :=
  do v <- dict_getitem (h_avail h) k;
  match ov_units v with Some u => Ok u | None => Err KeyError end.

Definition update_unit_attr (h : heap) (kr : string * ref) : res heap :=
  let (k, r) := kr in
  do v <- deref h r;
  match ov_units v with
  | Some u =>
      do cs <- dict_getitem converters k;
      if dict_mem cs u then
        if dict_mem (h_attrs h) k then Ok (set_attr h k u) else Err KeyError
      else do d <- avail_units h k; Ok (set_units h r d)
  | None => do d <- avail_units h k; Ok (set_units h r d)
  end.

Fixpoint update_unit_attrs (h : heap) (ovs : list (string * ref)) : res heap :=
  match ovs with
  | [] => Ok h
  | kr :: rest => do h' <- update_unit_attr h kr; update_unit_attrs h' rest
  end.

(** the constructor as far as these dictionaries go, metsim.py:183 and :226.
    [ovs]: the out_vars of the given parameters with the dictionaries of its
    own it may hold; without one the class dictionary keeps its last value *)
Definition construct (h : heap) (given : dict string) (ovs : option (dict outvar * dict ref))
  : res heap :=
  let h := match ovs with
           | Some (user, refs) => mkheap (dict_update (h_params h) given) refs (h_attrs h) (h_avail h) user
           | None => update_params h given
           end in
  update_unit_attrs h (h_out_vars h).

(** unit whose conversion is applied to a variable, metsim.py:490-492 *)
Definition applied_units (h : heap) (k : string) : res string :=
  do r <- dict_getitem (h_out_vars h) k;
  do v <- deref h r;
  match ov_units v with Some u => Ok u | None => Err KeyError end.
(** units attribute written to the file, metsim.py:433-436 *)
Definition recorded_units (h : heap) (k : string) : res string := dict_getitem (h_attrs h) k.

(** default_outputs, metsim.py:128-129 *)
Definition default_outputs : list string :=
  ["temp"; "prec"; "shortwave"; "longwave"; "vapor_pressure"; "rel_humid"].

(** state of a fresh process *)
Definition initial_heap (params : dict string) : heap :=
  mkheap params
         (map (fun n => (n, RAvail n)) default_outputs)
         default_units
         (map (fun nu => (fst nu, mk_outvar (fst nu) (Some (snd nu)))) default_units)
         [].

(** ** out_vars of [read_ini_config], io.py:146-160.  [names]: the list
    variant; [renames]: the [out_vars] section (dict variant). *)
Definition set_out_name (h : heap) (n out : string) : heap :=
  match dict_get (h_avail h) n with
  | Some v => mkheap (h_params h) (h_out_vars h) (h_attrs h)
                (dict_set (h_avail h) n (mk_outvar out (ov_units v))) (h_user h)
  | None => h
  end.

Fixpoint ini_renames (h : heap) (renames : list (string * string)) : res heap :=
  match renames with
  | [] => Ok h
  | (n, out) :: r =>
      do _ <- dict_getitem (h_avail h) n;
      ini_renames (set_out_name h n out) r
  end.

Definition read_ini_out_vars (h : heap) (names : list string) (renames : list (string * string))
  : res (heap * dict ref) :=
  do _ <- mapM (fun n => dict_getitem (h_avail h) n) names;
  do h' <- ini_renames h renames;
  Ok (h', dict_of (map (fun n => (n, RAvail n)) (names ++ map fst renames))).

(** the names a configuration's outputs get in the file *)
Definition out_names (h : heap) (ovs : dict ref) : res (dict string) :=
  mapM (fun kr => do v <- deref h (snd kr); Ok (fst kr, ov_name v)) ovs.
