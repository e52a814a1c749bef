(** metsim/metsim.py:278-284 and 301-307 with the storage type of the
    variables: what is copied or made like another variable keeps its
    storage type, and assigning to whole numbers cuts off the fraction. *)
From Coq Require Import ZArith Reals String List Bool.
From Verif Require Import Model.Py Model.Fl Model.Calendar Model.State.
Import ListNotations.
Local Open Scope string_scope.
Local Open Scope list_scope.

Inductive kind := KFloat | KInt.

(** numpy assignment of a float to an element of the storage type;
    [nan_as] is the whole number the platform makes of NaN *)
Definition cast (nan_as : Z) (k : kind) (v : fl) : fl :=
  match k with
  | KFloat => v
  | KInt => Some (IZR (match v with Some x => Rtrunc x | None => nan_as end))
  end.

(** a variable over points (time, cell) *)
Record kvar (P : Type) := mk_kvar { kv_kind : kind; kv_at : P -> fl }.
Arguments mk_kvar {P}.
Arguments kv_kind {P}.
Arguments kv_at {P}.

(** constant variables, metsim.py:301-307; the template is the first
    variable of the forcing, looked up before the loop (:304), and
    [xr.full_like] keeps its storage type (:306-307) *)
Definition apply_constants_kinds {P : Type} (nan_as : Z) (met : dict (kvar P)) (consts : dict R)
  : res (dict (kvar P)) :=
  match consts with
  | [] => Ok met
  | _ :: _ =>
    match met with
    | [] => Err IndexError
    | (_, template) :: _ =>
      Ok (fold_left (fun m kc =>
                       dict_set m (fst kc)
                         (mk_kvar (kv_kind template) (fun _ => cast nan_as (kv_kind template) (Some (snd kc)))))
                    consts met)
    end
  end.

(** [convert_monthly_param], metsim.py:278-284, for one cell: the variable
    is a copy of 'prec' (:279) and the assignment of the table (:284) goes
    through the storage type of 'prec' *)
Definition convert_monthly_kinds (nan_as : Z) (k : kind) (param : list (Z * fl)) (days : list Z)
  (prec : list fl) : res (list fl) :=
  convert_monthly_param (map (fun mv => (fst mv, cast nan_as k (snd mv))) param) days prec.
