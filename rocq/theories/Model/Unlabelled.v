(** Datasets whose dimensions have no coordinates: the sequential coordinates
    of a domain (metsim/io.py:283-290) and what the selection by coordinates
    (io.py:279-282) does along a dimension without labels. *)
From Coq Require Import ZArith Reals String List Bool Arith.
From Verif Require Import Model.Py Model.Reader Model.Output Model.Align.
Import ListNotations.
Local Open Scope string_scope.
Local Open Scope list_scope.

(** the labels of a coordinate variable, by their type in the file *)
Inductive labels := Ints (l : list Z) | Reals (l : list R).

(** labels are compared as numbers *)
Definition reals (l : labels) : list R :=
  match l with Ints zs => map IZR zs | Reals xs => xs end.

(** a dimension: its size, and its labels if it has a coordinate variable *)
Record axis := mk_axis { ax_size : nat; ax_labels : option labels }.

(** ** read_domain: ds[d] = np.arange(0, len(ds[d])), io.py:284-290 *)
Definition number_axis (a : axis) : labels :=
  match ax_labels a with
  | Some l => l
  | None => Ints (map Z.of_nat (seq 0 (ax_size a)))
  end.

Definition number_axes (dom : dict axis) : dict labels := map (fun a => (fst a, number_axis (snd a))) dom.

Definition label_reals (dom : dict labels) : dict (list R) := map (fun a => (fst a, reals (snd a))) dom.

(** the domain of a worker: isel keeps the type of the labels *)
Definition take_labels (ps : list nat) (l : labels) : labels :=
  match l with
  | Ints zs => Ints (map (fun i => nth i zs 0%Z) ps)
  | Reals xs => Reals (map (fun i => nth i xs 0%R) ps)
  end.

Definition slice_labels (dom : dict labels) (ds : dict pyslice) : dict labels :=
  map (fun ar => (fst (fst ar), take_labels (snd ar) (snd (fst ar))))
      (combine dom (axes_ranges (label_reals dom) ds)).

(** ** ds.sel along a dimension without an index: xarray uses the labels as
    positions.  They must be integers (TypeError); negative ones count from
    the end; IndexError outside of the dimension. *)
Definition as_position (n : nat) (z : Z) : res nat :=
  let n := Z.of_nat n in
  if ((0 <=? z) && (z <? n))%Z then Ok (Z.to_nat z)
  else if ((- n <=? z) && (z <? 0))%Z then Ok (Z.to_nat (n + z))
  else Err IndexError.

Definition as_positions (n : nat) (l : labels) : res (list nat) :=
  match l with
  | Ints zs => mapM (as_position n) zs
  | Reals _ => Err TypeError
  end.

(** one axis of the forcing: the selected positions and the labels of the result *)
Definition sel_any (dom : dict labels) (a : string * axis) : res (list nat * (string * list R)) :=
  match dict_get dom (fst a) with
  | Some want =>
      do ps <- match ax_labels (snd a) with
               | Some have => positions (reals have) (reals want)
               | None => as_positions (ax_size (snd a)) want
               end;
      Ok (ps, (fst a, reals want))
  | None => Ok (seq 0 (ax_size (snd a)), (fst a, reals (number_axis (snd a))))
  end.

(** a forcing or state file *)
Record plain (V : Type) := mk_plain { pl_axes : dict axis; pl_at : cell -> V }.
Arguments mk_plain {V} _ _.
Arguments pl_axes {V} _.
Arguments pl_at {V} _ _.

Definition sel_plain {V} (ds : plain V) (dom : dict labels) : res (nc V) :=
  do pa <- mapM (sel_any dom) (pl_axes ds);
  Ok (mk_nc (map snd pa) (fun c => pl_at ds (globalize (map fst pa) c))).

(** what the worker of slice [sl] finds for its local cell [l] *)
Definition plain_cell {V} (ds : plain V) (dom : dict axis) (sl : dict pyslice) (l : cell) : res V :=
  do sub <- sel_plain ds (slice_labels (number_axes dom) sl);
  isel_met sub (locs_of (label_reals (number_axes dom)) l).
