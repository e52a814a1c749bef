(** Vocabulary for statements about the decomposition of the grid. *)
From Coq Require Import ZArith String List Bool Arith Permutation.
From Verif Require Import Model.Py.
Import ListNotations.

(** position [i] lies in the Python slice [s] *)
Definition slice_hasb (s : pyslice) (i : nat) : bool :=
  (match sl_start s with None => true | Some a => a <=? i end)
  && (match sl_stop s with None => true | Some b => i <? b end).

(** a grid cell as a coordinate per dimension name *)
Definition in_grid (dims : list (string * nat)) (coord : string -> nat) : Prop :=
  forall d n, In (d, n) dims -> coord d < n.

(** the cell lies in the slice dictionary [ds] *)
Definition selectsb (coord : string -> nat) (ds : list (string * pyslice)) : bool :=
  forallb (fun x => slice_hasb (snd x) (coord (fst x))) ds.

(** the chunk configuration names every dimension of the mask exactly once,
    with a positive size *)
Definition covers (chunks : list (string * Z)) (dims : list (string * nat)) : Prop :=
  NoDup (map fst chunks) /\ Permutation (map fst chunks) (map fst dims) /\
  (forall d c, In (d, c) chunks -> (0 < c)%Z).

Definition positive_sizes (dims : list (string * nat)) : Prop :=
  forall d n, In (d, n) dims -> 0 < n.
