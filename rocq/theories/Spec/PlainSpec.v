(** Vocabulary for statements about dimensions without coordinates. *)
From Coq Require Import ZArith Reals String List Bool.
From Verif Require Import Model.Py Model.Output Model.Unlabelled.
Import ListNotations.
Local Open Scope string_scope.
Local Open Scope list_scope.

(** the point [c] of a grid is at position [n] of the dimension [k], whose axis is [a] *)
Definition stands_at (dom : dict axis) (c : cell) (k : string) (a : axis) (n : nat) : Prop :=
  exists i, nth_error dom i = Some (k, a) /\ nth_error c i = Some n.

(** a coordinate variable has a label for every position *)
Definition whole_axis (a : axis) : Prop :=
  match ax_labels a with Some (Ints zs) => List.length zs = ax_size a | Some (Reals xs) => List.length xs = ax_size a | None => True end.

(** the number that a label is *)
Definition label_at (l : labels) (n : nat) (x : R) : Prop :=
  match l with Ints zs => exists z, nth_error zs n = Some z /\ x = IZR z | Reals xs => nth_error xs n = Some x end.

(** position [n] of the file's axis [a] is what the code takes for position
    [m] of the domain's axis [d] *)
Definition taken (d : axis) (m : nat) (a : axis) (n : nat) : Prop :=
  match ax_labels d, ax_labels a with
  | Some want, Some have => exists x, label_at want m x /\ label_at have n x           (* the same label *)
  | None, None => n = m                                                               (* the same position *)
  | None, Some have => label_at have n (INR m)                                        (* the label is the position *)
  | Some (Ints zs), None =>                                                           (* the position is the label *)
      exists z, nth_error zs m = Some z /\ (Z.of_nat n = z \/ (z < 0 /\ Z.of_nat n = Z.of_nat (ax_size a) + z)%Z)
  | Some (Reals _), None => False
  end.

(** no dimension has labels *)
Definition bare (axes : dict axis) : Prop := forall k a, In (k, a) axes -> ax_labels a = None.

(** ** material for examples *)

(** three rows by two columns, numbered *)
Definition numbered : cell -> nat := fun p => match p with [i; j] => (10 * i + j)%nat | _ => 99%nat end.
Definition bare_axes : dict axis := [("lat", mk_axis 3 None); ("lon", mk_axis 2 None)].
Definition bare_file : plain nat := mk_plain bare_axes numbered.
(** the rows at whole degrees around the equator *)
Definition degree_axes : dict axis := [("lat", mk_axis 3 (Some (Ints [-1; 0; 1]%Z))); ("lon", mk_axis 2 None)].
(** the rows of the file from north to south *)
Definition falling_file : plain nat :=
  mk_plain [("lat", mk_axis 3 (Some (Reals [2; 1; 0]%R))); ("lon", mk_axis 2 None)] numbered.
