(** Vocabulary for statements about the writing phase. *)
From Coq Require Import List Arith.
From Verif Require Import Model.Machine.

Section W.
Context {cell value : Type} (S : system cell value).

(** no two workers own the same point of a file *)
Definition disjoint_owners : Prop :=
  forall w w' f v c x y, w < nworkers S -> w' < nworkers S ->
    payload S w f v c = Some x -> payload S w' f v c = Some y -> w = w'.

(** the finished content of a point: the series of its owner, or still
    unwritten when nobody owns it *)
Definition point_correct (s : state cell value) (f v : nat) (c : cell) : Prop :=
  (forall w x, w < nworkers S -> payload S w f v c = Some x -> disk s f v c = Some x) /\
  ((forall w, w < nworkers S -> payload S w f v c = None) -> disk s f v c = None).

(** states reachable after the files were set up over an arbitrary old
    directory content *)
Definition reachable (s : state cell value) : Prop := exists old n, exec S n (start S old) s.
End W.
