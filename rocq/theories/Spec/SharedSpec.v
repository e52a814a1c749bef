(** Vocabulary for statements about files that several groups share. *)
From Coq Require Import ZArith String List Bool Arith.
From Verif Require Import Model.Machine Model.Shared.
Import ListNotations.

(** [x] is what the last of the first [n] groups writes that has the file
    [f] and something for the point; [None] if there is none *)
Definition last_written {cell value} (S : system cell value) (name_of : nat -> nat) (w n f v : nat) (c : cell) (x : option value) : Prop :=
  (exists t y, t < n /\ name_of t = f /\ payload S w t v c = Some y /\ x = Some y /\
     forall t', t < t' -> t' < n -> name_of t' = f -> payload S w t' v c = None) \/
  (x = None /\ forall t, t < n -> name_of t = f -> payload S w t v c = None).

(** each point is written by one worker at most *)
Definition owned {cell value} (S : system cell value) (owner : cell -> nat) : Prop :=
  forall w t v c x, w < nworkers S -> payload S w t v c = Some x -> w = owner c.

(** an execution with [m] steps of workers *)
Inductive takes {cell value} (S : system cell value) (name_of : nat -> nat) : nat -> state cell value -> state cell value -> Prop :=
| takes_refl : forall s, takes S name_of 0 s s
| takes_step : forall m s w s' s'', takes S name_of m s s' -> step_named S name_of s' w = Some s'' -> takes S name_of (m + 1) s s''
| takes_flush : forall m s s' s'', takes S name_of m s s' -> flush_named S name_of s' s'' -> takes S name_of m s s''.
