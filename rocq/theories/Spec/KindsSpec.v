(** Whole numbers, for C123. *)
From Coq Require Import ZArith Reals.
Local Open Scope R_scope.

Definition whole (x : R) : Prop := exists z : Z, x = IZR z.

(** [y] is [x] with its fraction cut off *)
Definition cut_off (x y : R) : Prop :=
  whole y /\ Rabs (x - y) < 1 /\ (0 <= x -> 0 <= y <= x) /\ (x <= 0 -> x <= y <= 0).
