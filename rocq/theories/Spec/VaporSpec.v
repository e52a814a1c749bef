(** Values of the vapor pressure of output steps. *)
From Coq Require Import Reals List Arith.
Import ListNotations.
Local Open Scope R_scope.

(** the line through (t0, v0) and (t1, v1) at time t *)
Definition on_line (t0 v0 t1 v1 t : R) : R := ((t1 - t) * v0 + (t - t0) * v1) / (t1 - t0).

(** step [j] is the first of [n] at or after the time [t0] *)
Definition first_from (n : nat) (ts t0 : R) (j : nat) : Prop :=
  (j < n)%nat /\ t0 <= ts * INR j /\ forall i, (i < j)%nat -> ts * INR i < t0.
(** step [j] is the last of [n] at or before the time [t1] *)
Definition last_until (n : nat) (ts t1 : R) (j : nat) : Prop :=
  (j < n)%nat /\ ts * INR j <= t1 /\ forall i, (j < i < n)%nat -> t1 < ts * INR i.
