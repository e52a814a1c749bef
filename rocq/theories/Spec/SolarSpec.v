(** Sun and daylight, from the formulas of the geometry alone. *)
From Coq Require Import ZArith Reals List.
From Verif Require Import Model.Constants Model.Physics.
Import ListNotations.
Local Open Scope R_scope.

(** sine of the elevation of the sun at hour angle h (0 at noon), latitude
    in degrees, table row i *)
Definition sun (lat : R) (i : nat) (h : R) : R :=
  cos (lat * RAD_PER_DEG) * cos (sg_decl i) * cos h + sin (lat * RAD_PER_DEG) * sin (sg_decl i).

Definition polar_night (lat : R) (i : nat) : Prop := forall h, sun lat i h <= 0.
Definition midnight_sun (lat : R) (i : nat) : Prop := 0 < sun lat i PI.

(** the 30-second steps with radiation are a..b, centred around noon *)
Definition daylight_block (row : list R) (a b : nat) : Prop :=
  (a <= b < RAD_STEPS)%nat /\ (RAD_STEPS - 1 <= a + b <= RAD_STEPS)%nat /\
  List.length row = RAD_STEPS /\
  forall j, (j < RAD_STEPS)%nat -> (0 < nth j row 0 <-> (a <= j <= b)%nat).
