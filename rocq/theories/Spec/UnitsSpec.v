(** What the unit names mean, and evenly spaced axes. *)
From Coq Require Import ZArith Reals String List Bool QArith.
From Verif Require Import Model.Py Model.Fl.
Import ListNotations.
Local Open Scope string_scope.
Local Open Scope R_scope.

(** the physical quantity denoted by the number x with a unit, in SI units
    (K, Pa, mm/s, fractions), for values of time steps of [ts] minutes *)
Definition si (unit : string) (ts x : R) : R :=
  if unit =? "mm timestep-1" then x / (ts * 60)
  else if unit =? "mm h-1" then x / 3600
  else if unit =? "C" then x + 273.15
  else if unit =? "hPa" then x * 100
  else if unit =? "kPa" then x * 1000
  else if unit =? "%" then x / 100
  else x.

(** depth in mm that a value with a unit means for one step *)
Definition depth (unit : string) (ts : R) (x : R) : R :=
  if unit =? "mm timestep-1" then x
  else if unit =? "mm h-1" then x * (ts / 60)
  else x * (ts * 60).

(** start, start + step, ... *)
Definition evenly (l : list Q) (start step : Z) : Prop :=
  forall k x, nth_error l k = Some x -> (x == inject_Z (start + Z.of_nat k * step))%Q.
