(** Vocabulary for shortwave: positions are 30-second steps. *)
From Coq Require Import ZArith Reals List.
From Verif Require Import Model.Fl Model.Constants Spec.SeriesSpec.
Import ListNotations.
Local Open Scope R_scope.

(** W m-2 averaged over daylight, times daylight seconds, per output step *)
Definition step_energy (ts : Z) (sw dayl : fl) : fl := fdiv (fmul sw dayl) (Some (60 * IZR ts)).

(** radiation fraction at 30-second step i of the table read as a ring *)
Definition fraction_at (tiny : list (list R)) (i : Z) : R := circular (concat tiny) i 0.

(** daily value in force at 30-second step i of the record read as a ring *)
Definition value_at (daily : list fl) (i : Z) : fl :=
  nth (Z.to_nat (i mod (Z.of_nat (List.length daily) * Z.of_nat RAD_STEPS) / Z.of_nat RAD_STEPS)) daily None.

(** tables of full rows *)
Definition full_rows (tiny : list (list R)) : Prop := forall r, In r tiny -> List.length r = RAD_STEPS.

(** every day of year has a row *)
Definition rows_exist (doy : list nat) (tiny : list (list R)) : Prop :=
  forall k, In k doy -> (1 <= k <= List.length tiny)%nat.

Definition nonneg_table (tiny : list (list R)) : Prop := forall r x, In r tiny -> In x r -> 0 <= x.
Definition nonneg_series (l : list fl) : Prop := forall x, In x l -> exists y, x = Some y /\ 0 <= y.
