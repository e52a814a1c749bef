(** Estimates of single days of a record. *)
From Coq Require Import ZArith Reals String List Arith.
From Verif Require Import Model.Py Model.Fl Model.Np Model.Params Model.Physics Model.Disagg Model.Mtclim Spec.FrameSpec Spec.DewSpec.
Import ListNotations.
Local Open Scope string_scope.
Local Open Scope list_scope.
Local Open Scope R_scope.

(** day [d] of column [k] of [df] is [x] *)
Definition at_day (df : daily) (k : string) (d : nat) (x : fl) : Prop :=
  exists v, dict_get (dl_cols df) k = Some v /\ nth_error v d = Some x.

(** day [d] of [df] and day [d'] of [df'] agree in the columns [names] *)
Definition same_at (names : list string) (df df' : daily) (d d' : nat) : Prop :=
  forall k, In k names -> exists x, at_day df k d x /\ at_day df' k d' x.

(** [x] is the sequence of dewpoints of day [d], each from the one before,
    starting at the minimum temperature *)
Definition passes_of (prm : params) (df : daily) (d : nat) (x : nat -> fl) : Prop :=
  exists tmin tmax dtr sm pr ttm pot dayl sp,
    at_day df "t_min" d tmin /\ at_day df "t_max" d tmax /\ at_day df "dtr" d dtr /\ at_day df "smoothed_dtr" d sm /\ at_day df "prec" d pr /\
    at_day df "tt_max" d ttm /\ at_day df "potrad" d pot /\ at_day df "daylength" d dayl /\ at_day df "seasonal_prec" d sp /\
    x 0%nat = tmin /\
    forall i, x (S i) = next_dew prm tmin (tfmax1 prm dtr sm pr) ttm pot (t_day1 prm tmin tmax) dayl sp dtr (x i).

(** [df] and [df'] have the same days; day [d] of [df'] is day [place d] of [df] *)
Definition reordered (df df' : daily) (place : nat -> nat) : Prop :=
  List.length (dl_doy df) = List.length (dl_doy df') /\
  (forall k, In k mtclim_reads -> complete df k) /\ (forall k, In k mtclim_reads -> complete df' k) /\
  (forall d, (d < List.length (dl_doy df))%nat -> (place d < List.length (dl_doy df))%nat) /\
  (forall d e, (d < List.length (dl_doy df))%nat -> (e < List.length (dl_doy df))%nat -> place d = place e -> d = e) /\
  forall d, (d < List.length (dl_doy df))%nat -> same_at mtclim_reads df df' (place d) d.

(** [demo_step 60] with another tolerance *)
Definition tol_step (tol : R) : params :=
  mkparams 60 false false "mtclim" "" "uniform" "prata" "cloud_deardorff" 0 0.75 tol 0.45 0.67 0.0065 0 100 47 (-121).

(** a day at 0 C under the sun, followed by [n] days of polar night whose
    dewpoint is t_min from the start *)
Definition calm_record (n : nat) : daily :=
  mkdaily [("t_min", Some 0 :: repeat (Some 0) n); ("t_max", Some 0 :: repeat (Some 4.395) n); ("dtr", Some 0 :: repeat (Some 4.395) n);
           ("smoothed_dtr", Some 10 :: repeat (Some 10) n); ("prec", Some 0 :: repeat (Some 0) n); ("tt_max", Some 0.6 :: repeat (Some 0.6) n);
           ("potrad", Some 300 :: repeat (Some 0) n); ("daylength", Some 43200 :: repeat (Some 0) n); ("seasonal_prec", Some 400 :: repeat (Some 400) n)]
    (map (fun i => (i mod 366 + 1)%nat) (seq 0 (S n))).

(** [full_frame] with its days exchanged *)
Definition turned_frame : daily :=
  mkdaily [("t_min", [Some 1; Some 0]); ("t_max", [Some 9; Some 0]); ("dtr", [Some 8; Some 0]); ("smoothed_dtr", [Some 10; Some 10]);
           ("prec", [Some 0; Some 0]); ("tt_max", [Some 0.6; Some 0.6]); ("potrad", [Some 300; Some 300]);
           ("daylength", [Some 43200; Some 43200]); ("seasonal_prec", [Some 400; Some 400])] [1%nat; 2%nat].
