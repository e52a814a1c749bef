(** Records that agree from a day on, and series that agree from a step on. *)
From Coq Require Import ZArith Reals String List.
From Verif Require Import Model.Py Model.Fl Model.Params Model.Disagg Model.Cell.
Import ListNotations.
Local Open Scope string_scope.
Local Open Scope list_scope.

(** as long, and with the same values from number p on *)
Definition same_from {A} (p : nat) (l l' : list A) : Prop :=
  List.length l = List.length l' /\ forall i, (p <= i)%nat -> nth_error l i = nth_error l' i.

(** one value on the steps p, ..., q - 1 *)
Definition level_in (p q : nat) (l : list fl) : Prop :=
  exists v, forall i, (p <= i < q)%nat -> nth_error l i = Some v.

(** two records with the same columns, as many days and the same dates and
    values from day m on *)
Record late_days (m : nat) (df df' : daily) : Prop := {
  ld_doy : same_from m (dl_doy df) (dl_doy df');
  ld_cols : forall name, match dict_get (dl_cols df) name, dict_get (dl_cols df') name with
                         | Some v, Some v' => same_from m v v'
                         | None, None => True
                         | _, _ => False
                         end }.

(** the same cell with another state and a record that differs before day m *)
Record late_cell (m : nat) (c c' : cell_data) : Prop := {
  lc_lat : cd_lat c = cd_lat c';
  lc_lon : cd_lon c = cd_lon c';
  lc_elev : cd_elev c = cd_elev c';
  lc_days : late_days m (cd_daily c) (cd_daily c') }.

(** the outputs of two runs from step p on: equal, or of one value each up
    to a step from which they are equal, with exceptions that are always equal *)
Definition late_outputs (p : nat) (always : list string) (out out' : dict (list fl)) : Prop :=
  forall name, match dict_get out name, dict_get out' name with
  | Some v, Some v' => exists q, (p <= q)%nat /\ level_in p q v /\ level_in p q v' /\ same_from q v v' /\ (In name always -> q = p)
  | None, None => True
  | _, _ => False
  end.

(** ** material for examples *)
(** four days on the equator at 90 E; the wind of the first day is w *)
Definition gusty_cell (w : R) : cell_data :=
  mk_cell_data 0 90 0
    (mkdaily [("t_min", map Some [10; 12; 11; 9]); ("t_max", map Some [20; 25; 22; 20]); ("prec", map Some [0; 5; 1; 0]);
              ("dtr", map Some [10; 13; 11; 11]); ("smoothed_dtr", map Some [11; 12; 11; 11]); ("seasonal_prec", map Some [400; 410; 405; 402]);
              ("shortwave", map Some [200; 250; 220; 210]); ("vapor_pressure", map Some [900; 950; 920; 930]);
              ("wind", [Some w; Some 3; Some 3; Some 3])]%R [1; 2; 3; 4]%nat)
    (map Some [9; 9]%R) (map Some [21; 22]%R).
