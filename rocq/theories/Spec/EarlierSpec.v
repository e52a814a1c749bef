(** Records that agree up to a day, and series that agree up to a step. *)
From Coq Require Import ZArith Reals String List.
From Verif Require Import Model.Py Model.Fl Model.Params Model.Disagg Model.Cell.
Import ListNotations.
Local Open Scope string_scope.
Local Open Scope list_scope.

(** the first p values are the same *)
Definition same_to {A} (p : nat) (l l' : list A) : Prop := forall i, (i < p)%nat -> nth_error l i = nth_error l' i.

(** one value throughout the first p steps *)
Definition level_to (p : nat) (l : list fl) : Prop := exists v, forall i, (i < p)%nat -> nth_error l i = Some v.

(** two records, of m days at least, with the same columns, dates and values on the first m days *)
Record same_days (m : nat) (df df' : daily) : Prop := {
  sd_here : (m <= List.length (dl_doy df))%nat;
  sd_there : (m <= List.length (dl_doy df'))%nat;
  sd_doy : same_to m (dl_doy df) (dl_doy df');
  sd_cols : forall name, match dict_get (dl_cols df) name, dict_get (dl_cols df') name with
                         | Some v, Some v' => same_to m v v'
                         | None, None => True
                         | _, _ => False
                         end }.

(** the same cell with a record that goes on otherwise after m days *)
Record same_cell (m : nat) (c c' : cell_data) : Prop := {
  sc_lat : cd_lat c = cd_lat c';
  sc_lon : cd_lon c = cd_lon c';
  sc_elev : cd_elev c = cd_elev c';
  sc_tmin : cd_state_tmin c = cd_state_tmin c';
  sc_tmax : cd_state_tmax c = cd_state_tmax c';
  sc_days : same_days m (cd_daily c) (cd_daily c') }.

(** the outputs of two runs up to step p: equal, or of one value each, with
    exceptions that are always equal *)
Definition same_outputs (p : nat) (always : list string) (out out' : dict (list fl)) : Prop :=
  forall name, match dict_get out name, dict_get out' name with
  | Some v, Some v' => same_to p v v' \/ ~ In name always /\ level_to p v /\ level_to p v'
  | None, None => True
  | _, _ => False
  end.

(** ** material for examples *)
(** three days on the equator at 90 W; the wind of the last day is w *)
Definition windy_cell (w : R) : cell_data :=
  mk_cell_data 0 (Ropp 90) 0
    (mkdaily [("t_min", map Some [10; 12; 11]); ("t_max", map Some [20; 25; 22]); ("prec", map Some [0; 5; 1]);
              ("dtr", map Some [10; 13; 11]); ("smoothed_dtr", map Some [11; 12; 11]); ("seasonal_prec", map Some [400; 410; 405]);
              ("shortwave", map Some [200; 250; 220]); ("vapor_pressure", map Some [900; 950; 920]); ("wind", map Some [3; 3; w])]%R [1; 2; 3]%nat)
    (map Some [9; 9]%R) (map Some [21; 22]%R).
