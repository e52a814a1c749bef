(** The dewpoint iteration. *)
From Coq Require Import ZArith Reals String List.
From Verif Require Import Model.Py Model.Fl Model.Np Model.Constants Model.Params Model.Physics Model.Mtclim Model.Disagg Spec.SeriesSpec Spec.FrameSpec.
Import ListNotations.
Local Open Scope string_scope.
Local Open Scope list_scope.
Local Open Scope R_scope.

(** root mean square of a - b *)
Definition rms (a b : list R) : R := sqrt (total (map2 (fun x y => (x - y) ^ 2) a b) / INR (List.length a)).

(** the change from series a to series b, when both are numbers, is within tol *)
Definition settled (tol : R) (a b : list fl) : Prop :=
  forall x y, a = map Some x -> b = map Some y -> List.length x = List.length y -> x <> [] -> rms y x <= tol.

(** one pass: vapor pressure, radiation and PET from the old dewpoint, and a
    new dewpoint from the PET *)
Definition next_dew (prm : params) (tmin tfmax ttmax potrad tday dayl sprec dtr old : fl) : fl :=
  tdew1 (pet1 prm (mt_shortwave1 tfmax (svp1 old) ttmax potrad) tday dayl) tmin sprec dtr.

(** [new] follows from [old] by one pass over the columns of [df] *)
Definition one_pass (prm : params) (df : daily) (old new : list fl) : Prop :=
  forall d o tmin tfmax ttmax potrad tday dayl sprec dtr,
    nth_error old d = Some o ->
    (exists v, dict_get (dl_cols df) "t_min" = Some v /\ nth_error v d = Some tmin) ->
    (exists v, dict_get (dl_cols df) "tfmax" = Some v /\ nth_error v d = Some tfmax) ->
    (exists v, dict_get (dl_cols df) "tt_max" = Some v /\ nth_error v d = Some ttmax) ->
    (exists v, dict_get (dl_cols df) "potrad" = Some v /\ nth_error v d = Some potrad) ->
    (exists v, dict_get (dl_cols df) "t_day" = Some v /\ nth_error v d = Some tday) ->
    (exists v, dict_get (dl_cols df) "daylength" = Some v /\ nth_error v d = Some dayl) ->
    (exists v, dict_get (dl_cols df) "seasonal_prec" = Some v /\ nth_error v d = Some sprec) ->
    (exists v, dict_get (dl_cols df) "dtr" = Some v /\ nth_error v d = Some dtr) ->
    nth_error new d = Some (next_dew prm tmin tfmax ttmax potrad tday dayl sprec dtr o).

(** a physical day: temperatures in C, and a potential evaporation under the
    potential radiation of at most a quarter of the seasonal precipitation
    (at least 80 mm) *)
Record physical_day (prm : params) (tn tx dtr tt pot dl sp : R) : Prop := {
  ph_tmin : -100 <= tn <= 50;
  ph_tmax : tn <= tx <= 100;
  ph_dtr : 0 <= dtr <= 50;
  ph_tt : 0 <= tt <= 1;
  ph_pot : 0 <= pot;
  ph_dl : 0 <= dl;
  ph_pet : forall tday p, t_day1 prm (Some tn) (Some tx) = Some tday ->
    pet1 prm (Some pot) (Some tday) (Some dl) = Some p -> p <= 0.25 * Rmax 80 sp }.

Record physical_place (prm : params) : Prop := {
  pp_rain : 0 <= p_rain_scalar prm <= 1;
  pp_coef : 0 <= p_tday_coef prm <= 1;
  pp_lapse : p_lapse_rate prm <> 0;
  pp_elev : p_lapse_rate prm * p_elev prm < T_STD }.

(** n physical days; precipitation may be missing *)
Definition physical (prm : params) (df : daily) (n : nat) : Prop :=
  physical_place prm /\ List.length (dl_doy df) = n /\ complete df "prec" /\
  exists tn tx dtr sm tt pot dl sp,
    numbers df "t_min" tn /\ numbers df "t_max" tx /\ numbers df "dtr" dtr /\ numbers df "smoothed_dtr" sm /\
    numbers df "tt_max" tt /\ numbers df "potrad" pot /\ numbers df "daylength" dl /\ numbers df "seasonal_prec" sp /\
    forall d, (d < n)%nat ->
      physical_day prm (nth d tn 0) (nth d tx 0) (nth d dtr 0) (nth d tt 0) (nth d pot 0) (nth d dl 0) (nth d sp 0).

(** temperatures on Earth, in C *)
Record mild_day (tn tx dtr : R) : Prop := {
  mi_tmin : -100 <= tn <= 50;
  mi_tmax : tn <= tx <= 60;
  mi_dtr : 0 <= dtr <= 50 }.

(** the solar columns are those of the geometry g *)
Definition sunlit (g : solar_geom_out) (df : daily) : Prop :=
  forall name table, In (name, table) [("daylength", sg_daylengths g); ("potrad", flat_potrad g); ("tt_max", tt_max0 g)] ->
  exists v, has_col df name v /\
    forall d k, nth_error (dl_doy df) d = Some k -> nth_error v d = Some (nth_error table (k - 1)).

(** daily input of a cell without gaps (precipitation may have some) *)
Definition mild (df : daily) : Prop :=
  exists tn tx dtr sm sp,
    numbers df "t_min" tn /\ numbers df "t_max" tx /\ numbers df "dtr" dtr /\ numbers df "smoothed_dtr" sm /\ numbers df "seasonal_prec" sp /\
    forall d, (d < List.length (dl_doy df))%nat -> mild_day (nth d tn 0) (nth d tx 0) (nth d dtr 0).

(** the columns that mtclim reads *)
Definition mtclim_reads : list string :=
  ["t_min"; "t_max"; "dtr"; "smoothed_dtr"; "prec"; "tt_max"; "potrad"; "daylength"; "seasonal_prec"].

(** the dewpoint in [df'] is the end of passes starting from t_min, and on no
    day did the last of them change it by more than [tol] *)
Definition converged (prm : params) (df df' : daily) (tol : R) : Prop :=
  exists (series : nat -> list fl) k,
    dict_get (dl_cols df) "t_min" = Some (series 0%nat) /\
    (forall i, one_pass prm df' (series i) (series (S i))) /\
    dict_get (dl_cols df') "tdew" = Some (series (S k)) /\
    forall d o n, nth_error (series k) d = Some (Some o) -> nth_error (series (S k)) d = Some (Some n) -> Rabs (n - o) <= tol.

(** two days at 0 C; t_min of the second is missing *)
Definition gap_frame : daily :=
  mkdaily [("t_min", [Some 0; None]); ("t_max", [Some 0; Some 0]); ("dtr", [Some 0; None]); ("smoothed_dtr", [Some 10; Some 10]);
           ("prec", [Some 0; Some 0]); ("tt_max", [Some 0.6; Some 0.6]); ("potrad", [Some 300; Some 300]);
           ("daylength", [Some 43200; Some 43200]); ("seasonal_prec", [Some 400; Some 400])] [1%nat; 2%nat].
(** the same without the gap *)
Definition full_frame : daily :=
  mkdaily [("t_min", [Some 0; Some 1]); ("t_max", [Some 0; Some 9]); ("dtr", [Some 0; Some 8]); ("smoothed_dtr", [Some 10; Some 10]);
           ("prec", [Some 0; Some 0]); ("tt_max", [Some 0.6; Some 0.6]); ("potrad", [Some 300; Some 300]);
           ("daylength", [Some 43200; Some 43200]); ("seasonal_prec", [Some 400; Some 400])] [1%nat; 2%nat].
