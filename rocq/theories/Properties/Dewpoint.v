(** C41, C42, C76, C77: the dewpoint iteration of mtclim. *)
From Coq Require Import ZArith Reals String List.
From Verif Require Import Model.Py Model.Fl Model.Np Model.Params Model.Physics Model.Disagg Model.Mtclim Model.Cell
  Spec.TimeSpec Spec.SeriesSpec Spec.TempSpec Spec.ShortSpec Spec.SolarSpec Spec.FrameSpec Spec.DailySpec Spec.DewSpec Spec.CellSpec
  Proofs.TempProofs Proofs.CellTotal Proofs.DewProofs Proofs.DewCell Proofs.DewGaps.
Import ListNotations.
Local Open Scope string_scope.
Local Open Scope list_scope.
Local Open Scope R_scope.

(** C41: dewpoint, vapor pressure, shortwave and PET of a finished run fit
    together, and the dewpoint has settled. *)
Theorem C41_consistent : forall fuel df prm df', mtclim_run fuel df prm = Some (Ok df') ->
  exists (series : nat -> list fl) k,
    dict_get (dl_cols df) "t_min" = Some (series 0%nat) /\
    (forall i, one_pass prm df' (series i) (series (S i))) /\
    (k <= fuel)%nat /\ settled (p_tdew_tol prm) (series k) (series (S k)) /\
    dict_get (dl_cols df') "tdew" = Some (series (S k)) /\
    row1 df' "vapor_pressure" "tdew" svp1 /\
    row4 df' "shortwave" "tfmax" "vapor_pressure" "tt_max" "potrad" mt_shortwave1 /\
    row3 df' "pet" "shortwave" "t_day" "daylength" (pet1 prm).
Proof. exact dew_consistent. Qed.
Print Assumptions C41_consistent.

Example C41_case : exists fuel df', mtclim_run fuel full_frame (demo_step 60) = Some (Ok df').
Proof. exact (full_runs 60). Qed.

(** C42: under the sun of any latitude, with temperatures between -100 and
    60 C and any precipitation, the iteration ends for every positive
    tolerance ... *)
Theorem C42_terminates : forall prm df g elev lat lr, physical_place prm -> complete df "prec" -> mild df -> days_valid (dl_doy df) ->
  -90 <= lat <= 90 -> solar_geom elev lat lr = Ok g -> sunlit g df -> 0 < p_tdew_tol prm ->
  exists N, forall fuel, (fuel >= N)%nat -> exists df', mtclim_run fuel df prm = Some (Ok df').
Proof. exact sunlit_terminates. Qed.
Print Assumptions C42_terminates.

(** ... and for no negative one. *)
Theorem C42_negative : forall prm df g elev lat lr, physical_place prm -> complete df "prec" -> mild df -> days_valid (dl_doy df) -> dl_doy df <> [] ->
  -90 <= lat <= 90 -> solar_geom elev lat lr = Ok g -> sunlit g df -> p_tdew_tol prm < 0 ->
  forall fuel, mtclim_run fuel df prm = None.
Proof. exact sunlit_diverges. Qed.
Print Assumptions C42_negative.

Example C42_case : exists g df, solar_geom 0 0 0.0065 = Ok g /\ sunlit g df /\ mild df /\ complete df "prec" /\
  days_valid (dl_doy df) /\ List.length (dl_doy df) = 2%nat.
Proof. exact equator_sunlit. Qed.

(** With any solar columns: it is enough that the potential evaporation is
    at most a quarter of the seasonal precipitation. *)
Theorem C42_any_sun : forall prm df n, physical prm df n ->
  (0 < p_tdew_tol prm -> exists N, forall fuel, (fuel >= N)%nat -> exists df', mtclim_run fuel df prm = Some (Ok df')) /\
  ((0 < n)%nat -> p_tdew_tol prm < 0 -> forall fuel, mtclim_run fuel df prm = None).
Proof. exact dew_physical. Qed.
Print Assumptions C42_any_sun.

Example C42_any_sun_case : physical (demo_step 60) full_frame 2.
Proof. exact (full_physical 60). Qed.

(** C76: true when the dewpoint of every day is a number. *)
Theorem C76_complete_partial : forall fuel df prm df' new, (forall k, In k mtclim_reads -> complete df k) ->
  mtclim_run fuel df prm = Some (Ok df') -> dict_get (dl_cols df') "tdew" = Some (map Some new) ->
  converged prm df df' (sqrt (INR (List.length (dl_doy df))) * p_tdew_tol prm).
Proof. exact dew_converged. Qed.
Print Assumptions C76_complete_partial.

Example C76_case : forall k, In k mtclim_reads -> complete full_frame k.
Proof. exact full_complete. Qed.

(** One missing t_min ends the iteration of all days after the first pass,
    at any tolerance ... *)
Theorem C76_gap : forall df prm tmin d, (forall k, In k mtclim_reads -> complete df k) ->
  dict_get (dl_cols df) "t_min" = Some tmin -> nth_error tmin d = Some None ->
  exists df' new, (forall fuel, mtclim_run fuel df prm = Some (Ok df')) /\
    dict_get (dl_cols df') "tdew" = Some new /\ List.length new = List.length tmin /\ one_pass prm df' tmin new.
Proof. exact dew_gap. Qed.
Print Assumptions C76_gap.

Example C76_gap_case : (forall k, In k mtclim_reads -> complete gap_frame k) /\
  dict_get (dl_cols gap_frame) "t_min" = Some [Some 0; None].
Proof. exact (conj gap_complete eq_refl). Qed.

(** ... so C76 is false for records with gaps. *)
Theorem C76_gap_refuted : ~ (forall fuel df prm df', (forall k, In k mtclim_reads -> complete df k) -> physical_place prm -> 0 < p_tdew_tol prm ->
  mtclim_run fuel df prm = Some (Ok df') -> converged prm df df' (sqrt (INR (List.length (dl_doy df))) * p_tdew_tol prm)).
Proof. exact dew_gap_refuted. Qed.
Print Assumptions C76_gap_refuted.

(** C77: a whole cell. *)
Theorem C77_total : forall prm c g a b, p_method prm = "mtclim" -> good_options prm -> good_forcing (cd_daily c) prm ->
  physical_place (set_location prm (cd_elev c) (cd_lat c) (cd_lon c)) -> mild (cd_daily c) ->
  -90 <= cd_lat c <= 90 -> solar_geom (cd_elev c) (cd_lat c) (p_lapse_rate prm) = Ok g ->
  last_value (cd_state_tmin c) = Ok (Some a) -> last_value (cd_state_tmax c) = Ok (Some b) -> 0 < p_tdew_tol prm ->
  exists N, forall fuel, (fuel >= N)%nat -> exists out prm', run_cell fuel prm c = Some (Ok out, prm').
Proof. exact mtclim_cell_total. Qed.
Print Assumptions C77_total.

Theorem C77_negative : forall prm c g, p_method prm = "mtclim" -> good_forcing (cd_daily c) prm ->
  physical_place (set_location prm (cd_elev c) (cd_lat c) (cd_lon c)) -> mild (cd_daily c) ->
  -90 <= cd_lat c <= 90 -> solar_geom (cd_elev c) (cd_lat c) (p_lapse_rate prm) = Ok g -> p_tdew_tol prm < 0 ->
  forall fuel, run_cell fuel prm c = None.
Proof. exact mtclim_cell_hangs. Qed.
Print Assumptions C77_negative.

Example C77_case : exists N, forall fuel, (fuel >= N)%nat ->
  exists out prm', run_cell fuel (demo_method "mtclim" 60) equator_cell = Some (Ok out, prm').
Proof. exact (equator_mtclim 60 legal_60). Qed.
