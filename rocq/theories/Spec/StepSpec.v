(** Values of one output step, and series without gaps. *)
From Coq Require Import ZArith Reals String List.
From Verif Require Import Model.Py Model.Fl Model.Params Model.Disagg Model.Cell Spec.SeriesSpec Spec.FrameSpec Spec.DewSpec.
Import ListNotations.
Local Open Scope string_scope.
Local Open Scope list_scope.
Local Open Scope R_scope.

(** output [name] of step [k] is the number [x] *)
Definition entry (out : dict (list fl)) (name : string) (k : nat) (x : R) : Prop :=
  exists v, dict_get out name = Some v /\ nth_error v k = Some (Some x).

(** saturation vapor pressure over water and, below 0 C, over ice, in Pa *)
Definition saturation (T : R) : R :=
  610.78 * exp (17.269 * T / (237.3 + T)) * (if Rlt_dec T 0 then 1 + 0.00972 * T + 0.000042 * T ^ 2 else 1).

(** pressure in kPa at height [z] m of a column with lapse rate [lr] whose
    temperature at the top is [T] *)
Definition column_pressure (T z lr : R) : R :=
  101.325 * exp (- (z * 9.80665) / (287 * (273.15 + T - 0.5 * z * lr))).

(** mass of vapor in a mass of moist air *)
Definition moisture (e p : R) : R := 0.62196351 * e / (p - e + 0.62196351 * e).

(** clear-sky emissivity at [Ta] K and [e] hPa *)
Inductive emits : string -> R -> R -> R -> Prop :=
  | Em_default Ta e : emits "DEFAULT" Ta e (0.74 + 0.0049 * e)
  | Em_tva Ta e : emits "TVA" Ta e (0.74 + 0.0049 * e)
  | Em_anderson Ta e : emits "ANDERSON" Ta e (0.68 + 0.036 * Rpower e 0.5)
  | Em_brutsaert Ta e : emits "BRUTSAERT" Ta e (1.24 * Rpower (e / Ta) 0.14285714)
  | Em_satterlund Ta e : emits "SATTERLUND" Ta e (1.08 * (1 - exp (- Rpower e (Ta / 2016))))
  | Em_idso Ta e : emits "IDSO" Ta e (0.7 + 5.95e-5 * e * exp (1500 / Ta))
  | Em_prata Ta e : emits "PRATA" Ta e (1 - (1 + 46.5 * e / Ta) * exp (- sqrt (1.2 + 3 * (46.5 * e / Ta)))).

(** emissivity under the cloud fraction [c] *)
Inductive clouded : string -> R -> R -> R -> Prop :=
  | Cl_default eps c : clouded "DEFAULT" eps c ((1 + 0.17 * c ^ 2) * eps)
  | Cl_tva eps c : clouded "TVA" eps c ((1 + 0.17 * c ^ 2) * eps)
  | Cl_deardorff eps c : clouded "CLOUD_DEARDORFF" eps c (c + (1 - c) * eps).

(** longwave in W/m2 at [T] C and [e] kPa *)
Definition sky_longwave (prm : params) (T e c L : R) : Prop :=
  exists eps s, emits (upper (p_lw_type prm)) (T + 273.15) (e * 10) eps /\ clouded (upper (p_lw_cloud prm)) eps c s /\
    L = s * 5.669e-8 * (T + 273.15) ^ 4.

(** ** series without gaps *)
Definition whole (v : list fl) : Prop := forall x, In x v -> x <> None.
Definition all_whole (out : dict (list fl)) : Prop := forall name v, dict_get out name = Some v -> whole v.

(** a supplied column has a number on every day *)
Definition measured (df : daily) (name : string) : Prop :=
  forall v, dict_get (dl_cols df) name = Some v -> List.length v = List.length (dl_doy df) /\ whole v.
(** rain is known on every day, and with triangular storms also a peak and a
    duration that touch the day *)
Definition rain_known (df : daily) (prm : params) : Prop :=
  (exists p, numbers df "prec" p) /\
  (In (upper (p_prec_type prm)) ["TRIANGLE"; "MIX"] -> exists pk dur, numbers df "t_pk" pk /\ numbers df "dur" dur /\
     forall d, (d < List.length (dl_doy df))%nat -> covered (nth d pk 0) (nth d dur 0)).

(** cells below 6000 m with two or more days of complete forcing, run with
    mtclim and steps of at most six hours *)
Record complete_cell (prm : params) (c : cell_data) : Prop := {
  cc_method : p_method prm = "mtclim";
  cc_options : good_options prm;
  cc_step : (p_time_step prm <= 360)%Z;
  cc_clock : p_utc_offset prm = false \/ (p_theta_s prm = 0 /\ 2 / 3 <= p_tmax_frac prm /\ remainder360 (cd_lon c) < 180);
  cc_forcing : good_forcing (cd_daily c) prm;
  cc_days : (2 <= List.length (dl_doy (cd_daily c)))%nat;
  cc_mild : mild (cd_daily c);
  cc_rain : rain_known (cd_daily c) prm;
  cc_wind : measured (cd_daily c) "wind";
  cc_longwave : measured (cd_daily c) "longwave";
  cc_lat : -90 <= cd_lat c <= 90;
  cc_height : -500 <= cd_elev c <= 6000;
  cc_lapse : 0 < p_lapse_rate prm <= 0.01;
  cc_scalar : 0 <= p_rain_scalar prm <= 1;
  cc_coef : 0 <= p_tday_coef prm <= 1;
  cc_before : exists a b, last_value (cd_state_tmin c) = Ok (Some a) /\ last_value (cd_state_tmax c) = Ok (Some b) /\
    -100 <= a <= 60 /\ -100 <= b <= 60 }.

(** cells of the mtclim method in the atmosphere, where rain and temperature
    are measured every day and some light passes the clouds of a wet day *)
Record sunlit_cell (prm : params) (c : cell_data) : Prop := {
  sl_method : p_method prm = "mtclim";
  sl_forcing : good_forcing (cd_daily c) prm;
  sl_mild : mild (cd_daily c);
  sl_rain : exists p, numbers (cd_daily c) "prec" p;
  sl_lat : -90 <= cd_lat c <= 90;
  sl_lapse : p_lapse_rate prm <> 0;
  sl_height : p_lapse_rate prm * cd_elev c < 288.15;
  sl_scalar : 0 < p_rain_scalar prm <= 1;
  sl_coef : 0 <= p_tday_coef prm <= 1 }.

(** ** material for examples *)

(** two days at 10 C with a warm afternoon on the second, for which no cloud
    cover is known *)
Definition clear_frame : daily :=
  mkdaily [("shortwave", map Some [100; 100]); ("daylength", map Some [43200; 43200]); ("t_min", map Some [10; 10]); ("t_max", map Some [10; 20]);
           ("vapor_pressure", map Some [500; 500]); ("tskc", [Some 0; None]); ("prec", map Some [0; 0])] [1%nat; 2%nat].
Definition tva_params : params :=
  mkparams 60 false false "mtclim" "" "uniform" "tva" "tva" 0 0.75 1e-6 0.45 0.75 0.0065 0 100 47 (-121).
