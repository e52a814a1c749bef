(** Vocabulary for statements about a worker's inputs. *)
From Coq Require Import ZArith Reals String List Bool.
From Verif Require Import Model.Py Model.Fl Model.Np Model.Constants Model.Calendar Model.State Model.Params Model.Physics Model.Disagg Model.Units Model.Validate Model.Cell Model.Worker
  Spec.StateSpec Spec.FrameSpec Spec.DewSpec.
Import ListNotations.
Local Open Scope string_scope.
Local Open Scope list_scope.

(** temperatures of a raw cell *)
Definition raw_inverted (r : raw_cell) : Prop :=
  exists a b, raw_col r "t_min" = Ok a /\ raw_col r "t_max" = Ok b /\ inverted_day a b.

Definition raw_shaped (n : nat) (r : raw_cell) : Prop :=
  exists p a b, raw_col r "prec" = Ok p /\ raw_col r "t_min" = Ok a /\ raw_col r "t_max" = Ok b /\
    shaped n (rc_st_prec r) (rc_st_tmin r) (rc_st_tmax r) p a b.

(** one-day record with the given temperatures *)
Definition demo_raw (lo hi : R) : raw_cell :=
  mk_raw_cell 47 (-121) 100 [("prec", [Some 0%R]); ("t_min", [Some lo]); ("t_max", [Some hi])] [] []
    (repeat (Some 0%R) 90) (repeat (Some 1%R) 90) (repeat (Some 3%R) 90).

(** columns a worker adds to the forcing *)
Definition added_columns (prm : params) : list string :=
  ["seasonal_prec"; "dtr"; "smoothed_dtr"] ++
  (if str_in (upper (p_prec_type prm)) ["TRIANGLE"; "MIX"] then ["dur"; "t_pk"] else []).

(** [c] is what the raw cell [r] provides over the [n] dates [days] *)
Record loaded_on (prm : params) (days : list Z) (n : nat) (r : raw_cell) (c : cell_data) : Prop := {
  ld_place : cd_lat c = rc_lat r /\ cd_lon c = rc_lon r /\ cd_elev c = rc_elev r;
  ld_state : cd_state_tmin c = rc_st_tmin r /\ cd_state_tmax c = rc_st_tmax r;
  ld_days : dl_doy (cd_daily c) = map (fun d => Z.to_nat (dayofyear d)) days;
  ld_forcing : forall k, ~ In k (added_columns prm) -> dict_get (dl_cols (cd_daily c)) k = dict_get (rc_cols r) k;
  ld_dtr : forall a b, raw_col r "t_min" = Ok a -> raw_col r "t_max" = Ok b ->
    exists v, has_col (cd_daily c) "dtr" v /\
      forall i x y, nth_error a i = Some x -> nth_error b i = Some y -> nth_error v i = Some (fsub y x);
  ld_seasonal : forall p, raw_col r "prec" = Ok p -> exists v, has_col (cd_daily c) "seasonal_prec" v /\
    forall i, (i < n)%nat -> nth_error v i = Some (fmul (Some 365.25%R) (fmean (last_days 90 (up_to (rc_st_prec r) p i))));
  ld_smoothed : forall a b, raw_col r "t_min" = Ok a -> raw_col r "t_max" = Ok b ->
    exists v, has_col (cd_daily c) "smoothed_dtr" v /\
      forall i, (i < n)%nat ->
        nth_error v i = Some (fmean (last_days 30 (map2 fsub (up_to (rc_st_tmax r) b i) (up_to (rc_st_tmin r) a i))));
  ld_month : In (upper (p_prec_type prm)) ["TRIANGLE"; "MIX"] ->
    forall name table, In (name, table) [("dur", rc_dur r); ("t_pk", rc_tpk r)] -> exists v, has_col (cd_daily c) name v /\
      forall i d x, nth_error days i = Some d -> month_of d <> 12%Z ->
        zlookup table (month_of d) = Ok x -> nth_error v i = Some x }.

(** the same for the [n] days from [start] on *)
Definition loaded (prm : params) (start : Z) (n : nat) : raw_cell -> cell_data -> Prop :=
  loaded_on prm (dates_from start n) n.

(** a raw cell of [n] days that can be loaded *)
Record loadable (prm : params) (n : nat) (r : raw_cell) : Prop := {
  lo_shape : raw_shaped n r;
  lo_upright : ~ raw_inverted r;
  lo_months : In (upper (p_prec_type prm)) ["TRIANGLE"; "MIX"] -> forall m, (0 <= m <= 11)%Z ->
    (exists v, zlookup (rc_dur r) m = Ok v) /\ (exists v, zlookup (rc_tpk r) m = Ok v) }.

(** temperatures on Earth, in C, and no gaps *)
Record earthly (r : raw_cell) : Prop := {
  ea_prec : forall p, raw_col r "prec" = Ok p -> no_missing (rc_st_prec r ++ p);
  ea_state : no_missing (rc_st_tmin r) /\ no_missing (rc_st_tmax r);
  ea_day : forall a b d x y, raw_col r "t_min" = Ok a -> raw_col r "t_max" = Ok b ->
    nth_error a d = Some (Some x) -> nth_error b d = Some (Some y) -> (-100 <= x <= 50 /\ y <= 60 /\ y - x <= 50)%R }.

(** what the daily method needs besides temperatures and precipitation *)
Definition method_inputs (prm : params) (n : nat) (r : raw_cell) : Prop :=
  (p_method prm = "passthrough" /\ exists v, raw_col r "shortwave" = Ok v /\ List.length v = n) \/
  (p_method prm = "mtclim" /\ (0 < p_tdew_tol prm)%R /\ physical_place (set_location prm (rc_elev r) (rc_lat r) (rc_lon r)) /\ earthly r).

(** a raw cell of [n] days that can be run: complete temperatures, columns of
    the right length, and no day with less than half a minute of daylight *)
Record good_raw (prm : params) (n : nat) (r : raw_cell) : Prop := {
  gr_tmin : exists v, raw_col r "t_min" = Ok (map Some v);
  gr_tmax : exists v, raw_col r "t_max" = Ok (map Some v);
  gr_extra : forall k v, In k ["t_day"; "tfmax"; "tskc"; "pet"; "tdew"; "vapor_pressure"; "wind"; "longwave"] ->
    raw_col r k = Ok v -> List.length v = n;
  gr_lat : (-90 <= rc_lat r <= 90)%R;
  gr_sun : forall i, (i < 365)%nat -> ~ (0 < sg_daylength (rc_lat r) i <= 30)%R;
  gr_yesterday : exists a b, last (rc_st_tmin r) None = Some a /\ last (rc_st_tmax r) None = Some b;
  gr_method : method_inputs prm n r }.

(** the setup that is checked is that of the parameters and the requested
    variables *)
Record describes (s : setup) (prm : params) (out_vars : dict string) : Prop := {
  de_step : v_time_step s = p_time_step prm;
  de_vars : v_out_vars s = map fst out_vars;
  de_lw : v_lw_type s = p_lw_type prm /\ v_lw_cloud s = p_lw_cloud prm }.

(** the units of the requested variables can be converted to; wind is
    supplied if it is requested *)
Definition requestable (out_vars : dict string) (cells : list raw_cell) : Prop :=
  forall name unit, In (name, unit) out_vars -> (exists conv, converter_for name unit = Ok conv) /\
    (name = "wind" -> forall r, In r cells -> exists v, raw_col r "wind" = Ok v).

(** two days on the equator, with 90 days of earlier weather *)
Definition equator_raw : raw_cell :=
  mk_raw_cell 0 0 0 [("t_min", map Some [10; 12]); ("t_max", map Some [20; 25]); ("prec", map Some [0; 5]); ("shortwave", map Some [200; 250])]%R
    [] [] (repeat (Some 1%R) 90) (repeat (Some 9%R) 90) (repeat (Some 22%R) 90).

(** that cell and a cell outside the mask; [start] is day 0 *)
Definition equator_worker : worker_in :=
  mk_worker_in 0 1 (dates_from 0 2) [1; 2]%nat [equator_raw; equator_raw]
    (fun c => match c with [0; 0]%nat => Some 1%R | _ => Some 0%R end)
    (mksetup ["f"] ["prec"] (Some "out") (Some "netcdf") 60 ["prec"; "t_min"; "t_max"] ["prec"; "temp"] "f4" "cloud_deardorff" "prata")
    [("prec", "mm timestep-1"); ("temp", "K")].
