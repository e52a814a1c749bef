(** The subset of the MetSim parameter dictionary (metsim/metsim.py:140-171
    and the per-cell entries set at :726-728) read by the per-cell code. *)
From Coq Require Import ZArith Reals String.

Record params := mkparams {
  p_time_step : Z;                  (* int(params['time_step']), minutes *)
  p_utc_offset : bool;
  p_period_ending : bool;
  p_method : string;                (* 'mtclim' | 'passthrough' *)
  p_sw_averaging : string;          (* params.get('sw_averaging', '') *)
  p_prec_type : string;
  p_lw_type : string;
  p_lw_cloud : string;
  p_sw_prec_thresh : R;
  p_rain_scalar : R;
  p_tdew_tol : R;
  p_tday_coef : R;
  p_tmax_frac : R;                  (* tmax_daylength_fraction *)
  p_lapse_rate : R;
  p_theta_s : R;                    (* params.get('theta_s', 0) *)
  p_elev : R;                       (* set per cell, metsim.py:726 *)
  p_lat : R;                        (* :727 *)
  p_lon : R                         (* :728, normalised at disaggregate.py:67 *)
}.

Definition set_location (p : params) (elev lat lon : R) : params :=
  {| p_time_step := p_time_step p; p_utc_offset := p_utc_offset p;
     p_period_ending := p_period_ending p; p_method := p_method p;
     p_sw_averaging := p_sw_averaging p; p_prec_type := p_prec_type p;
     p_lw_type := p_lw_type p; p_lw_cloud := p_lw_cloud p;
     p_sw_prec_thresh := p_sw_prec_thresh p; p_rain_scalar := p_rain_scalar p;
     p_tdew_tol := p_tdew_tol p; p_tday_coef := p_tday_coef p;
     p_tmax_frac := p_tmax_frac p; p_lapse_rate := p_lapse_rate p;
     p_theta_s := p_theta_s p;
     p_elev := elev; p_lat := lat; p_lon := lon |}.

Definition set_lon (p : params) (lon : R) : params :=
  set_location p (p_elev p) (p_lat p) lon.
