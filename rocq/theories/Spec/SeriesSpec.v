(** Vocabulary for statements about daily and sub-daily series. *)
From Coq Require Import ZArith Reals String List Bool.
From Verif Require Import Model.Py Model.Fl Model.Constants Model.Params.
Import ListNotations.
Local Open Scope R_scope.

(** number of output steps in a day *)
Definition steps (ts : Z) : nat := Z.to_nat (1440 / ts).

(** the entries of day [d] in a series with [k] entries per day *)
Definition day_part {A} (k d : nat) (l : list A) : list A := firstn k (skipn (d * k) l).

(** sum of real numbers *)
Definition total (l : list R) : R := fold_right Rplus 0 l.

(** the same parameters with and without the UTC shift, and with another
    precipitation method *)
Definition with_utc (b : bool) (p : params) : params :=
  mkparams (p_time_step p) b (p_period_ending p) (p_method p) (p_sw_averaging p) (p_prec_type p)
    (p_lw_type p) (p_lw_cloud p) (p_sw_prec_thresh p) (p_rain_scalar p) (p_tdew_tol p)
    (p_tday_coef p) (p_tmax_frac p) (p_lapse_rate p) (p_theta_s p) (p_elev p) (p_lat p) (p_lon p).
Definition with_prec_type (s : string) (p : params) : params :=
  mkparams (p_time_step p) (p_utc_offset p) (p_period_ending p) (p_method p) (p_sw_averaging p) s
    (p_lw_type p) (p_lw_cloud p) (p_sw_prec_thresh p) (p_rain_scalar p) (p_tdew_tol p)
    (p_tday_coef p) (p_tmax_frac p) (p_lapse_rate p) (p_theta_s p) (p_elev p) (p_lat p) (p_lon p).

(** the same parameters with another time step *)
Definition with_step (ts : Z) (p : params) : params :=
  mkparams ts (p_utc_offset p) (p_period_ending p) (p_method p) (p_sw_averaging p) (p_prec_type p)
    (p_lw_type p) (p_lw_cloud p) (p_sw_prec_thresh p) (p_rain_scalar p) (p_tdew_tol p)
    (p_tday_coef p) (p_tmax_frac p) (p_lapse_rate p) (p_theta_s p) (p_elev p) (p_lat p) (p_lon p).

(** minutes of a day that lie in [a, b] *)
Definition minute_in (a b : R) (m : nat) : Prop := (m < MIN_PER_DAY)%nat /\ a <= INR m <= b.

(** the triangle of peak [pk] and duration [dur] puts weight on some minute *)
Definition covered (pk dur : R) : Prop :=
  (exists m, minute_in pk (pk + dur / 2) m) \/
  (exists m m', (m < m')%nat /\ minute_in (pk - dur / 2) pk m /\ minute_in (pk - dur / 2) pk m').

(** entry [i] of a circular series *)
Definition circular {A} (l : list A) (i : Z) (d : A) : A :=
  nth (Z.to_nat (i mod Z.of_nat (List.length l))) l d.

(** a concrete parameter set (the class defaults of metsim.py:140-171 at
    47 N, 121 W, 100 m) used in the examples *)
Definition demo_params : params :=
  mkparams 60 false false "mtclim" "" "uniform" "prata" "cloud_deardorff"
    0 0.75 1e-6 0.45 0.67 0.0065 0 100 47 (-121).
