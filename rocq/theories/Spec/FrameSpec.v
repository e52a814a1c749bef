(** Daily frames and options that are acceptable to the disaggregation. *)
From Coq Require Import ZArith Reals String List.
From Verif Require Import Model.Py Model.Fl Model.Constants Model.Params Model.Disagg Spec.TimeSpec Spec.ShortSpec Spec.TempSpec.
Import ListNotations.
Local Open Scope string_scope.
Local Open Scope list_scope.

(** a column of the frame, one value (possibly NaN) per day *)
Definition has_col (df : daily) (name : string) (v : list fl) : Prop :=
  dict_get (dl_cols df) name = Some v /\ List.length v = List.length (dl_doy df).
Definition complete (df : daily) (name : string) : Prop := exists v, has_col df name v.
Definition numbers (df : daily) (name : string) (v : list R) : Prop := has_col df name (map Some v).
Definition if_present (df : daily) (name : string) : Prop :=
  forall v, dict_get (dl_cols df) name = Some v -> List.length v = List.length (dl_doy df).

Record good_frame (df : daily) (prm : params) : Prop := {
  gf_days : dl_doy df <> [];
  gf_shortwave : complete df "shortwave";
  gf_daylength : complete df "daylength";
  gf_tmin : exists v, numbers df "t_min" v;
  gf_tmax : exists v, numbers df "t_max" v;
  gf_vp : complete df "vapor_pressure";
  gf_tskc : complete df "tskc";
  gf_prec : complete df "prec";
  gf_wind : if_present df "wind";
  gf_longwave : if_present df "longwave";
  gf_shape : In (upper (p_prec_type prm)) ["TRIANGLE"; "MIX"] -> complete df "t_pk" /\ complete df "dur" }.

Record good_options (prm : params) : Prop := {
  go_ts : legal_time_step (p_time_step prm);
  go_frac : (0 < p_tmax_frac prm <= 1)%R;
  go_lw : In (upper (p_lw_type prm)) ["DEFAULT"; "TVA"; "ANDERSON"; "BRUTSAERT"; "SATTERLUND"; "IDSO"; "PRATA"];
  go_cloud : In (upper (p_lw_cloud prm)) ["DEFAULT"; "TVA"; "CLOUD_DEARDORFF"] }.

(** radiation table with a usable row for every day of the record *)
Record good_table (doy : list nat) (tiny : list (list R)) : Prop := {
  gt_full : full_rows tiny;
  gt_usable : forall row, In row tiny -> usable row;
  gt_days : rows_exist doy tiny }.

(** forcing of a cell from which the daily methods can work: the columns a
    method reads are there, and a derived column that is supplied is complete *)
Record good_forcing (df : daily) (prm : params) : Prop := {
  fc_days : dl_doy df <> [];
  fc_valid : days_valid (dl_doy df);
  fc_tmin : exists v, numbers df "t_min" v;
  fc_tmax : exists v, numbers df "t_max" v;
  fc_read : forall k, In k ["dtr"; "smoothed_dtr"; "prec"; "seasonal_prec"] -> complete df k;
  fc_extra : forall k, In k ["t_day"; "tfmax"; "tskc"; "pet"; "tdew"; "vapor_pressure"; "wind"; "longwave"] -> if_present df k;
  fc_shape : In (upper (p_prec_type prm)) ["TRIANGLE"; "MIX"] -> complete df "t_pk" /\ complete df "dur" }.

(** names of the output columns, in order *)
Definition sub_daily_names (wind : bool) : list string :=
  ["shortwave"; "temp"; "vapor_pressure"; "rel_humid"; "air_pressure"; "spec_humid"; "tskc"; "longwave"; "prec"]
  ++ (if wind then ["wind"] else []).

(** ** material for examples *)

(** default options with time step ts *)
Definition demo_step (ts : Z) : params :=
  mkparams ts false false "mtclim" "" "uniform" "prata" "cloud_deardorff" 0 0.75 1e-6 0.45 0.67 0.0065 0 100 47 (-121).

(** a year without radiation *)
Definition dark_year : list (list R) := repeat (repeat 0%R RAD_STEPS) 366.

(** days of constant temperature t with vapor pressure vp, in Pa *)
Definition flat_frame (t vp : R) (doy : list nat) : daily := let n := List.length doy in
  mkdaily [("shortwave", repeat (Some 100%R) n); ("daylength", repeat (Some 43200%R) n); ("t_min", map Some (repeat t n)); ("t_max", map Some (repeat t n));
           ("vapor_pressure", map Some (repeat vp n)); ("tskc", repeat (Some 0.5%R) n); ("prec", repeat (Some 0%R) n)] doy.
