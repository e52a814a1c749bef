(** metsim/methods/mtclim.py and metsim/methods/passthrough.py *)
From Coq Require Import ZArith Reals String List Bool Arith.
From Verif Require Import Model.Py Model.Fl Model.Np Model.Constants Model.Physics
  Model.Params Model.Disagg.
Import ListNotations.
Local Open Scope string_scope.
Local Open Scope list_scope.
Local Open Scope fl_scope.

(** ** Elementwise kernels (every function of mtclim.py except [run] is
    elementwise over the days) *)

(** [t_day], mtclim.py:103-104 *)
Definition t_day1 (prm : params) (t_min t_max : fl) : fl :=
  let t_mean := (t_min + t_max) / #2 in
  ((t_max - t_mean) * #(p_tday_coef prm)) + t_mean.

(** [tfmax], mtclim.py:129-133; a NaN precipitation compares false *)
Definition tfmax1 (prm : params) (dtr sm_dtr prec : fl) : fl :=
  let b := #B0 + #B1 * fexp (- #B2 * sm_dtr) in
  let t := #1.0 - #0.9 * fexp (- b * fpower dtr #C_RAD) in
  if fgt prec #(p_sw_prec_thresh prm) then t * #(p_rain_scalar prm) else t.

(** [pet], mtclim.py:160-161 *)
Definition pet1 (prm : params) (shortwave t_day daylength : fl) : fl :=
  calc_pet1 shortwave t_day daylength (atm_pres #(p_elev prm) #(p_lapse_rate prm)) * #MM_PER_CM.

(** [tdew], mtclim.py:187-194.  The floor at 80 is written back into the
    caller's array in Python; it is idempotent, so a local floor is used. *)
Definition tdew1 (pet t_min seasonal_prec dtr : fl) : fl :=
  let sp := if flt seasonal_prec #80.0 then #80.0 else seasonal_prec in
  let ratio := pet / sp in
  (t_min + #KELVIN)
    * (#(-0.127) + #1.121 * (#1.003 - #1.444 * ratio + #12.312 * fpow ratio 2
                              - #32.766 * fpow ratio 3) + #0.0006 * dtr)
  - #KELVIN.

(** [vapor_pressure], mtclim.py:214 *)
Definition mt_vapor_pressure1 (tdew : fl) : fl := svp1 tdew.

(** [shortwave], mtclim.py:234-235 *)
Definition mt_shortwave1 (tfmax vp tt_max potrad : fl) : fl :=
  let t_tmax := fmax (tt_max + (#ABASE * vp)) #0.0001 in
  potrad * t_tmax * tfmax.

(** [tskc], mtclim.py:254-256 *)
Definition mt_tskc1 (prm : params) (tfmax : fl) : fl :=
  if String.eqb (upper (p_lw_cloud prm)) "CLOUD_DEARDORFF" then #1 - tfmax
  else fsqrt ((#1 - tfmax) / #0.65).

(** ** [run], mtclim.py:28-80 *)

(** the daily inputs of one day read by the loop *)
Record mt_day := mk_mt_day {
  md_tmin : fl; md_tfmax : fl; md_ttmax : fl; md_potrad : fl;
  md_tday : fl; md_daylength : fl; md_sprec : fl; md_dtr : fl }.

(** one pass vp -> shortwave -> pet -> tdew for one day, mtclim.py:56-61
    and :65-71 *)
Definition tdew_update1 (prm : params) (d : mt_day) (tdew : fl) : fl :=
  let vp := mt_vapor_pressure1 tdew in
  let sw := mt_shortwave1 (md_tfmax d) vp (md_ttmax d) (md_potrad d) in
  let pet := pet1 prm sw (md_tday d) (md_daylength d) in
  tdew1 pet (md_tmin d) (md_sprec d) (md_dtr d).

Definition tdew_update (prm : params) (days : list mt_day) (tdew : list fl) : list fl :=
  map2 (tdew_update1 prm) days tdew.

(** np.sqrt(np.mean((a - b)**2)), mtclim.py:63 *)
Definition rms_diff (a b : list fl) : fl :=
  fsqrt (fmean (map2 (fun x y => fpow (x - y) 2) a b)).

(** the while loop, mtclim.py:63-71, with fuel; [None] when the fuel runs
    out.  Arguments: tdew_old, tdew_temp. *)
Fixpoint tdew_loop (fuel : nat) (prm : params) (days : list mt_day)
    (tdew_old tdew_temp : list fl) : option (list fl) :=
  if fgt (rms_diff tdew_temp tdew_old) #(p_tdew_tol prm) then
    match fuel with
    | O => None
    | S f => tdew_loop f prm days tdew_temp (tdew_update prm days tdew_temp)
    end
  else Some tdew_temp.

Fixpoint mk_days (tmin tfm ttm pot tday dayl sp dtr : list fl) : list mt_day :=
  match tmin, tfm, ttm, pot, tday, dayl, sp, dtr with
  | a::tmin, b::tfm, c::ttm, d::pot, e::tday, f::dayl, g::sp, h::dtr =>
      mk_mt_day a b c d e f g h :: mk_days tmin tfm ttm pot tday dayl sp dtr
  | _, _, _, _, _, _, _, _ => []
  end.

(** [run].  [None] = the loop did not finish within [fuel] passes. *)
Definition mtclim_run (fuel : nat) (df : daily) (prm : params) : option (res daily) :=
  let prep :=
    do t_min <- col df "t_min"; do t_max <- col df "t_max";
    let df := set_col df "t_day" (map2 (t_day1 prm) t_min t_max) in            (* :50 *)
    do dtr <- col df "dtr"; do sm <- col df "smoothed_dtr"; do pr <- col df "prec";
    let df := set_col df "tfmax" (map3 (tfmax1 prm) dtr sm pr) in              (* :51 *)
    do tfm <- col df "tfmax";
    let df := set_col df "tskc" (map (mt_tskc1 prm) tfm) in                    (* :53 *)
    do ttm <- col df "tt_max"; do pot <- col df "potrad";
    do dayl <- col df "daylength"; do sp <- col df "seasonal_prec";
    do tday <- col df "t_day";
    Ok (df, (t_min, (tfm, (ttm, (pot, (tday, dayl))))),
        mk_days t_min tfm ttm pot tday dayl sp dtr) in
  match prep with
  | Err e => Some (Err e)
  | Ok (df, (t_min, (tfm, (ttm, (pot, (tday, dayl))))), days) =>
      match tdew_loop fuel prm days t_min (tdew_update prm days t_min) with      (* :55-71 *)
      | None => None
      | Some tdew =>
          let df := set_col df "tdew" tdew in                                   (* :73 *)
          let vp := map mt_vapor_pressure1 tdew in
          let df := set_col df "vapor_pressure" vp in                           (* :74 *)
          let sw := map2 (fun f p => f p)
                         (map3 mt_shortwave1 tfm vp ttm) pot in
          let df := set_col df "shortwave" sw in                                (* :75 *)
          Some (Ok (set_col df "pet" (map3 (pet1 prm) sw tday dayl)))           (* :78 *)
      end
  end.

(** ** passthrough.py:28-46 *)

(** [if name not in df: df[name] = ...] *)
Definition add_missing (name : string) (compute : daily -> res (list fl)) (df : daily)
  : res daily :=
  if dict_mem (dl_cols df) name then Ok df
  else do v <- compute df; Ok (set_col df name v).

Definition passthrough_run (df : daily) (prm : params) : res daily :=
  if negb (dict_mem (dl_cols df) "shortwave") then Err AssertionError           (* :29 *)
  else
    do df <- add_missing "t_day" (fun df =>                                     (* :31 *)
               do a <- col df "t_min"; do b <- col df "t_max";
               Ok (map2 (t_day1 prm) a b)) df;
    do df <- add_missing "tfmax" (fun df =>                                     (* :33 *)
               do a <- col df "dtr"; do b <- col df "smoothed_dtr"; do c <- col df "prec";
               Ok (map3 (tfmax1 prm) a b c)) df;
    do df <- add_missing "tskc" (fun df =>                                      (* :36 *)
               do a <- col df "tfmax"; Ok (map (mt_tskc1 prm) a)) df;
    do df <- add_missing "pet" (fun df =>                                       (* :38 *)
               do a <- col df "shortwave"; do b <- col df "t_day"; do c <- col df "daylength";
               Ok (map3 (pet1 prm) a b c)) df;
    do df <- add_missing "tdew" (fun df =>                                      (* :41 *)
               do a <- col df "pet"; do b <- col df "t_min";
               do c <- col df "seasonal_prec"; do d <- col df "dtr";
               Ok (map2 (fun f x => f x) (map3 tdew1 a b c) d)) df;
    add_missing "vapor_pressure" (fun df =>                                     (* :44 *)
               do a <- col df "tdew"; Ok (map mt_vapor_pressure1 a)) df.
