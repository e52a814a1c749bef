(** metsim/disaggregate.py *)
From Coq Require Import ZArith Reals String List Bool Arith.
From Verif Require Import Model.Py Model.Fl Model.Np Model.Constants Model.Physics
  Model.Interp Model.Params.
Import ListNotations.
Local Open Scope R_scope.
Local Open Scope string_scope.
Local Open Scope list_scope.

(** ** Precipitation, disaggregate.py:265-352 *)

(** one day of [prec_TRIANGLE], disaggregate.py:304-327.  [P], [tmin],
    [t_pk], [t_dur] are that day's values; peak and duration are looked up
    only in the triangle branch (a missing column is a TypeError there). *)
Definition prec_triangle_day (do_mix : bool) (P tmin : fl) (t_pk t_dur : option fl)
  : res (list fl) :=
  if (do_mix && flt tmin (Some 0))%bool then
    Ok (map (fun one => fdiv (fmul P one) (Some 1440)) (repeat (Some 1) MIN_PER_DAY))  (* :305 *)
  else
    match t_pk, t_dur with
    | Some t_pk, Some t_dur =>
        let times_day := seq 0 MIN_PER_DAY in                              (* :307 *)
        let prec_day := repeat (Some 0) MIN_PER_DAY in                     (* :308 *)
        let t_start := fsub t_pk (fmul (Some 0.5) t_dur) in                (* :315 *)
        let t_stop := fadd t_pk (fmul (Some 0.5) t_dur) in                 (* :316 *)
        let t_plus := filter (fun m => fle (Some (INR m)) t_pk
                                       && fle t_start (Some (INR m)))%bool times_day in
        let t_minus := filter (fun m => fle t_pk (Some (INR m))
                                        && fle (Some (INR m)) t_stop)%bool times_day in
        let prec_day := np_put prec_day t_plus
                          (map Some (linspace 0 1.0 (List.length t_plus))) in   (* :323 *)
        let prec_day := np_put prec_day t_minus
                          (map Some (linspace 1.0 0 (List.length t_minus))) in  (* :324 *)
        let scale := fdiv P (fsum prec_day) in                             (* :327 *)
        Ok (map (fun x => fmul scale x) prec_day)
    | _, _ => Err TypeError
    end.

(** [prec_TRIANGLE], disaggregate.py:295-329: loop over days.  The label
    lookups t_min[t], prec_peak[t], prec_dur[t] are positional because all
    series share the (unique) daily index. *)
Definition opt_nth (c : option (list fl)) (i : nat) : option fl :=
  match c with None => None | Some l => nth_error l i end.

Definition prec_TRIANGLE (daily_prec t_min : list fl) (prec_peak prec_dur : option (list fl))
    (do_mix : bool) : res (list fl) :=
  do days <- mapM (fun ip => prec_triangle_day do_mix (snd ip) (nth (fst ip) t_min None)
                               (opt_nth prec_peak (fst ip)) (opt_nth prec_dur (fst ip)))
                  (combine (seq 0 (List.length daily_prec)) daily_prec);
  Ok (concat days).

(** [prec_UNIFORM], disaggregate.py:331-332 *)
Definition prec_UNIFORM (prec : list fl) : list fl :=
  np_repeat (map (fun P => fdiv P (Some 1440)) prec) MIN_PER_DAY.

(** offset in minutes, disaggregate.py:349, :376, :611 *)
Definition utc_minutes (lon : R) : Z := Rtrunc ((lon / DEG_PER_REV) * INR MIN_PER_DAY).

(** [prec], disaggregate.py:339-352 *)
Definition prec (prec t_min : list fl) (ts : Z) (prm : params)
    (t_pk dur : option (list fl)) : res (list fl) :=
  do P_return <-
    (if str_in (upper (p_prec_type prm)) ["TRIANGLE"; "MIX"] then
       prec_TRIANGLE prec t_min t_pk dur (String.eqb (upper (p_prec_type prm)) "MIX")
     else Ok (prec_UNIFORM prec));
  let P_return := if p_utc_offset prm
                  then np_roll P_return (- utc_minutes (p_lon prm)) else P_return in
  do r <- reshape P_return ts;
  Ok (map fsum r).

(** ** Wind and cloud cover, disaggregate.py:374-380 and :609-615 (the two
    bodies are identical) *)
Definition daily_constant (x : list fl) (ts : Z) (prm : params) : res (list fl) :=
  let sd := np_repeat x MIN_PER_DAY in
  let sd := if p_utc_offset prm then np_roll sd (- utc_minutes (p_lon prm)) else sd in
  do r <- reshape sd ts;
  Ok (map fmean r).
Definition wind (w : list fl) (ts : Z) (prm : params) := daily_constant w ts prm.   (* :355 *)
Definition tskc (c : list fl) (ts : Z) (prm : params) := daily_constant c ts prm.   (* :593 *)

(** ** Shortwave, disaggregate.py:618-680 *)

(** offset in 30 s steps, disaggregate.py:655 *)
Definition utc_rad_steps (lon : R) : Z := Rtrunc ((lon / DEG_PER_REV) * INR RAD_STEPS).

(** int(HOURS_PER_DAY * MIN_PER_HOUR / ts), disaggregate.py:650 and :585 *)
Definition ts_per_day (ts : Z) : res nat :=
  if (ts =? 0)%Z then Err ZeroDivisionError else Ok (Z.to_nat (Z.quot 1440 ts)).

(** one iteration of the day loop, disaggregate.py:664-678 *)
Definition sw_day (ts_id : list nat) (tiny tmp_rad : list fl) (day doy : nat) : res (list fl) :=
  let rad := list_slice tiny ((doy - 1) * RAD_STEPS) (doy * RAD_STEPS) in
  let w := list_slice tmp_rad (day * RAD_STEPS) ((day + 1) * RAD_STEPS) in
  do prod <- zipw fmul rad w;
  bincount ts_id prod.

(** [shortwave].  Both branches of :644-648 compute the same expression.
    [day_of_year] is 1-based.  The result is the concatenation of the day
    chunks (disaggrad[dslice] = rad_chunk, :678); a chunk whose length is
    not ts_per_day is a ValueError. *)
Definition shortwave (sw_rad daylength : list fl) (day_of_year : list nat)
    (tiny_rad_fract : list (list R)) (prm : params) : res (list fl) :=
  let ts := p_time_step prm in
  do tpd <- ts_per_day ts;                                                       (* :650 *)
  let ts_hourly := IZR ts / MIN_PER_HOUR in                                      (* :643 *)
  do swdl <- zipw fmul sw_rad daylength;
  let tmp_rad := map (fun x => fdiv x (Some (SEC_PER_HOUR * ts_hourly))) swdl in  (* :645 *)
  let n_days := List.length tmp_rad in
  let tmp_rad := np_repeat tmp_rad RAD_STEPS in                                  (* :653 *)
  let flat := map Some (concat tiny_rad_fract) in
  let off := utc_rad_steps (p_lon prm) in
  let flat := if p_utc_offset prm then np_roll flat (- off) else flat in          (* :656 *)
  let tmp_rad := if p_utc_offset prm then np_roll tmp_rad (- off) else tmp_rad in  (* :657 *)
  let chunk_size := Z.to_nat (ts * 2) in              (* int(ts * (60 / 30.0)), :662 *)
  let ts_id := np_repeat (seq 0 tpd) chunk_size in                               (* :663 *)
  do days <- mapM (fun day =>
                     do doy <- getitem day_of_year day;
                     do chunk <- sw_day ts_id flat tmp_rad day doy;
                     if (List.length chunk =? tpd)%nat then Ok chunk else Err ValueError)
                  (seq 0 n_days);
  Ok (concat days).

(** ** Times of minimum and maximum temperature, disaggregate.py:133-201 *)

Definition rad_mask (row : list R) : list Z := map (fun x => if Rltb 0 x then 1%Z else 0%Z) row.

(** last position j with p (mask[j]), times SW_RAD_DT/SEC_PER_MIN, or 0
    (:168-176: np.zeros, then assignment in increasing j) *)
Definition last_event (p : Z -> bool) (mask : list Z) : R :=
  fold_left (fun acc jm => if p (snd jm) then INR (fst jm) * (SW_RAD_DT / SEC_PER_MIN) else acc)
            (combine (seq 0 (List.length mask)) mask) 0.

Definition day_tot : R := (SEC_PER_DAY / SW_RAD_DT) * (SW_RAD_DT / SEC_PER_MIN).   (* :179 *)

Definition rise_time (row : list R) : R :=
  let r := last_event (fun m => (0 <? m)%Z) (np_diffZ (rad_mask row)) in
  if Reqb r 0 then day_tot / 6 else r.                                            (* :181 *)
Definition set_time (row : list R) : R :=
  let s := last_event (fun m => (m <? 0)%Z) (np_diffZ (rad_mask row)) in
  if Reqb s 0 then 4 * day_tot / 6 else s.                                        (* :182 *)

(** offset used for the temperature times, disaggregate.py:186-187 *)
Definition utc_temp_minutes (prm : params) : Z :=
  Rtrunc (((p_lon prm - p_theta_s prm) / DEG_PER_REV) * INR MIN_PER_DAY).

(** [set_min_max_hour]; [yday] is 0-based.  The daylength argument is
    unused by the code and omitted. *)
Definition set_min_max_hour (tiny_rad_fract : list (list R)) (yday : list nat)
    (n_days : nat) (ts : Z) (prm : params) : res (list R * list R) :=
  let shift := if p_utc_offset prm then IZR (utc_temp_minutes prm) else 0 in
  let rise := map (fun row => rise_time row - shift) tiny_rad_fract in            (* :188 *)
  let sett := map (fun row => set_time row - shift) tiny_rad_fract in
  let offset := map (fun d => INR (d * MIN_PER_DAY)) (seq 0 n_days) in            (* :192 *)
  do rise <- mapM (getitem rise) yday;
  do rise <- zipw Rplus rise offset;                                             (* :194 *)
  do sett <- mapM (getitem sett) yday;
  do sett <- zipw Rplus sett offset;
  let t_t_max := map2 (fun s r => (p_tmax_frac prm * (s - r) + r) - IZR ts) sett rise in  (* :198 *)
  let t_t_min := map (fun r => r - IZR ts) rise in                                (* :200 *)
  Ok (t_t_min, t_t_max).

(** ** Temperature, disaggregate.py:204-262 *)

(** np.ravel(np.column_stack((a, b))) *)
Fixpoint interleave (a b : list R) : list R :=
  match a, b with
  | x :: a', y :: b' => x :: y :: interleave a' b'
  | _, _ => []
  end.
Definition last_n {A} (n : nat) (l : list A) : list A := skipn (List.length l - n) l.

(** knot times and values, disaggregate.py:242-257 *)
Definition temp_times (t_t_min t_t_max : list R) : list R :=
  let time := interleave t_t_min t_t_max in
  map (fun t => t - 1440) (firstn 2 time) ++ time ++ map (fun t => t + 1440) (last_n 2 time).
Definition temp_values (t_min t_max : list R) (t_begin t_end : option (list R)) : list R :=
  let temp := interleave t_min t_max in
  (match t_begin with None => firstn 2 temp | Some b => b end) ++ temp ++
  (match t_end with None => last_n 2 temp | Some e => e end).

Definition temp (t_min t_max : list R) (out_len : nat) (t_t_min t_t_max : list R)
    (ts : Z) (t_begin t_end : option (list R)) : res (list R) :=
  do interp <- PchipInterpolator (temp_times t_t_min t_t_max)
                                 (temp_values t_min t_max t_begin t_end);
  Ok (map (fun k => interp (IZR ts * INR k)) (seq 0 out_len)).

(** ** Vapor pressure, disaggregate.py:450-488 *)
Definition vapor_pressure (vp_daily : list fl) (temp : list fl) (t_t_min : list R)
    (n_out : nat) (ts : Z) : res (list fl) :=
  do interp <- interp1d t_t_min (map (fun v => fdiv v (Some MBAR_PER_BAR)) vp_daily);
  let vp_disagg := map (fun k => interp (IZR ts * INR k)) (seq 0 n_out) in
  let vp_sat := map (fun s => fdiv s (Some MBAR_PER_BAR)) (svp temp) in
  zipw (fun sat vp => if flt sat vp then sat else vp) vp_sat vp_disagg.

(** ** Humidity and pressure, disaggregate.py:383-447 *)
Local Open Scope fl_scope.
Definition relative_humidity1 (vp temp : fl) : fl :=
  let rh := #MAX_PERCENT * #MBAR_PER_BAR * (vp / svp1 temp) in       (* :445 *)
  if fgt rh #MAX_PERCENT then #MAX_PERCENT else rh.                  (* :446 *)

Definition pressure1 (temp elev lr : fl) : fl :=
  let temp_corr := #KELVIN + temp + #0.5 * elev * (- lr) in          (* :401 *)
  let ratio := - (elev * #G_STD) / (#R_DRY * temp_corr) in           (* :402 *)
  #P_STD * fexp ratio / #MBAR_PER_BAR.                               (* :403 *)

Definition specific_humidity1 (vp ap : fl) : fl :=
  let mix_rat := (#EPS * vp) / (ap - vp) in                          (* :423 *)
  mix_rat / (#1 + mix_rat).                                          (* :424 *)

(** ** Longwave, disaggregate.py:491-590.  [air_temp] in the lambdas is the
    Kelvin value assigned at :574 before they are called. *)
Definition emissivity_calc (name : string) : res (fl -> fl -> fl) :=
  (if (name =? "DEFAULT") || (name =? "TVA") then
     Ok (fun air_temp vp => #0.74 + #0.0049 * vp)
   else if name =? "ANDERSON" then
     Ok (fun air_temp vp => #0.68 + #0.036 * fpower vp #0.5)
   else if name =? "BRUTSAERT" then
     Ok (fun air_temp vp => #1.24 * fpower (vp / air_temp) #0.14285714)
   else if name =? "SATTERLUND" then
     Ok (fun air_temp vp => #1.08 * (#1 - fexp (#(-1) * fpower vp (air_temp / #2016))))
   else if name =? "IDSO" then
     Ok (fun air_temp vp => #0.7 + #(5.95e-5) * vp * fexp (#1500 / air_temp))
   else if name =? "PRATA" then
     Ok (fun air_temp vp =>
           #1 - (#1 + (#46.5 * vp / air_temp))
                * fexp (- fsqrt (#1.2 + #3 * (#46.5 * vp / air_temp))))
   else Err KeyError)%string%bool.

Definition cloud_calc (name : string) : res (fl -> fl -> fl) :=
  (if (name =? "DEFAULT") || (name =? "TVA") then
     Ok (fun emis tskc => (#1.0 + (#0.17 * fpow tskc 2)) * emis)
   else if name =? "CLOUD_DEARDORFF" then
     Ok (fun emis tskc => tskc + (#1 - tskc) * emis)
   else Err KeyError)%string%bool.

(** one element before the daily rescaling, :574-582 *)
Definition longwave1 (emis cloud : fl -> fl -> fl) (air_temp vp tskc : fl) : fl :=
  let air_temp := air_temp + #KELVIN in
  let vp := vp * #10 in
  cloud (emis air_temp vp) tskc * #STEFAN_B * fpow air_temp 4.
Local Close Scope fl_scope.

(** rescaling to supplied daily values, :583-589 *)
Definition longwave_rescale (lwrad daily_lw : list fl) (ts : Z) : res (list fl) :=
  do tpd <- ts_per_day ts;
  do r <- reshape lwrad (Z.of_nat tpd);
  do factor <- zipw fdiv daily_lw (map fmean r);
  zipw fmul lwrad (np_repeat factor tpd).

Definition longwave (air_temp vapor_pressure tskc : list fl) (prm : params)
    (daily_lw : option (list fl)) : res (list fl) :=
  do emis <- emissivity_calc (upper (p_lw_type prm));
  do cloud <- cloud_calc (upper (p_lw_cloud prm));
  let lwrad := map3 (longwave1 emis cloud) air_temp vapor_pressure tskc in
  match daily_lw with
  | None => Ok lwrad
  | Some d => longwave_rescale lwrad d (p_time_step prm)
  end.

(** ** [disaggregate], disaggregate.py:34-130 *)

(** math.remainder(x, 360), IEEE remainder: x - 360*n with n the integer
    nearest to x/360, ties to even *)
Definition round_half_even (x : R) : Z :=
  let f := Int_part x in
  let d := x - IZR f in
  if Rltb d (1/2) then f
  else if Rltb (1/2) d then (f + 1)%Z
  else if Z.even f then f else (f + 1)%Z.
Definition remainder360 (x : R) : R := x - 360 * IZR (round_half_even (x / 360)).

(** the daily dataframe: named columns of equal length and the day of year
    of each row *)
Record daily := mkdaily { dl_cols : dict (list fl); dl_doy : list nat }.
Definition col (df : daily) (name : string) : res (list fl) := dict_getitem (dl_cols df) name.
Definition set_col (df : daily) (name : string) (v : list fl) : daily :=
  {| dl_cols := dict_set (dl_cols df) name v; dl_doy := dl_doy df |}.

(** SciPy rejects non-finite ordinates (ValueError) *)
Fixpoint finite (l : list fl) : res (list R) :=
  match l with
  | [] => Ok []
  | None :: _ => Err ValueError
  | Some x :: r => do xs <- finite r; Ok (x :: xs)
  end.

(** [disaggregate]: returns the named sub-daily columns (after the final
    fills) in order of creation.  [span]: number of days from the first to
    the last date of the daily index, both included.  The disaggregated index
    runs from the first date to the end of the last one, so it has
    span * 1440 / ts entries (:69-76; see Model/Datetime.v for the index
    itself); columns of any other length are a ValueError on assignment. *)
Definition disaggregate_over (span : nat) (df : daily) (prm : params) (tiny : list (list R))
    (t_begin t_end : option (list R)) : res (dict (list fl)) :=
  let prm := set_lon prm (remainder360 (p_lon prm)) in                    (* :67 *)
  let ts := p_time_step prm in
  let n_days := List.length (dl_doy df) in
  do tpd <- ts_per_day ts;
  let n_disagg := (span * tpd)%nat in
  let assign := fun (cols : dict (list fl)) name (v : list fl) =>
     if (List.length v =? n_disagg)%nat then Ok (dict_set cols name v) else Err ValueError in
  (* :79-80 *)
  let df := if ((p_method prm =? "passthrough") && negb (p_sw_averaging prm =? "daylight"))%bool
            then set_col df "daylength" (repeat (Some 86400.0) n_days) else df in
  do sw <- col df "shortwave"; do dayl <- col df "daylength";
  do sw <- shortwave sw dayl (dl_doy df) tiny prm;                        (* :81 *)
  do out <- assign [] "shortwave" sw;
  do tx <- set_min_max_hour tiny (map (fun d => d - 1)%nat (dl_doy df)) n_days ts prm;  (* :87 *)
  let (t_Tmin, t_Tmax) := tx in
  do tmin <- col df "t_min"; do tmax <- col df "t_max";
  do tminR <- finite tmin; do tmaxR <- finite tmax;
  do tmp <- temp tminR tmaxR n_disagg t_Tmin t_Tmax ts t_begin t_end;      (* :92 *)
  let tmp := map Some tmp in
  do out <- assign out "temp" tmp;
  do vpd <- col df "vapor_pressure";
  do vp <- vapor_pressure vpd tmp t_Tmin n_disagg ts;                      (* :96 *)
  let vp := fill_gaps vp in                                                (* :99 *)
  do out <- assign out "vapor_pressure" vp;
  do out <- assign out "rel_humid" (map2 relative_humidity1 vp tmp);       (* :103 *)
  let ap := map (fun t => pressure1 t (Some (p_elev prm)) (Some (p_lapse_rate prm))) tmp in
  do out <- assign out "air_pressure" ap;                                  (* :106 *)
  do out <- assign out "spec_humid" (map2 specific_humidity1 vp ap);       (* :109 *)
  do ck <- col df "tskc";
  do ck <- tskc ck ts prm;                                                 (* :113 *)
  do out <- assign out "tskc" ck;
  do lw <- longwave tmp vp ck prm (dict_get (dl_cols df) "longwave");      (* :115-121 *)
  do out <- assign out "longwave" lw;
  do pr <- col df "prec";
  do pr <- prec pr tmin ts prm (dict_get (dl_cols df) "t_pk") (dict_get (dl_cols df) "dur");  (* :122 *)
  do out <- assign out "prec" pr;
  do out <- (match dict_get (dl_cols df) "wind" with                       (* :125 *)
             | Some w => do w <- wind w ts prm; assign out "wind" w
             | None => Ok out end);
  Ok (map (fun nv => (fst nv, fill_gaps (snd nv))) out).                   (* :130 *)

(** a daily index without gaps: as many days as rows *)
Definition disaggregate (df : daily) : params -> list (list R) -> option (list R) -> option (list R) ->
    res (dict (list fl)) := disaggregate_over (List.length (dl_doy df)) df.
