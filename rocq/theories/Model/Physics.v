(** metsim/physics.py *)
From Coq Require Import ZArith Reals List Bool Arith Ratan.
From Verif Require Import Model.Py Model.Fl Model.Np Model.Constants.
Import ListNotations.
Local Open Scope R_scope.
Local Open Scope fl_scope.

(** [svp], physics.py:124-152, one element (the function is elementwise:
    [inds] selects the entries < 0, which get the correction factor).
    Default parameters a, b, c as in the signature.  The pd.Series guard
    (:147-148) is not modelled: all callers pass arrays. *)
Definition svp1 (temp : fl) : fl :=
  let a := #0.61078 in let b := #17.269 in let c := #237.3 in
  let s := a * fexp ((b * temp) / (c + temp)) in
  let s := if flt temp #0
           then s * (#1.0 + #0.00972 * temp + #0.000042 * fpow temp 2)
           else s in
  s * #1000.

Definition svp (temp : list fl) : list fl := map svp1 temp.

(** [svp_slope], physics.py:155-174 *)
Definition svp_slope1 (temp : fl) : fl :=
  let b := #17.269 in let c := #237.3 in
  (b * c) / ((c + temp) * (c + temp)) * svp1 temp.

(** [atm_pres], physics.py:99-121 *)
Definition atm_pres (elev lr : fl) : fl :=
  let t1 := #1.0 - (lr * elev) / #T_STD in
  let t2 := #G_STD / (lr * (#R_GAS / #MA)) in
  #P_STD * fpower t1 t2.

(** [calc_pet], physics.py:28-96, one element; dt = 0.2 *)
Definition calc_pet1 (rad ta dayl pa : fl) : fl :=
  let dt := #0.2 in
  let rnet := rad * #0.72 in                                  (* :64 *)
  let lhvap := #2502300 - #2430.54 * ta in                    (* :67 *)
  let gamma := #CP * pa / (lhvap * #EPS) in                   (* :73 *)
  let t1 := ta + dt in                                        (* :77-78 *)
  let t2 := ta - dt in
  let pvs1 := svp1 t1 in                                      (* :83-84 *)
  let pvs2 := svp1 t2 in
  let s := (pvs1 - pvs2) / (t1 - t2) in                       (* :87 *)
  let pet := (#1.26 * (s / (s + gamma)) * rnet * dayl) / lhvap in  (* :92 *)
  pet / #10.                                                  (* :96 *)

(** ** [solar_geom], physics.py:177-285.

    Modelled over the reals ([np.pi] is [PI]).  The nested loops are split
    into the per-hour-angle step and the per-day computation. *)

(** OPTAM, physics.py:197-199 *)
Definition OPTAM : list R :=
  [2.90; 3.05; 3.21; 3.39; 3.69; 3.82; 4.07;
   4.37; 4.72; 5.12; 5.60; 6.18; 6.88; 7.77;
   8.90; 10.39; 12.44; 15.36; 19.79; 26.96; 30.00]%R.

(** int(np.ceil(cnst.DAYS_PER_YEAR)), physics.py:200 *)
Definition dayperyear : nat := 366.

Local Close Scope fl_scope.

(** trans = TBASE ** (t1 ** t2), physics.py:206-208.
    Total over R: the caller is only meaningful for t1 > 0 (elev below
    T_STD/lr); outside that range NumPy yields NaN. *)
Definition sg_trans (elev lr : R) : R :=
  let t1 := 1.0 - (lr * elev) / T_STD in
  let t2 := G_STD / (lr * (R_GAS / MA)) in
  Rpower TBASE (Rpower t1 t2).

(** latitude in radians, clamped, physics.py:211-213 *)
Definition sg_lat (lat : R) : R :=
  Rmin (Rmax (lat * RAD_PER_DEG) (- PI / 2)) (PI / 2).

(** declination of table row i, physics.py:226 *)
Definition sg_decl (i : nat) : R :=
  MIN_DECL * cos ((INR i + DAYS_OFF) * RAD_PER_DAY).

(** physics.py:231-232 *)
Definition sg_cosegeom (lat : R) (i : nat) : R := cos (sg_lat lat) * cos (sg_decl i).
Definition sg_sinegeom (lat : R) (i : nat) : R := sin (sg_lat lat) * sin (sg_decl i).

(** half-day hour angle, physics.py:233-234 *)
Definition sg_coshss (lat : R) (i : nat) : R :=
  Rmin (Rmax (- sg_sinegeom lat i / sg_cosegeom lat i) (-1)) 1.
Definition sg_hss (lat : R) (i : nat) : R := acos (sg_coshss lat i).

(** daylength[i], physics.py:235 *)
Definition sg_daylength (lat : R) (i : nat) : R :=
  Rmin (2.0 * sg_hss lat i * SEC_PER_RAD) SEC_PER_DAY.

(** dh, physics.py:218-219 *)
Definition sg_dh : R := SW_RAD_DT / SEC_PER_RAD.

(** dir_beam_topa, physics.py:238-239 *)
Definition sg_beam (i : nat) : R :=
  (1368.0 + 45.5 * sin ((2.0 * PI * INR i / DAYS_PER_YEAR) + 1.7)) * SW_RAD_DT.

(** np.arange(-hss, hss, dh): ceil((stop-start)/step) values, physics.py:243 *)
Definition arange_R (start stop step : R) : list R :=
  map (fun k => start + INR k * step)
      (seq 0 (Z.to_nat (Rceil ((stop - start) / step)))).

(** cosine of the zenith angle, physics.py:245-246 *)
Definition sg_cza (lat : R) (i : nat) (h : R) : R :=
  sg_cosegeom lat i * cos h + sg_sinegeom lat i.

(** index into OPTAM, physics.py:255-256 *)
Definition sg_ami (cza : R) : Z :=
  Z.min (Z.max (Rtrunc (acos cza / RAD_PER_DEG) - 69) 0) 20.

(** optical air mass, physics.py:253-257; a list access out of range is an
    IndexError *)
Definition sg_am (cza : R) : res R :=
  let am := 1.0 / (cza + 0.0000001) in
  if Rltb 2.9 am then getitem OPTAM (Z.to_nat (sg_ami cza)) else Ok am.

(** tinystep, physics.py:264-266 *)
Definition sg_tinystep (h : R) : nat :=
  Z.to_nat (Rtrunc (Rmin (Rmax ((12 * SEC_PER_HOUR + h * SEC_PER_RAD) / SW_RAD_DT) 0)
                         (INR (RAD_STEPS - 1)))).

(** state of the inner loop: sum_trans, sum_flat_potrad, tiny_rad_fract[i] *)
Record sg_acc := { acc_trans : R; acc_flat : R; acc_row : list R }.

(** body of the inner loop, physics.py:243-267 *)
Definition sg_step (trans lat : R) (i : nat) (acc : res sg_acc) (h : R) : res sg_acc :=
  do a <- acc;
  let cza := sg_cza lat i h in
  if Rltb 0 cza then
    let dir_flat_topa := sg_beam i * cza in
    do am <- sg_am cza;
    Ok {| acc_trans := acc_trans a + Rpower trans am * dir_flat_topa;
          acc_flat := acc_flat a + dir_flat_topa;
          acc_row := upd (sg_tinystep h) dir_flat_topa (acc_row a) |}
  else
    Ok {| acc_trans := acc_trans a;
          acc_flat := acc_flat a;
          acc_row := upd (sg_tinystep h) 0 (acc_row a) |}.

Record sg_day_out := { sd_row : list R; sd_daylength : R; sd_potrad : R; sd_ttmax : R }.

(** body of the outer loop for row i, physics.py:224-280.  The quotient at
    :275 is a ZeroDivisionError when sum_flat_potrad is 0 although the
    daylength is not. *)
Definition sg_day (elev lat lr : R) (i : nat) : res sg_day_out :=
  let hss := sg_hss lat i in
  let daylength := sg_daylength lat i in
  do a <- fold_left (sg_step (sg_trans elev lr) lat i) (arange_R (- hss) hss sg_dh)
            (Ok {| acc_trans := 0; acc_flat := 0; acc_row := repeat 0 RAD_STEPS |});
  let row := if negb (Reqb daylength 0) && Rltb 0 (acc_flat a)
             then map (fun x => x / acc_flat a) (acc_row a) else acc_row a in
  if negb (Reqb daylength 0) then
    if Reqb (acc_flat a) 0 then Err ZeroDivisionError
    else Ok {| sd_row := row; sd_daylength := daylength;
               sd_potrad := acc_flat a / daylength;
               sd_ttmax := acc_trans a / acc_flat a |}
  else Ok {| sd_row := row; sd_daylength := daylength; sd_potrad := 0; sd_ttmax := 0 |}.

Record solar_geom_out := {
  tiny_rad_fract : list (list R);
  sg_daylengths : list R;
  flat_potrad : list R;
  tt_max0 : list R }.

(** [solar_geom], physics.py:224-285: rows 0..364 are computed, row 365 is
    a copy of row 364 (:281-284). *)
Definition solar_geom (elev lat lr : R) : res solar_geom_out :=
  do days <- mapM (sg_day elev lat lr) (seq 0 (dayperyear - 1));
  do lastday <- getitem days (dayperyear - 2);
  let days := days ++ [lastday] in
  Ok {| tiny_rad_fract := map sd_row days;
        sg_daylengths := map sd_daylength days;
        flat_potrad := map sd_potrad days;
        tt_max0 := map sd_ttmax days |}.
