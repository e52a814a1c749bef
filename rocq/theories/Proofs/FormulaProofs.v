(** C107, C108: the kernels are the published formulas. *)
From Coq Require Import ZArith Reals String List Bool Arith Lia Lra Ratan.
From Verif Require Import Model.Py Model.Fl Model.Np Model.Constants Model.Physics Model.Params Model.Disagg Model.Mtclim
  Proofs.Base Proofs.RBase Proofs.StateProofs Proofs.UtcProofs Proofs.ConfigProofs Proofs.ArrayProofs Proofs.PrecProofs Proofs.FrameProofs Proofs.SvpProofs Proofs.MtclimProofs Proofs.LongwaveProofs
  Proofs.ShortwaveProofs Proofs.CellProofs Proofs.DewProofs Proofs.PassProofs Proofs.StepProofs Proofs.SolarProofs Proofs.SolarTables Proofs.SolarExamples Proofs.DewGaps Proofs.PiBounds
  Spec.SeriesSpec Spec.FrameSpec Spec.DailySpec Spec.DewSpec Spec.StepSpec Spec.FormulaSpec.
Import ListNotations.
Local Open Scope string_scope.
Local Open Scope list_scope.
Local Open Scope R_scope.

(** ** kernels *)
Lemma t_day_formula prm tn tx : t_day1 prm (Some tn) (Some tx) = Some (daylight_temp (p_tday_coef prm) tn tx).
Proof. unfold t_day1, daylight_temp. cbn [fadd flift2]. rewrite fdiv_some by lra. cbn [fadd fsub fmul flift2]. f_equal. lra. Qed.

Lemma power_15 d : 0 <= d -> dtr15 d = d * sqrt d.
Proof.
  intros H. unfold dtr15. destruct (Rlt_dec 0 d) as [P|P].
  - rewrite <- (Rpower_sqrt d P). rewrite <- (Rpower_1 d P) at 2. rewrite <- Rpower_plus. f_equal. lra.
  - replace d with 0 by lra. rewrite sqrt_0. lra.
Qed.
Lemma dry_formula dtr sm : 0 <= dtr -> tf_dry dtr sm = dry_clearness dtr sm.
Proof.
  intros H. unfold tf_dry, dry_clearness. rewrite power_15 by auto. unfold tf_b, B0, B1, B2.
  replace (Ropp 0.185 * sm) with (- (0.185 * sm)) by lra. do 3 f_equal. ring.
Qed.
Lemma tfmax_formula prm dtr sm p : 0 <= dtr -> tfmax1 prm (Some dtr) (Some sm) (Some p) = Some (clearness prm dtr sm p).
Proof.
  intros H. rewrite tfmax_eq by auto. rewrite dry_formula by auto. unfold clearness. destruct (Rlt_dec _ _); f_equal; lra.
Qed.
Lemma tskc_formula prm t c : t <= 1 -> cloud_cover prm t c -> mt_tskc1 prm (Some t) = Some c.
Proof.
  intros H [E|N]; unfold mt_tskc1.
  - rewrite E. reflexivity.
  - destruct (String.eqb_spec (upper (p_lw_cloud prm)) "CLOUD_DEARDORFF"); [contradiction|]. cbn [fsub flift2]. rewrite fdiv_some by lra. unfold fsqrt.
    assert (0 <= (1 - t) / 0.65) by (apply div_nonneg; lra). destruct (Rlt_dec _ 0); [lra|reflexivity].
Qed.
Lemma svp_formula T : -237.3 < T -> svp1 (Some T) = Some (saturation T).
Proof. intros H. rewrite svp1_some by auto. now rewrite saturation_eq. Qed.
Lemma shortwave_formula t e tt pot : mt_shortwave1 (Some t) (Some e) (Some tt) (Some pot) = Some (received pot tt e t).
Proof.
  unfold mt_shortwave1, received, ABASE. cbn [fmul fadd flift2 fmax]. do 4 f_equal. lra.
Qed.
Lemma quotient4 g r m l : r <> 0 -> m <> 0 -> l <> 0 -> g / (l * (r / m)) = g * m / (l * r).
Proof. intros. field. auto. Qed.
Lemma pressure_formula elev lr : lr <> 0 -> lr * elev < 288.15 ->
  atm_pres (Some elev) (Some lr) = Some (101325 * pressure_ratio elev lr).
Proof.
  intros L H. unfold atm_pres, pressure_ratio. cbn [fmul flift2]. unfold T_STD, MA, R_GAS, G_STD, P_STD. rewrite fdiv_some by lra.
  rewrite fdiv_some by lra. cbn [fmul fsub flift2]. assert (R0 : 0 < 8.3143 / 0.0289644) by (apply div_pos; lra).
  rewrite fdiv_some by nra. rewrite fpower_pos.
  - cbn [fmul flift2]. rewrite quotient4 by lra. repeat f_equal; lra.
  - assert (lr * elev / 288.15 < 1) by (apply div_lt; lra). lra.
Qed.
Lemma pet_formula prm s T dl : has_pressure prm -> -237.1 < T < 1029 ->
  pet1 prm (Some s) (Some T) (Some dl) = Some (evaporation prm s T dl).
Proof.
  intros [L H] B. unfold pet1. rewrite pressure_formula by auto. unfold calc_pet1. cbn [fmul fsub fadd flift2].
  rewrite !svp_formula by lra. cbn [fsub flift2].
  assert (S0 : 0 < saturation (T + 0.2) - saturation (T - 0.2)).
  { rewrite <- !saturation_eq. pose proof (svp_R_incr (T - 0.2) (T + 0.2) ltac:(lra) ltac:(lra)). lra. }
  assert (P0 : 0 < pressure_ratio (p_elev prm) (p_lapse_rate prm)) by apply Rpower_pos.
  unfold evaporation, CP, EPS, MM_PER_CM. set (q := pressure_ratio _ _) in *. set (D := saturation _ - saturation _) in *.
  assert (V : 0 < 2502300 - 2430.54 * T) by lra. set (V' := 2502300 - 2430.54 * T) in *. cbv zeta.
  rewrite (fdiv_some _ (T + 0.2 - (T - 0.2))) by lra. replace (T + 0.2 - (T - 0.2)) with 0.4 by lra.
  set (sl := D / 0.4). assert (Psl : 0 < sl) by (apply div_pos; lra).
  rewrite (fdiv_some _ (V' * 0.62196351)) by lra. rewrite (Rmult_comm V' 0.62196351).
  set (ga := 1010 * (101325 * q) / _). replace (1010.0 * (101325 * q) / (0.62196351 * V')) with ga by (unfold ga; f_equal; lra).
  assert (Pga : 0 < ga) by (unfold ga; apply div_pos; lra). cbn [fadd flift2]. rewrite fdiv_some by lra. cbn [fmul flift2].
  rewrite fdiv_some by lra. rewrite fdiv_some by lra. cbn [fmul flift2]. f_equal.
  unfold Rdiv. lra.
Qed.
Lemma tdew_formula e tn sp dtr : tdew1 (Some e) (Some tn) (Some sp) (Some dtr) = Some (kimball tn dtr sp e).
Proof.
  unfold tdew1, kimball, KELVIN. cbn [flt]. unfold Rltb.
  assert (M : (if (if Rlt_dec sp 80.0 then true else false) then Some 80.0 else Some sp) = Some (Rmax 80 sp)).
  { destruct (Rlt_dec sp 80.0); f_equal; unfold Rmax; destruct (Rle_dec _ _); lra. }
  unfold fl in *. rewrite M. assert (0 < Rmax 80 sp) by (pose proof (Rmax_l 80 sp); lra).
  rewrite fdiv_some by lra. cbn [fmul fadd fsub fpow flift2 flift1 option_map]. f_equal. cbv zeta. set (a := e / _). lra.
Qed.

(** ** columns *)
Lemma col_of df name v d x : dict_get (dl_cols df) name = Some v -> on_day df name d x -> nth_error v d = Some (Some x).
Proof. intros H (w & W & N). rewrite H in W. apply Some_inj in W. now subst. Qed.
Lemma on_day_of df name v d x : dict_get (dl_cols df) name = Some v -> nth_error v d = Some (Some x) -> on_day df name d x.
Proof. intros H N. now exists v. Qed.

Lemma col_t_day prm df : row2 df "t_day" "t_min" "t_max" (t_day1 prm) -> follows_t_day prm df.
Proof.
  intros (x & y & Hx & Hy & H) d tn tx A B. apply (on_day_of _ _ _ _ _ H).
  rewrite (nth_map2 _ _ _ _ _ _ (col_of _ _ _ _ _ Hx A) (col_of _ _ _ _ _ Hy B)). now rewrite t_day_formula.
Qed.
Lemma col_tfmax prm df : row3 df "tfmax" "dtr" "smoothed_dtr" "prec" (tfmax1 prm) -> follows_tfmax prm df.
Proof.
  intros (x & y & z & Hx & Hy & Hz & H) d dtr sm p P A B C. apply (on_day_of _ _ _ _ _ H).
  rewrite (map3_nth _ _ _ _ _ _ _ _ (col_of _ _ _ _ _ Hx A) (col_of _ _ _ _ _ Hy B) (col_of _ _ _ _ _ Hz C)). now rewrite tfmax_formula.
Qed.
Lemma col_tskc prm df : row1 df "tskc" "tfmax" (mt_tskc1 prm) -> follows_tskc prm df.
Proof.
  intros (x & Hx & H) d t c P A B. apply (on_day_of _ _ _ _ _ H).
  rewrite (map_nth_error (mt_tskc1 prm) _ _ (col_of _ _ _ _ _ Hx A)). now rewrite (tskc_formula prm t c).
Qed.
Lemma col_vapor df : row1 df "vapor_pressure" "tdew" svp1 -> follows_vapor df.
Proof.
  intros (x & Hx & H) d T P A. apply (on_day_of _ _ _ _ _ H).
  rewrite (map_nth_error svp1 _ _ (col_of _ _ _ _ _ Hx A)). now rewrite svp_formula.
Qed.
Lemma col_shortwave df : row4 df "shortwave" "tfmax" "vapor_pressure" "tt_max" "potrad" mt_shortwave1 -> follows_shortwave df.
Proof.
  intros (x & y & z & w & Hx & Hy & Hz & Hw & H) d t e tt pot A B C D. apply (on_day_of _ _ _ _ _ H).
  rewrite (nth_map2 _ _ _ _ _ _ (map3_nth mt_shortwave1 _ _ _ _ _ _ _ (col_of _ _ _ _ _ Hx A) (col_of _ _ _ _ _ Hy B) (col_of _ _ _ _ _ Hz C)) (col_of _ _ _ _ _ Hw D)).
  now rewrite shortwave_formula.
Qed.
Lemma col_pet prm df : row3 df "pet" "shortwave" "t_day" "daylength" (pet1 prm) -> follows_pet prm df.
Proof.
  intros (x & y & z & Hx & Hy & Hz & H) d s T dl P B0 A B C. apply (on_day_of _ _ _ _ _ H).
  rewrite (map3_nth _ _ _ _ _ _ _ _ (col_of _ _ _ _ _ Hx A) (col_of _ _ _ _ _ Hy B) (col_of _ _ _ _ _ Hz C)). now rewrite pet_formula.
Qed.
Lemma col_tdew df : row4 df "tdew" "pet" "t_min" "seasonal_prec" "dtr" tdew1 -> follows_tdew df.
Proof.
  intros (x & y & z & w & Hx & Hy & Hz & Hw & H) d e tn sp dtr A B C D. apply (on_day_of _ _ _ _ _ H).
  rewrite (nth_map2 _ _ _ _ _ _ (map3_nth tdew1 _ _ _ _ _ _ _ (col_of _ _ _ _ _ Hx A) (col_of _ _ _ _ _ Hy B) (col_of _ _ _ _ _ Hz C)) (col_of _ _ _ _ _ Hw D)).
  now rewrite tdew_formula.
Qed.
Lemma col_from prm df old new : dict_get (dl_cols df) "tdew" = Some new -> one_pass prm df old new -> follows_from prm df old.
Proof.
  intros G P d o t tt pot T dl tn sp dtr Pr B0 B1 O H1 H2 H3 H4 H5 H6 H7 H8. apply (on_day_of _ _ _ _ _ G).
  rewrite (P d (Some o) (Some tn) (Some t) (Some tt) (Some pot) (Some T) (Some dl) (Some sp) (Some dtr) O H6 H1 H2 H3 H4 H5 H7 H8).
  unfold next_dew. rewrite svp_formula by auto. rewrite shortwave_formula, pet_formula by auto. now rewrite tdew_formula.
Qed.

Lemma mtclim_rows fuel df prm df' : mtclim_run fuel df prm = Some (Ok df') ->
  row2 df' "t_day" "t_min" "t_max" (t_day1 prm) /\ row3 df' "tfmax" "dtr" "smoothed_dtr" "prec" (tfmax1 prm) /\
  row1 df' "tskc" "tfmax" (mt_tskc1 prm).
Proof.
  intros H. destruct (mtclim_inv _ _ _ _ H) as (tmin & tmax & dtr & sm & pr & ttm & pot & dayl & sp & td & (H1 & H2 & H3 & H4 & H5 & H6 & H7 & H8 & H9) & Lp & E).
  clear Lp H. assert (G : forall n, n <> "pet" -> n <> "shortwave" -> n <> "vapor_pressure" -> n <> "tdew" -> dict_get (dl_cols df') n =
    if n =? "tskc" then Some (map (mt_tskc1 prm) (map3 (tfmax1 prm) dtr sm pr))
    else if n =? "tfmax" then Some (map3 (tfmax1 prm) dtr sm pr)
    else if n =? "t_day" then Some (map2 (t_day1 prm) tmin tmax) else dict_get (dl_cols df) n).
  { intros n N1 N2 N3 N4. rewrite E. unfold dew_out, dew_frame. cbv zeta. rewrite !get_set_col.
    rewrite !(proj2 (String.eqb_neq n _)) by auto. reflexivity. }
  clear E. split; [|split].
  - exists tmin, tmax. rewrite !G by discriminate. auto.
  - exists dtr, sm, pr. rewrite !G by discriminate. auto.
  - exists (map3 (tfmax1 prm) dtr sm pr). rewrite !G by discriminate. auto.
Qed.

Theorem mtclim_formulas fuel df prm df' : mtclim_run fuel df prm = Some (Ok df') ->
  follows_t_day prm df' /\ follows_tfmax prm df' /\ follows_tskc prm df' /\ follows_vapor df' /\ follows_shortwave df' /\ follows_pet prm df' /\
  exists old new, dict_get (dl_cols df') "tdew" = Some new /\ settled (p_tdew_tol prm) old new /\ follows_from prm df' old.
Proof.
  intros H. destruct (mtclim_rows _ _ _ _ H) as (R1 & R2 & R3).
  destruct (dew_consistent _ _ _ _ H) as (series & k & S0 & Ps & K & St & Td & R4 & R5 & R6).
  split; [now apply col_t_day|]. split; [now apply col_tfmax|]. split; [now apply col_tskc|]. split; [now apply col_vapor|].
  split; [now apply col_shortwave|]. split; [now apply col_pet|]. exists (series k), (series (S k)). split; [exact Td|]. split; [exact St|].
  exact (col_from _ _ _ _ Td (Ps k)).
Qed.

Theorem passthrough_formulas df prm df' : passthrough_run df prm = Ok df' ->
  (has df "t_day" \/ follows_t_day prm df') /\ (has df "tfmax" \/ follows_tfmax prm df') /\ (has df "tskc" \/ follows_tskc prm df') /\
  (has df "pet" \/ follows_pet prm df') /\ (has df "tdew" \/ follows_tdew df') /\ (has df "vapor_pressure" \/ follows_vapor df').
Proof.
  intros H. destruct (passthrough_spec _ _ _ H) as (_ & _ & R1 & R2 & R3 & R4 & R5 & R6).
  split; [destruct R1; [now left|right; now apply col_t_day]|]. split; [destruct R2; [now left|right; now apply col_tfmax]|].
  split; [destruct R3; [now left|right; now apply col_tskc]|]. split; [destruct R4; [now left|right; now apply col_pet]|].
  split; [destruct R5; [now left|right; now apply col_tdew]|]. destruct R6; [now left|right; now apply col_vapor].
Qed.

(** ** the sun *)
Section Sun.
Variables (lat : R) (i : nat).
Hypothesis Hlat : -90 <= lat <= 90.

Lemma tilt_eq : sg_decl i = tilt i.
Proof. unfold sg_decl, tilt, MIN_DECL, DAYS_OFF, RAD_PER_DAY. set (c := cos _). lra. Qed.
Lemma lat_eq : sg_lat lat = lat * 0.01745329.
Proof. rewrite (lat_value lat Hlat). reflexivity. Qed.
Lemma height_eq h : sg_cza lat i h = sun_height lat i h.
Proof. unfold sg_cza, sun_height, sg_cosegeom, sg_sinegeom. rewrite lat_eq, tilt_eq. ring. Qed.
Lemma sunset_eq : sg_hss lat i = sunset lat i.
Proof.
  unfold sg_hss, sunset, sg_coshss, sg_sinegeom, sg_cosegeom. pose proof (cos_lat_pos lat Hlat) as C1. pose proof (cos_decl_pos i) as C2.
  rewrite lat_eq in *. rewrite tilt_eq in *. do 3 f_equal. unfold tan. field. lra.
Qed.
Lemma daylight_eq : sg_daylength lat i = seconds_of_daylight lat i.
Proof. unfold sg_daylength, seconds_of_daylight, SEC_PER_RAD, SEC_PER_DAY. rewrite sunset_eq. f_equal; lra. Qed.
Lemma sample_eq k : hour lat i k = sample lat i k.
Proof. unfold hour, sample, sg_dh, SW_RAD_DT, SEC_PER_RAD. rewrite sunset_eq. replace 30.0 with 30 by lra. ring. Qed.
Lemma samples_eq : samples lat i (n_hours lat i).
Proof.
  intros k. unfold n_hours. rewrite <- sample_eq, <- sunset_eq. unfold hour. pose proof dh_pos as P. set (H := sg_hss lat i).
  pose proof (Rceil_bounds ((H - - H) / sg_dh)) as B. set (q := (H - - H) / sg_dh) in *.
  assert (Q : H = - H + q * sg_dh) by (unfold q; field; lra).
  split; intros K.
  - assert (IZR (Z.of_nat k) + 1 <= IZR (Rceil q)) by (rewrite <- plus_IZR; apply IZR_le; lia). rewrite <- INR_IZR_INZ in H0.
    assert (INR k < q) by lra. assert (INR k * sg_dh < q * sg_dh) by (apply Rmult_lt_compat_r; auto). lra.
  - assert (INR k * sg_dh < q * sg_dh) by lra. apply Rmult_lt_reg_r in H0; auto. rewrite INR_IZR_INZ in H0.
    assert (IZR (Z.of_nat k) < IZR (Rceil q)) by lra. apply lt_IZR in H1. lia.
Qed.
Lemma top_eq h : beam_at lat i h = top_radiation lat i h.
Proof.
  unfold beam_at, top_radiation, sg_beam, SW_RAD_DT, DAYS_PER_YEAR. rewrite height_eq. unfold Rltb, Rmax.
  replace (2.0 * PI * INR i / 365.25) with (2 * PI * INR i / 365.25) by (f_equal; lra). set (w := sin _). set (c := sun_height lat i h).
  destruct (Rlt_dec 0 c); destruct (Rle_dec c 0); try lra.
Qed.
Lemma slot_eq h j : sg_tinystep h = j <-> slot h j.
Proof.
  unfold sg_tinystep, slot, SEC_PER_HOUR, SEC_PER_RAD, SW_RAD_DT. rewrite rad_top.
  replace ((12 * 3600 + h * 13750.9871) / 30.0) with ((43200 + h * 13750.9871) / 30) by lra.
  set (x := Rmin _ 2879). assert (X : 0 <= x) by (unfold x; apply Rmin_glb; [apply Rmax_r|lra]).
  rewrite Rtrunc_nonneg by auto. pose proof (Int_part_bounds x) as B.
  assert (N : (0 <= Int_part x)%Z). { assert (IZR (-1) < IZR (Int_part x)) by lra. apply lt_IZR in H. lia. }
  split; intros E.
  - subst j. rewrite INR_IZR_INZ, Z2Nat.id by auto. exact B.
  - rewrite INR_IZR_INZ in E. rewrite (Int_part_spec x (Z.of_nat j) E). apply Nat2Z.id.
Qed.
End Sun.

Lemma acos_degrees c : IZR (Rtrunc (acos c / 0.01745329)) <= acos c / 0.01745329 < IZR (Rtrunc (acos c / 0.01745329)) + 1.
Proof.
  rewrite Rtrunc_nonneg; [apply Int_part_bounds|]. apply div_nonneg; [apply acos_bound|lra].
Qed.
Lemma thick_lookup z : In (Z.max 69 (Z.min 89 z), nth (Z.to_nat (Z.min (Z.max (z - 69) 0) 20)) OPTAM 0) thick_air.
Proof.
  set (k := Z.to_nat (Z.min (Z.max (z - 69) 0) 20)). assert (E : Z.max 69 (Z.min 89 z) = (69 + Z.of_nat k)%Z) by (unfold k; lia).
  assert (K : (k < 21)%nat) by (unfold k; lia). rewrite E. clearbody k. clear E z.
  do 21 (destruct k as [|k]; [cbn [OPTAM nth thick_air In Z.of_nat Z.add Pos.add Pos.succ Pos.of_succ_nat]; repeat first [left; reflexivity|left; apply f_equal2; [reflexivity|lra]|right]; fail|]). lia.
Qed.
Lemma air_eq c m : sg_am c = Ok m -> air_mass c m.
Proof.
  unfold sg_am, Rltb. replace 1.0 with 1 by lra. destruct (Rlt_dec 2.9 (1 / (c + 0.0000001))) as [L|L]; intros H.
  - unfold getitem in H. destruct (nth_error OPTAM _) as [v|] eqn:N; [|discriminate]. apply res_inj in H. subst v.
    apply Am_low with (z := Rtrunc (acos c / 0.01745329)); [exact L|apply acos_degrees|].
    unfold sg_ami, RAD_PER_DEG in N. apply nth_error_nth with (d := 0) in N. rewrite <- N. apply thick_lookup.
  - apply res_inj in H. subst m. apply Am_high. lra.
Qed.

Lemma trans_eq elev lr : lr <> 0 -> sg_trans elev lr = zenith_trans elev lr.
Proof.
  intros L. unfold sg_trans, zenith_trans, pressure_ratio, TBASE, T_STD, G_STD, R_GAS, MA. rewrite quotient4 by lra. replace 0.870 with 0.87 by lra. replace 1.0 with 1 by lra. reflexivity.
Qed.

(** the transmitted sum *)
Definition am_of (lat : R) (i : nat) (h : R) : R := match sg_am (sg_cza lat i h) with Ok m => m | Err _ => 0 end.
Lemma loop_trans trans lat i hs : forall a b, fold_left (sg_step trans lat i) hs (Ok a) = Ok b ->
  acc_trans b = acc_trans a + total (map (fun h => Rpower trans (am_of lat i h) * beam_at lat i h) hs) /\
  acc_flat b = acc_flat a + total (map (beam_at lat i) hs) /\
  acc_row b = np_put (acc_row a) (map sg_tinystep hs) (map (beam_at lat i) hs).
Proof.
  induction hs as [|h hs IH]; intros a b; cbn [fold_left map].
  - intros H. apply res_inj in H. subst b. rewrite !total_nil. split; [lra|]. split; [lra|reflexivity].
  - rewrite !total_cons. unfold sg_step at 2. cbn [bind]. unfold am_of at 1. unfold beam_at at 1 3 5.
    destruct (Rltb 0 (sg_cza lat i h)) eqn:U.
    + apply Rltb_true in U. destruct (am_ok _ U) as (m & -> & _). cbn [bind]. intros H.
      destruct (IH _ _ H) as (A & B & C). cbn [acc_trans acc_flat acc_row] in A, B, C. split; [rewrite A; ring|]. split; [rewrite B; ring|exact C].
    + intros H. destruct (IH _ _ H) as (A & B & C). cbn [acc_trans acc_flat acc_row] in A, B, C. split; [rewrite A; ring|]. split; [rewrite B; ring|exact C].
Qed.

(** the last of several values written to a slot stays *)
Lemma upd_at {A} (v d : A) : forall l j k, (j < List.length l)%nat -> nth k (upd j v l) d = if Nat.eqb k j then v else nth k l d.
Proof.
  induction l as [|x l IH]; intros [|j] [|k] L; cbn [List.length] in L; try lia; cbn [upd nth Nat.eqb]; auto. apply IH. lia.
Qed.
Lemma put_none {B} (f : B -> nat) (g : B -> R) j hs : forall row,
  (forall h, In h hs -> (f h < List.length row)%nat) -> (forall h, In h hs -> f h <> j) ->
  nth j (np_put row (map f hs) (map g hs)) 0 = nth j row 0.
Proof.
  induction hs as [|h hs IH]; intros row L N; [reflexivity|]. cbn [map]. 
  change (nth j (np_put (upd (f h) (g h) row) (map f hs) (map g hs)) 0 = nth j row 0). rewrite IH.
  - rewrite upd_at by (apply L; now left). destruct (Nat.eqb_spec j (f h)) as [E|E]; [|reflexivity]. exfalso. apply (N h); [now left|auto].
  - intros h' I. rewrite upd_length. apply L. now right.
  - intros h' I. apply N. now right.
Qed.
Lemma put_last {B} (f : B -> nat) (g : B -> R) j a h c row :
  (forall h', In h' (a ++ h :: c) -> (f h' < List.length row)%nat) -> f h = j -> (forall h', In h' c -> f h' <> j) ->
  nth j (np_put row (map f (a ++ h :: c)) (map g (a ++ h :: c))) 0 = g h.
Proof.
  revert row. induction a as [|x a IH]; intros row L E N; cbn [app map].
  - change (nth j (np_put (upd (f h) (g h) row) (map f c) (map g c)) 0 = g h). rewrite put_none.
    + rewrite upd_at by (apply L; now left). destruct (Nat.eqb_spec j (f h)) as [_|Q]; [reflexivity|congruence].
    + intros h' I. rewrite upd_length. apply L. now right.
    + auto.
  - change (nth j (np_put (upd (f x) (g x) row) (map f (a ++ h :: c)) (map g (a ++ h :: c))) 0 = g h). apply IH; auto.
    intros h' I. rewrite upd_length. apply L. now right.
Qed.

Lemma slot_bound h : (sg_tinystep h < RAD_STEPS)%nat.
Proof.
  pose proof (proj1 (slot_eq h _) eq_refl) as [S1 _]. apply Rle_trans with (r3 := 2879) in S1; [|apply Rmin_r].
  rewrite <- rad_top in S1. apply INR_le in S1. unfold RAD_STEPS in *. lia.
Qed.
Lemma seq_split k n : (k < n)%nat -> seq 0 n = seq 0 k ++ k :: seq (S k) (n - S k).
Proof. intros H. replace n with (k + S (n - S k))%nat at 1 by lia. rewrite seq_app. reflexivity. Qed.

Theorem day_formulas elev lat lr i o : -90 <= lat <= 90 -> lr <> 0 -> sg_day elev lat lr i = Ok o ->
  sd_daylength o = seconds_of_daylight lat i /\ List.length (sd_row o) = RAD_STEPS /\
  (sd_daylength o = 0 -> sd_potrad o = 0 /\ sd_ttmax o = 0 /\ forall x, In x (sd_row o) -> x = 0) /\
  (sd_daylength o <> 0 -> exists n, samples lat i n /\
     let E := total (map (fun k => top_radiation lat i (sample lat i k)) (seq 0 n)) in
     0 < E /\ sd_potrad o * sd_daylength o = E /\
     (exists m, (forall k, (k < n)%nat -> 0 < sun_height lat i (sample lat i k) -> air_mass (sun_height lat i (sample lat i k)) (m k)) /\
        sd_ttmax o * E = total (map (fun k => Rpower (zenith_trans elev lr) (m k) * top_radiation lat i (sample lat i k)) (seq 0 n))) /\
     (forall j k, (k < n)%nat -> slot (sample lat i k) j -> (forall k', (k < k' < n)%nat -> ~ slot (sample lat i k') j) ->
        nth j (sd_row o) 0 * E = top_radiation lat i (sample lat i k)) /\
     (forall j, (forall k, (k < n)%nat -> ~ slot (sample lat i k) j) -> nth j (sd_row o) 0 = 0)).
Proof.
  intros Hl Lr H. destruct (day_facts elev lat lr i Hl o H) as (F1 & F2 & F3 & F4 & F5 & F6 & F7 & F8).
  split; [rewrite F1; now apply daylight_eq|]. split; [exact F5|]. split.
  { intros Z. destruct (F7 (proj1 F3 Z)) as (A & B & C). split; [exact B|]. split; [exact C|]. rewrite A. intros x I. now apply repeat_spec in I. }
  intros NZ. exists (n_hours lat i). split; [now apply samples_eq|].
  destruct (F8 (fun Q => NZ (proj2 F3 Q))) as (P0 & _ & _ & _). clear F2 F3 F4 F6 F7 F8.
  unfold sg_day in H. match type of H with bind ?x _ = _ => destruct x as [a|] eqn:L; [cbn [bind] in H|discriminate H] end. destruct (loop_trans _ _ _ _ _ _ L) as (A & B & C). cbn [acc_trans acc_flat acc_row] in A, B, C.
  change (arange_R (- sg_hss lat i) (sg_hss lat i) sg_dh) with (hours lat i) in A, B, C. rewrite hours_eq in A, B, C. rewrite map_map in A, B. rewrite (map_map (hour lat i) sg_tinystep), (map_map (hour lat i) (beam_at lat i)) in C.
  assert (B' : acc_flat a = total (map (fun k => top_radiation lat i (sample lat i k)) (seq 0 (n_hours lat i)))).
  { rewrite B, Rplus_0_l. f_equal. apply map_ext. intros k. rewrite (sample_eq lat i Hl). now apply top_eq. }
  cbv zeta. rewrite <- B'. rewrite F1 in NZ. destruct (Reqb (sg_daylength lat i) 0) eqn:Q; [apply Reqb_true in Q; contradiction|].
  cbn [negb andb] in H. destruct (Reqb (acc_flat a) 0) eqn:Q2; [discriminate|]. apply Reqb_false in Q2. apply res_inj in H. subst o.
  cbn [sd_row sd_daylength sd_potrad sd_ttmax] in *.
  assert (Pos : 0 < acc_flat a).
  { rewrite B, Rplus_0_l. pose proof (total_nonneg (map (fun k => beam_at lat i (hour lat i k)) (seq 0 (n_hours lat i)))) as N.
    rewrite B, Rplus_0_l in Q2. destruct N as [N|N]; [|auto|congruence].
    intros x I. apply in_map_iff in I as (k & <- & _). apply beam_at_nonneg. }
  split; [exact Pos|]. split; [field; exact NZ|]. rewrite (proj2 (Rltb_true 0 (acc_flat a)) Pos). cbn [andb].
  assert (Nth : forall j, nth j (map (fun x => x / acc_flat a) (acc_row a)) 0 = nth j (acc_row a) 0 / acc_flat a).
  { intros j. replace 0 with (0 / acc_flat a) at 1 by (unfold Rdiv; ring). apply (map_nth (fun x => x / acc_flat a)). }
  split; [|split].
  - exists (fun k => am_of lat i (sample lat i k)). split.
    + intros k K U. unfold am_of. rewrite (height_eq lat i Hl). destruct (am_ok _ U) as (m & Em & _). rewrite Em. now apply air_eq.
    + rewrite <- (trans_eq elev lr Lr). replace (acc_trans a / acc_flat a * acc_flat a) with (acc_trans a) by (field; auto).
      rewrite A, Rplus_0_l. f_equal. apply map_ext. intros k. rewrite (sample_eq lat i Hl). now rewrite (top_eq lat i Hl).
  - intros j k K S N. rewrite Nth. replace (nth j (acc_row a) 0 / acc_flat a * acc_flat a) with (nth j (acc_row a) 0) by (field; auto).
    rewrite C, (seq_split k _ K), <- (top_eq lat i Hl), <- (sample_eq lat i Hl).
    apply (put_last (fun k => sg_tinystep (hour lat i k)) (fun k => beam_at lat i (hour lat i k))).
    + intros k' _. rewrite repeat_length. apply slot_bound.
    + rewrite (sample_eq lat i Hl). now apply slot_eq.
    + intros k' I. apply in_seq in I. rewrite (sample_eq lat i Hl). intros E. apply slot_eq in E. apply (N k'); [lia|exact E].
  - intros j N. rewrite Nth, C. rewrite (put_none (fun k => sg_tinystep (hour lat i k)) (fun k => beam_at lat i (hour lat i k))).
    + rewrite nth_repeat. unfold Rdiv. ring.
    + intros k' _. rewrite repeat_length. apply slot_bound.
    + intros k' I. apply in_seq in I. rewrite (sample_eq lat i Hl). intros E. apply slot_eq in E. apply (N k'); [lia|exact E].
Qed.

Theorem sun_formulas elev lat lr g doy : solar_geom elev lat lr = Ok g -> -90 <= lat <= 90 -> lr <> 0 -> lr * elev < 288.15 -> (1 <= doy <= 366)%nat ->
  let i := Nat.min (doy - 1) 364 in
  exists row D P T, nth_error (tiny_rad_fract g) (doy - 1) = Some row /\ nth_error (sg_daylengths g) (doy - 1) = Some D /\
    nth_error (flat_potrad g) (doy - 1) = Some P /\ nth_error (tt_max0 g) (doy - 1) = Some T /\
    D = seconds_of_daylight lat i /\ List.length row = RAD_STEPS /\
  (D = 0 -> P = 0 /\ T = 0 /\ forall x, In x row -> x = 0) /\
  (D <> 0 -> exists n, samples lat i n /\
     let E := total (map (fun k => top_radiation lat i (sample lat i k)) (seq 0 n)) in
     0 < E /\ P * D = E /\
     (exists m, (forall k, (k < n)%nat -> 0 < sun_height lat i (sample lat i k) -> air_mass (sun_height lat i (sample lat i k)) (m k)) /\
        T * E = total (map (fun k => Rpower (zenith_trans elev lr) (m k) * top_radiation lat i (sample lat i k)) (seq 0 n))) /\
     (forall j k, (k < n)%nat -> slot (sample lat i k) j -> (forall k', (k < k' < n)%nat -> ~ slot (sample lat i k') j) ->
        nth j row 0 * E = top_radiation lat i (sample lat i k)) /\
     (forall j, (forall k, (k < n)%nat -> ~ slot (sample lat i k) j) -> nth j row 0 = 0)).
Proof.
  intros G Hl Lr _ Hd i. destruct (tables elev lat lr g G) as [Tb _]. destruct (Tb doy Hd) as (o & So & N1 & N2 & N3 & N4).
  exists (sd_row o), (sd_daylength o), (sd_potrad o), (sd_ttmax o). split; [exact N1|]. split; [exact N2|]. split; [exact N3|]. split; [exact N4|].
  exact (day_formulas elev lat lr i o Hl Lr So).
Qed.

(** ** examples *)
Lemma entry_eq df name d x y : on_day df name d x -> x = y -> on_day df name d y.
Proof. intros H <-. exact H. Qed.
Theorem mtclim_example : exists fuel df', mtclim_run fuel full_frame (demo_step 60) = Some (Ok df') /\
  on_day df' "t_day" 1 6.8 /\ on_day df' "tfmax" 0 0.1 /\ on_day df' "tskc" 0 0.9.
Proof.
  destruct (full_runs 60) as (fuel & df' & Run). exists fuel, df'. split; [exact Run|].
  pose proof (mtclim_formulas _ _ _ _ Run) as (F1 & F2 & F3 & _).
  assert (K : forall n d x, In n ["t_min"; "t_max"; "dtr"; "smoothed_dtr"; "prec"] -> on_day full_frame n d x -> on_day df' n d x).
  { destruct (mtclim_inv _ _ _ _ Run) as (tmin & tmax & dtr & sm & pr & ttm & pot & dayl & sp & td & _ & _ & E).
    intros n d x I (v & V & N). exists v. split; [|exact N]. rewrite E. unfold dew_out, dew_frame. cbv zeta. rewrite !get_set_col.
    cbn [In] in I. destruct I as [<-|[<-|[<-|[<-|[<-|[]]]]]]; cbn [String.eqb Ascii.eqb Bool.eqb]; exact V. }
  assert (T0 : on_day df' "tfmax" 0 0.1).
  { apply (entry_eq _ _ _ _ _ (F2 0%nat 0 10 0 (Rle_refl 0)
      (K "dtr" 0%nat 0 ltac:(cbn; tauto) ltac:(eexists; split; reflexivity)) (K "smoothed_dtr" 0%nat 10 ltac:(cbn; tauto) ltac:(eexists; split; reflexivity))
      (K "prec" 0%nat 0 ltac:(cbn; tauto) ltac:(eexists; split; reflexivity)))).
    unfold clearness, dry_clearness. rewrite Rmult_0_l, Rmult_0_r, Ropp_0, exp_0. cbn [p_sw_prec_thresh demo_step].
    destruct (Rlt_dec 0 0); lra. }
  split; [|split; [exact T0|]].
  - apply (entry_eq _ _ _ _ _ (F1 1%nat 1 9 (K "t_min" 1%nat 1 ltac:(cbn; tauto) ltac:(eexists; split; reflexivity))
      (K "t_max" 1%nat 9 ltac:(cbn; tauto) ltac:(eexists; split; reflexivity)))). unfold daylight_temp. cbn [p_tday_coef demo_step]. lra.
  - apply (F3 0%nat 0.1 0.9 ltac:(lra) T0). replace 0.9 with (1 - 0.1) by lra. apply Cc_deardorff. reflexivity.
Qed.

Theorem sun_example : (exists g, solar_geom 0 0 0.0065 = Ok g) /\ 43199 < seconds_of_daylight 0 172 < 43201 /\
  seconds_of_daylight (Ropp 80) 172 = 0 /\ slot 0 1440 /\ air_mass 0 30 /\ air_mass 0.5 (1 / 0.5000001).
Proof.
  split; [exact (equator_ok 0 0.0065)|]. split; [rewrite <- daylight_eq by lra; exact (proj1 (proj2 daylength_example))|].
  split; [rewrite <- daylight_eq by lra; exact (proj2 (proj2 (proj2 daylength_example)))|]. split; [|split].
  - unfold slot. replace ((43200 + 0 * 13750.9871) / 30) with 1440 by lra. rewrite Rmax_left, Rmin_left by lra.
    rewrite INR_IZR_INZ. change (Z.of_nat 1440) with 1440%Z. lra.
  - pose proof PI_lower. pose proof PI_upper. apply Am_low with (z := 90%Z).
    + replace (1 / (0 + 0.0000001)) with 10000000 by lra. lra.
    + rewrite acos_0. split; [apply Rmult_le_reg_r with 0.01745329; [lra|]|apply Rmult_lt_reg_r with 0.01745329; [lra|]];
        replace (PI / 2 / 0.01745329 * 0.01745329) with (PI / 2) by (field; lra); lra.
    + unfold thick_air. cbn [In]. change (Z.max 69 (Z.min 89 90)) with 89%Z. tauto.
  - replace (1 / 0.5000001) with (1 / (0.5 + 0.0000001)) by (f_equal; lra). apply Am_high.
    apply Rmult_le_reg_r with (0.5 + 0.0000001); [lra|]. replace (1 / (0.5 + 0.0000001) * (0.5 + 0.0000001)) with 1 by lra. lra.
Qed.
