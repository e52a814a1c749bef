(** Values of one output step: C104. *)
From Coq Require Import ZArith Reals String List Bool Arith Lia Lra.
From Verif Require Import Model.Py Model.Fl Model.Np Model.Constants Model.Params Model.Physics Model.Disagg Model.Mtclim Model.Cell
  Spec.TimeSpec Spec.SeriesSpec Spec.ShortSpec Spec.SolarSpec Spec.TempSpec Spec.FrameSpec Spec.DailySpec Spec.StepSpec
  Proofs.Base Proofs.ArrayProofs Proofs.PrecProofs Proofs.WindProofs Proofs.DisaggProofs Proofs.ShortwaveProofs Proofs.TempProofs
  Proofs.GlobalsProofs Proofs.PassProofs Proofs.FrameProofs Proofs.SvpProofs Proofs.HumidProofs Proofs.VaporProofs Proofs.LongwaveProofs Proofs.UtcProofs Proofs.CellProofs Proofs.CellTotal Proofs.CellOutputs Proofs.StateProofs.
Import ListNotations.
Local Open Scope string_scope.
Local Open Scope list_scope.
Local Open Scope R_scope.

(** ** series without gaps *)
Lemma whole_some l : whole (map Some l).
Proof. intros x H. apply in_map_iff in H as (y & <- & _). discriminate. Qed.
Lemma whole_reals v : whole v -> exists r, v = map Some r.
Proof.
  induction v as [|[x|] v IH]; intros H.
  - now exists [].
  - destruct IH as [r ->]; [intros y Hy; apply H; now right|]. now exists (x :: r).
  - exfalso. apply (H None); [now left|reflexivity].
Qed.
Lemma fsum_whole v : whole v -> fsum v <> None.
Proof. intros H. destruct (whole_reals v H) as [r ->]. rewrite fsum_some. discriminate. Qed.
Lemma fmean_whole v : whole v -> v <> [] -> fmean v <> None.
Proof.
  intros H N. destruct (whole_reals v H) as [r ->]. assert (r <> []) by (intros ->; now apply N). rewrite fmean_some by auto. discriminate.
Qed.
Lemma roll_whole v s : whole v -> whole (np_roll v s).
Proof. intros H x I. apply H. eapply Permutation.Permutation_in; [apply np_roll_perm|exact I]. Qed.
Lemma repeat_whole v n : whole v -> whole (np_repeat v n).
Proof. intros H x I. unfold np_repeat in I. apply in_flat_map in I as (y & Y & I). apply repeat_spec in I. subst y. now apply H. Qed.
Lemma reshape_rows {A} (v : list A) w r : reshape v w = Ok r -> (0 < w)%Z /\ forall row, In row r -> List.length row = Z.to_nat w /\ forall x, In x row -> In x v.
Proof.
  unfold reshape. destruct (Z.leb_spec w 0); [discriminate|]. destruct (Nat.eqb_spec (List.length v mod Z.to_nat w) 0) as [E|]; [|discriminate].
  intros H1. apply Ok_inj in H1. subst r. split; [lia|]. intros row I.
  assert (L : List.length v = (List.length v / Z.to_nat w * Z.to_nat w)%nat).
  { pose proof (Nat.div_mod_eq (List.length v) (Z.to_nat w)). lia. }
  split; [eapply rows_row_length; eauto|]. intros x Ix. eapply rows_In; eauto.
Qed.
Lemma constant_whole x ts prm out : daily_constant x ts prm = Ok out -> whole x -> whole out.
Proof.
  unfold daily_constant. cbv zeta. set (sd := np_repeat x MIN_PER_DAY). intros H W.
  destruct (reshape (if p_utc_offset prm then np_roll sd (- utc_minutes (p_lon prm)) else sd) ts) as [r|] eqn:E; [|discriminate].
  cbn [bind] in H. apply Ok_inj in H. subst out. destruct (reshape_rows _ _ _ E) as [P Q].
  assert (Wd : whole (if p_utc_offset prm then np_roll sd (- utc_minutes (p_lon prm)) else sd)).
  { destruct (p_utc_offset prm); [apply roll_whole|]; now apply repeat_whole. }
  intros y I. apply in_map_iff in I as (row & <- & I). destruct (Q row I) as [L S]. apply fmean_whole.
  - intros z Z. apply Wd, S, Z.
  - intros ->. cbn in L. lia.
Qed.

(** ** humidity and pressure *)
Lemma saturation_eq T : svp_R T = saturation T.
Proof. unfold svp_R, saturation, svp_E, svp_q. destruct (Rlt_dec T 0); lra. Qed.
Lemma column_eq T z lr : pres T z lr = column_pressure T z lr.
Proof. reflexivity. Qed.
Lemma moisture_eq e p : sh e p = moisture e p.
Proof. reflexivity. Qed.

Lemma rh_value e T : -237.3 < T -> relative_humidity1 (Some e) (Some T) = Some (Rmin 100 (100 * (1000 * e / saturation T))).
Proof.
  intros H. destruct (rh_spec e T H) as (s & r & S & E & _ & _ & A & B). rewrite E. f_equal.
  rewrite svp1_some in S by auto. apply Some_inj in S. subst s. rewrite saturation_eq in A, B.
  unfold Rmin. destruct (Rle_dec 100 (100 * (1000 * e / saturation T))) as [L|L].
  - destruct L as [L|L]; [now apply B|]. rewrite <- L in A. apply A. lra.
  - apply A. lra.
Qed.

Lemma fill_at (l : list fl) k x : nth_error l k = Some (Some x) -> nth_error (fill_gaps l) k = Some (Some x).
Proof. apply fill_keep. Qed.

(** the columns before the last fill *)
Lemma step_columns df prm tiny tb te out : disaggregate df prm tiny tb te = Ok out ->
  exists temps vp ck ck0 lw,
    let ap := map (fun t => pressure1 t (Some (p_elev prm)) (Some (p_lapse_rate prm))) temps in
    whole temps /\ List.length vp = List.length temps /\ List.length ck = List.length temps /\
    dict_get (dl_cols df) "tskc" = Some ck0 /\ tskc ck0 (p_time_step prm) (da_prm prm) = Ok ck /\
    longwave temps vp ck (da_prm prm) (dict_get (dl_cols df) "longwave") = Ok lw /\
    dict_get out "temp" = Some temps /\ dict_get out "vapor_pressure" = Some vp /\
    dict_get out "rel_humid" = Some (fill_gaps (map2 relative_humidity1 vp temps)) /\
    dict_get out "air_pressure" = Some (fill_gaps ap) /\
    dict_get out "spec_humid" = Some (fill_gaps (map2 specific_humidity1 vp ap)) /\
    dict_get out "tskc" = Some (fill_gaps ck) /\ dict_get out "longwave" = Some (fill_gaps lw).
Proof.
  intros X. apply disaggregate_inv in X. cbv zeta in X.
  destruct X as (tpd & ? & ? & sw & tTmin & tTmax & tmn & tmx & tminR & tmaxR & tmp & ? & vp0 & ck0 & ck & lw & P & pr & _ & _ & _ & _ & _ & (C1 & Ck) & Lw & _ & (_ & Lt & Lv & Lc & _) & O).
  exists (map Some tmp), (fill_gaps vp0), ck, ck0, lw. cbv zeta. split; [apply whole_some|].
  split; [rewrite HumidProofs.fill_gaps_length', map_length; lia|]. split; [rewrite map_length; unfold fl in *; lia|].
  apply col_get in C1. rewrite get_da_df in C1, Lw by discriminate. split; [exact C1|]. split; [exact Ck|]. split; [exact Lw|].
  destruct (dict_get (dl_cols (da_df df prm)) "wind"); [destruct O as (w & _ & _ & ->)|subst out];
    rewrite !dict_get_map; cbn [app dict_get String.eqb Ascii.eqb Bool.eqb option_map]; rewrite fill_id, fill_idem; repeat split; reflexivity.
Qed.

Theorem step_values df prm tiny tb te out k T e : disaggregate df prm tiny tb te = Ok out ->
  entry out "temp" k T -> entry out "vapor_pressure" k e ->
  (-237.3 < T -> entry out "rel_humid" k (Rmin 100 (100 * (1000 * e / saturation T)))) /\
  (0 < 273.15 + T - 0.5 * p_elev prm * p_lapse_rate prm ->
     let p := column_pressure T (p_elev prm) (p_lapse_rate prm) in
     entry out "air_pressure" k p /\ (0 <= e < p -> entry out "spec_humid" k (moisture e p))).
Proof.
  intros H (t & Ot & Et) (v & Ov & Ev). destruct (step_columns _ _ _ _ _ _ H) as (temps & vp & ck & ck0 & lw & S). cbv zeta in S.
  destruct S as (_ & _ & _ & _ & _ & _ & S1 & S2 & S3 & S4 & S5 & _).
  assert (t = temps) by congruence. assert (v = vp) by congruence. subst t v. clear Ot Ov.
  split.
  - intros B. eexists. split; [exact S3|]. apply fill_at. etransitivity; [exact (map2_nth _ _ _ _ _ _ Ev Et)|]. f_equal. now apply rh_value.
  - intros B p. assert (A : nth_error (map (fun t => pressure1 t (Some (p_elev prm)) (Some (p_lapse_rate prm))) temps) k = Some (Some p)).
    { rewrite nth_error_map. unfold fl in *. rewrite Et. cbn [option_map]. f_equal. etransitivity; [exact (pressure_eq T _ _ B)|reflexivity]. }
    split; [eexists; split; [exact S4|]; now apply fill_at|]. intros E. eexists. split; [exact S5|]. apply fill_at.
    etransitivity; [exact (map2_nth _ _ _ _ _ _ Ev A)|]. f_equal. etransitivity; [exact (sh_eq e p E)|reflexivity].
Qed.

(** ** longwave *)
Lemma emits_of name emis Ta e : emissivity_calc name = Ok emis -> 0 < Ta -> 0 < e ->
  exists eps, emis (Some Ta) (Some e) = Some eps /\ emits name Ta e eps.
Proof.
  unfold emissivity_calc. intros H T E.
  destruct (String.eqb_spec name "DEFAULT") as [->|]; cbn [orb] in H; [apply Ok_inj in H; subst emis; eexists; split; [reflexivity|constructor]|].
  destruct (String.eqb_spec name "TVA") as [->|]; cbn [orb] in H; [apply Ok_inj in H; subst emis; eexists; split; [reflexivity|constructor]|].
  destruct (String.eqb_spec name "ANDERSON") as [->|].
  { apply Ok_inj in H. subst emis. cbv beta. rewrite fpower_pos by lra. eexists. split; [reflexivity|constructor]. }
  destruct (String.eqb_spec name "BRUTSAERT") as [->|].
  { apply Ok_inj in H. subst emis. cbv beta. rewrite fdiv_some by lra. rewrite fpower_pos by (apply Rdiv_lt_0_compat; lra). eexists. split; [reflexivity|constructor]. }
  destruct (String.eqb_spec name "SATTERLUND") as [->|].
  { apply Ok_inj in H. subst emis. cbv beta. rewrite fdiv_some by lra. rewrite fpower_pos by lra. eexists. split; [reflexivity|].
    cbn [fmul fexp fsub flift1 flift2 option_map]. replace (-1 * Rpower e (Ta / 2016)) with (- Rpower e (Ta / 2016)) by lra. constructor. }
  destruct (String.eqb_spec name "IDSO") as [->|].
  { apply Ok_inj in H. subst emis. cbv beta. rewrite fdiv_some by lra. eexists. split; [reflexivity|constructor]. }
  destruct (String.eqb_spec name "PRATA") as [->|]; [|discriminate].
  apply Ok_inj in H. subst emis. cbv beta. cbn [fmul flift2]. rewrite fdiv_some by lra. cbn [fmul fadd flift2].
  unfold fsqrt. assert (0 < 46.5 * e / Ta) by (apply Rdiv_lt_0_compat; lra).
  destruct (Rlt_dec (1.2 + 3 * (46.5 * e / Ta)) 0); [lra|]. eexists. split; [reflexivity|constructor].
Qed.

Lemma clouded_of name cloud eps c : cloud_calc name = Ok cloud -> exists s, cloud (Some eps) (Some c) = Some s /\ clouded name eps c s.
Proof.
  intros H. destruct (cloud_cases name cloud H) as [[[-> | ->] Q]|[-> Q]]; eexists; (split; [apply Q|constructor]).
Qed.

Lemma longwave_at temps vp ck prm lw k T e c : longwave temps vp ck prm None = Ok lw ->
  nth_error temps k = Some (Some T) -> nth_error vp k = Some (Some e) -> nth_error ck k = Some (Some c) -> -273.15 < T -> 0 < e ->
  exists L, nth_error lw k = Some (Some L) /\ sky_longwave prm T e c L.
Proof.
  intros H Et Ev Ec Tp Ep. destruct (longwave_inv _ _ _ _ _ _ H) as (emis & cloud & E & C & M). specialize (M eq_refl). subst lw.
  assert (K : KELVIN = 273.15) by (unfold KELVIN; lra).
  destruct (emits_of _ _ (T + KELVIN) (e * 10) E ltac:(lra) ltac:(lra)) as (eps & X & Em). destruct (clouded_of _ _ eps c C) as (s & Y & Cl).
  exists (s * sigmaT4 T). split.
  - etransitivity; [exact (map3_nth _ _ _ _ _ _ _ _ Et Ev Ec)|]. f_equal. exact (longwave1_eq _ _ _ _ _ _ _ X Y).
  - exists eps, s. rewrite K in Em. split; [exact Em|]. split; [exact Cl|]. unfold sigmaT4, STEFAN_B. rewrite K. lra.
Qed.

Theorem step_longwave df prm tiny tb te out ck k T e c : disaggregate df prm tiny tb te = Ok out ->
  numbers df "tskc" ck -> dict_get (dl_cols df) "longwave" = None ->
  entry out "temp" k T -> entry out "vapor_pressure" k e -> entry out "tskc" k c -> -273.15 < T -> 0 < e ->
  exists L, entry out "longwave" k L /\ sky_longwave prm T e c L.
Proof.
  intros H [Nc _] Nl (t & Ot & Et) (v & Ov & Ev) (w & Oc & Ec) Tp Ep. destruct (step_columns _ _ _ _ _ _ H) as (temps & vp & ck1 & ck0 & lw & S). cbv zeta in S.
  destruct S as (_ & _ & _ & Ck & Ts & Lw & S1 & S2 & _ & _ & _ & S6 & S7). rewrite Nl in Lw.
  assert (t = temps) by congruence. assert (v = vp) by congruence. assert (w = fill_gaps ck1) by congruence. subst t v w. clear Ot Ov Oc.
  assert (ck0 = map Some ck) by (unfold fl in *; congruence). subst ck0.
  assert (W : whole ck1) by (eapply constant_whole; [exact Ts|apply whole_some]). rewrite (fill_some_eq _ W) in *.
  destruct (longwave_at _ _ _ _ _ k T e c Lw Et Ev Ec Tp Ep) as (L & El & Sk). exists L. split; [|exact Sk].
  eexists. split; [exact S7|]. now apply fill_at.
Qed.

(** ** the whole cell *)
Theorem cell_step fuel prm c out prm' k T e : (p_time_step prm < 1440)%Z -> run_cell fuel prm c = Some (Ok out, prm') ->
  entry out "temp" k T -> entry out "vapor_pressure" k e ->
  (-237.3 < T -> entry out "rel_humid" k (Rmin 100 (100 * (1000 * e / saturation T)))) /\
  (0 < 273.15 + T - 0.5 * cd_elev c * p_lapse_rate prm ->
     let p := column_pressure T (cd_elev c) (p_lapse_rate prm) in
     entry out "air_pressure" k p /\ (0 <= e < p -> entry out "spec_humid" k (moisture e p))).
Proof.
  intros Lt H. destruct (cell_forcing _ _ _ _ _ Lt H) as (g & df & s1 & s2 & G & Doy & Keep & A & B & X).
  exact (step_values df (located prm c) _ _ _ out k T e X).
Qed.

(** ** bounds of vapor pressure *)
Lemma vapor_range df prm tiny tb te out v lo hi : good_options prm -> good_table (dl_doy df) tiny -> numbers df "vapor_pressure" v ->
  (forall z, In z v -> lo <= z <= hi) -> 0 < lo -> disaggregate df prm tiny tb te = Ok out ->
  (forall k T, entry out "temp" k T -> -237.3 < T) ->
  forall k e, entry out "vapor_pressure" k e -> 0 < e <= hi / 1000.
Proof.
  intros G T V B Lo H Tp k e (w & Ow & Ew).
  destruct (vapor_columns _ _ _ _ _ _ _ G T V H) as (a & b & temps & vp0 & Hx & Al & La & _ & Lt & O1 & Hv & Lv & O2).
  set (n := (List.length (dl_doy df) * steps (p_time_step prm))%nat) in *.
  assert (w = fill_gaps vp0) by congruence. subst w. apply nth_error_In, fill_source in Ew. apply In_nth_error in Ew as [j Ej].
  assert (J : (j < n)%nat) by (rewrite <- Lv; apply nth_error_Some; unfold fl in *; congruence).
  destruct (vp_step v (map Some temps) a n (p_time_step prm) vp0 j Hv (alternate_incr _ _ Al) J) as (x & E & P & Q); [now rewrite map_length|].
  cbv zeta in P, Q. pose proof (eq_trans (eq_sym Ej) E) as X. apply Some_inj in X. subst x. clear E.
  destruct (Rlt_dec (IZR (p_time_step prm) * INR j) (nth 0 a 0)) as [L|L]; [specialize (Q (or_introl L)); discriminate Q|].
  destruct (Rlt_dec (last a 0) (IZR (p_time_step prm) * INR j)) as [L'|L']; [specialize (Q (or_intror L')); discriminate Q|].
  destruct (P ltac:(lra)) as (u & Bu & Xu). specialize (Bu lo hi B).
  assert (Nt : nth_error (map Some temps) j = Some (Some (nth j temps 0))).
  { rewrite nth_error_map. rewrite (nth_error_nth' temps 0) by lia. reflexivity. }
  assert (Tj : -237.3 < nth j temps 0) by (apply (Tp j); exists (map Some temps); split; [exact O1|exact Nt]).
  apply (nth_error_nth _ _ None) in Nt. unfold fl in *. rewrite Nt in Xu. rewrite svp1_some in Xu by auto. pose proof (svp_R_pos (nth j temps 0)) as Sp.
  rewrite fdiv_some in Xu by lra. cbn [flt] in Xu. destruct (Rltb (svp_R (nth j temps 0) / 1000) u) eqn:C.
  - apply Some_inj in Xu. subst e. apply Rltb_true in C. lra.
  - apply Some_inj in Xu. subst e. lra.
Qed.

(** ** a day without cloud cover *)
Lemma dark_set : set_time (repeat 0 RAD_STEPS) = 960.
Proof. destruct times_example as (g & a & b & _ & _ & _ & _ & H & _). exact H. Qed.

Lemma dark_extremes doy ts prm a b : p_utc_offset prm = false -> days_valid doy ->
  set_min_max_hour dark_year (map (fun d => d - 1)%nat doy) (List.length doy) ts prm = Ok (a, b) ->
  forall d, (d < List.length doy)%nat -> nth d a 0 = 240 + 1440 * INR d - IZR ts /\ nth d b 0 = 240 + 720 * p_tmax_frac prm + 1440 * INR d - IZR ts.
Proof.
  intros U D E. assert (Q : exists rows, mapM (getitem dark_year) (map (fun d => d - 1)%nat doy) = Ok rows /\ forall r, In r rows -> r = repeat 0 RAD_STEPS).
  { destruct (rows_found dark_year doy) as (rows & M & _); [apply (dark_good doy D)|apply (dark_good doy D)|]. exists rows. split; auto.
    apply mapM_inv in M. clear -M. induction M as [|y r ys rows H _ IH]; [intros ? []|]. intros x [<-|Hx]; auto.
    unfold getitem in H. destruct (nth_error dark_year y) eqn:Z; [|discriminate]. apply Ok_inj in H. subst. apply nth_error_In in Z. now apply repeat_spec in Z. }
  destruct Q as (rows & M & Q). destruct (times_of dark_year _ ts prm rows M) as (a' & b' & E' & La & _ & T).
  rewrite map_length in E', La. rewrite E in E'. apply Ok_inj in E'. injection E' as <- <-.
  assert (Lr : List.length rows = List.length doy) by (apply mapM_inv, Forall2_len in M; now rewrite map_length in M).
  intros d Dd. destruct (nth_error rows d) as [r|] eqn:Er; [|apply nth_error_None in Er; lia].
  destruct (T d r Er) as [-> ->]. rewrite (Q r (nth_error_In _ _ Er)), dark_rise, dark_set. unfold shift_of. rewrite U. split; lra.
Qed.

Lemma tva_good : good_options tva_params.
Proof. constructor; cbn [tva_params p_time_step p_tmax_frac p_lw_type p_lw_cloud]; [apply legal_60|lra|cbn; tauto|cbn; tauto]. Qed.
Lemma clear_good : good_frame clear_frame tva_params.
Proof.
  constructor; cbn [clear_frame dl_doy].
  - discriminate.
  - eexists. split; reflexivity.
  - eexists. split; reflexivity.
  - exists [10; 10]. split; reflexivity.
  - exists [10; 20]. split; reflexivity.
  - eexists. split; reflexivity.
  - eexists. split; reflexivity.
  - eexists. split; reflexivity.
  - intros v H. discriminate H.
  - intros v H. discriminate H.
  - cbn. intros [H|[H|[]]]; discriminate H.
Qed.

Lemma map_Some_inj (l l' : list R) : map Some l = map Some l' -> l = l'.
Proof.
  revert l'. induction l as [|z l IH]; intros [|z' l']; cbn; intros Q; try discriminate; [reflexivity|].
  injection Q as -> Q. f_equal. exact (IH _ Q).
Qed.

Theorem cloud_gap : exists out T e c L L', disaggregate clear_frame tva_params dark_year None None = Ok out /\
  entry out "temp" 36 T /\ entry out "vapor_pressure" 36 e /\ entry out "tskc" 36 c /\ -273.15 < T /\ 0 < e /\
  entry out "longwave" 36 L /\ sky_longwave tva_params T e c L' /\ L < L'.
Proof.
  assert (Gt : good_table (dl_doy clear_frame) dark_year) by (apply dark_good, days_12).
  destruct (disaggregate_total clear_frame tva_params dark_year None None clear_good tva_good Gt) as [out H].
  change (pair_list None) with (@None (list R)) in H. exists out.
  assert (V : numbers clear_frame "vapor_pressure" [500; 500]) by (split; reflexivity).
  destruct (vapor_columns _ _ _ _ _ _ _ tva_good Gt V H) as (a & b & temps & vp0 & Hx & Al & La & (tmin & tmax & C1 & C2 & Ht) & Lt & O1 & Hv & Lv & O2).
  change (Some (map Some [10; 10]) = Some (map Some tmin)) in C1. change (Some (map Some [10; 20]) = Some (map Some tmax)) in C2.
  apply Some_inj in C1, C2. apply map_Some_inj in C1, C2. subst tmin tmax.
  change (List.length (dl_doy clear_frame)) with 2%nat in *. change (p_time_step tva_params) with 60%Z in *.
  change (steps 60) with 24%nat in *. cbn [Nat.mul Nat.add] in Ht, Lt, Hv, Lv.
  pose proof (dark_extremes (dl_doy clear_frame) 60 (da_prm tva_params) a b eq_refl days_12 Hx) as Te.
  change (p_tmax_frac (da_prm tva_params)) with 0.75 in Te. change (List.length (dl_doy clear_frame)) with 2%nat in Te.
  destruct (Te 0%nat ltac:(lia)) as [A0 B0]. destruct (Te 1%nat ltac:(lia)) as [A1 B1]. cbn [INR] in A0, B0, A1, B1.
  assert (Na : a <> []) by (intros ->; cbn in La; lia).
  destruct (temp_ok a b [10; 10] [10; 20] 48 60 None None Al Na) as (f & _ & Et & Kn & Su); [cbn; lia|cbn; lia|].
  change (pair_list None) with (@None (list R)) in Et. rewrite Ht in Et. apply Ok_inj in Et. cbv zeta in Kn, Su. rewrite La in Kn, Su.
  cbn [day_before day_after hd last fst snd] in Kn, Su. unfold ext_values in Kn, Su. cbn [app] in Kn, Su.
  assert (Xa : forall d, (d < 4)%nat -> nth d (ext_times a) 0 = -1260 + 1440 * INR d).
  { destruct a as [|u [|w [|? ?]]]; cbn in La; try lia. cbn [nth] in A0, A1. subst u w. intros [|[|[|[|d]]]] D; try lia; unfold ext_times; cbn [hd last app nth INR]; lra. }
  assert (Xb : forall d, (d < 4)%nat -> nth d (ext_times b) 0 = -720 + 1440 * INR d).
  { assert (Lb : List.length b = 2%nat) by (destruct Al as [Q _]; lia).
    destruct b as [|u [|w [|? ?]]]; cbn in Lb; try lia. cbn [nth] in B0, B1. subst u w. intros [|[|[|[|d]]]] D; try lia; unfold ext_times; cbn [hd last app nth INR]; lra. }
  assert (T36 : f 2160 = 20).
  { destruct (Kn 2%nat ltac:(lia)) as [_ K]. rewrite Xb in K by lia. cbn [nth INR] in K. replace 2160 with (-720 + 1440 * (1 + 1)) by lra. exact K. }
  assert (T23 : f 1380 = 10).
  { destruct (Su 1380) as (d & [(D & Q & Z)|(D & Q & Z)]).
    - rewrite Xa, Xb by lia. cbn [INR Nat.add]. lra.
    - exfalso. rewrite Xa, Xb in Q by lia. destruct d as [|[|[|[|d]]]]; cbn [INR] in Q; try lia; lra.
    - rewrite Xa, Xb in Q by lia. destruct d as [|[|[|d]]]; cbn [INR] in Q; try lia; try lra. cbn [nth] in Z. unfold between, Rmin, Rmax in Z. destruct (Rle_dec 10 10); lra. }
  destruct (step_columns _ _ _ _ _ _ H) as (ts' & vp & ck & ck0 & lw & S). cbv zeta in S.
  destruct S as (_ & Lp & Lc & Ck & Tk & Lw & S1 & S2 & _ & _ & _ & S6 & S7).
  assert (ts' = map Some temps) by congruence. subst ts'. clear S1. subst temps.
  assert (ck0 = [Some 0; None]) by (change (Some [Some 0; None] = Some ck0) in Ck; apply Some_inj in Ck; now symmetry). subst ck0.
  change (p_time_step tva_params) with 60%Z in Tk.
  destruct (daily_constant_local [Some 0; None] 60 (da_prm tva_params) legal_60 eq_refl) as (ck' & Tk' & Lk & Days).
  assert (ck' = ck) by (apply Ok_inj; etransitivity; [symmetry; exact Tk'|exact Tk]). subst ck'.
  change (steps 60) with 24%nat in *.
  assert (C23 : nth_error ck 23 = Some (Some 0)).
  { etransitivity; [exact (part_index 24 0 ck _ 23 (Days 0%nat (Some 0) eq_refl) ltac:(lia))|]. apply repeat_nth_error. lia. }
  assert (Cn : forall j, (23 < j <= 36)%nat -> nth_error ck j = Some None).
  { intros j J. pose proof (part_index 24 1 ck _ (j - 24) (Days 1%nat None eq_refl) ltac:(lia)) as Q. replace (1 * 24 + (j - 24))%nat with j in Q by lia.
    rewrite Q. apply repeat_nth_error. lia. }
  cbn [List.length] in Lk.
  assert (Tn : forall k, (k < 48)%nat -> nth_error (map Some (map (fun k => f (60 * INR k)) (seq 0 48))) k = Some (Some (f (60 * INR k)))).
  { intros k K. rewrite !nth_error_map, nth_error_seq0 by auto. reflexivity. }
  assert (Q23 : nth_error (map Some (map (fun k => f (60 * INR k)) (seq 0 48))) 23 = Some (Some 10)).
  { rewrite Tn by lia. rewrite <- T23. do 3 f_equal. rewrite INR_IZR_INZ. cbn [Z.of_nat Pos.of_succ_nat Pos.succ]. lra. }
  assert (Q36 : nth_error (map Some (map (fun k => f (60 * INR k)) (seq 0 48))) 36 = Some (Some 20)).
  { rewrite Tn by lia. rewrite <- T36. do 3 f_equal. rewrite INR_IZR_INZ. cbn [Z.of_nat Pos.of_succ_nat Pos.succ]. lra. }
  assert (Tr : forall k T, entry out "temp" k T -> -237.3 < T).
  { intros k T (w & Ow & Ew). assert (w = map Some (map (fun k => f (60 * INR k)) (seq 0 48))) by congruence. subst w. rewrite nth_error_map in Ew.
    destruct (nth_error (map (fun k => f (60 * INR k)) (seq 0 48)) k) as [z|] eqn:Ez; [|discriminate Ew]. cbn [option_map] in Ew. do 2 apply Some_inj in Ew. subst z.
    assert (Kk : (k < 48)%nat) by (rewrite <- (seq_length 48 0), <- (map_length (fun k => f (60 * INR k))); apply nth_error_Some; congruence).
    rewrite nth_error_map, nth_error_seq0 in Ez by auto. cbn [option_map] in Ez. apply Some_inj in Ez. subst T.
    assert (K0 : 0 <= INR k) by apply pos_INR. assert (K1 : INR k <= 47) by (replace 47 with (INR 47) by (rewrite INR_IZR_INZ; reflexivity); apply le_INR; lia).
    destruct (Su (60 * INR k)) as (d & [(D & _ & Z)|(D & _ & Z)]).
    - rewrite Xa, Xb by lia. cbn [INR Nat.add]. lra.
    - assert (10 <= f (60 * INR k) <= 20); [|lra]. eapply between_range; [exact Z| |]; destruct d as [|[|[|[|d]]]]; try lia; cbn [nth]; lra.
    - assert (10 <= f (60 * INR k) <= 20); [|lra]. eapply between_range; [exact Z| |]; destruct d as [|[|[|[|d]]]]; try lia; cbn [nth]; lra. }
  assert (Vr := vapor_range _ _ _ _ _ _ _ 500 500 tva_good Gt V ltac:(intros z [<-|[<-|[]]]; lra) ltac:(lra) H Tr).
  destruct (vapor_defined _ _ _ _ _ _ _ tva_good Gt V ltac:(cbn; lia) (or_introl eq_refl) ltac:(cbn; lia) H) as (vp' & Ov & Lvp & Wv).
  assert (vp' = vp) by congruence. subst vp'. change (List.length vp = 48%nat) in Lvp.
  assert (Ve : forall k, (k < 48)%nat -> exists e, nth_error vp k = Some (Some e) /\ 0 < e <= 500 / 1000).
  { intros k K. destruct (nth_error vp k) as [[e|]|] eqn:E.
    - exists e. split; [reflexivity|]. apply (Vr k). exists vp. split; [exact S2|exact E].
    - exfalso. apply (Wv None); [eapply nth_error_In; exact E|reflexivity].
    - exfalso. apply nth_error_None in E. unfold fl in *. lia. }
  destruct (Ve 23%nat ltac:(lia)) as (e23 & V23 & B23). destruct (Ve 36%nat ltac:(lia)) as (e36 & V36 & B36).
  change (dict_get (dl_cols clear_frame) "longwave") with (@None (list fl)) in Lw.
  destruct (longwave_at _ _ _ _ _ 23 10 e23 0 Lw Q23 V23 C23 ltac:(lra) ltac:(lra)) as (L & El & eps & s & Em & Cl & Le).
  change (upper (p_lw_type (da_prm tva_params))) with "TVA" in Em. change (upper (p_lw_cloud (da_prm tva_params))) with "TVA" in Cl.
  inversion Em. subst eps. inversion Cl. subst s. clear Em Cl.
  exists 20, e36, 0, L, ((1 + 0.17 * 0 ^ 2) * (0.74 + 0.0049 * (e36 * 10)) * 5.669e-8 * (20 + 273.15) ^ 4).
  split; [exact H|]. split; [eexists; split; [exact O1|exact Q36]|]. split; [eexists; split; [exact S2|exact V36]|].
  split; [eexists; split; [exact S6|]; apply HumidProofs.fill_forward with 23%nat; [exact C23|unfold fl in *; lia|exact Cn]|].
  split; [lra|]. split; [lra|]. split.
  - eexists. split; [exact S7|]. destruct (longwave_inv _ _ _ _ _ _ Lw) as (emis & cloud & E & C & M). specialize (M eq_refl).
    assert (Ll : List.length lw = 48%nat) by (rewrite M; apply map3_length; unfold fl in *; rewrite ?map_length, ?seq_length; lia).
    apply HumidProofs.fill_forward with 23%nat; [exact El|unfold fl in *; lia|]. intros j J.
    destruct (Ve j ltac:(lia)) as (ej & Vj & _). rewrite M. etransitivity; [exact (map3_nth _ _ _ _ _ _ _ _ (Tn j ltac:(lia)) Vj (Cn j J))|].
    f_equal. unfold longwave1. change (cloud_calc "TVA" = Ok cloud) in C. apply Ok_inj in C. subst cloud. cbn [fpow option_map fmul fadd flift2]. reflexivity.
  - split; [|subst L; lra]. do 2 eexists. split; [constructor|]. split; [constructor|]. reflexivity.
Qed.
