(** Particular latitudes: the equator, the polar caps, and a latitude with
    a day too short for the 30-second grid. *)
From Coq Require Import ZArith Reals String List Bool Arith Lia Lra Ratan.
From Verif Require Import Model.Py Model.Fl Model.Np Model.Constants Model.Physics
  Proofs.Base Proofs.RBase Proofs.PiBounds Proofs.SolarProofs Proofs.SolarTables Proofs.ReaderProofs Proofs.StateProofs Proofs.ArrayProofs Proofs.PrecProofs Proofs.YearProofs Model.Calendar Model.Cell
  Spec.SeriesSpec Spec.SolarSpec.
Import ListNotations.
Local Open Scope R_scope.

(** ** equator *)
Lemma equator_hss i : sg_hss 0 i = PI / 2.
Proof.
  unfold sg_hss, sg_coshss, sg_sinegeom. rewrite lat_value by lra. rewrite Rmult_0_l, sin_0, Rmult_0_l.
  replace (-0 / sg_cosegeom 0 i) with 0 by (unfold Rdiv; lra).
  rewrite Rmax_left, Rmin_left by lra. apply acos_0.
Qed.
Lemma equator_daylength i : 43199 < sg_daylength 0 i < 43201.
Proof.
  unfold sg_daylength. rewrite equator_hss. pose proof PI_lower. pose proof PI_upper. unfold SEC_PER_RAD, SEC_PER_DAY.
  unfold Rmin. destruct (Rle_dec _ _); lra.
Qed.
Theorem equator_ok elev lr : exists g, solar_geom elev 0 lr = Ok g.
Proof. apply geom_ok; [lra|]. intros i _. pose proof (equator_daylength i). lra. Qed.

(** ** polar caps, around day 173 *)
Lemma decl_summer : 0.4 < sg_decl 172 < 0.41.
Proof.
  split; [|apply decl_bounds]. unfold sg_decl, MIN_DECL, DAYS_OFF, RAD_PER_DAY.
  set (x := (INR 172 + 11.25) * 0.017214). assert (X : 3.15 < x < 3.16) by (unfold x; rewrite INR_IZR_INZ; cbn [Z.of_nat]; simpl IZR; lra).
  replace x with (x - PI + PI) by ring. rewrite neg_cos. set (y := x - PI).
  pose proof PI_lower. pose proof PI_upper. assert (Y : 0 < y < 0.1) by (unfold y; lra).
  assert (C : 1 - y * y / 2 <= cos y).
  { assert (L := pre_cos_bound y 0 ltac:(lra) ltac:(lra)). unfold cos_approx, cos_term in L. cbn in L. lra. }
  assert (y * y <= 0.01) by nra. lra.
Qed.

Lemma cap_north : midnight_sun 80 172.
Proof.
  unfold midnight_sun, sun. rewrite cos_PI. pose proof decl_summer as D. pose proof PI_lower. pose proof PI_upper.
  set (L := 80 * RAD_PER_DEG). set (d := sg_decl 172) in *.
  replace (cos L * cos d * -1 + sin L * sin d) with (- cos (L + d)) by (rewrite cos_plus; ring).
  assert (LV : 1.39 < L < 1.40) by (unfold L, RAD_PER_DEG; lra).
  assert (cos (L + d) < 0); [|lra]. rewrite <- (Ropp_involutive (cos (L + d))). rewrite <- neg_cos.
  apply Ropp_lt_gt_0_contravar. replace (L + d + PI) with (L + d - PI + 2 * PI) by ring.
  rewrite cos_plus, cos_2PI, sin_2PI, Rmult_1_r, Rmult_0_r, Rminus_0_r.
  apply cos_gt_0; lra.
Qed.
Lemma cap_south : polar_night (-80) 172.
Proof.
  intros h. unfold sun. pose proof decl_summer as D. pose proof PI_lower. pose proof PI_upper.
  set (L := -80 * RAD_PER_DEG). set (d := sg_decl 172) in *.
  assert (LV : -1.40 < L < -1.39) by (unfold L, RAD_PER_DEG; lra).
  assert (P : 0 < cos L * cos d) by (apply Rmult_lt_0_compat; apply cos_gt_0; lra).
  assert (cos L * cos d * cos h <= cos L * cos d * 1) by (apply Rmult_le_compat_l; [lra|apply COS_bound]).
  assert (C : cos (L - d) < 0).
  { replace (cos (L - d)) with (- cos (L - d + PI)) by (rewrite neg_cos; ring).
    assert (0 < cos (L - d + PI)) by (apply cos_gt_0; lra). lra. }
  rewrite cos_minus in C. lra.
Qed.
Lemma north_daylength : 30 < sg_daylength 80 172.
Proof.
  destruct (day_cases 80 172) as [Z|[S|L]]; auto; exfalso.
  - apply polar_night_zero in Z; [|lra]. specialize (Z PI). pose proof cap_north as N. unfold midnight_sun in N. lra.
  - assert (hs : sg_hss 80 172 = PI).
    { apply hss_pi; [lra|]. intros h. rewrite cza_sun by lra. pose proof cap_north as N. unfold midnight_sun in N.
      unfold sun in *. rewrite cos_PI in N. pose proof (COS_bound h). pose proof (coseg_pos 80 172 ltac:(lra)) as P.
      unfold sg_cosegeom in P. rewrite lat_value in P by lra. nra. }
    unfold sg_daylength in S. rewrite hs in S. pose proof PI_lower. unfold SEC_PER_RAD, SEC_PER_DAY, Rmin in S. destruct (Rle_dec _ _); lra.
Qed.

Theorem midnight_sum elev lr : exists o, sg_day elev 80 lr 172 = Ok o /\ total (sd_row o) < 1.
Proof.
  destruct (day_regular elev 80 lr 172 ltac:(lra) north_daylength) as (o & E & _ & _ & _ & _ & _ & S & M).
  exists o. split; auto. destruct (Rle_lt_or_eq_dec _ _ (proj2 S)) as [|Q]; auto. exfalso. apply M in Q. apply Q, cap_north.
Qed.

(** ** a day shorter than 30 seconds *)
Lemma decl_winter : -0.41 < sg_decl 0 < -0.4.
Proof.
  split; [apply decl_bounds|]. unfold sg_decl, MIN_DECL, DAYS_OFF, RAD_PER_DAY.
  set (y := (INR 0 + 11.25) * 0.017214). assert (Y : 0.19 < y < 0.2) by (unfold y; cbn [INR]; lra).
  assert (C : 1 - y * y / 2 <= cos y).
  { pose proof PI_lower. assert (L := pre_cos_bound y 0 ltac:(lra) ltac:(lra)). unfold cos_approx, cos_term in L. cbn in L. lra. }
  assert (y * y <= 0.04) by nra. lra.
Qed.

Definition q : R := cos (sg_dh / 4).
Definition lat_short : R := atan (q * (cos (sg_decl 0) / - sin (sg_decl 0))) / RAD_PER_DEG.

Lemma dh_small : 0 < sg_dh < 0.003.
Proof. pose proof dh_S. pose proof dh_pos. unfold SEC_PER_RAD in *. lra. Qed.

Lemma q_range : 0 < q < 1.
Proof.
  pose proof dh_small. pose proof PI_lower. unfold q. split; [apply cos_gt_0; lra|].
  rewrite <- cos_0. apply cos_decreasing_1; lra.
Qed.
Lemma sin_winter : 0.3 < - sin (sg_decl 0) < 0.5.
Proof.
  pose proof decl_winter as D. rewrite <- sin_neg. set (x := - sg_decl 0). assert (X : 0.4 < x < 0.41) by (unfold x; lra).
  pose proof PI_lower. split.
  - assert (L := pre_sin_bound x 0 ltac:(lra) ltac:(lra)). unfold sin_approx, sin_term in L. cbn in L.
    destruct L as [L _]. assert (x * x * x <= 0.07) by nra. lra.
  - assert (sin x < x) by (apply sin_lt_x; lra). lra.
Qed.
Lemma short_range : -90 <= lat_short <= 90.
Proof.
  unfold lat_short. set (t := q * (cos (sg_decl 0) / - sin (sg_decl 0))).
  pose proof q_range as Q. pose proof sin_winter as S. pose proof (COS_bound (sg_decl 0)) as C. pose proof (cos_decl_pos 0) as Cp.
  assert (T : 0 < t < 4).
  { unfold t. assert (F : 0 < cos (sg_decl 0) / - sin (sg_decl 0) < 4) by (split; [apply div_pos; lra|apply div_lt; lra]). nra. }
  assert (A : 0 < atan t < 1.57).
  { split; [rewrite <- atan_0; now apply atan_increasing|].
    destruct (Rlt_le_dec (atan t) 1.57) as [|B]; auto. exfalso.
    pose proof (atan_bound t) as AB. pose proof PI_upper. pose proof PI_lower.
    assert (CA : 0 < cos (atan t) < 0.001).
    { split; [apply cos_gt_0; lra|]. rewrite <- sin_shift. assert (sin (PI / 2 - atan t) < PI / 2 - atan t) by (apply sin_lt_x; lra). lra. }
    assert (SA := sin2_cos2 (atan t)). unfold Rsqr in SA.
    assert (TA : tan (atan t) = t) by apply tan_atan. unfold tan in TA.
    assert (E : sin (atan t) = t * cos (atan t)) by (rewrite <- TA at 2; field; lra).
    rewrite E in SA. assert (0 <= t * t <= 16) by nra. assert (cos (atan t) * cos (atan t) <= 0.001 * 0.001) by nra.
    assert (t * t * (cos (atan t) * cos (atan t)) <= 16 * (0.001 * 0.001)) by (apply Rmult_le_compat; nra). nra. }
  unfold RAD_PER_DEG. split; [apply le_div; lra|apply div_le; lra].
Qed.
Lemma short_hss : sg_hss lat_short 0 = sg_dh / 4.
Proof.
  pose proof short_range as SR. pose proof q_range as Q. pose proof sin_winter as S. pose proof (cos_decl_pos 0) as Cp. pose proof dh_small. pose proof PI_lower.
  assert (E : - sg_sinegeom lat_short 0 / sg_cosegeom lat_short 0 = q).
  { pose proof (cos_lat_pos lat_short SR) as CL. unfold sg_sinegeom, sg_cosegeom.
    assert (LV : sg_lat lat_short = atan (q * (cos (sg_decl 0) / - sin (sg_decl 0)))).
    { rewrite lat_value by auto. unfold lat_short, Rdiv at 1. rewrite Rmult_assoc, Rinv_l by (unfold RAD_PER_DEG; lra). apply Rmult_1_r. }
    assert (TA : tan (sg_lat lat_short) = q * (cos (sg_decl 0) / - sin (sg_decl 0))) by (rewrite LV; apply tan_atan).
    unfold tan in TA.
    replace (- (sin (sg_lat lat_short) * sin (sg_decl 0)) / (cos (sg_lat lat_short) * cos (sg_decl 0)))
      with (sin (sg_lat lat_short) / cos (sg_lat lat_short) * (- sin (sg_decl 0) / cos (sg_decl 0))) by (field; lra).
    rewrite TA. field. lra. }
  unfold sg_hss, sg_coshss. rewrite E. rewrite Rmax_left, Rmin_left by lra. unfold q. apply acos_cos. lra.
Qed.
Theorem short_day : 0 < sg_daylength lat_short 0 <= 30.
Proof.
  unfold sg_daylength. rewrite short_hss.
  replace (2.0 * (sg_dh / 4) * SEC_PER_RAD) with (15 : R).
  - unfold SEC_PER_DAY, Rmin. destruct (Rle_dec _ _); lra.
  - pose proof dh_S. lra.
Qed.
Theorem some_location_fails : exists lat, -90 <= lat <= 90 /\
  forall elev lr, solar_geom elev lat lr = Err ZeroDivisionError.
Proof.
  exists lat_short. split; [apply short_range|]. intros elev lr.
  unfold solar_geom. rewrite dayperyear_value. change (366 - 1)%nat with 365%nat. cbn [seq mapM].
  rewrite day_short; [reflexivity|apply short_range|apply short_day].
Qed.

(** ** statements about the tables *)

Theorem daylength_potrad elev lat lr g doy : -90 <= lat <= 90 -> (1 <= doy <= 366)%nat ->
  solar_geom elev lat lr = Ok g -> exists dl po,
  nth_error (sg_daylengths g) (doy - 1) = Some dl /\ nth_error (flat_potrad g) (doy - 1) = Some po /\
  0 <= dl <= 86400 /\ (dl = 0 <-> polar_night lat (Nat.min (doy - 1) 364)) /\ 0 <= po /\ (po = 0 <-> dl = 0).
Proof.
  intros Hl Hd E. destruct (tables _ _ _ _ E) as [T _]. destruct (T doy Hd) as (o & O & _ & D & P & _).
  exists (sd_daylength o), (sd_potrad o). split; [auto|]. split; [auto|].
  destruct (day_facts _ _ _ _ Hl _ O) as (_ & R & N & Pn & _ & _ & Dark & Light). fold (table_row doy).
  split; [auto|]. split; [auto|]. split; [auto|]. split.
  - intros Z. apply N. destruct (Classical_Prop.classic (polar_night lat (table_row doy))) as [|L]; auto.
    destruct (Light L) as [Q _]. lra.
  - intros Z. apply N in Z. apply Dark in Z as (_ & Z & _). auto.
Qed.

Theorem fractions elev lat lr g doy : -90 <= lat <= 90 -> (1 <= doy <= 366)%nat ->
  solar_geom elev lat lr = Ok g -> exists row, nth_error (tiny_rad_fract g) (doy - 1) = Some row /\
  List.length row = RAD_STEPS /\ (forall x, In x row -> 0 <= x) /\
  (polar_night lat (Nat.min (doy - 1) 364) -> forall x, In x row -> x = 0) /\
  (~ polar_night lat (Nat.min (doy - 1) 364) -> 0 < total row <= 1 /\
     (total row = 1 <-> ~ midnight_sun lat (Nat.min (doy - 1) 364))).
Proof.
  intros Hl Hd E. destruct (tables _ _ _ _ E) as [T _]. destruct (T doy Hd) as (o & O & Rw & _).
  exists (sd_row o). split; [auto|].
  destruct (day_facts _ _ _ _ Hl _ O) as (_ & _ & _ & _ & L & Pos & Dark & Light). fold (table_row doy).
  split; [auto|]. split; [auto|]. split.
  - intros N x Hx. apply Dark in N as (N & _). rewrite N in Hx. now apply repeat_spec in Hx.
  - intros N. apply Light in N as (_ & _ & _ & N). auto.
Qed.

Theorem transmittance elev lat lr g doy : -90 <= lat <= 90 -> 0 < lr -> lr * elev < T_STD -> (1 <= doy <= 366)%nat ->
  solar_geom elev lat lr = Ok g -> exists t, nth_error (tt_max0 g) (doy - 1) = Some t /\
  (polar_night lat (Nat.min (doy - 1) 364) -> t = 0) /\
  (~ polar_night lat (Nat.min (doy - 1) 364) -> 0 < t < 1).
Proof.
  intros Hl _ _ Hd E. destruct (tables _ _ _ _ E) as [T _]. destruct (T doy Hd) as (o & O & _ & _ & _ & Tt).
  exists (sd_ttmax o). split; [auto|].
  destruct (day_facts _ _ _ _ Hl _ O) as (_ & _ & _ & _ & _ & _ & Dark & Light). fold (table_row doy).
  split; intros N; [now apply Dark in N as (_ & _ & N)|now apply Light in N as (_ & N & _)].
Qed.

Theorem air_mass c : 0 < c -> exists a, sg_am c = Ok a /\ 0 < a /\ (2.9 < 1 / (c + 0.0000001) -> In a OPTAM).
Proof.
  intros H. destruct (am_ok c H) as (a & E & P). exists a. split; [auto|]. split; [auto|].
  intros Q. unfold sg_am in E. rewrite Rltb_of in E by lra. unfold getitem in E.
  destruct (nth_error OPTAM _) eqn:N; [|discriminate]. apply Ok_inj in E. subst. eapply nth_error_In; eauto.
Qed.

Theorem last_day_copied elev lat lr g : solar_geom elev lat lr = Ok g ->
  nth_error (tiny_rad_fract g) 365 = nth_error (tiny_rad_fract g) 364 /\
  nth_error (sg_daylengths g) 365 = nth_error (sg_daylengths g) 364 /\
  nth_error (flat_potrad g) 365 = nth_error (flat_potrad g) 364 /\
  nth_error (tt_max0 g) 365 = nth_error (tt_max0 g) 364.
Proof.
  intros E. destruct (tables _ _ _ _ E) as [T _].
  destruct (T 365%nat ltac:(lia)) as (o & O & A1 & A2 & A3 & A4). destruct (T 366%nat ltac:(lia)) as (o' & O' & B1 & B2 & B3 & B4).
  change (table_row 365) with 364%nat in O. change (table_row 366) with 364%nat in O'. rewrite O in O'. apply Ok_inj in O'. subst o'.
  change (365 - 1)%nat with 364%nat in *. change (366 - 1)%nat with 365%nat in *.
  rewrite A1, A2, A3, A4, B1, B2, B3, B4. auto.
Qed.

Theorem lookups_in_range elev lat lr g dates : solar_geom elev lat lr = Ok g ->
  let doy := map (fun d => Z.to_nat (dayofyear d)) dates in
  exists dl po tt, by_yday (sg_daylengths g) doy = Ok dl /\ by_yday (flat_potrad g) doy = Ok po /\ by_yday (tt_max0 g) doy = Ok tt /\
    List.length dl = List.length dates /\ List.length po = List.length dates /\ List.length tt = List.length dates.
Proof.
  intros E doy. destruct (tables _ _ _ _ E) as [_ (_ & L1 & L2 & L3)].
  assert (G : forall t, List.length t = 366%nat -> exists r, by_yday t doy = Ok r /\ List.length r = List.length dates).
  { intros t Lt. unfold by_yday.
    destruct (proj2 (mapM_ok_iff (fun d => do x <- getitem t (d - 1)%nat; Ok (Some x)) doy)) as [r Er].
    - intros x Hx. unfold doy in Hx. apply in_map_iff in Hx as (d & <- & _). destruct (dayofyear_range d) as [Rg _].
      unfold getitem. destruct (nth_error t _) eqn:N; [cbn [bind]; eauto|]. apply nth_error_None in N. lia.
    - exists r. split; [exact Er|]. apply mapM_inv, Forall2_len in Er. unfold doy in Er. now rewrite map_length in Er. }
  destruct (G _ L1) as (a & A1 & A2). destruct (G _ L2) as (b & B1 & B2). destruct (G _ L3) as (c & C1 & C2).
  exists a, b, c. auto 10.
Qed.

Theorem daylength_formula lat i : -90 <= lat <= 90 ->
  0 <= sg_daylength lat i <= 86400 /\ (sg_daylength lat i = 0 <-> polar_night lat i).
Proof. intros H. split; [apply daylength_range|now apply polar_night_zero]. Qed.

Theorem daylength_example : (forall elev lr, exists g, solar_geom elev 0 lr = Ok g) /\
  43199 < sg_daylength 0 172 < 43201 /\ polar_night (-80) 172 /\ sg_daylength (-80) 172 = 0.
Proof.
  split; [exact equator_ok|]. split; [apply equator_daylength|]. split; [apply cap_south|].
  apply polar_night_zero; [lra|apply cap_south].
Qed.

Theorem midnight_refuted elev lr : -90 <= 80 <= 90 /\ ~ polar_night 80 172 /\
  exists o, sg_day elev 80 lr 172 = Ok o /\ total (sd_row o) < 1.
Proof.
  split; [lra|]. split; [|apply midnight_sum]. intros N. specialize (N PI). pose proof cap_north as M. unfold midnight_sun in M. lra.
Qed.

Theorem distribution_example : ~ polar_night 0 0 /\ ~ midnight_sun 0 0 /\ midnight_sun 80 172.
Proof.
  pose proof (cos_decl_pos 0) as C. split; [|split; [|apply cap_north]].
  - intros N. specialize (N 0). unfold sun in N. rewrite Rmult_0_l, cos_0, sin_0 in N. lra.
  - unfold midnight_sun, sun. rewrite Rmult_0_l, cos_0, sin_0, cos_PI. lra.
Qed.

Theorem air_mass_example : sg_am 0.5 = Ok (1.0 / (0.5 + 0.0000001)) /\ 2.9 < 1 / (0.1 + 0.0000001).
Proof.
  split; [|apply lt_div; lra]. unfold sg_am. rewrite Rltb_not; [reflexivity|]. apply div_le; lra.
Qed.
