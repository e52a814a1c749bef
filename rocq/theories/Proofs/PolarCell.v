(** Radiation estimated by mtclim and the sun above the horizon (C110), and a
    cell at the pole under the midnight sun (C46, C47). *)
From Coq Require Import ZArith Reals String List Bool Arith Lia Lra.
From Verif Require Import Model.Py Model.Fl Model.Np Model.Constants Model.Params Model.Physics Model.Disagg Model.Mtclim Model.Cell
  Spec.TimeSpec Spec.SeriesSpec Spec.SolarSpec Spec.TempSpec Spec.FrameSpec Spec.DailySpec Spec.DewSpec Spec.CellSpec Spec.StepSpec Spec.FormulaSpec
  Proofs.Base Proofs.RBase Proofs.ArrayProofs Proofs.PrecProofs Proofs.DisaggProofs Proofs.ShortwaveProofs
  Proofs.UtcProofs Proofs.MtclimProofs Proofs.SolarProofs Proofs.SolarTables Proofs.CellProofs Proofs.CellTotal Proofs.StateProofs
  Proofs.DewMap Proofs.DewProofs Proofs.DewCell Proofs.StepProofs Proofs.WholeProofs Proofs.FormulaProofs Proofs.PrecExamples Proofs.PolarSun.
Import ListNotations.
Local Open Scope string_scope.
Local Open Scope list_scope.
Local Open Scope R_scope.

Lemma numbers_at df name v d : numbers df name v -> (d < List.length (dl_doy df))%nat -> on_day df name d (nth d v 0).
Proof.
  intros [H L] D. rewrite map_length in L. exists (map Some v). split; [exact H|]. rewrite nth_error_map, (nth_error_nth' _ 0) by lia. reflexivity.
Qed.

Lemma dry_pos dtr sm : 0 <= dtr -> 0 < dry_clearness dtr sm.
Proof.
  intros D. unfold dry_clearness. set (y := (0.031 + 0.201 * exp (- (0.185 * sm))) * (dtr * sqrt dtr)).
  assert (Y : 0 <= y).
  { unfold y. pose proof (exp_pos (- (0.185 * sm))). apply Rmult_le_pos; [lra|]. apply Rmult_le_pos; [exact D|apply sqrt_pos]. }
  assert (exp (- y) <= 1). { rewrite <- exp_0. destruct Y as [Y|Y]; [left; apply exp_increasing; lra|right; f_equal; lra]. }
  lra.
Qed.

(** the radiation of the daily estimate *)
Theorem estimated fuel prm c g dl po tt_ df :
  p_method prm = "mtclim" -> good_forcing (cd_daily c) prm -> physical_place (located prm c) -> mild (cd_daily c) -> (exists p, numbers (cd_daily c) "prec" p) ->
  0 < p_rain_scalar prm -> -90 <= cd_lat c <= 90 ->
  solar_geom (cd_elev c) (cd_lat c) (p_lapse_rate prm) = Ok g ->
  by_yday (sg_daylengths g) (dl_doy (cd_daily c)) = Ok dl -> by_yday (flat_potrad g) (dl_doy (cd_daily c)) = Ok po ->
  by_yday (tt_max0 g) (dl_doy (cd_daily c)) = Ok tt_ ->
  run_method fuel (with_sun (cd_daily c) dl po tt_) (located prm c) = Some (Ok df) ->
  forall d k, nth_error (dl_doy (cd_daily c)) d = Some k ->
  exists S, on_day df "shortwave" d S /\ 0 <= S /\ (S = 0 <-> polar_night (cd_lat c) (Nat.min (k - 1) 364)).
Proof.
  intros Me Fo PP Mi [pr Np] Rp Hl G D P T M d k Hk.
  destruct (cell_physical prm c g Fo PP Mi Hl G) as (dl' & po' & tt' & D' & P' & T' & Ph).
  assert (dl' = dl) by (apply Ok_inj; congruence). assert (po' = po) by (apply Ok_inj; congruence). assert (tt' = tt_) by (apply Ok_inj; congruence). subst dl' po' tt'.
  rewrite (method_is prm c Me) in M.
  assert (Np' : numbers (with_sun (cd_daily c) dl po tt_) "prec" pr) by (apply numbers_sun; discriminate || exact Np).
  destruct (mtclim_columns fuel _ _ _ df pr Ph Np' M) as (v & ck & Doy & Keep & Nv & Bv & _).
  change (dl_doy (with_sun (cd_daily c) dl po tt_)) with (dl_doy (cd_daily c)) in Doy.
  destruct (mtclim_formulas _ _ _ _ M) as (_ & Ft & _ & _ & Fs & _).
  assert (Dn : (d < List.length (dl_doy (cd_daily c)))%nat) by (apply nth_error_Some; congruence).
  assert (K : (1 <= k <= 366)%nat) by (apply (fc_valid _ _ Fo); eapply nth_error_In; eauto).
  destruct (tables _ _ _ _ G) as [Tab _]. destruct (Tab k K) as (o & O & _ & _ & Pk & Tk).
  destruct (day_facts _ _ _ _ Hl _ O) as (_ & _ & _ & P0 & _ & _ & Op & On).
  destruct Mi as (tn & tx & dtr & sm & sp & _ & _ & Nd & Nm & _ & Md). destruct (Md d Dn) as [_ _ Bd].
  assert (Kp : forall j w, In j ["dtr"; "smoothed_dtr"; "prec"] -> numbers (cd_daily c) j w -> numbers df j w).
  { intros j w I [N L]. split; [|rewrite Doy; exact L]. rewrite Keep.
    - rewrite sun_get. repeat (destruct I as [<-|I]; [exact N|]). destruct I.
    - intros Q. cbn [In] in Q. repeat (destruct I as [<-|I]; [repeat (destruct Q as [Q|Q]; [discriminate Q|]); exact Q|]). destruct I. }
  assert (Dd : (d < List.length (dl_doy df))%nat) by (rewrite Doy; exact Dn).
  pose proof (numbers_at df "dtr" dtr d (Kp "dtr" dtr ltac:(mem) Nd) Dd) as A1. pose proof (numbers_at df "smoothed_dtr" sm d (Kp "smoothed_dtr" sm ltac:(mem) Nm) Dd) as A2.
  pose proof (numbers_at df "prec" pr d (Kp "prec" pr ltac:(mem) Np) Dd) as A3. pose proof (numbers_at df "vapor_pressure" v d Nv Dd) as A4.
  pose proof (Ft d _ _ _ (proj1 Bd) A1 A2 A3) as A5. set (t := clearness _ _ _ _) in A5.
  assert (Tp : 0 < t).
  { unfold t, clearness. apply Rmult_lt_0_compat; [apply dry_pos, Bd|]. change (p_rain_scalar (located prm c)) with (p_rain_scalar prm). destruct (Rlt_dec _ _); lra. }
  assert (A6 : on_day df "tt_max" d (sd_ttmax o)).
  { exists tt_. split; [rewrite Keep; [rewrite sun_get; reflexivity|intros Q; cbn [In] in Q; repeat (destruct Q as [Q|Q]; [discriminate Q|]); exact Q]|].
    exact (by_yday_nth _ _ _ _ _ _ T Hk Tk). }
  assert (A7 : on_day df "potrad" d (sd_potrad o)).
  { exists po. split; [rewrite Keep; [rewrite sun_get; reflexivity|intros Q; cbn [In] in Q; repeat (destruct Q as [Q|Q]; [discriminate Q|]); exact Q]|].
    exact (by_yday_nth _ _ _ _ _ _ P Hk Pk). }
  exists (received (sd_potrad o) (sd_ttmax o) (nth d v 0) t). split; [exact (Fs d _ _ _ _ A5 A4 A6 A7)|].
  unfold received. set (m := Rmax _ _). assert (Mp : 0 < m) by (pose proof (Rmax_r (sd_ttmax o - 0.000061 * nth d v 0) 0.0001); unfold m; lra).
  assert (Q : 0 < m * t) by now apply Rmult_lt_0_compat. rewrite Rmult_assoc. split; [apply Rmult_le_pos; lra|].
  change (table_row k) with (Nat.min (k - 1) 364) in *. split.
  - intros Z. destruct (polar_dec (cd_lat c) (Nat.min (k - 1) 364) Hl) as [N|N]; [exact N|]. destruct (On N) as [Pp _].
    assert (0 < sd_potrad o * (m * t)) by now apply Rmult_lt_0_compat. lra.
  - intros N. destruct (Op N) as (_ & -> & _). ring.
Qed.

(** C110 *)
Lemma sunlit_place prm c : sunlit_cell prm c -> physical_place (located prm c).
Proof. intros [Me Fo Mi Np Hl La He Rp Co]. constructor; [cbn; lra|exact Co|exact La|]. exact He. Qed.

Theorem radiation_daily fuel prm c out prm' : sunlit_cell prm c -> (1440 <= p_time_step prm)%Z -> run_cell fuel prm c = Some (Ok out, prm') ->
  forall d k, nth_error (dl_doy (cd_daily c)) d = Some k ->
  exists x, entry out "shortwave" d x /\ 0 <= x /\ (x = 0 <-> polar_night (cd_lat c) (Nat.min (k - 1) 364)).
Proof.
  intros Sl; pose proof (sunlit_place _ _ Sl) as PP; destruct Sl as [Me Fo Mi Np Hl _ _ [Rp _] _]; intros Lt H d k Hk.
  destruct (daily_value _ _ _ _ _ Lt Hl (fc_valid _ _ Fo) H) as (g & dl & po & tt_ & df & sw & v & (G & D & P & T & M) & S1 & Ls & O & Lv & _ & V).
  destruct (estimated _ _ _ _ _ _ _ _ Me Fo PP Mi Np Rp Hl G D P T M d k Hk) as (x & (w & Ew & Ex) & X0 & Z).
  assert (w = sw) by congruence. subst w. specialize (V d x k Ex Hk). pose proof (daylength_range (cd_lat c) (Nat.min (k - 1) 364)) as R1.
  pose proof (polar_night_zero (cd_lat c) (Nat.min (k - 1) 364) Hl) as R2.
  eexists. split; [exists v; split; [exact O|exact V]|]. split; [apply Rmult_le_pos; lra|]. split.
  - intros E. apply Rmult_integral in E as [E|E]; [now apply Z|]. apply R2. lra.
  - intros N. apply R2 in N. rewrite N. lra.
Qed.

Theorem radiation_sub_daily fuel prm c out prm' : sunlit_cell prm c -> legal_time_step (p_time_step prm) -> (p_time_step prm < 1440)%Z -> p_utc_offset prm = false ->
  run_cell fuel prm c = Some (Ok out, prm') ->
  exists v, dict_get out "shortwave" = Some v /\ forall d k, nth_error (dl_doy (cd_daily c)) d = Some k ->
  exists x, fmean (day_part (steps (p_time_step prm)) d v) = Some x /\ 0 <= x /\ (x = 0 <-> polar_night (cd_lat c) (Nat.min (k - 1) 364)).
Proof.
  intros Sl; pose proof (sunlit_place _ _ Sl) as PP; destruct Sl as [Me Fo Mi Np Hl _ _ [Rp _] _]; intros L Lt U H.
  destruct (sub_daily_mean _ _ _ _ _ L Lt U Hl (fc_valid _ _ Fo) H) as (g & dl & po & tt_ & df & sw & v & (G & D & P & T & M) & S1 & Ls & O & Lv & V).
  exists v. split; [exact O|]. intros d k Hk.
  destruct (estimated _ _ _ _ _ _ _ _ Me Fo PP Mi Np Rp Hl G D P T M d k Hk) as (x & (w & Ew & Ex) & X0 & Z).
  assert (w = sw) by congruence. subst w. destruct (V d x k Ex Hk) as (q & Mn & Tp & Tn).
  pose proof (daylength_range (cd_lat c) (Nat.min (k - 1) 364)) as R1. pose proof (polar_night_zero (cd_lat c) (Nat.min (k - 1) 364) Hl) as R2.
  assert (W : light prm (cd_lat c) (Nat.min (k - 1) 364) = sg_daylength (cd_lat c) (Nat.min (k - 1) 364)) by (unfold light, whole_day; now rewrite Me).
  rewrite W in Mn. eexists. split; [exact Mn|]. destruct (polar_dec (cd_lat c) (Nat.min (k - 1) 364) Hl) as [N|N].
  - rewrite (Tp N). split; [lra|]. split; [intros _; exact N|intros _; ring].
  - destruct (Tn N) as [Q _]. assert (x <> 0) by tauto. assert (sg_daylength (cd_lat c) (Nat.min (k - 1) 364) <> 0) by tauto.
    assert (0 < x * (sg_daylength (cd_lat c) (Nat.min (k - 1) 364) / 86400) * q).
    { apply Rmult_lt_0_compat; [apply Rmult_lt_0_compat; lra|lra]. }
    split; [lra|]. split; [intros E; lra|contradiction].
Qed.

(** ** two days at the pole *)
Lemma polar_forcing m ts : good_forcing (cd_daily polar_cell) (demo_method m ts).
Proof.
  constructor.
  - discriminate.
  - intros k [<-|[<-|[]]]; lia.
  - exists [10; 12]. split; reflexivity.
  - exists [20; 25]. split; reflexivity.
  - intros k [<-|[<-|[<-|[<-|[]]]]]; eexists; split; reflexivity.
  - intros k I v V. exfalso. revert V. cbn [In] in I. repeat (destruct I as [<-|I]; [discriminate|]). destruct I.
  - intros I. exfalso. cbn in I. destruct I as [I|[I|[]]]; discriminate I.
Qed.

Lemma polar_mild : mild (cd_daily polar_cell).
Proof. exact equator_mild. Qed.

Lemma polar_place m ts : physical_place (located (demo_method m ts) polar_cell).
Proof. constructor; cbn; unfold T_STD; lra. Qed.

Lemma polar_lat : -90 <= cd_lat polar_cell <= 90.
Proof. cbn [cd_lat polar_cell]. lra. Qed.

Lemma polar_midnight : midnight_sun (cd_lat polar_cell) (Nat.min (173 - 1) 364).
Proof. apply (pole_days 172); lia. Qed.

Theorem polar_runs fuel ts : legal_time_step ts -> exists out prm', run_cell fuel (demo_method "passthrough" ts) polar_cell = Some (Ok out, prm').
Proof.
  intros L. destruct (pole_ok 0 0.0065) as [g G].
  refine (pass_cell_total fuel (demo_method "passthrough" ts) polar_cell g 9 22 eq_refl (demo_options _ _ L) (polar_forcing _ _) _ polar_lat G _ _); [|reflexivity|reflexivity].
  eexists. split; reflexivity.
Qed.

Theorem polar_mtclim ts : legal_time_step ts -> exists N, forall fuel, (fuel >= N)%nat ->
  exists out prm', run_cell fuel (demo_method "mtclim" ts) polar_cell = Some (Ok out, prm').
Proof.
  intros L. destruct (pole_ok 0 0.0065) as [g G].
  refine (mtclim_cell_total (demo_method "mtclim" ts) polar_cell g 9 22 eq_refl (demo_options _ _ L) (polar_forcing _ _) (polar_place _ _) polar_mild polar_lat G _ _ _); [reflexivity|reflexivity|].
  cbn [p_tdew_tol demo_method]. lra.
Qed.

Lemma polar_sunlit ts : sunlit_cell (demo_method "mtclim" ts) polar_cell.
Proof.
  constructor; [reflexivity|apply polar_forcing|exact polar_mild| |exact polar_lat| | | |]; try (cbn; lra).
  exists [0; 5]. split; reflexivity.
Qed.

Theorem pass_midnight_refuted : ~ (forall fuel prm c out prm' sw, legal_time_step (p_time_step prm) -> (p_time_step prm < 1440)%Z -> p_utc_offset prm = false ->
  p_method prm = "passthrough" -> p_sw_averaging prm <> "daylight" -> good_options prm -> good_forcing (cd_daily c) prm ->
  -90 <= cd_lat c <= 90 -> dict_get (dl_cols (cd_daily c)) "shortwave" = Some sw -> run_cell fuel prm c = Some (Ok out, prm') ->
  exists v, dict_get out "shortwave" = Some v /\
  forall d S k, nth_error sw d = Some (Some S) -> nth_error (dl_doy (cd_daily c)) d = Some k ->
    ~ polar_night (cd_lat c) (Nat.min (k - 1) 364) -> fmean (day_part (steps (p_time_step prm)) d v) = Some S).
Proof.
  intros H. destruct (polar_runs 0 60 legal_60) as (out & prm' & Rn).
  assert (Lt : (p_time_step (demo_method "passthrough" 60) < 1440)%Z) by (cbn [demo_method p_time_step]; lia).
  destruct (H 0%nat (demo_method "passthrough" 60) polar_cell out prm' (map Some [200; 250]) legal_60 Lt eq_refl eq_refl ltac:(discriminate) (demo_options _ _ legal_60) (polar_forcing _ _) polar_lat eq_refl Rn) as (v & V & Q).
  destruct (pass_sub_daily 0 (demo_method "passthrough" 60) polar_cell out prm' (map Some [200; 250]) legal_60 Lt eq_refl eq_refl ltac:(discriminate) polar_lat (fc_valid _ _ (polar_forcing "passthrough" 60)) eq_refl Rn) as (v' & V' & _ & D).
  rewrite V in V'. apply Some_inj in V'. subst v'.
  destruct (D 0%nat 200 173%nat eq_refl eq_refl) as (_ & _ & D3). destruct (D3 polar_midnight) as (q & B & Mn).
  specialize (Q 0%nat 200 173%nat eq_refl eq_refl (midnight_light _ _ polar_midnight)).
  rewrite Mn in Q. apply Some_inj in Q. lra.
Qed.

Theorem agree_midnight_refuted : ~ (forall fuel prm c out1 p1 out2 p2,
  legal_time_step (p_time_step prm) -> (p_time_step prm < 1440)%Z -> p_utc_offset prm = false -> sunlit_cell prm c ->
  run_cell fuel prm c = Some (Ok out1, p1) -> run_cell fuel (with_step 1440 prm) c = Some (Ok out2, p2) ->
  exists v1 v2, dict_get out1 "shortwave" = Some v1 /\ dict_get out2 "shortwave" = Some v2 /\
  forall d x, nth_error v2 d = Some (Some x) -> fmean (day_part (steps (p_time_step prm)) d v1) = Some x).
Proof.
  intros H. destruct (polar_mtclim 60 legal_60) as [N1 H1]. destruct (polar_mtclim 1440 legal_1440) as [N2 H2].
  destruct (H1 (N1 + N2)%nat ltac:(lia)) as (o1 & p1 & E1). destruct (H2 (N1 + N2)%nat ltac:(lia)) as (o2 & p2 & E2).
  assert (Lt : (p_time_step (demo_method "mtclim" 60) < 1440)%Z) by (cbn [demo_method p_time_step]; lia).
  change (demo_method "mtclim" 1440) with (with_step 1440 (demo_method "mtclim" 60)) in E2.
  destruct (H _ (demo_method "mtclim" 60) polar_cell _ _ _ _ legal_60 Lt eq_refl (polar_sunlit 60) E1 E2) as (v1 & v2 & V1 & V2 & Q).
  destruct (daily_agrees _ (demo_method "mtclim" 60) polar_cell _ _ _ _ legal_60 Lt eq_refl eq_refl polar_lat (fc_valid _ _ (polar_forcing "mtclim" 60)) E1 E2) as (w1 & w2 & W1 & W2 & _ & _ & D).
  assert (w1 = v1) by congruence. assert (w2 = v2) by congruence. subst w1 w2.
  destruct (radiation_daily _ (demo_method "mtclim" 1440) polar_cell _ _ (polar_sunlit 1440) ltac:(cbn [demo_method p_time_step]; lia) E2 0%nat 173%nat eq_refl) as (x & (w & Ew & Ex) & X0 & Z).
  assert (w = v2) by congruence. subst w. specialize (Q 0%nat x Ex). destruct (D 0%nat x 173%nat Ex eq_refl) as [_ D2].
  destruct (D2 polar_midnight) as (q & B & Mn). rewrite Mn in Q. apply Some_inj in Q.
  assert (x <> 0) by (intros E; exact (midnight_light _ _ polar_midnight (proj1 Z E))). assert (x * q < x * 1) by (apply Rmult_lt_compat_l; lra). lra.
Qed.

(** the sun is up at the pole in June and radiation is estimated *)
Theorem polar_case : exists fuel out prm' x, run_cell fuel (demo_method "mtclim" 1440) polar_cell = Some (Ok out, prm') /\ entry out "shortwave" 0 x /\ 0 < x.
Proof.
  destruct (polar_mtclim 1440 legal_1440) as [N H]. destruct (H N (le_n N)) as (out & prm' & E).
  destruct (radiation_daily _ (demo_method "mtclim" 1440) polar_cell _ _ (polar_sunlit 1440) ltac:(cbn [demo_method p_time_step]; lia) E 0%nat 173%nat eq_refl) as (x & Ex & X0 & Z).
  exists N, out, prm', x. split; [exact E|]. split; [exact Ex|].
  assert (x <> 0) by (intros Q; exact (midnight_light _ _ polar_midnight (proj1 Z Q))). lra.
Qed.
