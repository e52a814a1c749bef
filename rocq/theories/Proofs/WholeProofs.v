(** Complete forcing gives complete output: C105. *)
From Coq Require Import ZArith Reals String List Bool Arith Lia Lra Psatz.
From Verif Require Import Model.Py Model.Fl Model.Np Model.Constants Model.Params Model.Physics Model.Disagg Model.Mtclim Model.Cell
  Spec.TimeSpec Spec.SeriesSpec Spec.ShortSpec Spec.SolarSpec Spec.TempSpec Spec.FrameSpec Spec.DailySpec Spec.DewSpec Spec.CellSpec Spec.StepSpec
  Proofs.Base Proofs.RBase Proofs.ArrayProofs Proofs.PrecProofs Proofs.WindProofs Proofs.DisaggProofs Proofs.ShortwaveProofs Proofs.TempProofs
  Proofs.GlobalsProofs Proofs.PassProofs Proofs.FrameProofs Proofs.SvpProofs Proofs.HumidProofs Proofs.VaporProofs Proofs.LongwaveProofs Proofs.UtcProofs Proofs.MtclimProofs Proofs.CellProofs Proofs.CellTotal Proofs.CellOutputs Proofs.StateProofs
  Proofs.DewMap Proofs.DewProofs Proofs.DewCell Proofs.StepProofs.
Import ListNotations.
Local Open Scope string_scope.
Local Open Scope list_scope.
Local Open Scope R_scope.

Lemma whole_at v k : whole v -> (k < List.length v)%nat -> exists x, nth_error v k = Some (Some x).
Proof.
  intros W K. destruct (nth_error v k) as [[x|]|] eqn:E; [eauto| |apply nth_error_None in E; lia].
  exfalso. apply (W None); [eapply nth_error_In; exact E|reflexivity].
Qed.
Lemma at_whole v : (forall k, (k < List.length v)%nat -> exists x, nth_error v k = Some (Some x)) -> whole v.
Proof.
  intros H x I. apply In_nth_error in I as [k E]. destruct (H k) as [y Y]; [apply nth_error_Some; unfold fl in *; congruence|]. unfold fl in *. congruence.
Qed.
Lemma map2_whole f a b : (forall x y, f (Some x) (Some y) <> None) -> whole a -> whole b -> whole (map2 f a b).
Proof.
  intros F A B z I. unfold map2 in I. apply in_map_iff in I as ([p q] & <- & I). cbn [fst snd].
  pose proof (A p (in_combine_l _ _ _ _ I)) as Ap. pose proof (B q (in_combine_r _ _ _ _ I)) as Bq.
  destruct p as [p|]; [|congruence]. destruct q as [q|]; [|congruence]. apply F.
Qed.
Lemma fill_whole l : whole l -> whole (fill_gaps l).
Proof. intros W. rewrite (fill_some_eq _ W). exact W. Qed.

(** ** shortwave *)
Lemma shortwave_whole sw dl doy tiny prm out : legal_time_step (p_time_step prm) -> List.length sw = List.length dl -> List.length doy = List.length sw ->
  full_rows tiny -> rows_exist doy tiny -> whole sw -> whole dl -> shortwave sw dl doy tiny prm = Ok out -> whole out.
Proof.
  intros L Ls Ld F K Ws Wd H. rewrite shortwave_chunks in H by auto. apply Ok_inj in H. subst out.
  assert (Wf : whole (sw_flat tiny prm)).
  { unfold sw_flat. cbv zeta. destruct (p_utc_offset prm); [apply roll_whole|]; apply whole_some. }
  assert (Wt : whole (sw_tmp sw dl prm)).
  { assert (T : 0 < IZR (p_time_step prm)) by (apply IZR_lt; apply L).
    unfold sw_tmp. cbv zeta. destruct (p_utc_offset prm); [apply roll_whole|]; apply repeat_whole, map2_whole; auto;
      intros x y; unfold step_energy; cbn [fmul flift2]; rewrite fdiv_some by lra; discriminate. }
  intros x I. apply in_concat in I as (ch & I & J). apply in_map_iff in I as (d & <- & _). unfold chunk in J.
  apply in_map_iff in J as (row & <- & J). apply fsum_whole. intros z Z. apply (rows_In _ _ _ _ J) in Z.
  revert z Z. apply map2_whole.
  - discriminate.
  - intros z Z. unfold day_part in Z. apply firstn_In, skipn_In in Z. now apply Wf.
  - intros z Z. unfold day_part in Z. apply firstn_In, skipn_In in Z. now apply Wt.
Qed.

(** ** precipitation *)
Lemma triangle_whole mix p t pk dur day : SeriesSpec.covered pk dur -> prec_triangle_day mix (Some p) t (Some (Some pk)) (Some (Some dur)) = Ok day -> whole day.
Proof.
  intros C H. destruct ((mix && flt t (Some 0))%bool) eqn:M.
  - unfold prec_triangle_day in H. rewrite M in H. apply Ok_inj in H. subst day. intros x I. apply in_map_iff in I as (o & <- & I).
    apply repeat_spec in I. subst o. cbn [fmul flift2]. rewrite fdiv_some by lra. discriminate.
  - assert (E : prec_triangle_day mix (Some p) t (Some (Some pk)) (Some (Some dur)) = prec_triangle_day false (Some p) t (Some (Some pk)) (Some (Some dur))).
    { unfold prec_triangle_day. rewrite M. reflexivity. }
    rewrite E in H. clear E. destruct (triangle_day (Some p) t pk dur) as (w & _ & Q & _). destruct (Q C) as (_ & Z). rewrite (Z p eq_refl) in H.
    apply Ok_inj in H. subst day. intros x I. apply in_map_iff in I as (m & <- & _). discriminate.
Qed.

Lemma days_whole w n (v : list fl) : (0 < w)%nat -> List.length v = (n * w)%nat -> (forall d, (d < n)%nat -> whole (day_part w d v)) -> whole v.
Proof.
  intros W L H. apply at_whole. intros k K. unfold fl in *. rewrite L in K.
  assert (D : (k / w < n)%nat) by (apply Nat.div_lt_upper_bound; lia).
  assert (J : (k mod w < w)%nat) by (apply Nat.mod_upper_bound; lia).
  destruct (whole_at _ (k mod w) (H _ D)) as [x X]; [pose proof (day_part_length w (k / w) n v L D) as Q; unfold fl in *; lia|].
  exists x. pose proof (part_index w (k / w) v (day_part w (k / w) v) (k mod w) eq_refl J) as P.
  pose proof (Nat.div_mod_eq k w). replace (k / w * w + k mod w)%nat with k in P by lia. exact (eq_trans P X).
Qed.

Lemma prec_whole P tmin ts prm pk dur out n : List.length P = n -> legal_time_step ts ->
  (In (upper (p_prec_type prm)) ["TRIANGLE"; "MIX"] -> exists pk' dur', pk = Some (map Some pk') /\ dur = Some (map Some dur') /\
     List.length pk' = n /\ List.length dur' = n /\ forall d, (d < n)%nat -> SeriesSpec.covered (nth d pk' 0) (nth d dur' 0)) ->
  whole P -> prec P tmin ts prm pk dur = Ok out -> whole out.
Proof.
  intros L Lg Sh W H. unfold prec in H.
  assert (M : exists m, (if str_in (upper (p_prec_type prm)) ["TRIANGLE"; "MIX"] then prec_TRIANGLE P tmin pk dur (upper (p_prec_type prm) =? "MIX") else Ok (prec_UNIFORM P)) = Ok m).
  { destruct (if str_in _ _ then _ else _) as [m|]; [eauto|discriminate]. }
  destruct M as [m M]. rewrite M in H. cbn [bind] in H.
  assert (Wm : whole m).
  { destruct (str_in (upper (p_prec_type prm)) ["TRIANGLE"; "MIX"]) eqn:S.
    - assert (I : In (upper (p_prec_type prm)) ["TRIANGLE"; "MIX"]).
      { unfold str_in in S. apply existsb_exists in S as (y & Iy & E). apply String.eqb_eq in E. now rewrite E. }
      destruct (Sh I) as (pk' & dur' & -> & -> & Lp & Ld & C). destruct (prec_TRIANGLE_days _ _ _ _ _ _ M) as [Lm D].
      apply (days_whole MIN_PER_DAY (List.length P)); [unfold MIN_PER_DAY; lia|exact Lm|]. intros d Hd.
      destruct (whole_at P d W Hd) as [p Ep]. specialize (D d _ Ep). unfold opt_nth in D. rewrite !nth_error_map in D.
      rewrite (nth_error_nth' pk' 0), (nth_error_nth' dur' 0) in D by lia. cbn [option_map] in D.
      eapply triangle_whole; [apply C|exact D]. lia.
    - apply Ok_inj in M. subst m. unfold prec_UNIFORM. apply repeat_whole. intros x I. apply in_map_iff in I as (y & <- & I).
      specialize (W y I). destruct y as [y|]; [|congruence]. rewrite fdiv_some by lra. discriminate. }
  destruct (reshape _ ts) as [r|] eqn:R; [|discriminate]. cbn [bind] in H. apply Ok_inj in H. subst out.
  destruct (reshape_rows _ _ _ R) as [_ Q]. intros x I. apply in_map_iff in I as (row & <- & I). destruct (Q row I) as [_ S].
  apply fsum_whole. intros z Z. specialize (S z Z). destruct (p_utc_offset prm); [revert z Z S|now apply Wm].
  intros z _ S. exact (roll_whole _ _ Wm z S).
Qed.

(** ** longwave *)
Lemma clouded_pos name eps c s : clouded name eps c s -> 0 < eps -> (name = "CLOUD_DEARDORFF" -> 0 <= c <= 1) -> 0 < s.
Proof.
  intros H E C. destruct H as [eps c|eps c|eps c].
  - pose proof (pow2_ge_0 c). nra.
  - pose proof (pow2_ge_0 c). nra.
  - specialize (C eq_refl). destruct (Req_dec c 1) as [->|]; [lra|]. assert (0 < (1 - c) * eps) by (apply Rmult_lt_0_compat; lra). lra.
Qed.

Lemma sky_whole temps vp ck prm base n : longwave temps vp ck prm None = Ok base -> List.length temps = n -> List.length vp = n -> List.length ck = n ->
  whole temps -> whole vp -> whole ck ->
  (forall k T, nth_error temps k = Some (Some T) -> -273.15 < T) -> (forall k e, nth_error vp k = Some (Some e) -> 0 < e) ->
  (upper (p_lw_cloud prm) = "CLOUD_DEARDORFF" -> forall k c, nth_error ck k = Some (Some c) -> 0 <= c <= 1) ->
  List.length base = n /\ forall k, (k < n)%nat -> exists L, nth_error base k = Some (Some L) /\ 0 < L.
Proof.
  intros H Lt Lv Lc Wt Wv Wc Bt Bv Bc. destruct (longwave_inv _ _ _ _ _ _ H) as (emis & cloud & E & C & M). specialize (M eq_refl). subst base.
  split; [apply map3_length; auto|]. intros k K.
  destruct (whole_at temps k Wt ltac:(lia)) as [T Et]. destruct (whole_at vp k Wv ltac:(lia)) as [e Ev]. destruct (whole_at ck k Wc ltac:(lia)) as [c Ec].
  pose proof (Bt _ _ Et) as T0. pose proof (Bv _ _ Ev) as E0.
  assert (Kv : KELVIN = 273.15) by (unfold KELVIN; lra).
  destruct (emissivity_pos _ _ (T + KELVIN) (e * 10) E ltac:(lra) ltac:(lra)) as (eps & X & Pe). destruct (clouded_of _ _ eps c C) as (s & Y & Cl).
  exists (s * sigmaT4 T). split.
  - etransitivity; [exact (map3_nth _ _ _ _ _ _ _ _ Et Ev Ec)|]. f_equal. exact (longwave1_eq _ _ _ _ _ _ _ X Y).
  - apply Rmult_lt_0_compat; [|apply sigmaT4_pos; lra]. eapply clouded_pos; [exact Cl|exact Pe|]. intros D. eapply Bc; [exact D|exact Ec].
Qed.

Lemma longwave_whole temps vp ck prm daily lw days : legal_time_step (p_time_step prm) -> let n := (days * steps (p_time_step prm))%nat in
  longwave temps vp ck prm daily = Ok lw -> List.length temps = n -> List.length vp = n -> List.length ck = n ->
  whole temps -> whole vp -> whole ck ->
  (forall k T, nth_error temps k = Some (Some T) -> -273.15 < T) -> (forall k e, nth_error vp k = Some (Some e) -> 0 < e) ->
  (upper (p_lw_cloud prm) = "CLOUD_DEARDORFF" -> forall k c, nth_error ck k = Some (Some c) -> 0 <= c <= 1) ->
  (forall d, daily = Some d -> List.length d = days /\ whole d) -> whole lw.
Proof.
  intros Lg n H Lt Lv Lc Wt Wv Wc Bt Bv Bc Md.
  assert (B : exists base, longwave temps vp ck prm None = Ok base).
  { unfold longwave in *. destruct (emissivity_calc _); cbn [bind] in *; [|discriminate]. destruct (cloud_calc _); cbn [bind] in *; [|discriminate]. eauto. }
  destruct B as [base B]. destruct (sky_whole _ _ _ _ _ n B Lt Lv Lc Wt Wv Wc Bt Bv Bc) as [Lb Pb].
  assert (Wb : whole base) by (apply at_whole; intros k K; unfold fl in *; rewrite Lb in K; destruct (Pb k K) as (L & E & _); eauto).
  destruct daily as [d|]; [|rewrite B in H; apply Ok_inj in H; now subst lw].
  destruct (Md d eq_refl) as [Ld Wd]. destruct (longwave_supplied _ _ _ prm base d days Lg B Lb Ld) as (out & E & Lo & Q).
  assert (out = lw) by (apply Ok_inj; etransitivity; [symmetry; exact E|exact H]). subst out. destruct (steps_mul _ Lg) as (_ & Sp & _).
  apply (days_whole (steps (p_time_step prm)) days); [lia|lia|]. intros j J.
  destruct (whole_at d j Wd ltac:(lia)) as [v Ev].
  assert (Lj : List.length (day_part (steps (p_time_step prm)) j base) = steps (p_time_step prm)) by (now apply day_part_length with days).
  assert (Pj : exists r, day_part (steps (p_time_step prm)) j base = map Some r /\ r <> [] /\ forall x, In x r -> 0 < x).
  { assert (Wj : whole (day_part (steps (p_time_step prm)) j base)) by (intros x I; unfold day_part in I; apply firstn_In, skipn_In in I; now apply Wb).
    destruct (whole_reals _ Wj) as [r Er]. exists r. split; [exact Er|]. split; [intros ->; rewrite Er in Lj; cbn in Lj; lia|].
    intros x I. apply (in_map (@Some R)) in I. rewrite <- Er in I. unfold day_part in I. apply firstn_In, skipn_In in I.
    apply In_nth_error in I as [k K]. destruct (Pb k) as (L & E' & P'); [rewrite <- Lb; apply nth_error_Some; unfold fl in *; congruence|].
    unfold fl in *. rewrite K in E'. do 2 apply Some_inj in E'. now subst. }
  destruct Pj as (r & Er & Nr & Pr). assert (Sm : 0 < total r).
  { destruct r as [|x r]; [congruence|]. apply (total_pos _ x); [intros y Y; left; now apply Pr|now left|apply Pr; now left]. }
  assert (Ir : 0 < INR (List.length r)) by (apply lt_0_INR; destruct r; [congruence|cbn; lia]).
  destruct (Q j v (total r / INR (List.length r)) Ev) as [E' _].
  - rewrite Er, fmean_some by auto. reflexivity.
  - intros Z. apply Rgt_not_eq in Sm. apply Sm. replace (total r) with (total r / INR (List.length r) * INR (List.length r)) by (field; lra). rewrite Z. ring.
  - rewrite E', Er. intros x I. apply in_map_iff in I as (y & <- & I). apply in_map_iff in I as (z & <- & _). discriminate.
Qed.

(** ** a daily frame *)
Lemma constant_range x ts prm out lo hi : daily_constant (map Some x) ts prm = Ok out -> (forall y, In y x -> lo <= y <= hi) ->
  forall k c, nth_error out k = Some (Some c) -> lo <= c <= hi.
Proof.
  unfold daily_constant. cbv zeta. intros H B k c E. match type of H with context [np_repeat ?l ?m] => set (sd := np_repeat l m) in H end.
  destruct (reshape _ ts) as [r|] eqn:R; [|discriminate].
  cbn [bind] in H. apply Ok_inj in H. subst out. destruct (reshape_rows _ _ _ R) as [P Q].
  apply nth_error_In in E. apply in_map_iff in E as (row & Ef & I). destruct (Q row I) as [L S].
  destruct (fmean_bounds row lo hi) as (y & Y & By).
  - intros ->. cbn in L. lia.
  - intros v Iv. specialize (S v Iv).
    assert (Iu : In v sd) by (destruct (p_utc_offset prm); [eapply Permutation.Permutation_in; [apply np_roll_perm|exact S]|exact S]).
    unfold sd, np_repeat in Iu. apply in_flat_map in Iu as (w & Iw & J). apply repeat_spec in J. subst w. apply in_map_iff in Iw as (z & <- & Iz). eauto.
  - pose proof (eq_trans (eq_sym Ef) Y) as X. apply Some_inj in X. subst y. exact By.
Qed.

Theorem frame_whole df prm tiny tb te out v ck lo hi :
  good_options prm -> good_table (dl_doy df) tiny -> (p_time_step prm <= 360)%Z -> p_utc_offset prm = false \/ p_theta_s prm = 0 ->
  (2 <= List.length (dl_doy df))%nat -> disaggregate df prm tiny tb te = Ok out ->
  measured df "shortwave" -> measured df "daylength" -> rain_known df prm -> measured df "wind" -> measured df "longwave" ->
  numbers df "vapor_pressure" v -> (forall z, In z v -> lo <= z <= hi) -> 0 < lo ->
  numbers df "tskc" ck -> (upper (p_lw_cloud prm) = "CLOUD_DEARDORFF" -> forall c, In c ck -> 0 <= c <= 1) ->
  (forall k T, entry out "temp" k T -> -237.3 < T /\ 0 < 273.15 + T - 0.5 * p_elev prm * p_lapse_rate prm /\
     hi / 1000 < column_pressure T (p_elev prm) (p_lapse_rate prm)) ->
  all_whole out.
Proof.
  intros G Gt Sub U N H Ms Md [(pr & Np) Rk] Mw Ml Nv Bv Lo Nc Bc Bt. pose proof (go_ts _ G) as Lg.
  assert (Tp : forall k T, entry out "temp" k T -> -237.3 < T) by (intros k T E; apply (Bt k T E)).
  pose proof (vapor_range _ _ _ _ _ _ _ lo hi G Gt Nv Bv Lo H Tp) as Vr.
  destruct (vapor_defined _ _ _ _ _ _ _ G Gt Nv Sub U N H) as (vp & Ov & Lvp & Wv).
  destruct (step_columns _ _ _ _ _ _ H) as (temps & vp' & ck1 & ck0 & lw & S). cbv zeta in S.
  destruct S as (Wt & Lv & Lc & Ck & Tk & Lw & S1 & S2 & S3 & S4 & S5 & S6 & S7).
  assert (vp' = vp) by congruence. subst vp'. clear S2.
  assert (ck0 = map Some ck) by (destruct Nc as [Nc _]; unfold fl in *; congruence). subst ck0.
  assert (Wc : whole ck1) by (eapply constant_whole; [exact Tk|apply whole_some]).
  assert (At : forall k, (k < List.length temps)%nat -> exists T e c, nth_error temps k = Some (Some T) /\ nth_error vp k = Some (Some e) /\ nth_error ck1 k = Some (Some c) /\
    entry out "temp" k T /\ entry out "vapor_pressure" k e).
  { intros k K. destruct (whole_at temps k Wt K) as [T Et]. destruct (whole_at vp k Wv ltac:(lia)) as [e Ev]. destruct (whole_at ck1 k Wc ltac:(lia)) as [c Ec].
    exists T, e, c. do 3 (split; [assumption|]). split; eexists; split; eassumption. }
  assert (Lt : List.length temps = (List.length (dl_doy df) * steps (p_time_step prm))%nat) by (rewrite <- Lvp; symmetry; exact Lv).
  assert (Wl : whole lw).
  { apply (longwave_whole temps vp ck1 (da_prm prm) _ lw (List.length (dl_doy df)) Lg Lw Lt Lvp ltac:(etransitivity; [exact Lc|exact Lt]) Wt Wv Wc).
    - intros k T E. assert (-237.3 < T) by (apply (Tp k); eexists; split; eassumption). lra.
    - intros k e E. apply (Vr k). eexists. split; eassumption.
    - intros D k c E. exact (constant_range ck _ _ ck1 0 1 Tk (Bc D) k c E).
    - intros d E. exact (Ml d E). }
  apply disaggregate_inv in H. cbv zeta in H.
  destruct H as (tpd & sw0 & dayl & sw & tTmin & tTmax & tmn & tmx & tminR & tmaxR & tmp & vpd & vp0 & ckx & cky & lwx & P & prx & Ts & (C1 & C2 & Sw) & _ & _ & _ & _ & _ & (C3 & Pr) & (Ls & _) & O).
  rewrite ts_per_day_steps in Ts by apply Lg. apply Ok_inj in Ts. subst tpd.
  apply col_get in C1, C2, C3. rewrite get_da_df in C1, C3, Pr by discriminate. rewrite get_da_df in Pr by discriminate.
  destruct (Ms sw0 C1) as [L1 W1].
  assert (Wd : List.length dayl = List.length (dl_doy df) /\ whole dayl).
  { unfold da_df in C2. destruct (_ && _)%bool; [|now apply Md]. rewrite get_set_col in C2. cbn [String.eqb Ascii.eqb Bool.eqb] in C2. apply Some_inj in C2. subst dayl.
    split; [apply repeat_length|]. intros x I. apply repeat_spec in I. subst x. discriminate. }
  destruct Wd as [L2 W2].
  assert (Wsw : whole sw).
  { refine (shortwave_whole sw0 dayl _ tiny (da_prm prm) sw Lg _ _ (gt_full _ _ Gt) (gt_days _ _ Gt) W1 W2 Sw); [etransitivity; [exact L1|now symmetry]|now symmetry]. }
  assert (Wp : whole prx).
  { destruct Np as [Np Lp]. assert (P = map Some pr) by (unfold fl in *; congruence). subst P.
    refine (prec_whole (map Some pr) tmn _ (da_prm prm) _ _ prx (List.length (dl_doy df)) Lp Lg _ (whole_some _) Pr).
    intros I. destruct (Rk I) as (pk & dur & [E1 Lk] & [E2 Ld] & C). exists pk, dur. rewrite map_length in *. auto. }
  assert (Wr : whole (map2 relative_humidity1 vp temps)).
  { apply at_whole. intros k K. rewrite ShortwaveProofs.map2_length in K by exact Lv. destruct (At k ltac:(unfold fl in *; lia)) as (T & e & c & Et & Ev & _ & It & _).
    eexists. etransitivity; [exact (map2_nth _ _ _ _ _ _ Ev Et)|]. f_equal. apply rh_value. now apply (Tp k). }
  set (ap := map (fun t => pressure1 t (Some (p_elev prm)) (Some (p_lapse_rate prm))) temps) in *.
  assert (Ap : forall k T, entry out "temp" k T -> nth_error temps k = Some (Some T) -> nth_error ap k = Some (Some (column_pressure T (p_elev prm) (p_lapse_rate prm)))).
  { intros k T It Et. unfold ap. rewrite nth_error_map. unfold fl in *. rewrite Et. cbn [option_map]. f_equal. etransitivity; [exact (pressure_eq T _ _ (proj1 (proj2 (Bt k T It))))|reflexivity]. }
  assert (Lap : List.length ap = List.length temps) by apply map_length.
  assert (Wa : whole ap).
  { apply at_whole. intros k K. destruct (At k ltac:(unfold fl in *; lia)) as (T & e & c & Et & _ & _ & It & _). eexists. exact (Ap k T It Et). }
  assert (Wq : whole (map2 specific_humidity1 vp ap)).
  { apply at_whole. intros k K. rewrite ShortwaveProofs.map2_length in K by (unfold fl in *; lia). destruct (At k ltac:(unfold fl in *; lia)) as (T & e & c & Et & Ev & _ & It & Ie).
    eexists. etransitivity; [exact (map2_nth _ _ _ _ _ _ Ev (Ap k T It Et))|]. f_equal. apply sh_eq. pose proof (Vr k e Ie). pose proof (Bt k T It). lra. }
  intros name col Get.
  assert (Hit : forall w, dict_get out name = Some w -> whole w -> whole col) by (intros w E Ww; assert (w = col) by congruence; now subst w).
  destruct (String.eqb_spec name "temp") as [->|N1]; [exact (Hit _ S1 Wt)|]. destruct (String.eqb_spec name "vapor_pressure") as [->|N2]; [exact (Hit _ Ov Wv)|].
  destruct (String.eqb_spec name "rel_humid") as [->|N3]; [exact (Hit _ S3 (fill_whole _ Wr))|]. destruct (String.eqb_spec name "air_pressure") as [->|N4]; [exact (Hit _ S4 (fill_whole _ Wa))|].
  destruct (String.eqb_spec name "spec_humid") as [->|N5]; [exact (Hit _ S5 (fill_whole _ Wq))|]. destruct (String.eqb_spec name "tskc") as [->|N6]; [exact (Hit _ S6 (fill_whole _ Wc))|].
  destruct (String.eqb_spec name "longwave") as [->|N7]; [exact (Hit _ S7 (fill_whole _ Wl))|]. clear Hit S1 S3 S4 S5 S6 S7 Ov.
  apply String.eqb_neq in N1, N2, N3, N4, N5, N6, N7.
  rewrite get_da_df in O by discriminate. destruct (dict_get (dl_cols df) "wind") as [w0|] eqn:Wn; [destruct O as (w & Cw & _ & ->)|subst out];
    rewrite dict_get_map in Get; cbn [app dict_get] in Get; rewrite N1, N2, N3, N4, N5, N6, N7 in Get;
    (destruct (name =? "shortwave"); [cbn [option_map] in Get; apply Some_inj in Get; subst col; now apply fill_whole|]);
    (destruct (name =? "prec"); [cbn [option_map] in Get; apply Some_inj in Get; subst col; now apply fill_whole|]).
  - destruct (name =? "wind"); [|discriminate]. cbn [option_map] in Get. apply Some_inj in Get. subst col. apply fill_whole.
    eapply constant_whole; [exact Cw|apply (Mw w0 Wn)].
  - discriminate.
Qed.

(** ** mtclim *)
Lemma saturation_top t : -125 <= t <= 59 -> 0 < svp_R t <= 21072.
Proof.
  intros H. split; [apply svp_R_pos|]. apply Rle_trans with (svp_R 59).
  - destruct (Req_dec t 59) as [->|N]; [apply Rle_refl|]. left. apply svp_R_incr; lra.
  - unfold svp_R. destruct (Rlt_dec 59 0); [lra|]. pose proof (svp_E_high 59 ltac:(lra)). pose proof (svp_E_pos 59). lra.
Qed.

Lemma least (l : list R) : (forall x, In x l -> 0 < x) -> exists lo, 0 < lo /\ forall x, In x l -> lo <= x.
Proof.
  induction l as [|y l IH]; intros H; [exists 1; split; [lra|intros x []]|].
  destruct IH as (lo & P & Q); [intros x I; apply H; now right|]. exists (Rmin y lo). split.
  - apply Rmin_glb_lt; [apply H; now left|exact P].
  - intros x [<-|I]; [apply Rmin_l|]. apply Rle_trans with lo; [apply Rmin_r|now apply Q].
Qed.

Lemma numbers_of df name v n : dict_get (dl_cols df) name = Some v -> List.length (dl_doy df) = n -> List.length v = n -> whole v -> exists r, numbers df name r /\ v = map Some r.
Proof. intros E L Lv W. destruct (whole_reals v W) as [r ->]. exists r. split; [split; [exact E|congruence]|reflexivity]. Qed.

Lemma mtclim_columns fuel prm df n df' pr : physical prm df n -> numbers df "prec" pr -> mtclim_run fuel df prm = Some (Ok df') ->
  exists v ck, dl_doy df' = dl_doy df /\
    (forall j, ~ In j ["t_day"; "tfmax"; "tskc"; "tdew"; "vapor_pressure"; "shortwave"; "pet"] -> dict_get (dl_cols df') j = dict_get (dl_cols df) j) /\
    numbers df' "vapor_pressure" v /\ (forall z, In z v -> 0 < z <= 21072) /\
    numbers df' "tskc" ck /\ (upper (p_lw_cloud prm) = "CLOUD_DEARDORFF" -> forall c, In c ck -> 0 <= c <= 1) /\
    measured df' "shortwave" /\ measured df' "daylength".
Proof.
  intros (PP & Ln & _ & tn & tx & dtr & sm & tt & pot & dl & sp & [H1 L1] & [H2 L2] & [H3 L3] & [H4 L4] & [H6 L6] & [H7 L7] & [H8 L8] & [H9 L9] & Ph) [Pr Lp] R.
  rewrite (mtclim_eq fuel df prm _ _ _ _ _ _ _ _ _ H1 H2 H3 H4 Pr H6 H7 H8 H9) in R. cbv zeta in R.
  rewrite map_length in *. rewrite Ln in *.
  set (days := dew_days prm (map Some tn) (map Some tx) (map Some dtr) (map Some sm) (map Some pr) (map Some tt) (map Some pot) (map Some dl) (map Some sp)) in *.
  destruct (tdew_loop _ _ _ _ _) as [td|] eqn:Lo; [|discriminate]. apply Some_inj in R. apply Ok_inj in R.
  destruct (loop_inv prm days (map Some tn) fuel 0 td Lo) as (k & _ & Td & _).
  destruct (mk_days_tame prm PP tn tx dtr sm (map Some pr) tt pot dl sp n L1 L2 L3 L4 ltac:(now rewrite map_length) L6 L7 L8 L9 Ph) as (fs & Lf & Fs). fold days in Fs.
  assert (Ins : Forall inside tn).
  { apply Forall_forall. intros t It. destruct (In_nth tn t 0 It) as (d & D & <-). rewrite L1 in D. pose proof (ph_tmin _ _ _ _ _ _ _ _ (Ph d D)). unfold inside. lra. }
  destruct (iterate_reals prm days fs tn (S k) Fs Ins) as [E F]. rewrite E in Td. set (te := Nat.iter (S k) (apply_all fs) tn) in *.
  assert (Le : List.length te = n) by (unfold te; rewrite iter_length; congruence). subst td. clear E.
  assert (Tf : forall d, (d < n)%nat -> exists t, nth_error (map3 (tfmax1 prm) (map Some dtr) (map Some sm) (map Some pr)) d = Some (Some t) /\ 0 <= t < 1).
  { intros d D. destruct (tfmax_spec prm (nth d dtr 0) (nth d sm 0) (nth d pr 0) ltac:(apply (ph_dtr _ _ _ _ _ _ _ _ (Ph d D))) (pp_rain _ PP)) as (dry & t & _ & Et & Bt & _).
    exists t. split; [|exact Bt]. rewrite <- Et. apply map3_nth; rewrite nth_error_map, (nth_error_nth' _ 0) by lia; reflexivity. }
  set (tf := map3 (tfmax1 prm) (map Some dtr) (map Some sm) (map Some pr)) in *.
  assert (Ltf : List.length tf = n) by (apply map3_length; rewrite map_length; assumption).
  assert (Doy : dl_doy df' = dl_doy df) by (subst df'; reflexivity).
  assert (Vp : map mt_vapor_pressure1 (map Some te) = map Some (map svp_R te)).
  { rewrite !map_map. apply map_ext_in. intros t It. unfold mt_vapor_pressure1. apply svp1_some. pose proof (proj1 (Forall_forall _ _) F t It) as B. unfold inside in B. lra. }
  assert (Wk : whole (map (mt_tskc1 prm) tf)).
  { apply at_whole. intros d D. rewrite map_length, Ltf in D. destruct (Tf d D) as (t & Et & Bt). unfold fl in *. rewrite nth_error_map, Et. cbn [option_map].
    destruct (string_dec (upper (p_lw_cloud prm)) "CLOUD_DEARDORFF") as [Q|Q].
    - destruct (tskc_deardorff prm t Q ltac:(lra)) as (c & -> & _). eauto.
    - destruct (tskc_default prm t Q ltac:(lra)) as (c & -> & _). eauto. }
  destruct (whole_reals _ Wk) as [ck Ek].
  assert (Lck : List.length ck = n) by (pose proof (f_equal (@List.length fl) Ek) as Q; rewrite !map_length in Q; lia).
  exists (map svp_R te), ck. split; [exact Doy|]. split.
  { intros j N. subst df'. unfold dew_out, dew_frame. cbv zeta. rewrite !get_set_col.
    destruct (String.eqb_spec j "pet") as [->|_]; [exfalso; apply N; mem|]. destruct (String.eqb_spec j "shortwave") as [->|_]; [exfalso; apply N; mem|].
    destruct (String.eqb_spec j "vapor_pressure") as [->|_]; [exfalso; apply N; mem|]. destruct (String.eqb_spec j "tdew") as [->|_]; [exfalso; apply N; mem|].
    destruct (String.eqb_spec j "tskc") as [->|_]; [exfalso; apply N; mem|]. destruct (String.eqb_spec j "tfmax") as [->|_]; [exfalso; apply N; mem|].
    destruct (String.eqb_spec j "t_day") as [->|_]; [exfalso; apply N; mem|]. reflexivity. }
  split.
  { split; [|rewrite Doy, !map_length; lia]. subst df'. unfold dew_out. cbv zeta. rewrite !get_set_col. cbn [String.eqb Ascii.eqb Bool.eqb]. f_equal. exact Vp. }
  split.
  { intros z I. apply in_map_iff in I as (t & <- & I). apply saturation_top. exact (proj1 (Forall_forall _ _) F t I). }
  split.
  { split; [|rewrite Doy, map_length; lia]. subst df'. unfold dew_out, dew_frame. cbv zeta. rewrite !get_set_col. cbn [String.eqb Ascii.eqb Bool.eqb]. f_equal. exact Ek. }
  split.
  { intros Q c I. destruct (In_nth_error _ _ I) as [d Ed]. assert (D : (d < n)%nat) by (rewrite <- Lck; apply nth_error_Some; congruence).
    destruct (Tf d D) as (t & Et & Bt). destruct (tskc_deardorff prm t Q ltac:(lra)) as (c' & Ec & Bc).
    assert (X : nth_error (map Some ck) d = Some (Some c')).
    { rewrite <- Ek. unfold fl in *. rewrite nth_error_map, Et. cbn [option_map]. f_equal. exact Ec. }
    rewrite nth_error_map, Ed in X. cbn [option_map] in X. do 2 apply Some_inj in X. now subst c'. }
  split.
  - intros v Ev. subst df'. unfold dew_out in Ev. cbv zeta in Ev. rewrite !get_set_col in Ev. cbn [String.eqb Ascii.eqb Bool.eqb] in Ev. apply Some_inj in Ev.
    rewrite Doy, Ln. rewrite Vp in Ev.
    assert (Lm : List.length (map3 mt_shortwave1 tf (map Some (map svp_R te)) (map Some tt)) = n) by (apply map3_length; rewrite ?map_length; assumption).
    split; [subst v; etransitivity; [apply ShortwaveProofs.map2_length; rewrite map_length; lia|exact Lm]|]. subst v. apply at_whole. intros d D.
    assert (D' : (d < n)%nat) by (eapply Nat.lt_le_trans; [exact D|]; rewrite ShortwaveProofs.map2_length by (rewrite map_length; lia); lia).
    destruct (Tf d D') as (t & Et & Bt). eexists. etransitivity.
    { eapply map2_nth; [eapply map3_nth; [exact Et| |]|]; rewrite ?nth_error_map, (nth_error_nth' _ 0) by lia; reflexivity. }
    cbn. reflexivity.
  - intros v Ev. assert (Q : dict_get (dl_cols df') "daylength" = Some (map Some dl)).
    { subst df'. unfold dew_out, dew_frame. cbv zeta. rewrite !get_set_col. exact H8. }
    rewrite Q in Ev. apply Some_inj in Ev. subst v. rewrite Doy, map_length. split; [lia|apply whole_some].
Qed.

(** ** pressure *)
Lemma exp_low : 0.22 <= exp (Ropp 1.44).
Proof.
  assert (A : 0.91 <= exp (Ropp 0.09)) by (pose proof (exp_ineq1_le (Ropp 0.09)); lra).
  replace (Ropp 1.44) with (16 * Ropp 0.09) by lra.
  assert (P : forall n x, exp (INR n * x) = exp x ^ n).
  { induction n as [|n IH]; intros x; [cbn [INR pow]; rewrite Rmult_0_l; apply exp_0|]. rewrite S_INR. replace ((INR n + 1) * x) with (x + INR n * x) by ring. rewrite exp_plus, IH. reflexivity. }
  replace 16 with (INR 16) by (rewrite INR_IZR_INZ; reflexivity). rewrite P.
  apply Rle_trans with (0.91 ^ 16); [lra|]. apply pow_incr. lra.
Qed.
Lemma pressure_low T z lr : -100 <= T -> -500 <= z <= 6000 -> 0 < lr <= 0.01 ->
  0 < 273.15 + T - 0.5 * z * lr /\ 21072 / 1000 < column_pressure T z lr.
Proof.
  intros Ht Hz Hl. assert (D : 143.15 <= 273.15 + T - 0.5 * z * lr).
  { destruct (Rle_lt_dec 0 z); [assert (z * lr <= 6000 * 0.01) by (apply Rmult_le_compat; lra); lra|]. assert (0 <= - z * lr) by (apply Rmult_le_pos; lra). lra. }
  split; [lra|]. unfold column_pressure. set (q := 273.15 + T - 0.5 * z * lr) in *.
  assert (E : -1.44 <= - (z * 9.80665) / (287 * q)).
  { apply Rmult_le_reg_r with (287 * q); [lra|]. replace (- (z * 9.80665) / (287 * q) * (287 * q)) with (- (z * 9.80665)) by (field; lra). nra. }
  assert (X : exp (Ropp 1.44) <= exp (- (z * 9.80665) / (287 * q))).
  { destruct (Req_dec (- (z * 9.80665) / (287 * q)) (Ropp 1.44)) as [->|N]; [apply Rle_refl|]. left. apply exp_increasing. lra. }
  pose proof exp_low. lra.
Qed.

(** ** the whole cell *)
Lemma clock_shift prm c : p_utc_offset prm = false \/ (p_theta_s prm = 0 /\ 2 / 3 <= p_tmax_frac prm /\ remainder360 (cd_lon c) < 180) ->
  p_utc_offset prm = false \/ (2 / 3 <= p_tmax_frac prm /\ (-720 <= utc_temp_minutes (set_lon prm (remainder360 (cd_lon c))) <= 719)%Z).
Proof.
  intros [U|(Th & Fr & Lo)]; [now left|right]. split; [exact Fr|]. rewrite temp_shift_same by exact Th.
  change (p_lon (set_lon prm (remainder360 (cd_lon c)))) with (remainder360 (cd_lon c)).
  destruct (remainder_range (cd_lon c)) as [B _]. unfold utc_minutes. rewrite minutes_arg. set (L := remainder360 (cd_lon c)) in *.
  destruct (Rtrunc_spec (4 * L)) as [P1 P2]. split.
  - apply le_IZR. destruct (Rle_lt_dec 0 L); [specialize (P1 ltac:(lra))|specialize (P2 ltac:(lra))]; lra.
  - assert (IZR (Rtrunc (4 * L)) < 720); [destruct (Rle_lt_dec 0 L); [specialize (P1 ltac:(lra))|specialize (P2 ltac:(lra))]; lra|]. apply lt_IZR in H. lia.
Qed.

Lemma complete_frame fuel prm c out prm' : complete_cell prm c -> run_cell fuel prm c = Some (Ok out, prm') ->
  exists df tiny tb v ck lo, disaggregate df (located prm c) tiny tb None = Ok out /\ good_table (dl_doy df) tiny /\ dl_doy df = dl_doy (cd_daily c) /\
    (forall j, In j ["prec"; "t_pk"; "dur"; "wind"; "longwave"] -> dict_get (dl_cols df) j = dict_get (dl_cols (cd_daily c)) j) /\
    numbers df "vapor_pressure" v /\ (forall z, In z v -> lo <= z <= 21072) /\ 0 < lo /\
    numbers df "tskc" ck /\ (upper (p_lw_cloud prm) = "CLOUD_DEARDORFF" -> forall c, In c ck -> 0 <= c <= 1) /\
    measured df "shortwave" /\ measured df "daylength" /\ good_options (located prm c) /\ forall k T, entry out "temp" k T -> -100 <= T.
Proof.
  intros [Me Go Sub Ck Fo N Mi Rk Mw Ml Hl He La Rs Co (a & b & Sa & Sb & Ba & Bb)] H.
  assert (Lt : (p_time_step prm < 1440)%Z) by lia.
  assert (PP : physical_place (located prm c)).
  { constructor; [exact Rs|exact Co| |].
    - change (p_lapse_rate (located prm c)) with (p_lapse_rate prm). lra.
    - change (p_lapse_rate (located prm c)) with (p_lapse_rate prm). change (p_elev (located prm c)) with (cd_elev c). unfold T_STD.
      destruct (Rle_lt_dec 0 (cd_elev c)); [assert (p_lapse_rate prm * cd_elev c <= 0.01 * 6000) by (apply Rmult_le_compat; lra); lra|].
      assert (0 <= p_lapse_rate prm * - cd_elev c) by (apply Rmult_le_pos; lra). lra. }
  assert (Go' : good_options (located prm c)) by (destruct Go; constructor; assumption).
  pose proof Mi as (tn & tx & dtr & sm & sp & Ntn & Ntx & _ & _ & _ & Md).
  assert (Tr : forall k T, entry out "temp" k T -> -100 <= T).
  { destruct (cell_temperature fuel prm c out prm' tn tx (go_ts _ Go) Lt Hl (fc_valid _ _ Fo) (fc_days _ _ Fo) (go_frac _ Go) (clock_shift prm c Ck) Ntn Ntx H)
      as (s1 & s2 & ta & tb & temps & E1 & E2 & La' & _ & _ & Ot & _ & Sur).
    apply last_value_last in Sa, Sb. assert (Some s1 = Some a) by (unfold fl in *; congruence). assert (Some s2 = Some b) by (unfold fl in *; congruence).
    apply Some_inj in H0, H1. subst s1 s2. destruct Ntn as [_ Ln], Ntx as [_ Lx]. rewrite map_length in Ln, Lx.
    assert (Rg : forall x, In x (tn ++ tx) -> -100 <= x <= 60).
    { intros x I. apply in_app_or in I as [I|I]; destruct (In_nth _ _ 0 I) as (d & D & <-); destruct (Md d ltac:(lia)) as [M1 M2 _]; lra. }
    intros k T (w & Ow & Ew). assert (w = map Some temps) by congruence. subst w. rewrite nth_error_map in Ew.
    destruct (nth_error temps k) as [z|] eqn:Ez; [|discriminate Ew]. cbn [option_map] in Ew. do 2 apply Some_inj in Ew. subst z.
    apply (surrounded_range ta tb tn tx (a, b) (last tn 0, last tx 0) (IZR (p_time_step prm) * INR k) T (-100) 60); try lia; [|now apply Sur].
    intros x [<-|[<-|[<-|[<-|I]]]]; cbn [fst snd]; auto.
    - rewrite last_is_nth by (intros ->; cbn in Ln; lia). apply Rg, in_or_app. left. apply nth_In. destruct tn; cbn in *; lia.
    - rewrite last_is_nth by (intros ->; cbn in Lx; lia). apply Rg, in_or_app. right. apply nth_In. destruct tx; cbn in *; lia. }
  destruct (run_cell_inv _ _ _ _ _ H) as (g & dl & po & tt_ & df & G & D & P & T & M & Su & _).
  destruct (Su Lt) as (a' & b' & _ & _ & X). clear Su.
  destruct (cell_physical prm c g Fo PP Mi Hl G) as (dl' & po' & tt' & D' & P' & T' & Ph).
  assert (dl' = dl) by (apply Ok_inj; congruence). assert (po' = po) by (apply Ok_inj; congruence). assert (tt' = tt_) by (apply Ok_inj; congruence). subst dl' po' tt'.
  rewrite (method_is prm c Me) in M.
  destruct Rk as [(pr & Np) Rk].
  destruct (mtclim_columns fuel _ _ _ df pr Ph ltac:(apply numbers_sun; discriminate || exact Np) M) as (v & ck & Doy & Keep & Nv & Bv & Nc & Bc & Ms & Mdl).
  change (dl_doy (with_sun (cd_daily c) dl po tt_)) with (dl_doy (cd_daily c)) in Doy.
  assert (K : forall j, In j ["prec"; "t_pk"; "dur"; "wind"; "longwave"] -> dict_get (dl_cols df) j = dict_get (dl_cols (cd_daily c)) j).
  { intros j I. rewrite Keep.
    - rewrite sun_get. repeat (destruct I as [<-|I]; [reflexivity|]). destruct I.
    - intros Q. cbn [In] in Q. repeat (destruct I as [<-|I]; [repeat (destruct Q as [Q|Q]; [discriminate Q|]); exact Q|]). destruct I. }
  destruct (geom_rows _ _ _ _ Hl G) as (Lg & Full & Us).
  assert (Gt : good_table (dl_doy df) (tiny_rad_fract g)) by (constructor; auto; rewrite Doy; apply days_in_table; [exact (fc_valid _ _ Fo)|exact Lg]).
  assert (Lv : exists lo, 0 < lo /\ forall z, In z v -> lo <= z) by (apply least; intros z I; apply (Bv z I)).
  destruct Lv as (lo & Lp & Lq).
  exists df, (tiny_rad_fract g), (Some [a'; b']), v, ck, lo. split; [exact X|]. split; [exact Gt|]. split; [exact Doy|]. split; [exact K|]. split; [exact Nv|].
  split; [intros z I; split; [now apply Lq|apply (Bv z I)]|]. split; [exact Lp|]. split; [exact Nc|]. split; [exact Bc|]. split; [exact Ms|]. split; [exact Mdl|]. split; [exact Go'|exact Tr].
Qed.

Theorem cell_whole fuel prm c out prm' : complete_cell prm c -> run_cell fuel prm c = Some (Ok out, prm') ->
  all_whole out /\ map fst out = sub_daily_names (match dict_get (dl_cols (cd_daily c)) "wind" with Some _ => true | None => false end) /\
  forall name v, In (name, v) out -> List.length v = (List.length (dl_doy (cd_daily c)) * steps (p_time_step prm))%nat.
Proof.
  intros C H. destruct (complete_frame _ _ _ _ _ C H) as (df & tiny & tb & v & ck & lo & X & Gt & Doy & K & Nv & Bv & Lp & Nc & Bc & Ms & Mdl & Go' & Tr).
  destruct C as [Me Go Sub Ck Fo N Mi [(pr & Np) Rk] Mw Ml Hl He La Rs Co _].
  assert (Kn : forall j w, In j ["prec"; "t_pk"; "dur"; "wind"; "longwave"] -> numbers (cd_daily c) j w -> numbers df j w).
  { intros j w I [Q L]. split; [now rewrite K|now rewrite Doy]. }
  split.
  - refine (frame_whole df (located prm c) tiny _ _ out v ck lo 21072 Go' Gt Sub _ _ X Ms Mdl _ _ _ Nv _ Lp Nc Bc _).
    + destruct Ck as [U|(Th & _)]; [left; exact U|right; exact Th].
    + now rewrite Doy.
    + split; [exists pr; apply Kn; [mem|exact Np]|]. intros I. destruct (Rk I) as (pk & dur & A1 & A2 & A3). exists pk, dur.
      split; [apply Kn; [mem|exact A1]|]. split; [apply Kn; [mem|exact A2]|]. now rewrite Doy.
    + intros w E. rewrite K in E by mem. rewrite Doy. now apply Mw.
    + intros w E. rewrite K in E by mem. rewrite Doy. now apply Ml.
    + exact Bv.
    + intros k Te E. pose proof (Tr k Te E) as B. destruct (pressure_low Te (cd_elev c) (p_lapse_rate prm) B He La) as [Q1 Q2].
      split; [lra|]. split; [exact Q1|exact Q2].
  - destruct (disaggregate_shape df (located prm c) _ _ _ out X (go_ts _ Go)) as [S1 S2]. rewrite K in S1 by mem. rewrite Doy in S2. split; [exact S1|exact S2].
Qed.

Theorem cell_sky fuel prm c out prm' k : complete_cell prm c -> dict_get (dl_cols (cd_daily c)) "longwave" = None -> run_cell fuel prm c = Some (Ok out, prm') ->
  (k < List.length (dl_doy (cd_daily c)) * steps (p_time_step prm))%nat ->
  exists T e s L, entry out "temp" k T /\ entry out "vapor_pressure" k e /\ entry out "tskc" k s /\ entry out "longwave" k L /\ sky_longwave prm T e s L.
Proof.
  intros C Nl H Hk. destruct (cell_whole _ _ _ _ _ C H) as (W & Nm & Ln).
  destruct (complete_frame _ _ _ _ _ C H) as (df & tiny & tb & v & ck & lo & X & Gt & Doy & K & Nv & Bv & Lp & Nc & Bc & Ms & Mdl & Go' & Tr).
  assert (At : forall name, In name (sub_daily_names false) -> exists x, entry out name k x).
  { intros name I. assert (J : In name (keys out)) by (unfold keys; rewrite Nm; unfold sub_daily_names in *; apply in_or_app; left; now rewrite app_nil_r in I).
    destruct (dict_get_Some_key _ _ J) as [w Ew]. destruct (whole_at w k (W _ _ Ew)) as [x E].
    - rewrite (Ln name w); [exact Hk|]. now apply dict_get_In.
    - exists x, w. split; [exact Ew|exact E]. }
  destruct (At "temp" ltac:(mem)) as [T ET]. destruct (At "vapor_pressure" ltac:(mem)) as [e Ee]. destruct (At "tskc" ltac:(mem)) as [s Es].
  pose proof (Tr k T ET) as T0.
  assert (E0 : 0 < e) by (apply (vapor_range df (located prm c) tiny tb None out v lo 21072 Go' Gt Nv Bv Lp X ltac:(intros k' T' E'; pose proof (Tr k' T' E'); lra) k e Ee)).
  destruct (step_longwave df (located prm c) tiny tb None out ck k T e s X Nc ltac:(rewrite K by mem; exact Nl) ET Ee Es ltac:(lra) E0) as (L & EL & Sk).
  exists T, e, s, L. do 4 (split; [assumption|]). exact Sk.
Qed.

Theorem cell_complete prm c g : complete_cell prm c -> solar_geom (cd_elev c) (cd_lat c) (p_lapse_rate prm) = Ok g -> 0 < p_tdew_tol prm ->
  exists M, forall fuel, (fuel >= M)%nat -> exists out prm', run_cell fuel prm c = Some (Ok out, prm') /\ all_whole out.
Proof.
  intros C G Tol. pose proof C as [Me Go Sub Ck Fo N Mi Rk Mw Ml Hl He La Rs Co (a & b & Sa & Sb & Ba & Bb)].
  assert (PP : physical_place (located prm c)).
  { constructor; [exact Rs|exact Co| |].
    - change (p_lapse_rate (located prm c)) with (p_lapse_rate prm). lra.
    - change (p_lapse_rate (located prm c)) with (p_lapse_rate prm). change (p_elev (located prm c)) with (cd_elev c). unfold T_STD.
      destruct (Rle_lt_dec 0 (cd_elev c)); [assert (p_lapse_rate prm * cd_elev c <= 0.01 * 6000) by (apply Rmult_le_compat; lra); lra|].
      assert (0 <= p_lapse_rate prm * - cd_elev c) by (apply Rmult_le_pos; lra). lra. }
  destruct (mtclim_cell_total prm c g a b Me Go Fo PP Mi Hl G Sa Sb Tol) as [M H]. exists M. intros fuel F. destruct (H fuel F) as (out & prm' & E).
  exists out, prm'. split; [exact E|]. apply (cell_whole fuel prm c out prm' C E).
Qed.

(** ** the cell at the equator *)
Theorem equator_complete ts : legal_time_step ts -> (ts <= 360)%Z -> complete_cell (demo_method "mtclim" ts) equator_cell.
Proof.
  intros L Sub. constructor.
  - reflexivity.
  - apply demo_options, L.
  - exact Sub.
  - left. reflexivity.
  - apply equator_forcing.
  - cbn. lia.
  - exact equator_mild.
  - split; [exists [0; 5]; split; reflexivity|]. intros I. cbn in I. destruct I as [I|[I|[]]]; discriminate I.
  - intros v E. discriminate E.
  - intros v E. discriminate E.
  - cbn. lra.
  - cbn. lra.
  - cbn. lra.
  - cbn. lra.
  - cbn. lra.
  - exists 9, 22. split; [reflexivity|]. split; [reflexivity|]. lra.
Qed.

(** a run with a known value of every column at every step *)
Theorem equator_whole : exists fuel out prm', run_cell fuel (demo_method "mtclim" 60) equator_cell = Some (Ok out, prm') /\
  forall name k, In name (sub_daily_names false) -> (k < 48)%nat -> exists x, entry out name k x.
Proof.
  pose proof (equator_complete 60 legal_60 ltac:(lia)) as C. destruct (equator_mtclim 60 legal_60) as [M H].
  destruct (H M (le_n M)) as (out & prm' & E). exists M, out, prm'. split; [exact E|].
  destruct (cell_whole _ _ _ _ _ C E) as (W & Nm & Ln). intros name k I K.
  destruct (dict_get_Some_key out name) as [v Ev]; [unfold keys; rewrite Nm; exact I|]. destruct (whole_at v k (W _ _ Ev)) as [x X].
  - rewrite (Ln name v); [exact K|]. now apply dict_get_In.
  - exists x, v. split; [exact Ev|exact X].
Qed.
