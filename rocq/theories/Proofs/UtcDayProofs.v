(** C106: the means of UTC days. *)
From Coq Require Import ZArith Reals String List Bool Arith Lia Lra.
From Verif Require Import Model.Py Model.Fl Model.Np Model.Constants Model.Physics Model.Params Model.Disagg Model.Cell
  Spec.TimeSpec Spec.SeriesSpec Spec.ShortSpec Spec.SolarSpec Spec.TempSpec Spec.FrameSpec Spec.CellSpec Spec.UtcDaySpec
  Proofs.Base Proofs.RBase Proofs.StateProofs Proofs.ArrayProofs Proofs.PrecProofs Proofs.LongwaveProofs Proofs.SolarProofs Proofs.SolarTables
  Proofs.ShortwaveProofs Proofs.UtcProofs Proofs.PrecExamples Proofs.TempProofs Proofs.FrameProofs Proofs.DisaggProofs Proofs.CellProofs Proofs.CellTotal Proofs.SolarExamples.
Import ListNotations.
Local Open Scope list_scope.
Local Open Scope R_scope.

(** ** the shift *)
Lemma remainder_is lon n : -180 < lon - 360 * IZR n < 180 -> remainder360 lon = lon - 360 * IZR n.
Proof.
  intros H. destruct (shift_amounts lon) as [[B [k E]] _]. cbv zeta in *. rewrite E in *.
  assert (Q : (n = k)%Z); [|now subst].
  assert (A : -360 < 360 * IZR (k - n) < 360) by (rewrite minus_IZR; lra).
  assert (-1 < IZR (k - n) < 1) by lra. assert (-1 < k - n < 1)%Z by (split; apply lt_IZR; lra). lia.
Qed.
Lemma ahead_steps lon m : ahead lon m -> utc_rad_steps (remainder360 lon) = Z.of_nat m /\ (m <= RAD_STEPS)%nat.
Proof.
  intros (n & H & M). rewrite (remainder_is lon n) by lra. unfold utc_rad_steps. rewrite rad_arg. split.
  - apply Rtrunc_pos; [lra|]. rewrite <- INR_IZR_INZ. exact M.
  - apply INR_le. rewrite (INR_IZR_INZ RAD_STEPS). change (Z.of_nat RAD_STEPS) with 2880%Z. lra.
Qed.
Lemma behind_steps lon m : behind lon m -> utc_rad_steps (remainder360 lon) = (- Z.of_nat m)%Z /\ (m <= RAD_STEPS)%nat.
Proof.
  intros (n & H & M). rewrite (remainder_is lon n) by lra. unfold utc_rad_steps. rewrite rad_arg. split.
  - destruct (Req_dec (lon - 360 * IZR n) 0) as [E|E].
    + rewrite E. replace (8 * 0) with 0 by ring. assert (m = 0)%nat; [|subst; apply (Rtrunc_IZR 0)].
      assert (INR m <= 0) by lra. destruct m as [|m]; auto. rewrite S_INR in *. pose proof (pos_INR m). lra.
    + apply Rtrunc_neg; [lra|]. rewrite <- INR_IZR_INZ. lra.
  - apply INR_le. rewrite (INR_IZR_INZ RAD_STEPS). change (Z.of_nat RAD_STEPS) with 2880%Z. lra.
Qed.

(** ** a day of a rolled series *)
Lemma part_len {A} w n d (l : list A) : List.length l = (n * w)%nat -> (d < n)%nat -> List.length (day_part w d l) = w.
Proof. intros. now apply (day_part_length w d n). Qed.
Lemma next_lt n d : (d < n)%nat -> (next_of n d < n)%nat. Proof. intros. apply Nat.mod_upper_bound. lia. Qed.
Lemma prev_lt n d : (d < n)%nat -> (prev_of n d < n)%nat. Proof. intros. apply Nat.mod_upper_bound. lia. Qed.
Lemma next_cases n d : (d < n)%nat -> (next_of n d = d + 1 /\ d + 1 < n \/ next_of n d = 0 /\ d + 1 = n)%nat.
Proof.
  intros H. unfold next_of. destruct (Nat.eq_dec (d + 1) n) as [->|E]; [right; rewrite Nat.mod_same by lia; lia|left].
  rewrite Nat.mod_small by lia. lia.
Qed.
Lemma prev_cases n d : (d < n)%nat -> (prev_of n d = d - 1 /\ 0 < d \/ prev_of n d = n - 1 /\ d = 0)%nat.
Proof.
  intros H. unfold prev_of. destruct (Nat.eq_dec d 0) as [->|E]; [right; rewrite Nat.mod_small by lia; lia|left].
  replace (d + n - 1)%nat with (d - 1 + 1 * n)%nat by lia. rewrite Nat.mod_add by lia. rewrite Nat.mod_small by lia. lia.
Qed.

Lemma roll_ahead {A} w n d m (l : list A) : List.length l = (n * w)%nat -> (d < n)%nat -> (m <= w)%nat ->
  day_part w d (np_roll l (- Z.of_nat m)) = skipn m (day_part w d l) ++ firstn m (day_part w (next_of n d) l).
Proof.
  intros L D M. pose proof (next_lt n d D) as N. apply list_ext. intros j. destruct (Nat.lt_ge_cases j w) as [J|J].
  - rewrite ArrayProofs.day_part_nth by auto. assert (B : (d * w + j < n * w)%nat) by nia.
    rewrite np_roll_nth by (rewrite L; lia). rewrite L.
    assert (Ls : List.length (skipn m (day_part w d l)) = (w - m)%nat) by (rewrite skipn_length, (part_len w n d l) by auto; lia).
    destruct (Nat.lt_ge_cases j (w - m)) as [K|K].
    + rewrite nth_error_app1 by lia. rewrite nth_error_skipn, ArrayProofs.day_part_nth by lia. f_equal.
      rewrite Z.mod_small by nia. lia.
    + rewrite nth_error_app2 by lia. rewrite Ls, nth_error_firstn, ArrayProofs.day_part_nth by lia. f_equal.
      destruct (next_cases n d D) as [[-> Q]|[-> Q]].
      * rewrite Z.mod_small by nia. nia.
      * replace (Z.of_nat (d * w + j) - - Z.of_nat m)%Z with (Z.of_nat (j - (w - m)) + 1 * Z.of_nat (n * w))%Z by nia.
        rewrite Z.mod_add by nia. rewrite Z.mod_small by nia. lia.
  - rewrite !(proj2 (nth_error_None _ _)); auto.
    + rewrite app_length, skipn_length, firstn_length, !(part_len w n) by auto. lia.
    + unfold day_part. rewrite firstn_length. lia.
Qed.
Lemma roll_behind {A} w n d m (l : list A) : List.length l = (n * w)%nat -> (d < n)%nat -> (m <= w)%nat ->
  day_part w d (np_roll l (Z.of_nat m)) = skipn (w - m) (day_part w (prev_of n d) l) ++ firstn (w - m) (day_part w d l).
Proof.
  intros L D M. pose proof (prev_lt n d D) as N. apply list_ext. intros j. destruct (Nat.lt_ge_cases j w) as [J|J].
  - rewrite ArrayProofs.day_part_nth by auto. assert (B : (d * w + j < n * w)%nat) by nia.
    rewrite np_roll_nth by (rewrite L; lia). rewrite L.
    assert (Ls : List.length (skipn (w - m) (day_part w (prev_of n d) l)) = m) by (rewrite skipn_length, (part_len w n _ l) by auto; lia).
    destruct (Nat.lt_ge_cases j m) as [K|K].
    + rewrite nth_error_app1 by lia. rewrite nth_error_skipn, ArrayProofs.day_part_nth by lia. f_equal.
      destruct (prev_cases n d D) as [[-> Q]|[-> Q]].
      * rewrite Z.mod_small by nia. nia.
      * subst d. replace (Z.of_nat (0 * w + j) - Z.of_nat m)%Z with (Z.of_nat ((n - 1) * w + (w - m + j)) + (-1) * Z.of_nat (n * w))%Z by nia.
        rewrite Z.mod_add by nia. rewrite Z.mod_small by nia. now rewrite Nat2Z.id.
    + rewrite nth_error_app2 by lia. rewrite Ls, nth_error_firstn, ArrayProofs.day_part_nth by lia. f_equal.
      rewrite Z.mod_small by nia. lia.
  - rewrite !(proj2 (nth_error_None _ _)); auto.
    + rewrite app_length, skipn_length, firstn_length, !(part_len w n) by auto. lia.
    + unfold day_part. rewrite firstn_length. lia.
Qed.

(** ** the mean of a day of shifted shortwave *)
Lemma repeat_skip {A} (x : A) m n : skipn m (repeat x n) = repeat x (n - m).
Proof. revert n. induction m as [|m IH]; intros [|n]; cbn; auto. Qed.
Lemma repeat_first {A} (x : A) m n : (m <= n)%nat -> firstn m (repeat x n) = repeat x m.
Proof. revert n. induction m as [|m IH]; intros [|n] H; cbn; auto; [lia|]. now rewrite IH by lia. Qed.

Lemma weighted (a : list R) v n : List.length a = n -> fsum (map2 fmul (map Some a) (repeat (Some v) n)) = Some (v * total a).
Proof.
  intros L. rewrite map2_repeat by now rewrite map_length. rewrite map_map.
  rewrite (map_ext _ (fun x => Some (v * x))) by (intros; cbn; f_equal; ring). rewrite <- (map_map (fun x => v * x) Some), fsum_some, total_scale. reflexivity.
Qed.

Lemma energy_at ts sw dl d S D : 0 < IZR ts -> nth_error sw d = Some (Some S) -> nth_error dl d = Some (Some D) ->
  nth_error (map2 (step_energy ts) sw dl) d = Some (Some (S * D / (60 * IZR ts))).
Proof. intros T H1 H2. rewrite (nth_map2 _ _ _ _ _ _ H1 H2). unfold step_energy. cbn [fmul flift2]. now rewrite fdiv_some by lra. Qed.

Lemma split_mean ts (a b : list R) (u v : R) : legal_time_step ts -> (List.length a + List.length b = RAD_STEPS)%nat ->
  fmean (map fsum (rows (steps ts) (Z.to_nat (ts * 2))
    (map2 fmul (map Some a ++ map Some b) (repeat (Some (u / (60 * IZR ts))) (List.length a) ++ repeat (Some (v / (60 * IZR ts))) (List.length b)))))
  = Some (u / 86400 * total a + v / 86400 * total b).
Proof.
  intros L Len. destruct (steps_mul ts L) as (_ & Sp & Tp). destruct (steps_rad ts L) as [SR Cp].
  assert (T0 : 0 < IZR ts) by (apply IZR_lt; lia). pose proof (steps_mul_R ts L) as SM.
  unfold fmean. rewrite map_length, rows_length. rewrite map2_app by (rewrite map_length, repeat_length; auto).
  rewrite all_sum by (rewrite app_length, !ShortwaveProofs.map2_length by (rewrite map_length, repeat_length; auto); rewrite !map_length; lia).
  rewrite fsum_app, !weighted by auto. cbn [fadd flift2]. rewrite fdiv_some by (apply not_0_INR; lia). f_equal.
  replace 86400 with (60 * (INR (steps ts) * IZR ts)) by lra. field. split; [lra|apply not_0_INR; lia].
Qed.

Theorem utc_day_mean sw dl doy tiny prm out : legal_time_step (p_time_step prm) -> p_utc_offset prm = true ->
  List.length sw = List.length dl -> List.length doy = List.length sw -> full_rows tiny -> rows_exist doy tiny ->
  shortwave sw dl doy tiny prm = Ok out ->
  forall d k S D S2 D2 row row2 m, (m <= RAD_STEPS)%nat -> nth_error doy d = Some k ->
    nth_error sw d = Some (Some S) -> nth_error dl d = Some (Some D) -> nth_error tiny (k - 1) = Some row ->
  (utc_rad_steps (p_lon prm) = Z.of_nat m ->
     nth_error sw (next_of (List.length sw) d) = Some (Some S2) -> nth_error dl (next_of (List.length sw) d) = Some (Some D2) ->
     nth_error tiny (next_of (List.length tiny) (k - 1)) = Some row2 ->
     fmean (day_part (steps (p_time_step prm)) d out) = Some (S * D / 86400 * total (skipn m row) + S2 * D2 / 86400 * total (firstn m row2))) /\
  (utc_rad_steps (p_lon prm) = (- Z.of_nat m)%Z ->
     nth_error sw (prev_of (List.length sw) d) = Some (Some S2) -> nth_error dl (prev_of (List.length sw) d) = Some (Some D2) ->
     nth_error tiny (prev_of (List.length tiny) (k - 1)) = Some row2 ->
     fmean (day_part (steps (p_time_step prm)) d out) =
     Some (S2 * D2 / 86400 * total (skipn (RAD_STEPS - m) row2) + S * D / 86400 * total (firstn (RAD_STEPS - m) row))).
Proof.
  intros L U Ls Ld F K E d k S D S2 D2 row row2 m M Hk HS HD Hr. rewrite shortwave_chunks in E by auto. apply Ok_inj in E. subst out.
  assert (Dn : (d < List.length sw)%nat) by (apply nth_error_Some; unfold fl in *; congruence).
  assert (Kr : (1 <= k <= List.length tiny)%nat) by (apply K; eapply nth_error_In; eauto).
  rewrite chunks_day by auto. rewrite (nth_error_nth _ _ _ Hk). unfold chunk, sw_flat, sw_tmp. cbv zeta. rewrite U.
  set (ts := p_time_step prm) in *. destruct (steps_mul ts L) as (_ & _ & Tp). assert (T0 : 0 < IZR ts) by (apply IZR_lt; lia).
  assert (Lr : List.length row = RAD_STEPS) by (apply F; eapply nth_error_In; eauto).
  assert (Lf : List.length (map Some (concat tiny) : list fl) = (List.length tiny * RAD_STEPS)%nat) by (rewrite map_length; now apply full_length).
  assert (Lt : List.length (np_repeat (map2 (step_energy ts) sw dl) RAD_STEPS) = (List.length sw * RAD_STEPS)%nat) by (rewrite np_repeat_length, ShortwaveProofs.map2_length by auto; auto).
  split; intros Off HS2 HD2 Hr2; assert (Lr2 : List.length row2 = RAD_STEPS) by (apply F; eapply nth_error_In; eauto); rewrite Off.
  - rewrite (roll_ahead RAD_STEPS (List.length tiny) (k - 1) m) by (auto; lia).
    rewrite (roll_ahead RAD_STEPS (List.length sw) d m) by auto.
    rewrite (concat_day tiny _ row F Hr), (concat_day tiny _ row2 F Hr2).
    rewrite (np_repeat_day _ _ _ _ (energy_at ts sw dl d S D T0 HS HD)), (np_repeat_day _ _ _ _ (energy_at ts sw dl _ S2 D2 T0 HS2 HD2)).
    rewrite repeat_skip, repeat_first by auto. rewrite skipn_map, firstn_map.
    pose proof (split_mean ts (skipn m row) (firstn m row2) (S * D) (S2 * D2) L) as Q.
    rewrite skipn_length, firstn_length, Lr, Lr2, Nat.min_l in Q by auto. apply Q. lia.
  - rewrite Z.opp_involutive. rewrite (roll_behind RAD_STEPS (List.length tiny) (k - 1) m) by (auto; lia).
    rewrite (roll_behind RAD_STEPS (List.length sw) d m) by auto.
    rewrite (concat_day tiny _ row F Hr), (concat_day tiny _ row2 F Hr2).
    rewrite (np_repeat_day _ _ _ _ (energy_at ts sw dl d S D T0 HS HD)), (np_repeat_day _ _ _ _ (energy_at ts sw dl _ S2 D2 T0 HS2 HD2)).
    rewrite repeat_skip, repeat_first by lia. rewrite skipn_map, firstn_map.
    pose proof (split_mean ts (skipn (RAD_STEPS - m) row2) (firstn (RAD_STEPS - m) row) (S2 * D2) (S * D) L) as Q.
    rewrite skipn_length, firstn_length, Lr, Lr2, Nat.min_l in Q by lia. apply Q. lia.
Qed.

(** ** cells *)
Local Open Scope string_scope.
Local Open Scope list_scope.
Local Open Scope R_scope.
Lemma nth_in_table {A} (l : list A) n : (n < List.length l)%nat -> exists x, nth_error l n = Some x.
Proof. intros H. destruct (nth_error l n) as [x|] eqn:E; [eauto|]. apply nth_error_None in E. lia. Qed.

Definition local_mean (prm : params) (lat : R) (doy : list nat) (sw : list fl) (d : nat) (x : R) : Prop :=
  exists S k, nth_error sw d = Some (Some S) /\ nth_error doy d = Some k /\ x = S * (light prm lat (Nat.min (k - 1) 364) / 86400).

Theorem utc_cell fuel prm c out prm' :
  legal_time_step (p_time_step prm) -> (p_time_step prm < 1440)%Z -> p_utc_offset prm = true ->
  -90 <= cd_lat c <= 90 -> days_valid (dl_doy (cd_daily c)) ->
  run_cell fuel prm c = Some (Ok out, prm') ->
  exists g dl po tt_ df sw v,
    (solar_geom (cd_elev c) (cd_lat c) (p_lapse_rate prm) = Ok g /\
     by_yday (sg_daylengths g) (dl_doy (cd_daily c)) = Ok dl /\ by_yday (flat_potrad g) (dl_doy (cd_daily c)) = Ok po /\
     by_yday (tt_max0 g) (dl_doy (cd_daily c)) = Ok tt_ /\
     run_method fuel (with_sun (cd_daily c) dl po tt_) (located prm c) = Some (Ok df)) /\
    dict_get (dl_cols df) "shortwave" = Some sw /\ List.length sw = List.length (dl_doy (cd_daily c)) /\
    dict_get out "shortwave" = Some v /\ List.length v = (List.length sw * steps (p_time_step prm))%nat /\
    forall local, List.length local = List.length sw ->
      (forall d x, nth_error local d = Some (Some x) -> local_mean prm (cd_lat c) (dl_doy (cd_daily c)) sw d x) ->
      forall d k, nth_error (dl_doy (cd_daily c)) d = Some k ->
        shifted_day (cd_lon c) (tiny_rad_fract g) local d k (fmean (day_part (steps (p_time_step prm)) d v)).
Proof.
  intros L Lt U Hlat Hd H. destruct (run_cell_inv _ _ _ _ _ H) as (g & dl & po & tt_ & df & G & D & P & T & M & Sub & _).
  destruct (Sub Lt) as (a & b & _ & _ & X). clear Sub. destruct (method_keeps _ _ _ _ M) as (Doy & Kd & _).
  assert (DL : dict_get (dl_cols df) "daylength" = Some dl) by (apply Kd; rewrite sun_get; reflexivity). clear Kd.
  change (dl_doy (with_sun (cd_daily c) dl po tt_)) with (dl_doy (cd_daily c)) in Doy.
  assert (L' : legal_time_step (p_time_step (located prm c))) by exact L.
  destruct (disaggregate_shortwave df (located prm c) _ _ _ _ L' X) as (sw & dayl & v & S1 & S2 & Ls & Ld & Sh & Ov). rewrite Doy in *.
  destruct (geom_rows _ _ _ _ Hlat G) as (Lg & Full & _). pose proof (days_in_table _ _ Hd Lg) as Ex.
  assert (Lv : List.length v = (List.length sw * steps (p_time_step prm))%nat).
  { rewrite (shortwave_chunks sw dayl (dl_doy (cd_daily c)) (tiny_rad_fract g) (da_prm (located prm c)) L') in Sh; auto; try (unfold fl in *; congruence).
    apply Ok_inj in Sh. subst v. apply chunks_length. }
  exists g, dl, po, tt_, df, sw, (fill_gaps v). split; [tauto|]. split; [exact S1|]. split; [exact Ls|]. split; [exact Ov|].
  split; [rewrite fill_gaps_length; exact Lv|].
  assert (LG : forall d k, nth_error (dl_doy (cd_daily c)) d = Some k -> nth_error dayl d = Some (Some (light prm (cd_lat c) (Nat.min (k - 1) 364)))).
  { intros d k Hk. assert (K : (1 <= k <= 366)%nat) by (apply Hd; eapply nth_error_In; eauto).
    destruct (tables _ _ _ _ G) as [Tab _]. destruct (Tab k K) as (o & O & _ & Dlk & _ & _).
    destruct (day_facts _ _ _ _ Hlat _ O) as (Od & _).
    unfold light. unfold da_df in S2. change (p_method (located prm c)) with (p_method prm) in S2.
    change (p_sw_averaging (located prm c)) with (p_sw_averaging prm) in S2. fold (whole_day prm) in S2. rewrite Doy in S2.
    destruct (whole_day prm).
    - rewrite get_set_col in S2. cbn [String.eqb Ascii.eqb Bool.eqb] in S2. apply Some_inj in S2. subst dayl.
      assert (d < List.length (dl_doy (cd_daily c)))%nat by (apply nth_error_Some; congruence).
      rewrite nth_error_repeat by auto. do 2 f_equal. lra.
    - assert (dayl = dl) by congruence. subst dayl. pose proof (by_yday_nth _ _ _ _ _ _ D Hk Dlk) as Q. rewrite Od in Q. exact Q. }
  intros local Ll Loc d k Hk m x y row row2 Hx Hr.
  assert (Dn : (d < List.length (dl_doy (cd_daily c)))%nat) by (apply nth_error_Some; congruence).
  destruct (Loc d x Hx) as (S & k' & HS & Hk' & Ex1). rewrite Hk in Hk'. injection Hk' as <-.
  assert (ML : forall e z, nth_error local e = Some (Some z) -> exists S D, nth_error sw e = Some (Some S) /\ nth_error dayl e = Some (Some D) /\ z = S * D / 86400).
  { intros e z He. destruct (Loc e z He) as (Se & ke & HSe & Hke & ->). do 2 eexists. split; [exact HSe|]. split; [exact (LG e ke Hke)|]. field. }
  destruct (ML d x Hx) as (S0 & D0 & HS0 & HD0 & Ex0).
  assert (UM := fun S2 D2 Mb => utc_day_mean sw dayl (dl_doy (cd_daily c)) (tiny_rad_fract g) (da_prm (located prm c)) v L' U ltac:(unfold fl in *; congruence) ltac:(unfold fl in *; congruence) Full Ex Sh
     d k S0 D0 S2 D2 row row2 m Mb Hk HS0 HD0 Hr).
  change (p_lon (da_prm (located prm c))) with (remainder360 (cd_lon c)) in UM. change (p_time_step (da_prm (located prm c))) with (p_time_step prm) in UM.
  split.
  - intros A Hy Hr2. unfold fl in Hy, Ll. rewrite Ll in Hy. destruct (ahead_steps _ _ A) as [Off Mb]. destruct (ML _ y Hy) as (S2' & D2' & HS2 & HD2 & Ey).
    destruct (UM S2' D2' Mb) as [UA _]. specialize (UA Off HS2 HD2 Hr2). rewrite (fill_day _ _ _ _ UA), UA, <- Ex0, <- Ey. reflexivity.
  - intros A Hy Hr2. unfold fl in Hy, Ll. rewrite Ll in Hy. destruct (behind_steps _ _ A) as [Off Mb]. destruct (ML _ y Hy) as (S2' & D2' & HS2 & HD2 & Ey).
    destruct (UM S2' D2' Mb) as [_ UA]. specialize (UA Off HS2 HD2 Hr2). rewrite (fill_day _ _ _ _ UA), UA, <- Ex0, <- Ey. reflexivity.
Qed.

Theorem pass_utc fuel prm c out prm' sw :
  legal_time_step (p_time_step prm) -> (p_time_step prm < 1440)%Z -> p_utc_offset prm = true ->
  p_method prm = "passthrough" -> p_sw_averaging prm <> "daylight" ->
  -90 <= cd_lat c <= 90 -> days_valid (dl_doy (cd_daily c)) ->
  dict_get (dl_cols (cd_daily c)) "shortwave" = Some sw -> run_cell fuel prm c = Some (Ok out, prm') ->
  exists g v, solar_geom (cd_elev c) (cd_lat c) (p_lapse_rate prm) = Ok g /\
  dict_get out "shortwave" = Some v /\ List.length v = (List.length sw * steps (p_time_step prm))%nat /\
  forall d k, nth_error (dl_doy (cd_daily c)) d = Some k ->
    shifted_day (cd_lon c) (tiny_rad_fract g) sw d k (fmean (day_part (steps (p_time_step prm)) d v)).
Proof.
  intros L Lt U P A Hlat Hd Hs H. destruct (utc_cell _ _ _ _ _ L Lt U Hlat Hd H) as (g & dl & po & tt_ & df & sw' & v & (G & _ & _ & _ & M) & S1 & Ls & O & Lv & Mean).
  destruct (method_keeps _ _ _ _ M) as (_ & _ & K).
  assert (sw' = sw).
  { specialize (K P "shortwave" sw). rewrite sun_get in K. cbn [String.eqb Ascii.eqb Bool.eqb] in K. rewrite (K Hs) in S1. now apply Some_inj in S1. }
  subst sw'. exists g, v. split; [exact G|]. split; [exact O|]. split; [exact Lv|]. apply (Mean sw eq_refl).
  intros d x Hx. assert (Dn : (d < List.length sw)%nat) by (apply nth_error_Some; unfold fl in *; congruence).
  destruct (nth_in_table (dl_doy (cd_daily c)) d) as [k Hk]; [unfold fl in *; lia|]. exists x, k. split; [exact Hx|]. split; [exact Hk|].
  unfold light, whole_day. rewrite P. destruct (String.eqb_spec (p_sw_averaging prm) "daylight"); [contradiction|]. cbn [String.eqb Ascii.eqb Bool.eqb andb negb]. field.
Qed.

Theorem mtclim_utc fuel prm c out1 p1 out2 p2 :
  legal_time_step (p_time_step prm) -> (p_time_step prm < 1440)%Z -> p_utc_offset prm = true -> p_method prm = "mtclim" ->
  -90 <= cd_lat c <= 90 -> days_valid (dl_doy (cd_daily c)) ->
  run_cell fuel prm c = Some (Ok out1, p1) -> run_cell fuel (with_step 1440 prm) c = Some (Ok out2, p2) ->
  exists g v1 v2, solar_geom (cd_elev c) (cd_lat c) (p_lapse_rate prm) = Ok g /\
  dict_get out1 "shortwave" = Some v1 /\ dict_get out2 "shortwave" = Some v2 /\
  List.length v2 = List.length (dl_doy (cd_daily c)) /\ List.length v1 = (List.length v2 * steps (p_time_step prm))%nat /\
  forall d k, nth_error (dl_doy (cd_daily c)) d = Some k ->
    shifted_day (cd_lon c) (tiny_rad_fract g) v2 d k (fmean (day_part (steps (p_time_step prm)) d v1)).
Proof.
  intros L Lt U P Hlat Hd H1 H2.
  destruct (utc_cell _ _ _ _ _ L Lt U Hlat Hd H1) as (g & dl & po & tt_ & df & sw & v1 & (G & D & Po & Tt & M) & S1 & Ls & O1 & L1 & Mean).
  assert (T24 : (1440 <= p_time_step (with_step 1440 prm))%Z) by (cbn [with_step p_time_step]; lia).
  destruct (daily_value _ _ _ _ _ T24 Hlat Hd H2) as (g' & dl' & po' & tt' & df' & sw' & v2 & (G' & D' & Po' & Tt' & M') & S2 & Ls' & O2 & L2 & VN & V).
  change (p_lapse_rate (with_step 1440 prm)) with (p_lapse_rate prm) in G'. rewrite G in G'. apply Ok_inj in G'. subst g'.
  rewrite D in D'. apply Ok_inj in D'. subst dl'. rewrite Po in Po'. apply Ok_inj in Po'. subst po'. rewrite Tt in Tt'. apply Ok_inj in Tt'. subst tt'.
  change (located (with_step 1440 prm) c) with (with_step 1440 (located prm c)) in M'. rewrite method_step, M in M'.
  assert (df = df') by congruence. subst df'. clear M'. rewrite S1 in S2. apply Some_inj in S2. subst sw'.
  exists g, v1, v2. split; [exact G|]. split; [exact O1|]. split; [exact O2|]. split; [unfold fl in *; lia|]. split; [unfold fl in *; rewrite L2; exact L1|].
  apply (Mean v2 L2). intros d x Hx. assert (Dn : (d < List.length sw)%nat).
  { rewrite <- L2. apply nth_error_Some. unfold fl in *. congruence. }
  destruct (nth_in_table (dl_doy (cd_daily c)) d) as [k Hk]; [unfold fl in *; lia|].
  destruct (nth_error sw d) as [s|] eqn:E; [|apply nth_error_None in E; unfold fl in *; lia].
  destruct s as [S|].
  - pose proof (eq_trans (eq_sym Hx) (V d S k E Hk)) as V'. apply Some_inj in V'. apply Some_inj in V'. exists S, k. split; [exact E|]. split; [exact Hk|].
    assert (W : light prm (cd_lat c) (Nat.min (k - 1) 364) = sg_daylength (cd_lat c) (Nat.min (k - 1) 364)) by (unfold light, whole_day; now rewrite P).
    rewrite W. exact V'.
  - exfalso. apply VN in E. unfold fl in *. congruence.
Qed.

(** ** examples *)

Lemma ahead_90 : ahead 90 720.
Proof. exists 0%Z. rewrite INR_IZR_INZ. change (Z.of_nat 720) with 720%Z. lra. Qed.

Lemma indian_runs fuel : exists out prm', run_cell fuel (with_utc true (demo_method "passthrough" 60)) indian_cell = Some (Ok out, prm').
Proof.
  destruct (equator_ok 0 0.0065) as [g G].
  refine (pass_cell_total fuel (with_utc true (demo_method "passthrough" 60)) indian_cell g 9 22 eq_refl _ _ _ _ G _ _).
  - destruct (demo_options "passthrough" 60 legal_60). constructor; assumption.
  - destruct (equator_forcing "passthrough" 60). constructor; assumption.
  - eexists. split; reflexivity.
  - cbn [cd_lat indian_cell]. lra.
  - reflexivity.
  - reflexivity.
Qed.

Theorem indian_day : exists out prm' g v row row2, run_cell 0 (with_utc true (demo_method "passthrough" 60)) indian_cell = Some (Ok out, prm') /\
  solar_geom 0 0 0.0065 = Ok g /\ dict_get out "shortwave" = Some v /\
  nth_error (tiny_rad_fract g) 0 = Some row /\ nth_error (tiny_rad_fract g) 1 = Some row2 /\
  fmean (day_part 24 0 v) = Some (200 * total (skipn 720 row) + 250 * total (firstn 720 row2)).
Proof.
  destruct (indian_runs 0) as (out & prm' & Rn).
  assert (Hl : -90 <= cd_lat indian_cell <= 90) by (cbn [cd_lat indian_cell]; lra).
  assert (Hd : days_valid (dl_doy (cd_daily indian_cell))) by exact (fc_valid _ _ (equator_forcing "passthrough" 60)).
  destruct (pass_utc 0 (with_utc true (demo_method "passthrough" 60)) indian_cell out prm' (map Some [200; 250]) legal_60 eq_refl eq_refl eq_refl ltac:(discriminate) Hl Hd eq_refl Rn)
    as (g & v & G & V & Lv & Q).
  destruct (geom_rows _ _ _ _ Hl G) as (Lg & _).
  destruct (nth_in_table (tiny_rad_fract g) 0) as [row Hr]; [rewrite Lg; lia|]. destruct (nth_in_table (tiny_rad_fract g) 1) as [row2 Hr2]; [rewrite Lg; lia|].
  exists out, prm', g, v, row, row2. split; [exact Rn|]. split; [exact G|]. split; [exact V|]. split; [exact Hr|]. split; [exact Hr2|].
  refine (proj1 (Q 0%nat 1%nat eq_refl 720%nat 200 250 row row2 eq_refl Hr) ahead_90 eq_refl _). rewrite Lg. exact Hr2.
Qed.

Definition indian : params := mkparams 60 true false "mtclim" "" "uniform" "prata" "cloud_deardorff" 0 0.75 1e-6 0.45 0.67 0.0065 0 100 0 90.
Lemma indian_steps : utc_rad_steps (p_lon indian) = Z.of_nat 720.
Proof. exact (utc_rad_IZR 90). Qed.

Lemma halves_full (x y : R) : List.length (repeat x MIN_PER_DAY ++ repeat y MIN_PER_DAY) = RAD_STEPS.
Proof. rewrite app_length, !repeat_length. reflexivity. Qed.
Lemma morning_full : full_rows morning_table.
Proof. intros r H. apply repeat_spec in H. subst. apply halves_full. Qed.
Lemma evening_full : full_rows evening_table.
Proof. intros r [<-|H]; [apply halves_full|]. apply repeat_spec in H. subst. apply halves_full. Qed.

Lemma half_of (x y : R) : total (firstn 720 (repeat x MIN_PER_DAY ++ repeat y MIN_PER_DAY)) = 720 * x /\
  total (skipn 720 (repeat x MIN_PER_DAY ++ repeat y MIN_PER_DAY)) = 720 * x + 1440 * y.
Proof.
  assert (M : (720 <= MIN_PER_DAY)%nat) by (apply Nat.leb_le; reflexivity).
  rewrite firstn_app, skipn_app, repeat_length. replace (720 - MIN_PER_DAY)%nat with 0%nat by (apply Nat.sub_0_le in M; auto).
  rewrite firstn_O, app_nil_r, repeat_first, repeat_skip by auto. cbn [skipn]. rewrite total_app, !total_repeat.
  rewrite !INR_IZR_INZ. change (Z.of_nat 720) with 720%Z. change (Z.of_nat (MIN_PER_DAY - 720)) with 720%Z. change (Z.of_nat MIN_PER_DAY) with 1440%Z. split; ring.
Qed.

(** the last day of a record takes radiation from its first *)
Theorem utc_ends_refuted : ~ (forall sw sw' dl doy tiny prm out out' d, legal_time_step (p_time_step prm) -> p_utc_offset prm = true ->
  List.length sw = List.length dl -> List.length sw' = List.length dl -> List.length doy = List.length dl -> full_rows tiny -> rows_exist doy tiny ->
  shortwave sw dl doy tiny prm = Ok out -> shortwave sw' dl doy tiny prm = Ok out' ->
  (forall e, (e <= d + 1)%nat -> (d <= e + 1)%nat -> nth_error sw e = nth_error sw' e) ->
  fmean (day_part (steps (p_time_step prm)) d out) = fmean (day_part (steps (p_time_step prm)) d out')).
Proof.
  intros H.
  assert (RE : rows_exist [1; 2; 3]%nat morning_table) by (intros k I; unfold morning_table; rewrite repeat_length; cbn [In] in I; lia).
  assert (Run : forall x, exists out, shortwave [Some x; Some 100; Some 100] (map Some [86400; 86400; 86400]) [1; 2; 3]%nat morning_table indian = Ok out).
  { intros x. eexists. apply shortwave_chunks; [exact legal_60|reflexivity|reflexivity|exact morning_full|exact RE]. }
  assert (Val : forall x out, shortwave [Some x; Some 100; Some 100] (map Some [86400; 86400; 86400]) [1; 2; 3]%nat morning_table indian = Ok out ->
    fmean (day_part 24 2 out) = Some (50 + x / 2)).
  { intros x out E.
    destruct (utc_day_mean [Some x; Some 100; Some 100] (map Some [86400; 86400; 86400]) [1; 2; 3]%nat morning_table indian out legal_60 eq_refl eq_refl eq_refl morning_full RE E 2 3 100 86400 x 86400 morning_row morning_row 720
      ltac:(apply Nat.leb_le; reflexivity) eq_refl eq_refl eq_refl) as [Q _].
    { unfold morning_table. apply nth_error_repeat. lia. }
    change (steps (p_time_step indian)) with 24%nat in Q. rewrite Q.
    - unfold morning_row. destruct (half_of (/ 1440) 0) as [-> ->]. f_equal. field.
    - exact indian_steps.
    - reflexivity.
    - reflexivity.
    - unfold morning_table. apply nth_error_repeat. rewrite repeat_length. apply Nat.ltb_lt. reflexivity. }
  destruct (Run 100) as [o1 E1]. destruct (Run 200) as [o2 E2].
  pose proof (H [Some 100; Some 100; Some 100] [Some 200; Some 100; Some 100] (map Some [86400; 86400; 86400]) [1; 2; 3]%nat morning_table indian o1 o2 2%nat legal_60 eq_refl eq_refl eq_refl eq_refl morning_full RE E1 E2) as Q.
  change (steps (p_time_step indian)) with 24%nat in Q. rewrite (Val _ _ E1), (Val _ _ E2) in Q.
  assert (B : Some (50 + 100 / 2) = Some (50 + 200 / 2)).
  { apply Q. intros [|[|[|e]]] A B; try reflexivity. lia. }
  apply Some_inj in B. lra.
Qed.

(** after 31 December of a common year comes the row of day 366 *)
Theorem utc_new_year_refuted : ~ (forall sw dl doy tiny prm out d k k2 m X Y D D2 row row2, legal_time_step (p_time_step prm) -> p_utc_offset prm = true ->
  List.length sw = List.length dl -> List.length doy = List.length sw -> List.length tiny = 366%nat -> nth_error tiny 365 = nth_error tiny 364 ->
  full_rows tiny -> rows_exist doy tiny -> shortwave sw dl doy tiny prm = Ok out -> ahead (p_lon prm) m ->
  nth_error doy d = Some k -> nth_error doy (d + 1) = Some k2 ->
  nth_error sw d = Some (Some X) -> nth_error sw (d + 1) = Some (Some Y) -> nth_error dl d = Some (Some D) -> nth_error dl (d + 1) = Some (Some D2) ->
  nth_error tiny (k - 1) = Some row -> nth_error tiny (k2 - 1) = Some row2 ->
  fmean (day_part (steps (p_time_step prm)) d out) = Some (X * D / 86400 * total (skipn m row) + Y * D2 / 86400 * total (firstn m row2))).
Proof.
  intros H.
  assert (RE : rows_exist [365; 1]%nat evening_table).
  { intros k I. unfold evening_table. cbn [List.length]. rewrite repeat_length. cbn [In] in I. lia. }
  destruct (shortwave [Some 100; Some 100] (map Some [86400; 86400]) [365; 1]%nat evening_table indian) as [out|] eqn:E.
  2:{ rewrite shortwave_chunks in E; [discriminate E|exact legal_60|reflexivity|reflexivity|exact evening_full|exact RE]. }
  assert (At : forall k, (1 <= k < 366)%nat -> nth_error evening_table k = Some evening_row).
  { intros [|k] Hk; [lia|]. unfold evening_table. cbn [nth_error]. apply nth_error_repeat. lia. }
  destruct (utc_day_mean [Some 100; Some 100] (map Some [86400; 86400]) [365; 1]%nat evening_table indian out legal_60 eq_refl eq_refl eq_refl evening_full RE E 0 365 100 86400 100 86400 evening_row evening_row 720
      ltac:(apply Nat.leb_le; reflexivity) eq_refl eq_refl eq_refl (At 364%nat ltac:(lia))) as [Q _].
  assert (Len : List.length evening_table = 366%nat) by (unfold evening_table; cbn [List.length]; now rewrite repeat_length).
  specialize (Q indian_steps eq_refl eq_refl). rewrite Len in Q. specialize (Q (At 365%nat ltac:(lia))).
  rewrite (H [Some 100; Some 100] (map Some [86400; 86400]) [365; 1]%nat evening_table indian out 0%nat 365%nat 1%nat 720%nat 100 100 86400 86400 evening_row morning_row legal_60 eq_refl eq_refl eq_refl Len
    (eq_trans (At 365%nat ltac:(lia)) (eq_sym (At 364%nat ltac:(lia)))) evening_full RE E ahead_90 eq_refl eq_refl eq_refl eq_refl eq_refl eq_refl (At 364%nat ltac:(lia)) eq_refl) in Q.
  apply Some_inj in Q. unfold morning_row, evening_row in Q.
  destruct (half_of (/ 1440) 0) as [A _]. destruct (half_of 0 (/ 1440)) as [B1 B2]. rewrite A, B1, B2 in Q. lra.
Qed.
