(** One cell from its forcing to its output: C46, C47. *)
From Coq Require Import ZArith Reals String List Bool Arith Lia Lra.
From Verif Require Import Model.Py Model.Fl Model.Np Model.Constants Model.Params Model.Physics Model.Disagg Model.Mtclim Model.Cell
  Spec.TimeSpec Spec.SeriesSpec Spec.ShortSpec Spec.SolarSpec Spec.TempSpec Spec.FrameSpec Spec.DailySpec
  Proofs.Base Proofs.ArrayProofs Proofs.PrecProofs Proofs.DisaggProofs Proofs.ShortwaveProofs Proofs.SolarProofs Proofs.SolarTables Proofs.TempProofs
  Proofs.GlobalsProofs Proofs.PassProofs Proofs.FrameProofs Proofs.VaporProofs Proofs.LongwaveProofs Proofs.UtcProofs Proofs.CellBody.
Import ListNotations.
Local Open Scope string_scope.
Local Open Scope list_scope.

(** ** inversion *)
Definition located (prm : params) (c : cell_data) : params := set_location prm (cd_elev c) (cd_lat c) (cd_lon c).
Definition with_sun (df : daily) (dl po tt_ : list fl) : daily :=
  set_col (set_col (set_col df "daylength" dl) "potrad" po) "tt_max" tt_.

Theorem run_cell_inv fuel prm c out prm' : run_cell fuel prm c = Some (Ok out, prm') ->
  exists g dl po tt_ df,
    solar_geom (cd_elev c) (cd_lat c) (p_lapse_rate prm) = Ok g /\
    by_yday (sg_daylengths g) (dl_doy (cd_daily c)) = Ok dl /\
    by_yday (flat_potrad g) (dl_doy (cd_daily c)) = Ok po /\
    by_yday (tt_max0 g) (dl_doy (cd_daily c)) = Ok tt_ /\
    run_method fuel (with_sun (cd_daily c) dl po tt_) (located prm c) = Some (Ok df) /\
    ((p_time_step prm < 1440)%Z -> exists a b,
       last_value (cd_state_tmin c) = Ok (Some a) /\ last_value (cd_state_tmax c) = Ok (Some b) /\
       disaggregate df (located prm c) (tiny_rad_fract g) (Some [a; b]) None = Ok out) /\
    ((1440 <= p_time_step prm)%Z -> exists sw d v,
       col df "shortwave" = Ok sw /\ col df "daylength" = Ok d /\
       zipw (fun s d => fmul s (fdiv d (Some SEC_PER_DAY))) sw d = Ok v /\
       out = dl_cols (set_col df "shortwave" v)).
Proof.
  rewrite run_cell_eq. cbv zeta. fold (located prm c).
  change (p_elev (located prm c)) with (cd_elev c). change (p_lat (located prm c)) with (cd_lat c).
  change (p_lapse_rate (located prm c)) with (p_lapse_rate prm). change (p_time_step (located prm c)) with (p_time_step prm).
  destruct (solar_geom _ _ _) as [g|] eqn:G; cbn [bind]; [|discriminate].
  destruct (by_yday (sg_daylengths g) _) as [dl|] eqn:D; cbn [bind]; [|discriminate].
  destruct (by_yday (flat_potrad g) _) as [po|] eqn:P; cbn [bind]; [|discriminate].
  destruct (by_yday (tt_max0 g) _) as [tt_|] eqn:T; cbn [bind]; [|discriminate].
  fold (with_sun (cd_daily c) dl po tt_).
  destruct (run_method _ _ _) as [[df|]|] eqn:M; try discriminate.
  intros H. exists g, dl, po, tt_, df. do 5 (split; [assumption || reflexivity|]).
  destruct (Z.ltb_spec (p_time_step prm) 1440).
  - split; [intros _|lia]. assert (H' : (do a <- last_value (cd_state_tmin c); do b <- last_value (cd_state_tmax c); do tb <- finite [a; b];
      disaggregate df (located prm c) (tiny_rad_fract g) (Some tb) None) = Ok out) by congruence. clear H.
    inv_bind H'. inv_bind H'. destruct v as [a|]; [|discriminate H']. destruct v0 as [b|]; [|discriminate H'].
    cbn [finite bind] in H'. exists a, b. split; [reflexivity|]. split; [reflexivity|exact H'].
  - split; [lia|intros _]. assert (H' : (do sw <- col df "shortwave"; do d <- col df "daylength";
      do v <- zipw (fun s d => fmul s (fdiv d (Some SEC_PER_DAY))) sw d; Ok (dl_cols (set_col df "shortwave" v))) = Ok out) by congruence. clear H.
    inv_bind H'. inv_bind H'. inv_bind H'. exists v, v0, v1. do 3 (split; [assumption || reflexivity|]). apply Ok_inj in H'. auto.
Qed.

(** ** what the daily methods leave alone *)
Lemma get_set_col df n v k : dict_get (dl_cols (set_col df n v)) k = if k =? n then Some v else dict_get (dl_cols df) k.
Proof. cbn [set_col dl_cols]. apply dict_get_set. Qed.

Lemma sun_get df dl po tt_ k : dict_get (dl_cols (with_sun df dl po tt_)) k =
  if k =? "tt_max" then Some tt_ else if k =? "potrad" then Some po else if k =? "daylength" then Some dl else dict_get (dl_cols df) k.
Proof. unfold with_sun. now rewrite !get_set_col. Qed.

Lemma mtclim_keeps fuel df prm df' : mtclim_run fuel df prm = Some (Ok df') ->
  dl_doy df' = dl_doy df /\ dict_get (dl_cols df') "daylength" = dict_get (dl_cols df) "daylength".
Proof.
  unfold mtclim_run. cbv zeta.
  match goal with |- match ?p with _ => _ end = _ -> _ => destruct p as [[[d (a1 & a2 & a3 & a4 & a5 & a6)] days]|] eqn:E end; [|discriminate].
  destruct (tdew_loop _ _ _ _ _) as [td|]; [|discriminate]. intros H.
  assert (H' : df' = set_col (set_col (set_col (set_col d "tdew" td) "vapor_pressure" (map mt_vapor_pressure1 td)) "shortwave"
     (map2 (fun f p => f p) (map3 mt_shortwave1 a2 (map mt_vapor_pressure1 td) a3) a4)) "pet"
     (map3 (pet1 prm) (map2 (fun f p => f p) (map3 mt_shortwave1 a2 (map mt_vapor_pressure1 td) a3) a4) a5 a6)) by congruence.
  assert (D : dl_doy d = dl_doy df /\ dict_get (dl_cols d) "daylength" = dict_get (dl_cols df) "daylength").
  { clear H H'. do 11 inv_bind E. inversion E. subst d. cbn [dl_doy set_col]. split; [reflexivity|].
    rewrite !get_set_col. cbn [String.eqb Ascii.eqb Bool.eqb]. reflexivity. }
  subst df'. cbn [dl_doy set_col]. split; [tauto|]. rewrite !get_set_col. cbn [String.eqb Ascii.eqb Bool.eqb]. tauto.
Qed.

Lemma method_keeps fuel df prm df' : run_method fuel df prm = Some (Ok df') ->
  dl_doy df' = dl_doy df /\ (forall v, dict_get (dl_cols df) "daylength" = Some v -> dict_get (dl_cols df') "daylength" = Some v) /\
  (p_method prm = "passthrough" -> forall k v, dict_get (dl_cols df) k = Some v -> dict_get (dl_cols df') k = Some v).
Proof.
  unfold run_method. destruct (String.eqb_spec (p_method prm) "mtclim") as [M|M].
  - intros H. destruct (mtclim_keeps _ _ _ _ H) as [A B]. split; auto. split; [congruence|]. rewrite M. discriminate.
  - destruct (String.eqb_spec (p_method prm) "passthrough") as [P|P]; [|discriminate]. intros H.
    assert (E : passthrough_run df prm = Ok df') by congruence. apply passthrough_spec in E as (_ & [A B] & _).
    split; [auto|]. split; auto.
Qed.

(** the daily estimation does not look at the time step *)
Lemma tdew_loop_step fuel : forall ts prm days a b, tdew_loop fuel (with_step ts prm) days a b = tdew_loop fuel prm days a b.
Proof.
  induction fuel as [|f IH]; intros; cbn [tdew_loop]; [reflexivity|]. rewrite IH. reflexivity.
Qed.
Lemma method_step fuel ts df prm : run_method fuel df (with_step ts prm) = run_method fuel df prm.
Proof.
  unfold run_method. change (p_method (with_step ts prm)) with (p_method prm). destruct (p_method prm =? "mtclim"); [|destruct (p_method prm =? "passthrough"); reflexivity].
  unfold mtclim_run. cbv zeta.
  change (t_day1 (with_step ts prm)) with (t_day1 prm). change (tfmax1 (with_step ts prm)) with (tfmax1 prm).
  change (mt_tskc1 (with_step ts prm)) with (mt_tskc1 prm). change (pet1 (with_step ts prm)) with (pet1 prm).
  match goal with |- match ?p with _ => _ end = _ => destruct p as [[[d (a1 & a2 & a3 & a4 & a5 & a6)] days]|] end; [|reflexivity].
  change (tdew_update (with_step ts prm)) with (tdew_update prm). now rewrite tdew_loop_step.
Qed.

(** ** means of filled series *)
Lemma fsum_all (l : list fl) m : fsum l = Some m -> forall x, In x l -> x <> None.
Proof. intros H x I ->. apply fsum_none in I. unfold fl in *. congruence. Qed.
Lemma fmean_all (l : list fl) m : fmean l = Some m -> forall x, In x l -> x <> None.
Proof.
  unfold fmean. destruct (fsum l) as [s|] eqn:E; [|discriminate]. intros _. eapply fsum_all; eauto.
Qed.
Lemma day_part_nth {A} k d (l : list A) j : (j < k)%nat -> nth_error (day_part k d l) j = nth_error l (d * k + j).
Proof.
  intros H. unfold day_part. assert (X : forall n i (m : list A), (i < n)%nat -> nth_error (firstn n m) i = nth_error m i).
  { induction n as [|n IH]; intros [|i] [|y m] Hi; try lia; try reflexivity. cbn. apply IH. lia. }
  rewrite X by auto. clear. revert l. induction (d * k)%nat as [|n IH]; intros l; [reflexivity|].
  destruct l as [|y l]; [now destruct j|]. cbn. apply IH.
Qed.
Lemma fill_day k d (l : list fl) m : fmean (day_part k d l) = Some m -> day_part k d (fill_gaps l) = day_part k d l.
Proof.
  intros H. pose proof (fmean_all _ _ H) as N.
  assert (Le : List.length (day_part k d (fill_gaps l)) = List.length (day_part k d l)).
  { unfold day_part. rewrite !firstn_length, !skipn_length, fill_gaps_length. reflexivity. }
  apply list_ext. intros j. destruct (Nat.lt_ge_cases j (List.length (day_part k d l))) as [J|J].
  - assert (K : (j < k)%nat) by (unfold day_part in J; rewrite firstn_length in J; lia).
    rewrite !day_part_nth by auto. destruct (nth_error (day_part k d l) j) as [x|] eqn:E; [|apply nth_error_None in E; lia].
    pose proof (N x (nth_error_In _ _ E)) as Nx. destruct x as [x|]; [|congruence].
    rewrite day_part_nth in E by auto. rewrite E. now apply fill_keep.
  - rewrite (proj2 (nth_error_None _ _) J). apply nth_error_None. lia.
Qed.

(** ** sub-daily shortwave of a frame *)
Lemma mapM_length {A B} (f : A -> res B) l v : mapM f l = Ok v -> List.length v = List.length l.
Proof. intros H. apply mapM_inv in H. symmetry. eapply Base.Forall2_len; eauto. Qed.

Lemma shortwave_lengths sw dl doy tiny prm out : shortwave sw dl doy tiny prm = Ok out ->
  List.length sw = List.length dl /\ exists tpd, ts_per_day (p_time_step prm) = Ok tpd /\ List.length out = (List.length sw * tpd)%nat.
Proof.
  unfold shortwave. cbv zeta. intros H. inv_bind H. rename v into tpd. inv_bind H. inv_bind H. apply Ok_inj in H. subst out.
  unfold zipw in E0. destruct (Nat.eqb_spec (List.length sw) (List.length dl)) as [Ls|]; [|discriminate]. apply Ok_inj in E0. split; auto.
  exists tpd. split; auto. subst v. rewrite map_length, (ShortwaveProofs.map2_length fmul) in E1 by auto.
  pose proof (mapM_length _ _ _ E1) as Lv. rewrite seq_length in Lv. rewrite <- Lv. apply mapM_inv in E1. revert E1. generalize (seq 0 (List.length sw)).
  clear. induction 1 as [|d x l l' P Q IH]; [reflexivity|]. cbn [concat]. rewrite app_length, IH. cbn [List.length].
  assert (List.length x = tpd); [|lia]. destruct (getitem doy d); cbn [bind] in P; [|discriminate].
  match type of P with bind ?r _ = _ => destruct r as [y|]; cbn [bind] in P; [|discriminate] end.
  destruct (Nat.eqb_spec (List.length y) tpd); [|discriminate]. apply Ok_inj in P. congruence.
Qed.

Lemma col_get df k v : col df k = Ok v <-> dict_get (dl_cols df) k = Some v.
Proof. apply getitem_get. Qed.

Theorem disaggregate_shortwave df prm tiny tb te out : legal_time_step (p_time_step prm) -> disaggregate df prm tiny tb te = Ok out ->
  exists sw dayl v, dict_get (dl_cols df) "shortwave" = Some sw /\
    dict_get (dl_cols (da_df df prm)) "daylength" = Some dayl /\
    List.length sw = List.length (dl_doy df) /\ List.length dayl = List.length (dl_doy df) /\
    shortwave sw dayl (dl_doy df) tiny (da_prm prm) = Ok v /\ dict_get out "shortwave" = Some (fill_gaps v).
Proof.
  intros L0 H. apply disaggregate_inv in H. cbv zeta in H.
  destruct H as (tpd & sw0 & dayl & sw & ? & ? & ? & ? & ? & ? & ? & ? & ? & ? & ? & ? & ? & ? & Tp & (S1 & S2 & S3) & _ & _ & _ & _ & _ & _ & (L & _) & O).
  apply col_get in S1, S2. rewrite get_da_df in S1 by discriminate. exists sw0, dayl, sw.
  destruct (shortwave_lengths _ _ _ _ _ _ S3) as (Ls & tpd' & Tp' & Lo). change (p_time_step (da_prm prm)) with (p_time_step prm) in Tp'.
  assert (tpd' = tpd) by congruence. subst tpd'.
  rewrite ts_per_day_steps in Tp by apply L0. apply Ok_inj in Tp. destruct (steps_mul _ L0) as (_ & Sp & _). rewrite Tp in Sp.
  assert (Ln : List.length sw0 = List.length (dl_doy df)) by (unfold fl in *; rewrite L in Lo; apply Nat.mul_cancel_r in Lo; lia).
  split; [exact S1|]. split; [exact S2|]. split; [exact Ln|]. split; [unfold fl in *; lia|]. split; [exact S3|].
  destruct (dict_get (dl_cols (da_df df prm)) "wind"); [destruct O as (w & _ & _ & ->)|subst out]; reflexivity.
Qed.

(** ** the day of a record in the tables of its place *)
Lemma by_yday_nth tab doy v d k x : by_yday tab doy = Ok v -> nth_error doy d = Some k -> nth_error tab (k - 1) = Some x ->
  nth_error v d = Some (Some x).
Proof.
  intros H K X. apply mapM_inv in H. destruct (Forall2_nth _ _ _ H _ _ K) as (y & E & P).
  unfold getitem in P. rewrite X in P. cbn [bind] in P. apply Ok_inj in P. rewrite P. exact E.
Qed.

Definition whole_day (prm : params) : bool := (p_method prm =? "passthrough") && negb (p_sw_averaging prm =? "daylight").

Definition light (prm : params) (lat : R) (i : nat) : R := if whole_day prm then 86400%R else sg_daylength lat i.

Local Open Scope R_scope.
Lemma total_zeros n : total (repeat 0 n) = 0.
Proof. induction n as [|n IH]; [reflexivity|]. cbn [repeat]. rewrite total_cons, IH. lra. Qed.

Theorem sub_daily_mean fuel prm c out prm' :
  legal_time_step (p_time_step prm) -> (p_time_step prm < 1440)%Z -> p_utc_offset prm = false ->
  -90 <= cd_lat c <= 90 -> days_valid (dl_doy (cd_daily c)) ->
  run_cell fuel prm c = Some (Ok out, prm') ->
  exists g dl po tt_ df sw v,
    (solar_geom (cd_elev c) (cd_lat c) (p_lapse_rate prm) = Ok g /\
     by_yday (sg_daylengths g) (dl_doy (cd_daily c)) = Ok dl /\ by_yday (flat_potrad g) (dl_doy (cd_daily c)) = Ok po /\
     by_yday (tt_max0 g) (dl_doy (cd_daily c)) = Ok tt_ /\
     run_method fuel (with_sun (cd_daily c) dl po tt_) (located prm c) = Some (Ok df)) /\
    dict_get (dl_cols df) "shortwave" = Some sw /\ List.length sw = List.length (dl_doy (cd_daily c)) /\
    dict_get out "shortwave" = Some v /\ List.length v = (List.length sw * steps (p_time_step prm))%nat /\
    forall d S k, nth_error sw d = Some (Some S) -> nth_error (dl_doy (cd_daily c)) d = Some k ->
      let i := Nat.min (k - 1) 364 in
      exists T, fmean (day_part (steps (p_time_step prm)) d v) = Some (S * (light prm (cd_lat c) i / 86400) * T) /\
        (polar_night (cd_lat c) i -> T = 0) /\
        (~ polar_night (cd_lat c) i -> 0 < T <= 1 /\ (T = 1 <-> ~ midnight_sun (cd_lat c) i)).
Proof.
  intros L Lt U Hlat Hd H. destruct (run_cell_inv _ _ _ _ _ H) as (g & dl & po & tt_ & df & G & D & P & T & M & Sub & _).
  destruct (Sub Lt) as (a & b & _ & _ & X). clear Sub. destruct (method_keeps _ _ _ _ M) as (Doy & Kd & _).
  assert (DL : dict_get (dl_cols df) "daylength" = Some dl) by (apply Kd; rewrite sun_get; reflexivity). clear Kd.
  change (dl_doy (with_sun (cd_daily c) dl po tt_)) with (dl_doy (cd_daily c)) in Doy.
  assert (L' : legal_time_step (p_time_step (located prm c))) by exact L.
  destruct (disaggregate_shortwave df (located prm c) _ _ _ _ L' X) as (sw & dayl & v & S1 & S2 & Ls & Ld & Sh & Ov). rewrite Doy in *.
  destruct (geom_rows _ _ _ _ Hlat G) as (Lg & Full & _). pose proof (days_in_table _ _ Hd Lg) as Ex.
  destruct (shortwave_day sw dayl (dl_doy (cd_daily c)) (tiny_rad_fract g) (da_prm (located prm c)) L' U) as (v' & E' & Lv & Mean); auto; try congruence.
  assert (v' = v) by (rewrite Sh in E'; now apply Ok_inj in E'). subst v'. clear E'.
  exists g, dl, po, tt_, df, sw, (fill_gaps v). split; [tauto|]. split; [exact S1|]. split; [exact Ls|]. split; [exact Ov|].
  split; [rewrite fill_gaps_length; exact Lv|]. intros d S k HS Hk. cbv zeta.
  assert (K : (1 <= k <= 366)%nat) by (apply Hd; eapply nth_error_In; eauto).
  destruct (tables _ _ _ _ G) as [Tab _]. destruct (Tab k K) as (o & O & Row & Dlk & _ & _).
  destruct (day_facts _ _ _ _ Hlat _ O) as (Od & _ & _ & _ & _ & _ & Op & On).
  assert (Dl : nth_error dayl d = Some (Some (light prm (cd_lat c) (Nat.min (k - 1) 364)))).
  { unfold light. unfold da_df in S2. change (p_method (located prm c)) with (p_method prm) in S2.
    change (p_sw_averaging (located prm c)) with (p_sw_averaging prm) in S2. fold (whole_day prm) in S2. rewrite Doy in S2.
    destruct (whole_day prm).
    - rewrite get_set_col in S2. cbn [String.eqb Ascii.eqb Bool.eqb] in S2. apply Some_inj in S2. subst dayl.
      assert (d < List.length (dl_doy (cd_daily c)))%nat by (apply nth_error_Some; congruence).
      rewrite nth_error_repeat by auto. do 2 f_equal. lra.
    - assert (dayl = dl) by congruence. subst dayl. pose proof (by_yday_nth _ _ _ _ _ _ D Hk Dlk) as Q. rewrite Od in Q. exact Q. }
  destruct (Mean d S _ k (sd_row o) HS Dl Hk Row) as [Mn _]. exists (total (sd_row o)).
  change (p_time_step (da_prm (located prm c))) with (p_time_step prm) in Mn.
  split; [rewrite (fill_day _ _ _ _ Mn); exact Mn|].
  split.
  - intros N. destruct (Op N) as [-> _]. apply total_zeros.
  - intros N. destruct (On N) as (_ & _ & _ & Q). tauto.
Qed.

(** ** daily runs *)
Theorem daily_value fuel prm c out prm' :
  (1440 <= p_time_step prm)%Z -> -90 <= cd_lat c <= 90 -> days_valid (dl_doy (cd_daily c)) ->
  run_cell fuel prm c = Some (Ok out, prm') ->
  exists g dl po tt_ df sw v,
    (solar_geom (cd_elev c) (cd_lat c) (p_lapse_rate prm) = Ok g /\
     by_yday (sg_daylengths g) (dl_doy (cd_daily c)) = Ok dl /\ by_yday (flat_potrad g) (dl_doy (cd_daily c)) = Ok po /\
     by_yday (tt_max0 g) (dl_doy (cd_daily c)) = Ok tt_ /\
     run_method fuel (with_sun (cd_daily c) dl po tt_) (located prm c) = Some (Ok df)) /\
    dict_get (dl_cols df) "shortwave" = Some sw /\ List.length sw = List.length (dl_doy (cd_daily c)) /\
    dict_get out "shortwave" = Some v /\ List.length v = List.length sw /\
    (forall d, nth_error sw d = Some None -> nth_error v d = Some None) /\
    forall d S k, nth_error sw d = Some (Some S) -> nth_error (dl_doy (cd_daily c)) d = Some k ->
      nth_error v d = Some (Some (S * (sg_daylength (cd_lat c) (Nat.min (k - 1) 364) / 86400))).
Proof.
  intros Lt Hlat Hd H. destruct (run_cell_inv _ _ _ _ _ H) as (g & dl & po & tt_ & df & G & D & P & T & M & _ & Day).
  destruct (Day Lt) as (sw & d' & v & S1 & S2 & Z & ->). clear Day. destruct (method_keeps _ _ _ _ M) as (Doy & Kd & _).
  assert (DL : dict_get (dl_cols df) "daylength" = Some dl) by (apply Kd; rewrite sun_get; reflexivity). clear Kd.
  apply col_get in S1, S2. assert (d' = dl) by congruence. subst d'.
  unfold zipw in Z. destruct (Nat.eqb_spec (List.length sw) (List.length dl)) as [Ls|]; [|discriminate]. apply Ok_inj in Z. subst v.
  assert (Ld : List.length dl = List.length (dl_doy (cd_daily c))) by (apply mapM_length in D; exact D).
  exists g, dl, po, tt_, df, sw. eexists. split; [tauto|]. split; [exact S1|]. split; [unfold fl in *; lia|].
  split; [rewrite get_set_col; reflexivity|]. split; [now apply ShortwaveProofs.map2_length|].
  split. { intros d HN. destruct (nth_error dl d) as [y|] eqn:Ey; [now rewrite (nth_map2 _ _ _ _ _ _ HN Ey)|].
    apply nth_error_None in Ey. assert (d < List.length sw)%nat by (apply nth_error_Some; unfold fl in *; congruence). unfold fl in *. lia. }
  intros d S k HS Hk. assert (K : (1 <= k <= 366)%nat) by (apply Hd; eapply nth_error_In; eauto).
  destruct (tables _ _ _ _ G) as [Tab _]. destruct (Tab k K) as (o & O & _ & Dlk & _ & _).
  destruct (day_facts _ _ _ _ Hlat _ O) as (Od & _). pose proof (by_yday_nth _ _ _ _ _ _ D Hk Dlk) as Q. rewrite Od in Q.
  rewrite (nth_map2 _ _ _ _ _ _ HS Q). unfold SEC_PER_DAY. rewrite fdiv_some by lra. reflexivity.
Qed.

Lemma midnight_light lat i : midnight_sun lat i -> ~ polar_night lat i.
Proof. unfold midnight_sun, polar_night. intros H N. specialize (N PI). lra. Qed.

Lemma polar_dec lat i : -90 <= lat <= 90 -> polar_night lat i \/ ~ polar_night lat i.
Proof.
  intros H. destruct (Req_dec (sg_daylength lat i) 0) as [E|E]; [left; now apply polar_night_zero|right].
  intros N. now apply E, polar_night_zero.
Qed.

(** C46 *)
Theorem pass_sub_daily fuel prm c out prm' sw :
  legal_time_step (p_time_step prm) -> (p_time_step prm < 1440)%Z -> p_utc_offset prm = false ->
  p_method prm = "passthrough" -> p_sw_averaging prm <> "daylight" ->
  -90 <= cd_lat c <= 90 -> days_valid (dl_doy (cd_daily c)) ->
  dict_get (dl_cols (cd_daily c)) "shortwave" = Some sw -> run_cell fuel prm c = Some (Ok out, prm') ->
  exists v, dict_get out "shortwave" = Some v /\ List.length v = (List.length sw * steps (p_time_step prm))%nat /\
  forall d S k, nth_error sw d = Some (Some S) -> nth_error (dl_doy (cd_daily c)) d = Some k ->
    let i := Nat.min (k - 1) 364 in let mean := fmean (day_part (steps (p_time_step prm)) d v) in
    (polar_night (cd_lat c) i -> mean = Some 0) /\
    (~ polar_night (cd_lat c) i -> ~ midnight_sun (cd_lat c) i -> mean = Some S) /\
    (midnight_sun (cd_lat c) i -> exists T, 0 < T < 1 /\ mean = Some (S * T)).
Proof.
  intros L Lt U P A Hlat Hd Hs H. destruct (sub_daily_mean _ _ _ _ _ L Lt U Hlat Hd H) as (g & dl & po & tt_ & df & sw' & v & (_ & _ & _ & _ & M) & S1 & _ & O & Lv & Mean).
  destruct (method_keeps _ _ _ _ M) as (_ & _ & K).
  assert (sw' = sw).
  { specialize (K P "shortwave" sw). rewrite sun_get in K. cbn [String.eqb Ascii.eqb Bool.eqb] in K. rewrite (K Hs) in S1. now apply Some_inj in S1. }
  subst sw'. exists v. split; [exact O|]. split; [exact Lv|]. intros d S k HS Hk. cbv zeta. destruct (Mean d S k HS Hk) as (T & Mn & Tp & Tn).
  assert (W : light prm (cd_lat c) (Nat.min (k - 1) 364) / 86400 = 1).
  { unfold light, whole_day. rewrite P. destruct (String.eqb_spec (p_sw_averaging prm) "daylight"); [contradiction|]. cbn [String.eqb Ascii.eqb Bool.eqb andb negb]. field. }
  rewrite W, Rmult_1_r in Mn. split; [|split].
  - intros N. rewrite Mn, (Tp N). f_equal. lra.
  - intros N1 N2. destruct (Tn N1) as [_ [_ Q]]. rewrite Mn, (Q N2). f_equal. lra.
  - intros N. destruct (Tn (midnight_light _ _ N)) as [R1 [Q _]]. exists T. split; [|exact Mn]. destruct (Req_dec T 1) as [E|E]; [now apply Q in E|lra].
Qed.

Theorem pass_daily fuel prm c out prm' sw :
  (1440 <= p_time_step prm)%Z -> p_method prm = "passthrough" ->
  -90 <= cd_lat c <= 90 -> days_valid (dl_doy (cd_daily c)) ->
  dict_get (dl_cols (cd_daily c)) "shortwave" = Some sw -> run_cell fuel prm c = Some (Ok out, prm') ->
  exists v, dict_get out "shortwave" = Some v /\ List.length v = List.length sw /\
  forall d S k, nth_error sw d = Some (Some S) -> nth_error (dl_doy (cd_daily c)) d = Some k ->
    nth_error v d = Some (Some (S * (sg_daylength (cd_lat c) (Nat.min (k - 1) 364) / 86400))).
Proof.
  intros Lt P Hlat Hd Hs H. destruct (daily_value _ _ _ _ _ Lt Hlat Hd H) as (g & dl & po & tt_ & df & sw' & v & (_ & _ & _ & _ & M) & S1 & _ & O & Lv & _ & V).
  destruct (method_keeps _ _ _ _ M) as (_ & _ & K).
  assert (sw' = sw).
  { specialize (K P "shortwave" sw). rewrite sun_get in K. cbn [String.eqb Ascii.eqb Bool.eqb] in K. rewrite (K Hs) in S1. now apply Some_inj in S1. }
  subst sw'. exists v. auto.
Qed.

(** C47 *)
Theorem daily_agrees fuel prm c out1 p1 out2 p2 :
  legal_time_step (p_time_step prm) -> (p_time_step prm < 1440)%Z -> p_utc_offset prm = false -> p_method prm = "mtclim" ->
  -90 <= cd_lat c <= 90 -> days_valid (dl_doy (cd_daily c)) ->
  run_cell fuel prm c = Some (Ok out1, p1) -> run_cell fuel (with_step 1440 prm) c = Some (Ok out2, p2) ->
  exists v1 v2, dict_get out1 "shortwave" = Some v1 /\ dict_get out2 "shortwave" = Some v2 /\
  List.length v2 = List.length (dl_doy (cd_daily c)) /\ List.length v1 = (List.length v2 * steps (p_time_step prm))%nat /\
  forall d x k, nth_error v2 d = Some (Some x) -> nth_error (dl_doy (cd_daily c)) d = Some k ->
    let i := Nat.min (k - 1) 364 in let mean := fmean (day_part (steps (p_time_step prm)) d v1) in
    (~ midnight_sun (cd_lat c) i -> mean = Some x) /\
    (midnight_sun (cd_lat c) i -> exists T, 0 < T < 1 /\ mean = Some (x * T)).
Proof.
  intros L Lt U P Hlat Hd H1 H2.
  destruct (sub_daily_mean _ _ _ _ _ L Lt U Hlat Hd H1) as (g & dl & po & tt_ & df & sw & v1 & (G & D & Po & Tt & M) & S1 & Ls & O1 & L1 & Mean).
  assert (T24 : (1440 <= p_time_step (with_step 1440 prm))%Z) by (cbn [with_step p_time_step]; lia).
  destruct (daily_value _ _ _ _ _ T24 Hlat Hd H2) as (g' & dl' & po' & tt' & df' & sw' & v2 & (G' & D' & Po' & Tt' & M') & S2 & Ls' & O2 & L2 & VN & V).
  change (p_lapse_rate (with_step 1440 prm)) with (p_lapse_rate prm) in G'. rewrite G in G'. apply Ok_inj in G'. subst g'.
  rewrite D in D'. apply Ok_inj in D'. subst dl'. rewrite Po in Po'. apply Ok_inj in Po'. subst po'. rewrite Tt in Tt'. apply Ok_inj in Tt'. subst tt'.
  change (located (with_step 1440 prm) c) with (with_step 1440 (located prm c)) in M'. rewrite method_step, M in M'.
  assert (df = df') by congruence. subst df'. clear M'. rewrite S1 in S2. apply Some_inj in S2. subst sw'.
  exists v1, v2. split; [exact O1|]. split; [exact O2|]. split; [unfold fl in *; lia|]. split; [unfold fl in *; rewrite L2; exact L1|].
  intros d x k Hx Hk. cbv zeta. assert (Dn : (d < List.length sw)%nat).
  { rewrite <- L2. apply nth_error_Some. unfold fl in *. congruence. }
  destruct (nth_error sw d) as [s|] eqn:E; [|apply nth_error_None in E; unfold fl in *; lia].
  destruct s as [S|].
  - specialize (V d S k E Hk). rewrite Hx in V. apply Some_inj in V. apply Some_inj in V. destruct (Mean d S k E Hk) as (T & Mn & Tp & Tn).
    assert (W : light prm (cd_lat c) (Nat.min (k - 1) 364) = sg_daylength (cd_lat c) (Nat.min (k - 1) 364)) by (unfold light, whole_day; now rewrite P).
    rewrite W, <- V in Mn. split.
    + intros N. rewrite Mn. f_equal. destruct (polar_dec (cd_lat c) (Nat.min (k - 1) 364) Hlat) as [Q|Q].
      * rewrite (Tp Q), V. apply polar_night_zero in Q; [|exact Hlat]. rewrite Q. lra.
      * destruct (Tn Q) as [_ [_ Q1]]. rewrite (Q1 N). lra.
    + intros N. destruct (Tn (midnight_light _ _ N)) as [R1 [Q _]]. exists T. split; [|exact Mn]. destruct (Req_dec T 1) as [E1|E1]; [now apply Q in E1|lra].
  - exfalso. apply VN in E. unfold fl in *. congruence.
Qed.
