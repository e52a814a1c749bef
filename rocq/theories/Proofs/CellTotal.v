(** Cells that are run without an exception. *)
From Coq Require Import ZArith Reals String List Bool Arith Lia Lra.
From Verif Require Import Model.Py Model.Fl Model.Np Model.Constants Model.Params Model.Physics Model.Disagg Model.Mtclim Model.Cell
  Spec.TimeSpec Spec.SeriesSpec Spec.ShortSpec Spec.SolarSpec Spec.TempSpec Spec.FrameSpec Spec.DailySpec
  Proofs.Base Proofs.ArrayProofs Proofs.PrecProofs Proofs.DisaggProofs Proofs.ShortwaveProofs Proofs.SolarProofs Proofs.SolarTables Proofs.TempProofs
  Proofs.GlobalsProofs Proofs.PassProofs Proofs.FrameProofs Proofs.VaporProofs Proofs.UtcProofs Proofs.CellProofs Proofs.SolarExamples Proofs.PiBounds Spec.CellSpec Proofs.CellBody.
Import ListNotations.
Local Open Scope string_scope.
Local Open Scope list_scope.
Local Open Scope R_scope.

Ltac mem := first [left; reflexivity | right; mem].

Lemma by_yday_total tab doy : days_valid doy -> List.length tab = 366%nat -> exists v, by_yday tab doy = Ok v.
Proof.
  intros H L. unfold by_yday. induction doy as [|k doy IH]; [exists []; reflexivity|].
  destruct IH as [v V]; [intros x X; apply H; now right|]. cbn [mapM].
  destruct (getitem tab (k - 1)) as [x|] eqn:E.
  - cbn [bind]. rewrite V. cbn [bind]. eauto.
  - exfalso. unfold getitem in E. destruct (nth_error tab (k - 1)) eqn:N; [discriminate|]. apply nth_error_None in N.
    specialize (H k (or_introl eq_refl)). lia.
Qed.

Lemma map2_len {A B C} (f : A -> B -> C) : forall a b n, List.length a = n -> List.length b = n -> List.length (map2 f a b) = n.
Proof. intros a b n H1 H2. rewrite ShortwaveProofs.map2_length; congruence. Qed.
Lemma map3_length {A B C D} (f : A -> B -> C -> D) : forall a b c n, List.length a = n -> List.length b = n -> List.length c = n ->
  List.length (map3 f a b c) = n.
Proof. intros. unfold map3. apply map2_len; auto. now apply map2_len. Qed.

Lemma passthrough_adds df prm df' : passthrough_run df prm = Ok df' ->
  forall k, ~ In k ["t_day"; "tfmax"; "tskc"; "pet"; "tdew"; "vapor_pressure"] -> dict_get (dl_cols df') k = dict_get (dl_cols df) k.
Proof.
  unfold passthrough_run. destruct (negb _); [discriminate|]. intros H k N.
  assert (X : forall n f a b, add_missing n f a = Ok b -> k <> n -> dict_get (dl_cols b) k = dict_get (dl_cols a) k).
  { intros n f a b. unfold add_missing. destruct (dict_mem (dl_cols a) n); [intros Q; apply Ok_inj in Q; now subst|].
    destruct (f a); [|discriminate]. cbn [bind]. intros Q Nn. apply Ok_inj in Q. subst b. rewrite get_set_col.
    destruct (String.eqb_spec k n); [contradiction|reflexivity]. }
  do 5 inv_bind H.
  rewrite (X _ _ _ _ H), (X _ _ _ _ E3), (X _ _ _ _ E2), (X _ _ _ _ E1), (X _ _ _ _ E0), (X _ _ _ _ E); [reflexivity|..]; intros ->; apply N; mem.
Qed.

Lemma keeps_complete df df' k : keeps df df' -> complete df k -> complete df' k.
Proof. intros [D K] (v & H & L). exists v. split; [auto|congruence]. Qed.

(** after the daily method *)
Lemma cell_finish fuel prm c g a b dl po tt_ df' : good_options prm -> days_valid (dl_doy (cd_daily c)) ->
  -90 <= cd_lat c <= 90 -> solar_geom (cd_elev c) (cd_lat c) (p_lapse_rate prm) = Ok g ->
  last_value (cd_state_tmin c) = Ok (Some a) -> last_value (cd_state_tmax c) = Ok (Some b) ->
  by_yday (sg_daylengths g) (dl_doy (cd_daily c)) = Ok dl -> by_yday (flat_potrad g) (dl_doy (cd_daily c)) = Ok po ->
  by_yday (tt_max0 g) (dl_doy (cd_daily c)) = Ok tt_ ->
  run_method fuel (with_sun (cd_daily c) dl po tt_) (located prm c) = Some (Ok df') ->
  dl_doy df' = dl_doy (cd_daily c) -> good_frame df' (located prm c) ->
  exists out prm', run_cell fuel prm c = Some (Ok out, prm').
Proof.
  intros Go Vd Hl G Sa Sb D P T Rm Doy Gf. destruct (geom_rows _ _ _ _ Hl G) as (Lt & Full & Us).
  assert (Gt : good_table (dl_doy df') (tiny_rad_fract g)).
  { constructor; auto. rewrite Doy. now apply days_in_table. }
  assert (Go' : good_options (located prm c)) by (destruct Go; constructor; assumption).
  rewrite run_cell_eq. cbv zeta. fold (located prm c).
  change (p_elev (located prm c)) with (cd_elev c). change (p_lat (located prm c)) with (cd_lat c).
  change (p_lapse_rate (located prm c)) with (p_lapse_rate prm). change (p_time_step (located prm c)) with (p_time_step prm).
  rewrite G. cbn [bind]. rewrite D. cbn [bind]. rewrite P. cbn [bind]. rewrite T. cbn [bind].
  fold (with_sun (cd_daily c) dl po tt_). rewrite Rm. destruct (p_time_step prm <? 1440)%Z.
  - rewrite Sa, Sb. cbn [bind finite]. destruct (disaggregate_total df' (located prm c) (tiny_rad_fract g) (Some (a, b)) None Gf Go' Gt) as [out O].
    unfold pair_list in O. cbn [option_map fst snd] in O. exists out, (set_lon (located prm c) (remainder360 (p_lon (located prm c)))). rewrite O. reflexivity.
  - destruct (gf_shortwave _ _ Gf) as (sw & W & Ls). destruct (gf_daylength _ _ Gf) as (d2 & W2 & Ld2). apply col_get in W, W2. rewrite W, W2. cbn [bind].
    unfold zipw. destruct (Nat.eqb_spec (List.length sw) (List.length d2)); [|unfold fl in *; congruence]. cbn [bind]. eauto.
Qed.

(** the whole cell, for the passthrough method *)
Theorem pass_cell_total fuel prm c g a b :
  p_method prm = "passthrough" -> good_options prm -> good_forcing (cd_daily c) prm -> complete (cd_daily c) "shortwave" ->
  -90 <= cd_lat c <= 90 -> solar_geom (cd_elev c) (cd_lat c) (p_lapse_rate prm) = Ok g ->
  last_value (cd_state_tmin c) = Ok (Some a) -> last_value (cd_state_tmax c) = Ok (Some b) ->
  exists out prm', run_cell fuel prm c = Some (Ok out, prm').
Proof.
  intros M Go F Sw Hl G Sa Sb. destruct (geom_rows _ _ _ _ Hl G) as (Lt & Full & Us).
  destruct (tables _ _ _ _ G) as (_ & _ & Ld & Lp & Lm).
  destruct (by_yday_total (sg_daylengths g) (dl_doy (cd_daily c)) (fc_valid _ _ F) Ld) as [dl D].
  destruct (by_yday_total (flat_potrad g) (dl_doy (cd_daily c)) (fc_valid _ _ F) Lp) as [po P].
  destruct (by_yday_total (tt_max0 g) (dl_doy (cd_daily c)) (fc_valid _ _ F) Lm) as [tt_ T].
  pose proof (mapM_length _ _ _ D) as LD.
  set (df := with_sun (cd_daily c) dl po tt_).
  assert (Get : forall k v, k <> "daylength" -> k <> "potrad" -> k <> "tt_max" -> has_col (cd_daily c) k v -> has_col df k v).
  { intros k v N1 N2 N3 [Q L]. split; [|exact L]. unfold df. rewrite sun_get.
    destruct (String.eqb_spec k "tt_max"); [contradiction|]. destruct (String.eqb_spec k "potrad"); [contradiction|].
    destruct (String.eqb_spec k "daylength"); [contradiction|]. exact Q. }
  assert (Cm : forall k, k <> "daylength" -> k <> "potrad" -> k <> "tt_max" -> complete (cd_daily c) k -> complete df k).
  { intros k N1 N2 N3 [v V]. exists v. now apply Get. }
  assert (Dl : has_col df "daylength" dl).
  { split; [unfold df; rewrite sun_get; reflexivity|exact LD]. }
  destruct (fc_tmin _ _ F) as [tn Tn]. destruct (fc_tmax _ _ F) as [tx Tx].
  apply Get in Tn; try discriminate. apply Get in Tx; try discriminate.
  assert (Rd : forall k, In k ["dtr"; "smoothed_dtr"; "prec"; "seasonal_prec"] -> complete df k).
  { intros k I. apply Cm; [| | |apply (fc_read _ _ F _ I)]; intros ->; cbn in I; intuition discriminate. }
  assert (Sw' : complete df "shortwave") by (apply Cm; discriminate || exact Sw).
  assert (Xt : forall k, In k ["t_day"; "tfmax"; "tskc"; "pet"; "tdew"; "vapor_pressure"; "wind"; "longwave"] -> if_present df k).
  { intros k I v. unfold df. rewrite sun_get. destruct (String.eqb_spec k "tt_max"); [subst; cbn in I; intuition discriminate|].
    destruct (String.eqb_spec k "potrad"); [subst; cbn in I; intuition discriminate|].
    destruct (String.eqb_spec k "daylength"); [subst; cbn in I; intuition discriminate|]. apply (fc_extra _ _ F _ I). }
  assert (Cd : complete df "daylength") by (now exists dl).
  assert (Hs : forall k, complete df k -> has df k) by (intros k (v & V & _); now exists v).
  destruct (passthrough_total df (located prm c)) as [df' R].
  { intros k I. apply Hs. cbn in I. destruct I as [<-|[<-|[<-|[<-|[<-|[<-|[<-|[<-|[]]]]]]]]]; auto; try (apply Rd; mem).
    - now exists (map Some tn).
    - now exists (map Some tx). }
  destruct (passthrough_spec _ _ _ R) as (_ & K & R1 & R2 & R3 & R4 & R5 & R6).
  pose proof (proj1 K) as Doy.
  assert (C0 : forall k, complete df k -> complete df' k) by (intros k; now apply keeps_complete).
  assert (Sup : forall k, In k ["t_day"; "tfmax"; "tskc"; "pet"; "tdew"; "vapor_pressure"; "wind"; "longwave"] -> has df k -> complete df' k).
  { intros k I [v V]. apply C0. exists v. split; [auto|]. now apply (Xt k I). }
  assert (One : forall k v, complete df' k -> dict_get (dl_cols df') k = Some v -> List.length v = List.length (dl_doy df')).
  { intros k v (w & W & L) V. unfold fl in *. congruence. }
  assert (X2 : complete df' "tfmax").
  { destruct R2 as [H|(x & y & z & A1 & A2 & A3 & A4)]; [apply Sup; [mem|exact H]|]. eexists. split; [exact A4|].
    apply map3_length; (eapply One; [|eassumption]); apply C0, Rd; mem. }
  assert (Tn' : has_col df' "t_min" (map Some tn)) by (destruct Tn as [Tn Tl]; split; [now apply K|congruence]).
  assert (Tx' : has_col df' "t_max" (map Some tx)) by (destruct Tx as [Tx Tl]; split; [now apply K|congruence]).
  assert (X1 : complete df' "t_day").
  { destruct R1 as [H|(x & y & A1 & A2 & A4)]; [apply Sup; [mem|exact H]|]. eexists. split; [exact A4|].
    apply map2_len; (eapply One; [|eassumption]); [now exists (map Some tn)|now exists (map Some tx)]. }
  assert (X3 : complete df' "tskc").
  { destruct R3 as [H|(x & A1 & A4)]; [apply Sup; [mem|exact H]|]. eexists. split; [exact A4|]. rewrite map_length. eapply One; [|eassumption]; assumption. }
  assert (X4 : complete df' "pet").
  { destruct R4 as [H|(x & y & z & A1 & A2 & A3 & A4)]; [apply Sup; [mem|exact H]|]. eexists. split; [exact A4|].
    apply map3_length; (eapply One; [|eassumption]); auto. }
  assert (X5 : complete df' "tdew").
  { destruct R5 as [H|(x & y & z & w & A1 & A2 & A3 & A5 & A4)]; [apply Sup; [mem|exact H]|]. eexists. split; [exact A4|].
    apply map2_len; [apply map3_length|]; (eapply One; [|eassumption]); auto; try (apply C0, Rd; mem). now exists (map Some tn). }
  assert (X6 : complete df' "vapor_pressure").
  { destruct R6 as [H|(x & A1 & A4)]; [apply Sup; [mem|exact H]|]. eexists. split; [exact A4|]. rewrite map_length. eapply One; [|eassumption]; assumption. }
  assert (Back : forall k, In k ["wind"; "longwave"; "t_pk"; "dur"] -> dict_get (dl_cols df') k = dict_get (dl_cols df) k).
  { intros k I. apply (passthrough_adds _ _ _ R). clear -I. cbn [In] in I. intros Q. cbn [In] in Q.
    destruct I as [<-|[<-|[<-|[<-|[]]]]]; repeat (destruct Q as [Q|Q]; [discriminate Q|]); exact Q. }
  assert (Gf : good_frame df' (located prm c)).
  { constructor.
    - rewrite Doy. exact (fc_days _ _ F).
    - now apply C0.
    - now apply C0.
    - now exists tn.
    - now exists tx.
    - exact X6.
    - exact X3.
    - apply C0, Rd. mem.
    - intros v V. rewrite Back in V by (mem). rewrite Doy. eapply (Xt "wind"); [mem|exact V].
    - intros v V. rewrite Back in V by (mem). rewrite Doy. eapply (Xt "longwave"); [mem|exact V].
    - intros I. destruct (fc_shape _ _ F I) as [A B]. split; apply C0, Cm; discriminate || assumption. }
  exact (cell_finish fuel prm c g a b dl po tt_ df' Go (fc_valid _ _ F) Hl G Sa Sb D P T
    ltac:(unfold run_method; change (p_method (located prm c)) with (p_method prm); rewrite M; cbn [String.eqb Ascii.eqb Bool.eqb]; fold df; now rewrite R) Doy Gf).
Qed.

(** ** a cell at the equator *)

Lemma demo_options m ts : legal_time_step ts -> good_options (demo_method m ts).
Proof. intros L. constructor; [exact L|cbn [demo_method p_tmax_frac]; lra|right;right;right;right;right;right;left;reflexivity|right;right;left;reflexivity]. Qed.

Lemma equator_forcing m ts : good_forcing (cd_daily equator_cell) (demo_method m ts).
Proof.
  constructor.
  - discriminate.
  - intros k [<-|[<-|[]]]; lia.
  - exists [10; 12]. split; reflexivity.
  - exists [20; 25]. split; reflexivity.
  - intros k [<-|[<-|[<-|[<-|[]]]]]; eexists; split; reflexivity.
  - intros k I v V. exfalso. revert V. cbn [In] in I. repeat (destruct I as [<-|I]; [discriminate|]). destruct I.
  - intros I. exfalso. cbn in I. destruct I as [I|[I|[]]]; discriminate I.
Qed.

Theorem equator_runs fuel ts : legal_time_step ts ->
  exists out prm', run_cell fuel (demo_method "passthrough" ts) equator_cell = Some (Ok out, prm').
Proof.
  intros L. destruct (equator_ok 0 0.0065) as [g G].
  refine (pass_cell_total fuel (demo_method "passthrough" ts) equator_cell g 9 22 eq_refl (demo_options _ _ L) (equator_forcing _ _) _ _ G _ _).
  - eexists. split; reflexivity.
  - cbn [cd_lat equator_cell]. lra.
  - reflexivity.
  - reflexivity.
Qed.

Lemma legal_1440 : legal_time_step 1440.
Proof. unfold legal_time_step. split; [lia|]. split; [reflexivity|]. auto. Qed.

Theorem pass_daily_refuted : ~ (forall fuel prm c out prm' sw, legal_time_step (p_time_step prm) -> p_utc_offset prm = false ->
  p_method prm = "passthrough" -> p_sw_averaging prm <> "daylight" -> good_options prm -> good_forcing (cd_daily c) prm ->
  -90 <= cd_lat c <= 90 -> dict_get (dl_cols (cd_daily c)) "shortwave" = Some sw -> run_cell fuel prm c = Some (Ok out, prm') ->
  exists v, dict_get out "shortwave" = Some v /\
  forall d S k, nth_error sw d = Some (Some S) -> nth_error (dl_doy (cd_daily c)) d = Some k ->
    ~ polar_night (cd_lat c) (Nat.min (k - 1) 364) -> ~ midnight_sun (cd_lat c) (Nat.min (k - 1) 364) ->
    fmean (day_part (steps (p_time_step prm)) d v) = Some S).
Proof.
  intros H. destruct (equator_runs 0 1440 legal_1440) as (out & prm' & Rn).
  assert (Hl : -90 <= cd_lat equator_cell <= 90) by (cbn [cd_lat equator_cell]; lra).
  assert (Hd : days_valid (dl_doy (cd_daily equator_cell))) by exact (fc_valid _ _ (equator_forcing "passthrough" 1440)).
  destruct (H 0%nat (demo_method "passthrough" 1440) equator_cell out prm' (map Some [200; 250]) legal_1440 eq_refl eq_refl ltac:(discriminate) (demo_options _ _ legal_1440) (equator_forcing _ _) Hl eq_refl Rn) as (v & V & Q).
  destruct (pass_daily 0 (demo_method "passthrough" 1440) equator_cell out prm' (map Some [200; 250]) ltac:(cbn [demo_method p_time_step]; lia) eq_refl Hl Hd eq_refl Rn) as (v' & V' & Lv & D).
  rewrite V in V'. apply Some_inj in V'. subst v'.
  specialize (D 0%nat 200 1%nat eq_refl eq_refl). specialize (Q 0%nat 200 1%nat eq_refl eq_refl).
  change (cd_lat equator_cell) with 0 in *. set (i := Nat.min (1 - 1) 364) in *.
  pose proof (equator_daylength i) as Dl.
  assert (N1 : ~ polar_night 0 i). { intros N. apply polar_night_zero in N; lra. }
  assert (N2 : ~ midnight_sun 0 i).
  { unfold midnight_sun, sun. rewrite cos_PI, !Rmult_0_l, sin_0, cos_0. pose proof (decl_bounds i).
    assert (0 <= cos (sg_decl i)) by (apply cos_ge_0; pose proof PI_lower; lra). lra. }
  specialize (Q N1 N2). change (steps (p_time_step (demo_method "passthrough" 1440))) with 1%nat in Q.
  destruct v as [|x v]; [discriminate D|]. cbn [nth_error] in D. apply Some_inj in D. subst x.
  unfold day_part in Q. cbn [Nat.mul skipn firstn] in Q. set (w := 200 * (sg_daylength 0 i / 86400)) in *.
  change (fmean (map Some [w]) = Some 200) in Q. rewrite fmean_some in Q by discriminate. apply Some_inj in Q.
  unfold total in Q. cbn [fold_right List.length INR] in Q. unfold w in Q. lra.
Qed.
