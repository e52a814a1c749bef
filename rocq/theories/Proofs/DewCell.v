(** Cells run with the mtclim method. *)
From Coq Require Import ZArith Reals String List Bool Arith Lia Lra Psatz.
From Verif Require Import Model.Py Model.Fl Model.Np Model.Constants Model.Params Model.Physics Model.Disagg Model.Mtclim Model.Cell
  Spec.TimeSpec Spec.SeriesSpec Spec.ShortSpec Spec.SolarSpec Spec.TempSpec Spec.FrameSpec Spec.DailySpec Spec.DewSpec Spec.CellSpec
  Proofs.Base Proofs.RBase Proofs.ArrayProofs Proofs.PrecProofs Proofs.DisaggProofs Proofs.ShortwaveProofs Proofs.SolarProofs Proofs.SolarTables Proofs.TempProofs
  Proofs.GlobalsProofs Proofs.PassProofs Proofs.FrameProofs Proofs.VaporProofs Proofs.UtcProofs Proofs.SvpProofs Proofs.MtclimProofs Proofs.CellProofs Proofs.CellTotal Proofs.SolarExamples
  Proofs.PiBounds Proofs.EnergyProofs Proofs.DewMap Proofs.DewProofs Proofs.CellBody.
Import ListNotations.
Local Open Scope string_scope.
Local Open Scope list_scope.
Local Open Scope R_scope.

(** ** bound on the potential radiation of a day, in J/m2 *)
Lemma day_energy elev lat lr i o : -90 <= lat <= 90 -> sg_day elev lat lr i = Ok o -> sd_potrad o * sd_daylength o <= 5.14e7.
Proof.
  intros Hl E. pose proof (daylength_range lat i) as DR. destruct (day_cases lat i) as [Z|[Z|Z]].
  - destruct (day_facts elev lat lr i Hl o E) as (D & _). rewrite D, Z. lra.
  - rewrite day_short in E by auto. discriminate.
  - destruct (day_long lat i Z) as [Hp H2]. pose proof (flat_pos lat i Hl Hp H2) as FP.
    destruct (day_loop elev lat lr i) as (b & Eb & F & _). unfold sg_day in E. rewrite Eb in E. cbn [bind] in E. rewrite F in E. rewrite !Reqb_not in E by lra.
    cbn [negb] in E. apply Ok_inj in E. subst o. cbn [sd_potrad sd_daylength].
    replace (flat lat i / sg_daylength lat i * sg_daylength lat i) with (flat lat i) by (field; lra).
    now apply flat_top.
Qed.

(** ** PET of a physical day *)
Lemma pet_top prm top rad ta dayl p : 0 <= rad -> 0 <= dayl -> top < 1029 -> -237.1 < ta <= top -> p_lapse_rate prm <> 0 -> p_lapse_rate prm * p_elev prm < T_STD ->
  pet1 prm (Some rad) (Some ta) (Some dayl) = Some p -> p <= 0.9072 * (rad * dayl) / lhv top.
Proof.
  intros R0 D0 T0 T L H E. unfold pet1 in E. destruct (atm_pres_pos _ _ L H) as (pa & Ea & Pa). rewrite Ea in E.
  destruct (calc_pet_spec rad ta dayl pa R0 D0 ltac:(lra) Pa) as (q & Eq & _ & _ & c & C & Q). rewrite Eq in E. cbn [fmul flift2] in E.
  apply Some_inj in E. subst p. unfold MM_PER_CM. assert (V : 0 < lhv top <= lhv ta) by (unfold lhv; lra).
  set (x := rad * dayl). assert (X : 0 <= x) by (apply Rmult_le_pos; auto).
  assert (E : q * 10.0 = c * (0.9072 * x / lhv ta)) by (rewrite Q; unfold x, Rdiv; lra). rewrite E.
  assert (A : 0 <= 0.9072 * x / lhv ta <= 0.9072 * x / lhv top).
  { split; [apply Rmult_le_pos; [lra|left; apply Rinv_0_lt_compat; lra]|]. apply Rmult_le_compat_l; [lra|]. apply Rinv_le_contravar; lra. }
  set (y := 0.9072 * x / lhv ta) in *. nra.
Qed.

(** ** the daily frame of a cell *)
Lemma numbers_sun df dl po tt_ k v : k <> "daylength" -> k <> "potrad" -> k <> "tt_max" -> has_col df k v -> has_col (with_sun df dl po tt_) k v.
Proof.
  intros N1 N2 N3 [Q L]. split; [|exact L]. rewrite sun_get.
  destruct (String.eqb_spec k "tt_max"); [contradiction|]. destruct (String.eqb_spec k "potrad"); [contradiction|].
  destruct (String.eqb_spec k "daylength"); [contradiction|]. exact Q.
Qed.

Lemma sun_reals tab doy v : days_valid doy -> List.length tab = 366%nat -> List.length v = List.length doy ->
  (forall d k, nth_error doy d = Some k -> nth_error v d = Some (nth_error tab (k - 1))) ->
  exists r, v = map Some r /\ List.length r = List.length doy /\
  forall d k x, nth_error doy d = Some k -> nth_error tab (k - 1) = Some x -> nth d r 0 = x.
Proof.
  intros V T. revert v. induction doy as [|k doy IH]; intros [|y v] L H; try discriminate L.
  - exists []. split; [reflexivity|]. split; [reflexivity|]. intros [|d] ? ?; discriminate.
  - destruct (IH ltac:(intros x X; apply V; now right) v ltac:(cbn in L; lia) ltac:(intros d; exact (H (S d)))) as (r & -> & Lr & Hr).
    specialize (H 0%nat k eq_refl). cbn [nth_error] in H. apply Some_inj in H.
    specialize (V k (or_introl eq_refl)). destruct (nth_error tab (k - 1)) as [x|] eqn:N; [|apply nth_error_None in N; lia].
    exists (x :: r). split; [rewrite H; reflexivity|]. split; [cbn; lia|]. intros [|d] k' x'; cbn [nth_error nth].
    + intros Q X. apply Some_inj in Q. subst k'. congruence.
    + apply Hr.
Qed.

Theorem mild_physical prm df g elev lat lr : physical_place prm -> complete df "prec" -> mild df -> days_valid (dl_doy df) ->
  -90 <= lat <= 90 -> solar_geom elev lat lr = Ok g -> sunlit g df -> physical prm df (List.length (dl_doy df)).
Proof.
  intros PP Pr (tn & tx & dtr & sm & sp & H1 & H2 & H3 & H4 & H5 & M) V Hl G Sun.
  destruct (tables _ _ _ _ G) as (Tb & _ & T1 & T2 & T3).
  destruct (Sun "daylength" _ ltac:(mem)) as (v1 & [C1 L1] & Q1). destruct (Sun "potrad" _ ltac:(mem)) as (v2 & [C2 L2] & Q2). destruct (Sun "tt_max" _ ltac:(mem)) as (v3 & [C3 L3] & Q3).
  destruct (sun_reals _ _ v1 V T1 L1 Q1) as (dl' & -> & Ld & Dn). destruct (sun_reals _ _ v2 V T2 L2 Q2) as (po' & -> & Lp & Pn). destruct (sun_reals _ _ v3 V T3 L3 Q3) as (tt' & -> & Lt & Tn).
  split; [exact PP|]. split; [reflexivity|]. split; [exact Pr|].
  exists tn, tx, dtr, sm, tt', po', dl', sp.
  split; [exact H1|]. split; [exact H2|]. split; [exact H3|]. split; [exact H4|].
  split; [exact (conj C3 L3)|]. split; [exact (conj C2 L2)|]. split; [exact (conj C1 L1)|]. split; [exact H5|].
  intros d Hd. destruct (nth_error (dl_doy df) d) as [k|] eqn:K; [|apply nth_error_None in K; lia].
  assert (K366 : (1 <= k <= 366)%nat) by (apply V; eapply nth_error_In; exact K).
  destruct (Tb k K366) as (o & O & _ & E1 & E2 & E3).
  rewrite (Dn d k _ K E1), (Pn d k _ K E2), (Tn d k _ K E3).
  destruct (day_facts _ _ _ _ Hl _ O) as (_ & F1 & _ & F2 & _ & _ & F3 & F4). pose proof (day_energy _ _ _ _ _ Hl O) as En.
  destruct (M d Hd) as [M1 M2 M3]. constructor; auto.
  - split; lra.
  - destruct (Classical_Prop.classic (polar_night lat (table_row k))) as [Y|Y]; [destruct (F3 Y) as (_ & _ & ->); lra|destruct (F4 Y) as (_ & ? & _); lra].
  - lra.
  - intros tday p Td Pt. destruct (t_day_some prm (nth d tn 0) (nth d tx 0)) as (ta & Ta & Tr). specialize (Tr ltac:(lra) (pp_coef _ PP)).
    rewrite Ta in Td. apply Some_inj in Td. subst ta.
    pose proof (pet_top prm 60 (sd_potrad o) tday (sd_daylength o) p F2 ltac:(lra) ltac:(lra) ltac:(split; lra) (pp_lapse _ PP) (pp_elev _ PP) Pt) as B.
    assert (0.9072 * (sd_potrad o * sd_daylength o) / lhv 60 <= 20) by (unfold lhv; lra).
    pose proof (Rmax_l 80 (nth d sp 0)). lra.
Qed.

Lemma with_sun_lit df g dl po tt_ : days_valid (dl_doy df) -> List.length (sg_daylengths g) = 366%nat -> List.length (flat_potrad g) = 366%nat -> List.length (tt_max0 g) = 366%nat ->
  by_yday (sg_daylengths g) (dl_doy df) = Ok dl -> by_yday (flat_potrad g) (dl_doy df) = Ok po -> by_yday (tt_max0 g) (dl_doy df) = Ok tt_ ->
  sunlit g (with_sun df dl po tt_).
Proof.
  intros V L1 L2 L3 D P T name table I.
  assert (X : forall tab v, by_yday tab (dl_doy df) = Ok v -> List.length tab = 366%nat ->
    List.length v = List.length (dl_doy df) /\ forall d k, nth_error (dl_doy df) d = Some k -> nth_error v d = Some (nth_error tab (k - 1))).
  { intros tab v E L. split; [exact (mapM_length _ _ _ E)|]. intros d k K. pose proof (V k ltac:(eapply nth_error_In; exact K)).
    destruct (nth_error tab (k - 1)) as [x|] eqn:N; [|apply nth_error_None in N; lia]. now apply (by_yday_nth tab (dl_doy df) v d k x). }
  destruct I as [I|[I|[I|[]]]]; injection I as <- <-.
  - exists dl. destruct (X _ _ D L1) as [A B]. split; [split; [rewrite sun_get; reflexivity|exact A]|exact B].
  - exists po. destruct (X _ _ P L2) as [A B]. split; [split; [rewrite sun_get; reflexivity|exact A]|exact B].
  - exists tt_. destruct (X _ _ T L3) as [A B]. split; [split; [rewrite sun_get; reflexivity|exact A]|exact B].
Qed.

Lemma mild_sun df dl po tt_ : mild df -> mild (with_sun df dl po tt_).
Proof.
  intros (tn & tx & dtr & sm & sp & H1 & H2 & H3 & H4 & H5 & M). exists tn, tx, dtr, sm, sp.
  split; [apply numbers_sun; discriminate || exact H1|]. split; [apply numbers_sun; discriminate || exact H2|].
  split; [apply numbers_sun; discriminate || exact H3|]. split; [apply numbers_sun; discriminate || exact H4|].
  split; [apply numbers_sun; discriminate || exact H5|]. exact M.
Qed.

(** ** C42 under the sun *)
Theorem sunlit_terminates prm df g elev lat lr : physical_place prm -> complete df "prec" -> mild df -> days_valid (dl_doy df) ->
  -90 <= lat <= 90 -> solar_geom elev lat lr = Ok g -> sunlit g df -> 0 < p_tdew_tol prm ->
  exists N, forall fuel, (fuel >= N)%nat -> exists df', mtclim_run fuel df prm = Some (Ok df').
Proof. intros PP Pr M V Hl G S. exact (dew_terminates prm df _ (mild_physical prm df g elev lat lr PP Pr M V Hl G S)). Qed.
Theorem sunlit_diverges prm df g elev lat lr : physical_place prm -> complete df "prec" -> mild df -> days_valid (dl_doy df) -> dl_doy df <> [] ->
  -90 <= lat <= 90 -> solar_geom elev lat lr = Ok g -> sunlit g df -> p_tdew_tol prm < 0 ->
  forall fuel, mtclim_run fuel df prm = None.
Proof.
  intros PP Pr M V N Hl G S. apply (dew_diverges prm df _ (mild_physical prm df g elev lat lr PP Pr M V Hl G S)).
  destruct (dl_doy df); [congruence|cbn; lia].
Qed.

Lemma mk_days_length : forall n a b c d e f g h, List.length a = n -> List.length b = n -> List.length c = n -> List.length d = n -> List.length e = n ->
  List.length f = n -> List.length g = n -> List.length h = n -> List.length (mk_days a b c d e f g h) = n.
Proof.
  induction n as [|n IH]; intros [|y1 a] [|y2 b] [|y3 c] [|y4 d] [|y5 e] [|y6 f] [|y7 g] [|y8 h]; cbn [List.length mk_days]; intros; try discriminate; auto.
Qed.
Lemma iterate_length prm days n t0 : List.length days = n -> List.length t0 = n -> forall k, List.length (iterate prm days k t0) = n.
Proof.
  intros L1 L2. induction k as [|k IH]; [exact L2|]. change (iterate prm days (S k) t0) with (tdew_update prm days (iterate prm days k t0)). unfold tdew_update. now apply map2_len.
Qed.

(** the frame that mtclim leaves *)
Lemma dew_good_frame fuel prm df n df' : physical prm df n -> (0 < n)%nat -> if_present df "wind" -> if_present df "longwave" ->
  (In (upper (p_prec_type prm)) ["TRIANGLE"; "MIX"] -> complete df "t_pk" /\ complete df "dur") ->
  mtclim_run fuel df prm = Some (Ok df') -> dl_doy df' = dl_doy df /\ good_frame df' prm.
Proof.
  intros (PP & Ln & (pr & Pr & Lp) & tn & tx & dtr & sm & tt & pot & dl & sp & [H1 L1] & [H2 L2] & [H3 L3] & [H4 L4] & [H6 L6] & [H7 L7] & [H8 L8] & [H9 L9] & Ph) Pos Wi Lo Sh R.
  rewrite (mtclim_eq fuel df prm _ _ _ _ _ _ _ _ _ H1 H2 H3 H4 Pr H6 H7 H8 H9) in R. cbv zeta in R.
  set (days := dew_days prm (map Some tn) (map Some tx) (map Some dtr) (map Some sm) pr (map Some tt) (map Some pot) (map Some dl) (map Some sp)) in *.
  destruct (tdew_loop _ _ _ _ _) as [td|] eqn:Lp'; [|discriminate]. apply Some_inj in R. apply Ok_inj in R.
  destruct (loop_inv prm days (map Some tn) fuel 0 td Lp') as (k & _ & Td & _).
  rewrite Ln in *.
  assert (Lf : List.length (map3 (tfmax1 prm) (map Some dtr) (map Some sm) pr) = n) by (apply map3_length; assumption).
  assert (Ldays : List.length days = n) by (apply mk_days_length; auto; now apply map2_len).
  assert (Ltd : List.length td = n) by (rewrite Td; now apply iterate_length).
  assert (Doy : dl_doy df' = dl_doy df) by (subst df'; reflexivity). split; [exact Doy|].
  assert (Old : forall j, ~ In j ["t_day"; "tfmax"; "tskc"; "tdew"; "vapor_pressure"; "shortwave"; "pet"] -> dict_get (dl_cols df') j = dict_get (dl_cols df) j).
  { intros j N. subst df'. unfold dew_out, dew_frame. cbv zeta. rewrite !get_set_col.
    destruct (String.eqb_spec j "pet") as [->|_]; [exfalso; apply N; mem|]. destruct (String.eqb_spec j "shortwave") as [->|_]; [exfalso; apply N; mem|].
    destruct (String.eqb_spec j "vapor_pressure") as [->|_]; [exfalso; apply N; mem|]. destruct (String.eqb_spec j "tdew") as [->|_]; [exfalso; apply N; mem|].
    destruct (String.eqb_spec j "tskc") as [->|_]; [exfalso; apply N; mem|]. destruct (String.eqb_spec j "tfmax") as [->|_]; [exfalso; apply N; mem|].
    destruct (String.eqb_spec j "t_day") as [->|_]; [exfalso; apply N; mem|]. reflexivity. }
  assert (NI : forall j, In j ["daylength"; "t_min"; "t_max"; "prec"; "wind"; "longwave"; "t_pk"; "dur"] ->
     ~ In j ["t_day"; "tfmax"; "tskc"; "tdew"; "vapor_pressure"; "shortwave"; "pet"]).
  { clear. intros j I Q. cbn [In] in Q. repeat (destruct I as [<-|I]; [repeat (destruct Q as [Q|Q]; [discriminate Q|]); exact Q|]). destruct I. }
  assert (Kp : forall j v, In j ["daylength"; "t_min"; "t_max"; "prec"; "wind"; "longwave"; "t_pk"; "dur"] -> has_col df j v -> has_col df' j v).
  { intros j v I [Q L]. split; [rewrite Old; [exact Q|now apply NI]|now rewrite Doy]. }
  assert (New : forall j v, dict_get (dl_cols df') j = Some v -> List.length v = n -> complete df' j).
  { intros j v Q L. exists v. split; [exact Q|]. rewrite Doy. congruence. }
  constructor.
  - rewrite Doy. intros Q. rewrite Q in Ln. cbn in Ln. lia.
  - eapply New; [subst df'; unfold dew_out; cbv zeta; rewrite !get_set_col; reflexivity|].
    apply map2_len; [apply map3_length|]; auto. now rewrite map_length.
  - exists (map Some dl). apply Kp; [mem|]. split; [exact H8|congruence].
  - exists tn. apply Kp; [mem|]. split; [exact H1|congruence].
  - exists tx. apply Kp; [mem|]. split; [exact H2|congruence].
  - eapply New; [subst df'; unfold dew_out; cbv zeta; rewrite !get_set_col; reflexivity|]. now rewrite map_length.
  - eapply New; [subst df'; unfold dew_out, dew_frame; cbv zeta; rewrite !get_set_col; reflexivity|]. now rewrite map_length.
  - exists pr. apply Kp; [mem|]. split; [exact Pr|congruence].
  - intros v Q. rewrite Old in Q by (apply NI; mem). rewrite Doy. now apply Wi.
  - intros v Q. rewrite Old in Q by (apply NI; mem). rewrite Doy. now apply Lo.
  - intros I. destruct (Sh I) as [[v A] [w B]]. split; [exists v|exists w]; apply Kp; auto; mem.
Qed.

(** ** the whole cell *)
Section MtclimCell.
Variables (prm : params) (c : cell_data) (g : solar_geom_out) (a b : R).
Hypothesis Mth : p_method prm = "mtclim".
Hypothesis Go : good_options prm.
Hypothesis F : good_forcing (cd_daily c) prm.
Hypothesis PP : physical_place (located prm c).
Hypothesis Mi : mild (cd_daily c).
Hypothesis Hl : -90 <= cd_lat c <= 90.
Hypothesis G : solar_geom (cd_elev c) (cd_lat c) (p_lapse_rate prm) = Ok g.

Lemma cell_physical : exists dl po tt_,
  by_yday (sg_daylengths g) (dl_doy (cd_daily c)) = Ok dl /\ by_yday (flat_potrad g) (dl_doy (cd_daily c)) = Ok po /\
  by_yday (tt_max0 g) (dl_doy (cd_daily c)) = Ok tt_ /\
  physical (located prm c) (with_sun (cd_daily c) dl po tt_) (List.length (dl_doy (cd_daily c))).
Proof.
  destruct (tables _ _ _ _ G) as (_ & _ & Ld & Lp & Lm).
  destruct (by_yday_total (sg_daylengths g) (dl_doy (cd_daily c)) (fc_valid _ _ F) Ld) as [dl D].
  destruct (by_yday_total (flat_potrad g) (dl_doy (cd_daily c)) (fc_valid _ _ F) Lp) as [po P].
  destruct (by_yday_total (tt_max0 g) (dl_doy (cd_daily c)) (fc_valid _ _ F) Lm) as [tt_ T].
  exists dl, po, tt_. split; [exact D|]. split; [exact P|]. split; [exact T|].
  refine (mild_physical (located prm c) (with_sun (cd_daily c) dl po tt_) g _ _ _ PP _ (mild_sun _ _ _ _ Mi) (fc_valid _ _ F) Hl G (with_sun_lit _ _ _ _ _ (fc_valid _ _ F) Ld Lp Lm D P T)).
  destruct (fc_read _ _ F "prec" ltac:(mem)) as [v W]. exists v. apply numbers_sun; discriminate || exact W.
Qed.

Lemma days_pos : (0 < List.length (dl_doy (cd_daily c)))%nat.
Proof. pose proof (fc_days _ _ F). destruct (dl_doy (cd_daily c)); [congruence|cbn; lia]. Qed.

Lemma method_is df : forall fuel, run_method fuel df (located prm c) = mtclim_run fuel df (located prm c).
Proof. intros fuel. unfold run_method. change (p_method (located prm c)) with (p_method prm). rewrite Mth. reflexivity. Qed.

Theorem mtclim_cell_total : last_value (cd_state_tmin c) = Ok (Some a) -> last_value (cd_state_tmax c) = Ok (Some b) -> 0 < p_tdew_tol prm ->
  exists N, forall fuel, (fuel >= N)%nat -> exists out prm', run_cell fuel prm c = Some (Ok out, prm').
Proof.
  intros Sa Sb Tol. destruct cell_physical as (dl & po & tt_ & D & P & T & Ph).
  destruct (dew_terminates _ _ _ Ph Tol) as [N H]. exists N. intros fuel Fu. destruct (H fuel Fu) as [df' R].
  assert (Ip : forall k, In k ["wind"; "longwave"] -> if_present (with_sun (cd_daily c) dl po tt_) k).
  { intros k I v. rewrite sun_get. destruct I as [<-|[<-|[]]]; cbn [String.eqb Ascii.eqb Bool.eqb]; apply (fc_extra _ _ F); mem. }
  assert (Sh : In (upper (p_prec_type (located prm c))) ["TRIANGLE"; "MIX"] ->
     complete (with_sun (cd_daily c) dl po tt_) "t_pk" /\ complete (with_sun (cd_daily c) dl po tt_) "dur").
  { intros I. destruct (fc_shape _ _ F I) as [[v A] [w B]]. split; [exists v|exists w]; apply numbers_sun; discriminate || assumption. }
  destruct (dew_good_frame fuel _ _ _ df' Ph days_pos (Ip "wind" ltac:(mem)) (Ip "longwave" ltac:(mem)) Sh R) as [Doy Gf].
  refine (cell_finish fuel prm c g a b dl po tt_ df' Go (fc_valid _ _ F) Hl G Sa Sb D P T _ Doy Gf).
  rewrite method_is. exact R.
Qed.

Theorem mtclim_cell_hangs : p_tdew_tol prm < 0 -> forall fuel, run_cell fuel prm c = None.
Proof.
  intros Tol fuel. destruct cell_physical as (dl & po & tt_ & D & P & T & Ph).
  pose proof (dew_diverges _ _ _ Ph days_pos Tol fuel) as R.
  rewrite run_cell_eq. cbv zeta. fold (located prm c).
  change (p_elev (located prm c)) with (cd_elev c). change (p_lat (located prm c)) with (cd_lat c).
  change (p_lapse_rate (located prm c)) with (p_lapse_rate prm).
  rewrite G. cbn [bind]. rewrite D. cbn [bind]. rewrite P. cbn [bind]. rewrite T. cbn [bind].
  fold (with_sun (cd_daily c) dl po tt_). rewrite method_is, R. reflexivity.
Qed.
End MtclimCell.

(** ** the cell at the equator *)
Lemma equator_place m ts : physical_place (located (demo_method m ts) equator_cell).
Proof. constructor; cbn; unfold T_STD; lra. Qed.

Lemma equator_mild : mild (cd_daily equator_cell).
Proof.
  exists [10; 12], [20; 25], [10; 13], [11; 12], [400; 410].
  split; [split; reflexivity|]. split; [split; reflexivity|]. split; [split; reflexivity|]. split; [split; reflexivity|]. split; [split; reflexivity|].
  intros [|[|d]] Hd; [constructor; cbn; lra|constructor; cbn; lra|cbn in Hd; lia].
Qed.

Theorem equator_mtclim ts : legal_time_step ts -> exists N, forall fuel, (fuel >= N)%nat ->
  exists out prm', run_cell fuel (demo_method "mtclim" ts) equator_cell = Some (Ok out, prm').
Proof.
  intros L. destruct (equator_ok 0 0.0065) as [g G].
  refine (mtclim_cell_total (demo_method "mtclim" ts) equator_cell g 9 22 eq_refl (demo_options _ _ L) (equator_forcing _ _) (equator_place _ _) equator_mild _ G _ _ _).
  - cbn [cd_lat equator_cell]. lra.
  - reflexivity.
  - reflexivity.
  - cbn [p_tdew_tol demo_method]. lra.
Qed.

Theorem equator_both : exists fuel out1 p1 out2 p2,
  run_cell fuel (demo_method "mtclim" 60) equator_cell = Some (Ok out1, p1) /\
  run_cell fuel (with_step 1440 (demo_method "mtclim" 60)) equator_cell = Some (Ok out2, p2).
Proof.
  destruct (equator_mtclim 60 legal_60) as [N1 H1]. destruct (equator_mtclim 1440 legal_1440) as [N2 H2].
  destruct (H1 (N1 + N2)%nat ltac:(lia)) as (o1 & p1 & E1). destruct (H2 (N1 + N2)%nat ltac:(lia)) as (o2 & p2 & E2).
  exists (N1 + N2)%nat, o1, p1, o2, p2. exact (conj E1 E2).
Qed.

Theorem equator_sunlit : exists g df, solar_geom 0 0 0.0065 = Ok g /\ sunlit g df /\ mild df /\ complete df "prec" /\
  days_valid (dl_doy df) /\ List.length (dl_doy df) = 2%nat.
Proof.
  destruct (equator_ok 0 0.0065) as [g G]. destruct (tables _ _ _ _ G) as (_ & _ & Ld & Lp & Lm).
  pose proof (fc_valid _ _ (equator_forcing "mtclim" 60)) as V.
  destruct (by_yday_total (sg_daylengths g) _ V Ld) as [dl D]. destruct (by_yday_total (flat_potrad g) _ V Lp) as [po P]. destruct (by_yday_total (tt_max0 g) _ V Lm) as [tt_ T].
  exists g, (with_sun (cd_daily equator_cell) dl po tt_). split; [exact G|]. split; [now apply with_sun_lit|]. split; [apply mild_sun, equator_mild|].
  split; [eexists; split; [rewrite sun_get; reflexivity|reflexivity]|]. split; [exact V|reflexivity].
Qed.
