(** A worker with acceptable inputs finishes: C88. *)
From Coq Require Import ZArith Reals String List Bool Arith Lia Lra.
From Verif Require Import Model.Py Model.Fl Model.Np Model.Constants Model.Calendar Model.Datetime Model.Params Model.Physics Model.Disagg Model.Units
  Model.State Model.Validate Model.Output Model.Cell Model.Worker
  Spec.TimeSpec Spec.SeriesSpec Spec.TempSpec Spec.StateSpec Spec.RowsSpec Spec.WorkerSpec Spec.CellSpec Spec.FrameSpec Proofs.Base Proofs.ArrayProofs Proofs.PrecProofs Proofs.UtcProofs Proofs.DisaggProofs
  Proofs.StateProofs Proofs.WorkerProofs Proofs.FrameProofs Proofs.SliceProofs Proofs.CellProofs Proofs.YearProofs Proofs.TempProofs Proofs.CellTotal Proofs.CellOutputs Proofs.LoadProofs
  Proofs.GlobalsProofs Proofs.SolarExamples Proofs.SolarTables Proofs.SetupProofs Proofs.DewCell Spec.SetupSpec Spec.DewSpec Proofs.SpanProofs.
Import ListNotations.
Local Open Scope string_scope.
Local Open Scope list_scope.

(** ** monthly tables with all labels 0..11 *)
Lemma fold_months param months ms : (forall m, In m ms -> exists v, zlookup param m = Ok v) -> forall l,
  exists l', fold_left (fun acc m => do l <- acc; do v <- zlookup param m; Ok (set_months months m v l)) ms (Ok l) = Ok l'.
Proof.
  induction ms as [|m ms IH]; intros H l; [now exists l|]. cbn [fold_left bind]. destruct (H m (or_introl eq_refl)) as [v ->]. cbn [bind].
  apply IH. intros m' I. apply H. now right.
Qed.

Lemma month_total param days (pr : list fl) : (forall m, (0 <= m <= 11)%Z -> exists v, zlookup param m = Ok v) ->
  exists l, convert_monthly_param param days pr = Ok l.
Proof. intros H. apply fold_months. intros m I. apply H. apply in_map_iff in I as (k & <- & K). apply in_seq in K. lia. Qed.

(** ** loading *)
Lemma cell_loads prm start stop days n r : run_dates start stop days -> List.length days = n -> loadable prm n r ->
  exists c0 c, load_cell start stop days r = Ok c0 /\ monthly_cell prm days r c0 = Ok c.
Proof.
  intros Rd Ln G. destruct (load_row_ok start stop days n r Rd Ln (lo_shape _ _ _ G) (lo_upright _ _ _ G)) as [c0 C0]. exists c0. unfold monthly_cell.
  destruct (str_in (upper (p_prec_type prm)) ["TRIANGLE"; "MIX"]) eqn:T; [|eauto].
  apply str_in_spec in T. pose proof (lo_months _ _ _ G T) as M.
  destruct (lo_shape _ _ _ G) as (p & a & b & Hp & _). rewrite Hp. cbn [bind].
  destruct (month_total (rc_dur r) days p) as [x X]; [intros m Hm; apply (M m Hm)|].
  destruct (month_total (rc_tpk r) days p) as [y Y]; [intros m Hm; apply (M m Hm)|].
  rewrite X, Y. cbn [bind]. eauto.
Qed.

Lemma last_value_some l (x : R) : last l None = Some x -> last_value l = Ok (Some x).
Proof.
  intros H. destruct l as [|y l] using rev_ind; [discriminate|]. rewrite last_last in H. subst. unfold last_value. now rewrite rev_app_distr.
Qed.

Lemma loaded_forcing prm days n r c : List.length days = n -> (0 < n)%nat -> loadable prm n r -> good_raw prm n r -> loaded_on prm days n r c -> good_forcing (cd_daily c) prm.
Proof.
  intros Hds Hn Lo G L.
  assert (Ln : List.length (dl_doy (cd_daily c)) = n). { rewrite (ld_days _ _ _ _ _ L). now rewrite map_length. }
  destruct (lo_shape _ _ _ Lo) as (p & a & b & Hp & Ha & Hb & (S1 & S2 & S3 & S4 & S5 & S6)).
  assert (Same : forall k v, ~ In k ["seasonal_prec"; "dtr"; "smoothed_dtr"; "dur"; "t_pk"] -> raw_col r k = Ok v -> dict_get (dl_cols (cd_daily c)) k = Some v).
  { intros k v N V. rewrite (ld_forcing _ _ _ _ _ L); [now apply getitem_get|]. unfold added_columns. intros I. apply N. apply in_app_or in I as [I|I].
    - cbn in I |- *. tauto.
    - destruct (str_in _ _); cbn in I |- *; tauto. }
  assert (Back : forall k v, ~ In k ["seasonal_prec"; "dtr"; "smoothed_dtr"; "dur"; "t_pk"] -> dict_get (dl_cols (cd_daily c)) k = Some v -> raw_col r k = Ok v).
  { intros k v N V. apply getitem_get. rewrite <- V. symmetry. apply (ld_forcing _ _ _ _ _ L). unfold added_columns. intros I. apply N. apply in_app_or in I as [I|I].
    - cbn in I |- *. tauto.
    - destruct (str_in _ _); cbn in I |- *; tauto. }
  assert (Other : forall k l, forallb (fun x => negb (String.eqb k x)) l = true -> ~ In k l).
  { intros k l F I. rewrite forallb_forall in F. specialize (F k I). now rewrite String.eqb_refl in F. }
  constructor.
  - intros E. rewrite E in Ln. cbn in Ln. lia.
  - intros k I. rewrite (ld_days _ _ _ _ _ L) in I. apply in_map_iff in I as (d & <- & _). destruct (dayofyear_range d). lia.
  - destruct (gr_tmin _ _ _ G) as [v V]. exists v. split; [apply Same; [now apply Other|exact V]|]. rewrite Ln. assert (a = map Some v) by (apply Ok_inj; unfold fl in *; congruence). now subst.
  - destruct (gr_tmax _ _ _ G) as [v V]. exists v. split; [apply Same; [now apply Other|exact V]|]. rewrite Ln. assert (b = map Some v) by (apply Ok_inj; unfold fl in *; congruence). now subst.
  - intros k [<-|[<-|[<-|[<-|[]]]]].
    + destruct (ld_dtr _ _ _ _ _ L _ _ Ha Hb) as (v & V & _). now exists v.
    + destruct (ld_smoothed _ _ _ _ _ L _ _ Ha Hb) as (v & V & _). now exists v.
    + exists p. split; [apply Same; [now apply Other|exact Hp]|unfold fl in *; congruence].
    + destruct (ld_seasonal _ _ _ _ _ L _ Hp) as (v & V & _). now exists v.
  - intros k I v V. rewrite Ln. apply (gr_extra _ _ _ G k v I). apply Back; [|exact V]. intros J. cbn [In] in I, J.
    repeat (destruct I as [<-|I]; [repeat (destruct J as [J|J]; [discriminate J|]); exact J|]). exact I.
  - intros T. split.
    + destruct (ld_month _ _ _ _ _ L T "t_pk" (rc_tpk r)) as (v & V & _); [right; now left|now exists v].
    + destruct (ld_month _ _ _ _ _ L T "dur" (rc_dur r)) as (v & V & _); [now left|now exists v].
Qed.

Lemma all_numbers (v : list fl) n : List.length v = n -> (forall i, (i < n)%nat -> exists x, nth_error v i = Some (Some x)) -> exists r, v = map Some r.
Proof.
  revert n. induction v as [|y v IH]; intros n L H; [exists []; reflexivity|]. cbn in L. subst n.
  destruct (H 0%nat ltac:(lia)) as [x X]. cbn in X. apply Some_inj in X. destruct (IH (List.length v) eq_refl) as [r ->].
  - intros i Hi. exact (H (S i) ltac:(lia)).
  - exists (x :: r). now rewrite X.
Qed.

Lemma last_days_sub {A} w (l : list A) x : In x (last_days w l) -> In x l.
Proof. unfold last_days. generalize (List.length l - w)%nat. induction l as [|y l IH]; intros [|k] H; cbn in H; [destruct H|destruct H|exact H|right; eapply IH; exact H]. Qed.
Lemma last_days_some {A} w (l : list A) : (0 < w)%nat -> l <> [] -> last_days w l <> [].
Proof.
  intros Hw Hl E. assert (List.length (last_days w l) = 0%nat) by now rewrite E. unfold last_days in H. rewrite skipn_length in H.
  destruct l; [congruence|]. cbn [List.length] in H. lia.
Qed.
Lemma firstn_sub {A} k (l : list A) x : In x (firstn k l) -> In x l.
Proof. revert k. induction l as [|y l IH]; intros [|k] H; cbn in H; try destruct H; [now left|right; eapply IH; eassumption]. Qed.
Lemma up_to_finite (s r : list fl) i : no_missing s -> no_missing r -> no_missing (up_to s r i).
Proof. intros Hs Hr x I. apply in_app_or in I as [I|I]; [auto|]. apply Hr. eapply firstn_sub; exact I. Qed.
Lemma numbers_finite (v : list R) : no_missing (map Some v).
Proof. intros x I. apply in_map_iff in I as (y & <- & _). discriminate. Qed.

Lemma not_none (x : fl) : x <> None -> exists y, x = Some y.
Proof. destruct x; [eauto|congruence]. Qed.

Lemma nth_map_some (v : list R) d : (d < List.length v)%nat -> nth_error (map Some v) d = Some (Some (nth d v 0%R)).
Proof. intros H. rewrite nth_error_map. rewrite (nth_error_nth' v 0%R H). reflexivity. Qed.

(** the daily input of a loaded cell without gaps *)
Lemma loaded_mild prm days n r c : List.length days = n -> (0 < n)%nat -> loadable prm n r -> good_raw prm n r -> earthly r -> loaded_on prm days n r c -> mild (cd_daily c).
Proof.
  intros Hds Hn Lo G Ea L.
  assert (Ln : List.length (dl_doy (cd_daily c)) = n). { rewrite (ld_days _ _ _ _ _ L). now rewrite map_length. }
  destruct (lo_shape _ _ _ Lo) as (p & a & b & Hp & Ha & Hb & (S1 & S2 & S3 & S4 & S5 & S6)).
  destruct (gr_tmin _ _ _ G) as [tn Tn]. destruct (gr_tmax _ _ _ G) as [tx Tx].
  assert (a = map Some tn) by (apply Ok_inj; unfold fl in *; congruence). assert (b = map Some tx) by (apply Ok_inj; unfold fl in *; congruence). subst a b.
  rewrite map_length in S5, S6.
  assert (Same : forall k v, ~ In k ["seasonal_prec"; "dtr"; "smoothed_dtr"; "dur"; "t_pk"] -> raw_col r k = Ok v -> dict_get (dl_cols (cd_daily c)) k = Some v).
  { intros k v N V. rewrite (ld_forcing _ _ _ _ _ L); [now apply getitem_get|]. unfold added_columns. intros I. apply N. apply in_app_or in I as [I|I].
    - cbn in I |- *. tauto.
    - destruct (str_in _ _); cbn in I |- *; tauto. }
  assert (Other : forall k l, forallb (fun x => negb (String.eqb k x)) l = true -> ~ In k l).
  { intros k l F I. rewrite forallb_forall in F. specialize (F k I). now rewrite String.eqb_refl in F. }
  destruct (ea_state _ Ea) as [Stn Stx]. pose proof (ea_prec _ Ea _ Hp) as Spr.
  destruct (ld_dtr _ _ _ _ _ L _ _ Ha Hb) as (vd & [D1 D2] & D3).
  destruct (all_numbers vd n) as [dtr Ed]; [unfold fl in *; congruence| |].
  { intros i Hi. specialize (D3 i _ _ (nth_map_some tn i ltac:(lia)) (nth_map_some tx i ltac:(lia))). cbn in D3. eauto. }
  destruct (ld_smoothed _ _ _ _ _ L _ _ Ha Hb) as (vs & [M1 M2] & M3).
  destruct (all_numbers vs n) as [sm Em]; [unfold fl in *; congruence| |].
  { intros i Hi. specialize (M3 i Hi).
    destruct (not_none (fmean (last_days 30 (map2 fsub (up_to (rc_st_tmax r) (map Some tx) i) (up_to (rc_st_tmin r) (map Some tn) i))))) as [y Y].
    - apply fmean_finite.
      + intros x I. apply last_days_sub in I. revert I. apply map2_fsub_finite; apply up_to_finite; auto using numbers_finite.
      + apply last_days_some; [lia|]. unfold up_to. destruct (rc_st_tmax r); [discriminate S3|]. destruct (rc_st_tmin r); [discriminate S2|]. discriminate.
    - exists y. etransitivity; [exact M3|]. now rewrite Y. }
  destruct (ld_seasonal _ _ _ _ _ L _ Hp) as (vp & [P1 P2] & P3).
  destruct (all_numbers vp n) as [sp Ep]; [unfold fl in *; congruence| |].
  { intros i Hi. specialize (P3 i Hi).
    destruct (not_none (fmean (last_days 90 (up_to (rc_st_prec r) p i)))) as [y Y].
    - apply fmean_finite.
      + intros x I. apply last_days_sub in I. revert I. apply up_to_finite; intros z Z; apply Spr; apply in_or_app; auto.
      + apply last_days_some; [lia|]. unfold up_to. destruct (rc_st_prec r); [discriminate S1|]. discriminate.
    - rewrite Y in P3. cbn in P3. eauto. }
  subst vd vs vp.
  exists tn, tx, dtr, sm, sp.
  split; [split; [apply Same; [now apply Other|exact Tn]|now rewrite map_length, S5]|].
  split; [split; [apply Same; [now apply Other|exact Tx]|now rewrite map_length, S6]|].
  split; [split; assumption|]. split; [split; assumption|]. split; [split; assumption|].
  intros d Hd. rewrite Ln in Hd. pose proof (nth_map_some tn d ltac:(lia)) as N1. pose proof (nth_map_some tx d ltac:(lia)) as N2.
  destruct (ea_day _ Ea _ _ d _ _ Ha Hb N1 N2) as (B1 & B2 & B3).
  assert (Up : (nth d tn 0 <= nth d tx 0)%R).
  { apply Rnot_lt_le. intros Lt. apply (lo_upright _ _ _ Lo). exists (map Some tn), (map Some tx). split; [exact Ha|]. split; [exact Hb|]. exists d, (nth d tn 0%R), (nth d tx 0%R). auto. }
  specialize (D3 d _ _ N1 N2). rewrite map_length in D2. pose proof (eq_trans (eq_sym (nth_map_some dtr d ltac:(lia))) D3) as D4. cbn [fsub flift2] in D4. apply Some_inj, Some_inj in D4.
  constructor; lra.
Qed.

(** accepted options *)
Lemma setup_options s prm ov : validate_setup s = Ok tt -> describes s prm ov -> (0 < p_time_step prm)%Z -> (0 < p_tmax_frac prm <= 1)%R -> good_options prm.
Proof.
  intros V D Ps Fr. pose proof (accepted_positive_step s V) as A. rewrite (de_step _ _ _ D) in A.
  destruct (accept_inv s V) as (_ & _ & _ & _ & _ & C & T). destruct (de_lw _ _ _ D) as [D1 D2]. rewrite D1 in T. rewrite D2 in C.
  constructor; [auto|exact Fr| |].
  - cbn [In] in T. repeat (destruct T as [<-|T]; [cbn; tauto|]). destruct T.
  - cbn [In] in C. repeat (destruct C as [<-|C]; [cbn; tauto|]). destruct C.
Qed.

(** a loaded cell runs and its variables can be converted *)
Lemma loaded_alone s prm days n r c ov cells : List.length days = n -> validate_setup s = Ok tt -> describes s prm ov -> (0 < p_time_step prm)%Z -> (0 < p_tmax_frac prm <= 1)%R -> (0 < n)%nat ->
  loadable prm n r -> good_raw prm n r -> In r cells -> requestable ov cells -> loaded_on prm days n r c ->
  exists N, forall fuel, (fuel >= N)%nat -> exists vs, cell_alone fuel ov prm c vs.
Proof.
  intros Hd V De Ps Fr Hn Lo G Ir Rq L. pose proof (setup_options _ _ _ V De Ps Fr) as Go. pose proof (loaded_forcing _ _ _ _ _ Hd Hn Lo G L) as F.
  destruct (ld_place _ _ _ _ _ L) as (P1 & P2 & P3). destruct (ld_state _ _ _ _ _ L) as (T1 & T2).
  destruct (proj2 (geom_ok (rc_elev r) (rc_lat r) (p_lapse_rate prm) (gr_lat _ _ _ G)) (gr_sun _ _ _ G)) as [g Sg]. destruct (gr_yesterday _ _ _ G) as (a & b & A & B).
  assert (Keep : forall k v, k <> "seasonal_prec" -> k <> "dtr" -> k <> "smoothed_dtr" -> k <> "dur" -> k <> "t_pk" -> raw_col r k = Ok v -> dict_get (dl_cols (cd_daily c)) k = Some v).
  { intros k v N1 N2 N3 N4 N5 W. rewrite (ld_forcing _ _ _ _ _ L); [now apply getitem_get|]. unfold added_columns. intros I. apply in_app_or in I as [I|I].
    - cbn in I. intuition congruence.
    - destruct (str_in _ _); cbn in I; intuition congruence. }
  assert (La : last_value (cd_state_tmin c) = Ok (Some a)) by (rewrite T1; now apply last_value_some).
  assert (Lb : last_value (cd_state_tmax c) = Ok (Some b)) by (rewrite T2; now apply last_value_some).
  assert (Hl : (-90 <= cd_lat c <= 90)%R) by (rewrite P1; exact (gr_lat _ _ _ G)).
  assert (Sg' : solar_geom (cd_elev c) (cd_lat c) (p_lapse_rate prm) = Ok g) by (rewrite P1, P3; exact Sg).
  assert (Run : exists N, forall fuel, (fuel >= N)%nat -> exists out prm', run_cell fuel prm c = Some (Ok out, prm')).
  { destruct (gr_method _ _ _ G) as [(Mt & sw & Sw & Lw)|(Mt & Tol & Pp & Ea)].
    - exists 0%nat. intros fuel _. apply (pass_cell_total fuel prm c g a b Mt Go F); auto.
      exists sw. split; [apply Keep; discriminate || exact Sw|]. rewrite (ld_days _ _ _ _ _ L). rewrite map_length. congruence.
    - apply (mtclim_cell_total prm c g a b Mt Go F); auto.
      + unfold located. rewrite P1, P2, P3. exact Pp.
      + exact (loaded_mild _ _ _ _ _ Hd Hn Lo G Ea L). }
  destruct Run as [N Run]. exists N. intros fuel Hf. destruct (Run fuel Hf) as (out & prm' & Rn).
  assert (Le : (p_time_step prm <= 1440)%Z) by (destruct (go_ts _ Go) as (_ & _ & [?|?]); lia).
  assert (Cv : exists vs, convert_outputs ov (p_time_step prm) out = Ok vs).
  { assert (Names : forall name unit, In (name, unit) ov -> exists v, dict_get out name = Some v).
    { intros name unit I. pose proof (outputs_available fuel prm c out prm' name Rn Le) as Av.
      destruct (accept_inv s V) as (_ & _ & _ & _ & Ok_ & _). rewrite (de_step _ _ _ De), (de_vars _ _ _ De) in Ok_.
      specialize (Ok_ name). assert (In name (map fst ov)) by (apply in_map_iff; exists (name, unit); auto).
      assert (M : dict_mem out name = true).
      { apply Av; [|now apply Ok_]. intros J. assert (X : exists v, dict_get (dl_cols (cd_daily c)) name = Some v).
        { destruct (lo_shape _ _ _ Lo) as (p & x & y & Hp & Hx & Hy & _). cbn [In] in J.
          destruct J as [<-|[<-|[<-|[<-|[]]]]]; [exists x|exists y|exists p|destruct (proj2 (Rq "wind" unit I) eq_refl r Ir) as [v W]; exists v]; apply Keep; discriminate || assumption. }
        destruct X as [v X]. unfold dict_mem. now rewrite X. }
      unfold dict_mem in M. destruct (dict_get out name) as [v|]; [eauto|discriminate]. }
    unfold convert_outputs. clear - Rq Names. induction ov as [|[name unit] ov IH]; [now exists []|].
    cbn [mapM fst snd]. destruct (Rq name unit (or_introl eq_refl)) as ((conv & Cv) & _). rewrite Cv. cbn [bind].
    destruct (Names name unit (or_introl eq_refl)) as [v W]. unfold dict_getitem at 1. rewrite W. cbn [bind].
    destruct IH as [vs Vs]; [intros k u J; apply Rq; now right|intros k u J; eapply Names; right; exact J|]. rewrite Vs. cbn [bind]. eauto. }
  destruct Cv as [vs Vs]. exists vs, out, prm'. auto.
Qed.

Lemma common_bound {A} (P : nat -> A -> Prop) l : (forall x, In x l -> exists N, forall k, (k >= N)%nat -> P k x) ->
  exists N, forall k, (k >= N)%nat -> forall x, In x l -> P k x.
Proof.
  induction l as [|y l IH]; intros H; [exists 0%nat; intros ? ? ? []|].
  destruct (H y (or_introl eq_refl)) as [N1 H1]. destruct IH as [N2 H2]; [intros; apply H; now right|].
  exists (Nat.max N1 N2). intros k Hk x [<-|I]; [apply H1; lia|apply H2; auto; lia].
Qed.

Lemma mapM_total {A B} (f : A -> res B) l : (forall x, In x l -> exists y, f x = Ok y) -> exists ys, mapM f l = Ok ys.
Proof.
  induction l as [|x l IH]; intros H; [now exists []|]. cbn [mapM]. destruct (H x (or_introl eq_refl)) as [y ->]. cbn [bind].
  destruct IH as [ys ->]; [intros; apply H; now right|]. cbn [bind]. eauto.
Qed.

Theorem rows_total prm w n : (0 < p_time_step prm)%Z -> (0 < p_tmax_frac prm <= 1)%R -> (0 < n)%nat ->
  run_dates (wk_start w) (wk_stop w) (wk_days w) -> List.length (wk_days w) = n ->
  List.length (wk_cells w) = List.length (indices (wk_shape w)) ->
  (forall r, In r (wk_cells w) -> loadable prm n r) ->
  (forall i c r, nth_error (indices (wk_shape w)) i = Some c -> nth_error (wk_cells w) i = Some r -> active (wk_mask w c) -> good_raw prm n r) ->
  validate_setup (wk_setup w) = Ok tt -> describes (wk_setup w) prm (wk_out_vars w) -> requestable (wk_out_vars w) (wk_cells w) ->
  exists N, forall fuel, (fuel >= N)%nat -> exists out, run_worker_rows fuel prm w = Some (Ok out).
Proof.
  intros Ps Fr Hn Hd Hs Lc Lo Good Vs De Rq.
  destruct (upright_loaded (wk_start w) (wk_stop w) (wk_days w) n (wk_cells w) Hd Hs) as (data0 & Ld & L0); [intros; now apply lo_shape with prm, Lo|intros r I; exact (lo_upright _ _ _ (Lo r I))|].
  pose proof Ld as Ld'. unfold load_slice in Ld. inv_bind Ld. inv_bind Ld. apply mapM_inv in Ld.
  assert (Pair : forall i r c0, nth_error (wk_cells w) i = Some r -> nth_error data0 i = Some c0 ->
     load_cell (wk_start w) (wk_stop w) (wk_days w) r = Ok c0).
  { intros i r c0 R0 C0. destruct (Forall2_nth _ _ _ Ld _ _ R0) as (c1 & N1 & P1). congruence. }
  assert (Cmb : forall i r c0, nth_error (combine (wk_cells w) data0) i = Some (r, c0) -> nth_error (wk_cells w) i = Some r /\ nth_error data0 i = Some c0).
  { generalize (wk_cells w) as l, data0. induction l as [|x l IH]; intros [|y m] [|i] r c0 H; try discriminate; cbn in *; [injection H as <- <-; auto|now apply IH]. }
  destruct (mapM_total (fun rc => monthly_cell prm (wk_days w) (fst rc) (snd rc)) (combine (wk_cells w) data0)) as [data Mo].
  { intros [r c0] I. apply In_nth_error in I as (i & I). destruct (Cmb _ _ _ I) as [R0 C0]. cbn [fst snd].
    destruct (cell_loads prm (wk_start w) (wk_stop w) (wk_days w) n r Hd Hs) as (c0' & c & X0 & X1); [apply Lo; now apply nth_error_In in R0|].
    specialize (Pair _ _ _ R0 C0). assert (c0' = c0) by (apply Ok_inj; congruence). subst. eauto. }
  pose proof Mo as Mo'. apply mapM_inv in Mo'.
  destruct (common_bound (fun fuel c => active (wk_mask w c) -> exists vs, cell_alone fuel (wk_out_vars w) prm (nth_cell (indices (wk_shape w)) data no_cell c) vs) (indices (wk_shape w))) as [N Bound].
  { intros c Ic. apply In_nth_error in Ic as (i & Ni).
    assert (Li : (i < List.length (wk_cells w))%nat) by (rewrite Lc; apply nth_error_Some; congruence).
    destruct (nth_error (wk_cells w) i) as [r|] eqn:Nr; [|apply nth_error_None in Nr; lia].
    destruct (nth_error data0 i) as [c0|] eqn:Nc; [|apply nth_error_None in Nc; lia].
    assert (Cm : nth_error (combine (wk_cells w) data0) i = Some (r, c0)).
    { clear - Nr Nc. revert i Nr data0 Nc. generalize (wk_cells w) as l. induction l as [|x l IH]; intros [|i] X [|y m] Y; try discriminate; cbn in *; [congruence|auto]. }
    destruct (Forall2_nth _ _ _ Mo' _ _ Cm) as (cd & N1 & P1). cbn [fst snd] in P1.
    rewrite (nth_cell_at _ _ _ _ _ _ (indices_nodup _) Ni N1). assert (Ir : In r (wk_cells w)) by (now apply nth_error_In in Nr).
    destruct (Classical_Prop.classic (active (wk_mask w c))) as [Ac|Na]; [|exists 0%nat; intros ? _ Ac; contradiction].
    assert (L : loaded_on prm (wk_days w) n r cd) by (eapply cell_loaded_on; eauto; exact (lo_shape _ _ _ (Lo r Ir))).
    destruct (loaded_alone (wk_setup w) prm (wk_days w) n r cd (wk_out_vars w) (wk_cells w) Hs Vs De Ps Fr Hn (Lo r Ir) (Good i c r Ni Nr Ac) Ir Rq L) as [N Hb].
    exists N. intros k Hk _. exact (Hb k Hk). }
  exists N. intros fuel Hf. rewrite run_rows. cbv zeta. rewrite Ld'. cbn [bind]. rewrite Vs. cbn [bind]. rewrite Mo.
  destruct (run_cells_total fuel (wk_out_vars w) (wk_mask w) (nth_cell (indices (wk_shape w)) data no_cell) prm (indices (wk_shape w)) prm (fun _ => None) eq_refl) as (out & prm' & Rs).
  { intros c Ic Ac. exact (Bound fuel Hf c Ic Ac). }
  exists out. unfold run_slice, run_slice_by. fold (run_cells fuel). now rewrite Rs.
Qed.

Theorem worker_total prm w n : (0 < p_time_step prm)%Z -> (0 < p_tmax_frac prm <= 1)%R -> (0 < n)%nat ->
  wk_days w = dates_from (wk_start w) n -> wk_stop w = (wk_start w + Z.of_nat n - 1)%Z ->
  List.length (wk_cells w) = List.length (indices (wk_shape w)) ->
  (forall r, In r (wk_cells w) -> loadable prm n r) ->
  (forall i c r, nth_error (indices (wk_shape w)) i = Some c -> nth_error (wk_cells w) i = Some r -> active (wk_mask w c) -> good_raw prm n r) ->
  validate_setup (wk_setup w) = Ok tt -> describes (wk_setup w) prm (wk_out_vars w) -> requestable (wk_out_vars w) (wk_cells w) ->
  exists N, forall fuel, (fuel >= N)%nat -> exists out, run_worker fuel prm w = Some (Ok out).
Proof.
  intros Ps Fr Hn Hd Hs Lc Lo Good Vs De Rq. destruct (rows_total prm w n Ps Fr Hn) as [N H]; auto.
  - rewrite Hd, Hs. apply dates_from_run.
  - rewrite Hd. apply dates_from_length.
  - exists N. intros fuel F. rewrite run_worker_is_rows by (rewrite Hd, span_dates, dates_from_length; reflexivity). auto.
Qed.

(** ** examples *)
Lemma equator_loadable m ts : loadable (demo_method m ts) 2 equator_raw.
Proof.
  constructor.
  - exists (map Some [0; 5]%R), (map Some [10; 12]%R), (map Some [20; 25]%R). do 3 (split; [reflexivity|]). unfold shaped. split; [reflexivity|]. split; [reflexivity|]. split; [reflexivity|]. auto.
  - intros (a & b & A & B & d & x & y & X & Y & I). apply Ok_inj in A. apply Ok_inj in B. subst. destruct d as [|[|d]]; cbn in X, Y;
      [| |destruct d; discriminate]; apply Some_inj, Some_inj in X; apply Some_inj, Some_inj in Y; lra.
  - intros T. exfalso. cbn in T. destruct T as [T|[T|[]]]; discriminate T.
Qed.

Lemma repeat_finite (x : R) k : no_missing (repeat (Some x) k).
Proof. intros y I. apply repeat_spec in I. subst. discriminate. Qed.

Lemma equator_earthly : earthly equator_raw.
Proof.
  constructor.
  - intros p P. apply Ok_inj in P. subst p. intros x I. apply in_app_or in I as [I|I]; [revert I; apply repeat_finite|revert I; apply (numbers_finite [0; 5]%R)].
  - split; apply repeat_finite.
  - intros a b d x y A B X Y. apply Ok_inj in A. apply Ok_inj in B. subst. destruct d as [|[|d]]; cbn in X, Y;
      [| |destruct d; discriminate]; apply Some_inj, Some_inj in X; apply Some_inj, Some_inj in Y; lra.
Qed.

Lemma equator_raw_good m ts : In m ["passthrough"; "mtclim"] -> good_raw (demo_method m ts) 2 equator_raw.
Proof.
  intros Hm. constructor.
  - exists [10; 12]%R. reflexivity.
  - exists [20; 25]%R. reflexivity.
  - intros k v I V. exfalso. revert V. cbn [In] in I. repeat (destruct I as [<-|I]; [discriminate|]). destruct I.
  - cbn [rc_lat equator_raw]. lra.
  - apply (geom_ok 0 (rc_lat equator_raw) 0.0065%R ltac:(cbn [rc_lat equator_raw]; lra)). exact (equator_ok 0 0.0065).
  - exists 9%R, 22%R. split; reflexivity.
  - destruct Hm as [<-|[<-|[]]]; [left|right]; (split; [reflexivity|]).
    + eexists. split; reflexivity.
    + split; [cbn; lra|]. split; [constructor; cbn; unfold T_STD; lra|exact equator_earthly].
Qed.

Lemma equator_describes m : describes (wk_setup equator_worker) (demo_method m 60) (wk_out_vars equator_worker).
Proof. constructor; try reflexivity. split; reflexivity. Qed.
Lemma equator_requestable : requestable (wk_out_vars equator_worker) (wk_cells equator_worker).
Proof. intros name unit [E|[E|[]]]; injection E as <- <-; (split; [eexists; reflexivity|discriminate]). Qed.

Theorem equator_worker_runs m : In m ["passthrough"; "mtclim"] ->
  exists N, forall fuel, (fuel >= N)%nat -> exists out, run_worker fuel (demo_method m 60) equator_worker = Some (Ok out).
Proof.
  intros Hm. apply (worker_total (demo_method m 60) equator_worker 2); try reflexivity.
  - cbn. lra.
  - lia.
  - intros r [<-|[<-|[]]]; exact (equator_loadable m 60).
  - intros i c r _ Nr _. apply nth_error_In in Nr. destruct Nr as [<-|[<-|[]]]; exact (equator_raw_good m 60 Hm).
  - exact (equator_describes m).
  - exact equator_requestable.
Qed.
