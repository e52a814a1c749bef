(** What the workers compute from files in the formats of VIC: C119. *)
From Coq Require Import ZArith Reals String List Bool Arith Lia Lra.
From Verif Require Import Model.Py Model.Fl Model.Np Model.Params Model.State Model.Validate Model.Reader Model.Vic Model.Output Model.Cell Model.Disagg Model.Worker Model.Align Model.VicWorker
  Model.Machine Model.Run Model.Units Spec.TimeSpec Spec.GridSpec Spec.WriterSpec Spec.PeriodSpec Spec.ReaderSpec Spec.CellSpec Spec.StateSpec Spec.WorkerSpec Spec.AlignSpec Spec.VicWorkerSpec
  Proofs.Base Proofs.PrecProofs Proofs.GlobalsProofs Proofs.SettingsProofs Proofs.FrameProofs Proofs.CellProofs Proofs.DisaggProofs Proofs.CellOutputs Proofs.SliceProofs
  Proofs.LoadProofs Proofs.RunTotal Proofs.WorkerTotal Proofs.AlignProofs Proofs.FileRun Proofs.AlignCases Proofs.ReaderProofs Proofs.VicProofs Proofs.AlignProofs Proofs.AlignRun Proofs.VicWorkerProofs.
Import ListNotations.
Local Open Scope string_scope.
Local Open Scope list_scope.

(** ** positions and coordinates *)
Lemma coord_first k l k' l' x y v : k <> k' -> has_coord [(k, l); (k', l')] [x; y] k v <-> nth_error l x = Some v.
Proof.
  intros N. split.
  - intros (i & labels & n & A & B & C). destruct i as [|[|i]]; cbn in A, B; [congruence|congruence|destruct i; discriminate].
  - intros E. exists 0%nat, l, x. auto.
Qed.
Lemma coord_second k l k' l' x y v : k <> k' -> has_coord [(k, l); (k', l')] [x; y] k' v <-> nth_error l' y = Some v.
Proof.
  intros N. split.
  - intros (i & labels & n & A & B & C). destruct i as [|[|i]]; cbn in A, B; [congruence|congruence|destruct i; discriminate].
  - intros E. exists 1%nat, l', y. auto.
Qed.

(** a cell of a domain over lat and lon by its two positions *)
Lemma cell_positions axes c : lat_lon axes -> on_grid axes c ->
  exists i j, (i < List.length (labels_of axes "lat"))%nat /\ (j < List.length (labels_of axes "lon"))%nat /\ c = vic_point axes i j /\
    (forall x, has_coord axes c "lat" x <-> nth_error (labels_of axes "lat") i = Some x) /\
    (forall x, has_coord axes c "lon" x <-> nth_error (labels_of axes "lon") j = Some x).
Proof.
  intros (la & lo & _ & _ & _ & _ & [Ax|Ax]) G; subst axes; inversion G as [|a ? ? ? A G']; subst; inversion G' as [|b ? ? ? B G'']; subst;
    inversion G''; subst; cbn [snd] in A, B.
  - exists a, b. do 3 (split; [first [exact A|exact B|reflexivity]|]). split; intros x; [apply coord_first|apply coord_second]; discriminate.
  - exists b, a. do 3 (split; [first [exact A|exact B|reflexivity]|]). split; intros x; [apply coord_second|apply coord_first]; discriminate.
Qed.

Lemma lat_lon_labels axes : lat_lon axes -> NoDup (labels_of axes "lat") /\ NoDup (labels_of axes "lon") /\ NoDup (keys axes) /\
  incl ["lat"; "lon"] (keys axes) /\ (forall k labels, In (k, labels) axes -> labels <> []).
Proof.
  intros (la & lo & A & B & Na & No & [-> | ->]); (split; [exact A|]); (split; [exact B|]); (split; [repeat constructor; cbn; intuition discriminate|]);
    (split; [intros k [<-|[<-|[]]]; cbn; auto|]); intros k labels [E|[E|[]]]; injection E as _ <-; assumption.
Qed.

Lemma whole_point inp i j : lat_lon (gi_axes inp) -> (i < List.length (labels_of (gi_axes inp) "lat"))%nat -> (j < List.length (labels_of (gi_axes inp) "lon"))%nat ->
  globalize (axes_ranges (gi_axes inp) []) (vic_point (gi_axes inp) i j) = vic_point (gi_axes inp) i j.
Proof. intros (la & lo & _ & _ & _ & _ & [E|E]); rewrite E; intros A B; cbn in *; rewrite !seq_nth by assumption; reflexivity. Qed.

Section Cells.
  Variable pf : string -> option R.
  Variable read : string -> res (dict (list fl)).
  Variable names : list string.
  Variable n : nat.
  Variable jobs : list string.
  Variable inp : grid_inputs.
  Variable g : met_grid (dict (list fl)).
  Hypothesis Ax : lat_lon (gi_axes inp).
  Hypothesis Whole : process_vic pf (slice_vic_domain inp []) read jobs = Ok g.
  Let inp' := with_forcing inp (vic_nc names n (gi_axes inp) g).

  Lemma target_cell job i j : (i < List.length (labels_of (gi_axes inp) "lat"))%nat -> (j < List.length (labels_of (gi_axes inp) "lon"))%nat ->
    target pf (slice_vic_domain inp []) job i j <->
    (exists lat lon, parse_job pf job = Ok (lat, lon) /\ nth_error (labels_of (gi_axes inp) "lat") i = Some lat /\ nth_error (labels_of (gi_axes inp) "lon") j = Some lon) /\
    active (gi_mask inp (vic_point (gi_axes inp) i j)).
  Proof.
    intros Li Lj. destruct (lat_lon_labels _ Ax) as (Na & No & _). unfold target, slice_vic_domain. cbv zeta. cbn [vd_lat vd_lon vd_mask].
    rewrite whole_axes, whole_point by assumption. split.
    - intros (lat & lon & P & A & B & M). split; [|now apply active_fgt]. exists lat, lon. split; [exact P|].
      apply find_coord_sound in A as (a & E & A), B as (b & E' & B). cbn in E, E'. subst a b. auto.
    - intros ((lat & lon & P & A & B) & M). exists lat, lon. split; [exact P|]. apply active_fgt in M.
      rewrite (find_coord_at _ Na i lat 0 A), (find_coord_at _ No j lon 0 B). auto.
  Qed.

  Lemma forcing_readable : readable (nc_axes (gi_forcing inp')) (gi_axes inp').
  Proof.
    destruct (lat_lon_labels _ Ax) as (Na & No & Nk & I & _). constructor; cbn.
    - repeat constructor; cbn; intuition discriminate.
    - exact I.
    - intros k labels [E|[E|[]]]; injection E as _ <-; assumption.
  Qed.

  Lemma vic_good : good_state inp -> good_files inp'.
  Proof.
    intros [Gs Gd]. destruct (lat_lon_labels _ Ax) as (Na & No & Nk & I & Ne). constructor; try assumption. exact forcing_readable.
  Qed.

  Lemma vic_cover : labels_cover (nc_axes (gi_forcing inp')) (gi_axes inp').
  Proof.
    intros k have want H W. cbn in H, W. unfold labels_of in H.
    destruct (String.eqb_spec k "lat") as [->|]; [injection H as <-; rewrite W; intros x X; exact X|].
    destruct (String.eqb_spec k "lon") as [->|]; [injection H as <-; rewrite W; intros x X; exact X|discriminate].
  Qed.

  Lemma forcing_of c r : on_grid (gi_axes inp) c -> holds_at (gi_forcing inp') (gi_axes inp) c (rc_cols r) ->
    exists i j, (i < List.length (labels_of (gi_axes inp) "lat"))%nat /\ (j < List.length (labels_of (gi_axes inp) "lon"))%nat /\ c = vic_point (gi_axes inp) i j /\
    (forall x, has_coord (gi_axes inp) c "lat" x <-> nth_error (labels_of (gi_axes inp) "lat") i = Some x) /\
    (forall x, has_coord (gi_axes inp) c "lon" x <-> nth_error (labels_of (gi_axes inp) "lon") j = Some x) /\
    rc_cols r = vic_cell names n g i j.
  Proof.
    intros On (_ & H). destruct (cell_positions _ _ Ax On) as (i & j & Li & Lj & E & Ca & Co). exists i, j. do 5 (split; [assumption|]).
    apply (H [i; j]). split; [repeat constructor; assumption|]. intros k x (a & labels & m & A & B & C). cbn [vic_nc nc_axes gi_forcing inp' with_forcing] in A.
    destruct a as [|[|a]]; cbn in A, B.
    - injection A as <- <-. injection B as <-. now apply Ca.
    - injection A as <- <-. injection B as <-. now apply Co.
    - destruct a; discriminate.
  Qed.

  Lemma fold_last es : forall (met : met_grid (dict (list fl))) i j,
    (exists d, In (Some (i, j, d)) es /\ fold_left put es met i j = Some d) \/
    ((forall d, ~ In (Some (i, j, d)) es) /\ fold_left put es met i j = met i j).
  Proof.
    induction es as [|e es IH]; intros met i j; [right; split; [intros d []|reflexivity]|]. cbn [fold_left].
    destruct (IH (put met e) i j) as [(d & I & E)|(N & E)]; [left; exists d; split; [now right|exact E]|].
    destruct e as [[[a b] d]|]; cbn [put] in E.
    - destruct (Nat.eqb_spec i a) as [->|Na]; [destruct (Nat.eqb_spec j b) as [->|Nb]|]; cbn [andb] in E.
      + left. exists d. split; [now left|exact E].
      + right. split; [|exact E]. intros d' [D|D]; [congruence|exact (N d' D)].
      + right. split; [|exact E]. intros d' [D|D]; [congruence|exact (N d' D)].
    - right. split; [|exact E]. intros d' [D|D]; [discriminate|exact (N d' D)].
  Qed.

  (** what is read for a cell comes from a file for it, if any can be read *)
  Lemma grid_from i j :
    (exists job d, In job jobs /\ target pf (slice_vic_domain inp []) job i j /\ read job = Ok d /\ g i j = Some d) \/
    ((forall job, In job jobs -> target pf (slice_vic_domain inp []) job i j -> exists e, read job = Err e) /\ g i j = None).
  Proof.
    pose proof Whole as H. unfold process_vic in H. rewrite (process_fold pf _ read jobs) in H.
    destruct (mapM (effect pf (slice_vic_domain inp []) read) jobs) as [es|] eqn:E; [|discriminate]. cbn [bind] in H. apply Ok_inj in H. rewrite <- H. clear H.
    destruct (fold_last es (fun _ _ => None) i j) as [(d & I & F)|(N & F)].
    - left. apply (ReaderProofs.mapM_In _ _ _ _ E) in I as (job & I & Ej). destruct (effect_target _ _ _ _ _ _ _ Ej) as [T Rd]. exists job, d. auto.
    - right. split; [|exact F]. intros job I T. destruct (read job) as [d|e] eqn:Rd; [|eauto]. exfalso. apply (N d).
      apply (ReaderProofs.mapM_In _ _ _ _ E). exists job. split; [exact I|]. now apply effect_ok.
  Qed.

  (** the forcing of a cell by the files *)
  Theorem own_columns c r : on_grid (gi_axes inp) c -> holds_at (gi_forcing inp') (gi_axes inp) c (rc_cols r) ->
    file_columns pf read names n jobs inp c (rc_cols r).
  Proof.
    intros On H. destruct (forcing_of c r On H) as (i & j & Li & Lj & E & Ca & Co & F).
    assert (T : forall job, target pf (slice_vic_domain inp []) job i j <-> names_cell pf (gi_axes inp) job c /\ active (gi_mask inp c)).
    { intros job. rewrite (target_cell job i j Li Lj), <- E. unfold names_cell. split; intros ((lat & lon & P & A & B) & M); (split; [|exact M]); exists lat, lon.
      - rewrite Ca, Co. auto.
      - rewrite <- Ca, <- Co. auto. }
    rewrite F. unfold vic_cell. destruct (grid_from i j) as [(job & d & I & Tj & Rd & ->)|(N & ->)].
    - apply T in Tj as (Nm & M). split; [|contradiction]. intros _. left. eauto.
    - split; [|reflexivity]. intros M. right. split; [|reflexivity]. intros job I Nm. apply (N job I). apply T. auto.
  Qed.

  Theorem vic_worker_cells ds w : good_state inp -> vic_slice_worker pf read names n jobs inp ds = Ok w ->
    List.length (wk_cells w) = List.length (indices (wk_shape w)) /\
    forall i l r, nth_error (indices (wk_shape w)) i = Some l -> nth_error (wk_cells w) i = Some r ->
      let c := globalize (axes_ranges (gi_axes inp) ds) l in
      on_grid (gi_axes inp) c /\ wk_mask w l = gi_mask inp c /\ own_place inp c r /\ file_columns pf read names n jobs inp c (rc_cols r).
  Proof.
    intros Gs H. rewrite (slice_of_whole pf read names n jobs inp g ds Ax Whole) in H.
    destruct (worker_inputs inp' ds w (vic_good Gs) H) as (L & C). split; [exact L|]. intros i l r Li Cr c.
    destruct (C i l r Li Cr) as (On & M & O). split; [exact On|]. split; [exact M|]. destruct O as [O1 O2 O3 O4]. split; [constructor; assumption|].
    now apply own_columns.
  Qed.

  Theorem vic_worker_reads ds : good_state inp -> labels_cover (nc_axes (gi_state inp)) (gi_axes inp) ->
    exists w, vic_slice_worker pf read names n jobs inp ds = Ok w.
  Proof.
    intros Gs Cv. rewrite (slice_of_whole pf read names n jobs inp g ds Ax Whole).
    exact (worker_readable inp' ds (vic_good Gs) vic_cover Cv).
  Qed.
End Cells.

(** ** shapes *)
Lemma active_or m : active m \/ ~ active m.
Proof. destruct (fgt m (Some 0%R)) eqn:E; [left|right]; rewrite <- active_fgt; congruence. Qed.

Lemma missing_get names n k : In k names -> dict_get (missing_cols names n) k = Some (repeat None n).
Proof.
  induction names as [|x names IH]; intros I; [destruct I|]. cbn. destruct (String.eqb_spec k x) as [->|N]; [reflexivity|].
  destruct I as [->|I]; [contradiction|]. now apply IH.
Qed.
Lemma missing_length names n k v : dict_get (missing_cols names n) k = Some v -> List.length v = n.
Proof.
  induction names as [|x names IH]; cbn; [discriminate|]. destruct (String.eqb k x); [|exact IH].
  intros E. injection E as <-. apply repeat_length.
Qed.

Lemma columns_shape pf read names n jobs inp c cols : proper_reader read names n -> file_columns pf read names n jobs inp c cols ->
  forall k, (In k names -> exists v, dict_get cols k = Some v) /\ forall v, dict_get cols k = Some v -> List.length v = n.
Proof.
  intros P (A & B) k.
  assert (K : (exists job, read job = Ok cols) \/ cols = missing_cols names n).
  { destruct (active_or (gi_mask inp c)) as [M|M]; [|right; exact (B M)].
    destruct (A M) as [(job & _ & _ & R)|(_ & E)]; [left; eauto|now right]. }
  destruct K as [(job & R)|E].
  - destruct (P job cols R) as (K & L). split; [|apply L]. intros I. apply dict_get_Some_key. now rewrite K.
  - rewrite E. split; [intros I; eexists; now apply missing_get|apply missing_length].
Qed.

Lemma cells_shaped pf read names n jobs inp c r : proper_reader read names n -> incl ["prec"; "t_min"; "t_max"] names -> full_state inp ->
  on_grid (gi_axes inp) c -> own_place inp c r -> file_columns pf read names n jobs inp c (rc_cols r) ->
  raw_shaped n r /\ forall k v, raw_col r k = Ok v -> List.length v = n.
Proof.
  intros P I F On O C. pose proof (columns_shape _ _ _ _ _ _ _ _ P C) as S.
  destruct (proj1 (S "prec")) as (p & Hp); [apply I; cbn; auto|]. destruct (proj1 (S "t_min")) as (a & Ha); [apply I; cbn; auto|].
  destruct (proj1 (S "t_max")) as (b & Hb); [apply I; cbn; auto|].
  destruct (F c _ _ _ On (op_state _ _ _ O)) as (F1 & F2 & F3). split.
  - exists p, a, b. unfold raw_col, dict_getitem. rewrite Hp, Ha, Hb. do 3 (split; [reflexivity|]).
    repeat split; [exact F1|exact F2|exact F3|exact (proj2 (S "prec") p Hp)|exact (proj2 (S "t_min") a Ha)|exact (proj2 (S "t_max") b Hb)].
  - intros k v H. apply (proj2 (S k)). unfold raw_col, dict_getitem in H. destruct (dict_get (rc_cols r) k); [|discriminate]. apply Ok_inj in H. now subst.
Qed.

(** ** from the files of the directory to the output files *)
Theorem vic_to_files pf read names n jobs inp g0 fuel prm chunks ss outs freq pe axis groups dir prefix files pr pfin :
  lat_lon (gi_axes inp) -> good_state inp -> full_state inp -> proper_reader read names n -> incl ["prec"; "t_min"; "t_max"] names ->
  process_vic pf (slice_vic_domain inp []) read jobs = Ok g0 ->
  (chunks = [] \/ covers chunks (axes_dims (gi_axes inp))) -> slices chunks (axes_dims (gi_axes inp)) = Ok ss ->
  Forall2 (fun ds out => vic_file_worker pf read names n jobs fuel prm inp ds = Some (Ok out)) ss outs ->
  (1 <= n)%nat -> gi_days inp = dates_from (gi_start inp) n -> gi_stop inp = (gi_start inp + Z.of_nat n - 1)%Z ->
  NoDup (keys (gi_out_vars inp)) ->
  let ts := p_time_step prm in let st := (1440 * gi_start inp)%Z in
  legal_time_step ts -> match freq with Some bin => monotone_bins bin | None => True end ->
  output_axis st (st + (Z.of_nat n - 1) * 1440)%Z ts pe = Ok axis ->
  get_output_times freq st (st + (Z.of_nat n - 1) * 1440)%Z ts pe = Ok groups ->
  write_headers dir prefix groups = Ok files -> map snd files = groups ->
  let S := run_system (mk_run_input (axes_dims (gi_axes inp)) (gi_mask inp) (fun _ => no_cell) prm (gi_out_vars inp) axis groups) ss outs pr pfin in
  forall old m s, exec S m (start S old) s -> finished S s ->
  forall f fname g v name unit c, nth_error files f = Some (fname, g) -> nth_error (gi_out_vars inp) v = Some (name, unit) -> on_grid (gi_axes inp) c ->
  exists x, disk s f v c = Some x /\ List.length x = List.length g /\
    forall k t, nth_error g k = Some t -> exists i, t = (st + (Z.of_nat i + (if pe then 1 else 0)) * ts)%Z /\
      (active (gi_mask inp c) -> exists r cd df prm' conv col y, own_place inp c r /\ file_columns pf read names n jobs inp c (rc_cols r) /\
         loaded prm (gi_start inp) n r cd /\ run_cell fuel prm cd = Some (Ok df, prm') /\
         converter_for name unit = Ok conv /\ dict_get df name = Some col /\ nth_error col i = Some y /\ nth_error x k = Some (conv y ts)) /\
      (~ active (gi_mask inp c) -> nth_error x k = Some None).
Proof.
  intros Ax Gs Fs P I Whole Cv E W Hn Hd Hs NV ts st L Mb Oa Gr Wh Nm S old m s X Fin f fname g v name unit c Hf Hv On.
  set (inp' := with_forcing inp (vic_nc names n (gi_axes inp) g0)).
  assert (Own : forall c r, on_grid (gi_axes inp) c -> own_inputs inp' c r -> own_place inp c r /\ file_columns pf read names n jobs inp c (rc_cols r)).
  { intros c' r On' [O1 O2 O3 O4]. split; [constructor; assumption|]. exact (own_columns pf read names n jobs inp g0 Ax Whole c' r On' O3). }
  destruct (named_files_to_files fuel prm inp' chunks ss outs n freq pe axis groups dir prefix files pr pfin) with (old := old) (m := m) (s := s) (f := f) (fname := fname) (g := g)
      (v := v) (name := name) (unit := unit) (c := c) as (x & D & Lx & V); try assumption.
  - exact (vic_good names n inp g0 Ax Gs).
  - eapply forall2_In; [exact W|]. intros ds out _ H. unfold vic_file_worker in H. unfold file_worker.
    rewrite (slice_of_whole pf read names n jobs inp g0 ds Ax Whole) in H. exact H.
  - intros c' r On' O. destruct (Own c' r On' O) as (O1 & O2). eapply cells_shaped; eauto.
  - exists x. split; [exact D|]. split; [exact Lx|]. intros k t K. destruct (V k t K) as (i & T & A & B). exists i. split; [exact T|]. split; [|exact B].
    intros M. destruct (A M) as (r & cd & df & prm' & conv & col & y & O & Rest). destruct (Own c r On O) as (O1 & O2).
    exists r, cd, df, prm', conv, col, y. split; [exact O1|]. split; [exact O2|exact Rest].
Qed.

(** ** a missing temperature stops a sub-daily run *)
Lemma cell_missing fuel prm c out prm' k v : (p_time_step prm < 1440)%Z -> In k ["t_min"; "t_max"] ->
  dict_get (dl_cols (cd_daily c)) k = Some v -> In None v -> run_cell fuel prm c <> Some (Ok out, prm').
Proof.
  intros Lt Ik Hk Hv H. destruct (cell_forcing _ _ _ _ _ Lt H) as (g & df & s1 & s2 & G & Doy & Keep & A & B & X).
  apply disaggregate_inv in X. cbv zeta in X.
  destruct X as (tpd & ? & ? & sw & tTmin & tTmax & tmn & tmx & tminR & tmaxR & tmp & ? & vp0 & ? & ck & lw & ? & pr & Hd & _ & Sm & (C1 & C2 & F1 & F2 & Te) & _).
  apply col_get in C1, C2. rewrite Keep in C1, C2 by unt. apply finite_inv in F1, F2.
  destruct Ik as [<-|[<-|[]]].
  - assert (v = tmn) by (unfold fl in *; congruence). subst v. rewrite F1 in Hv. apply in_map_iff in Hv as (q & Q & _). discriminate.
  - assert (v = tmx) by (unfold fl in *; congruence). subst v. rewrite F2 in Hv. apply in_map_iff in Hv as (q & Q & _). discriminate.
Qed.

Theorem worker_missing fuel prm w n k v out i c r : (p_time_step prm < 1440)%Z ->
  wk_days w = dates_from (wk_start w) n -> wk_stop w = (wk_start w + Z.of_nat n - 1)%Z -> (forall r, In r (wk_cells w) -> raw_shaped n r) ->
  nth_error (indices (wk_shape w)) i = Some c -> nth_error (wk_cells w) i = Some r -> active (wk_mask w c) ->
  In k ["t_min"; "t_max"] -> raw_col r k = Ok v -> In None v -> run_worker fuel prm w <> Some (Ok out).
Proof.
  intros Lt Hd Hs Sh C Rr A Ik Hk Hv H. destruct (worker_cells fuel prm w n out Hd Hs Sh H i c r C Rr) as (X & _).
  destruct (X A) as (cd & vs & Ld & (df & prm' & Rc & _) & _). revert Rc.
  apply (cell_missing fuel prm cd df prm' k v Lt Ik); [|exact Hv]. rewrite (ld_forcing _ _ _ _ _ Ld).
  - unfold raw_col, dict_getitem in Hk. destruct (dict_get (rc_cols r) k); [|discriminate]. apply Ok_inj in Hk. now subst.
  - unfold added_columns. destruct Ik as [<-|[<-|[]]]; destruct (str_in _ _); cbn; intuition discriminate.
Qed.

Theorem vic_missing_stops pf read names n jobs inp g ds fuel prm l out :
  lat_lon (gi_axes inp) -> good_state inp -> full_state inp -> proper_reader read names n -> incl ["prec"; "t_min"; "t_max"] names ->
  process_vic pf (slice_vic_domain inp []) read jobs = Ok g ->
  (1 <= n)%nat -> gi_days inp = dates_from (gi_start inp) n -> gi_stop inp = (gi_start inp + Z.of_nat n - 1)%Z ->
  (p_time_step prm < 1440)%Z ->
  In l (indices (map (@List.length nat) (axes_ranges (gi_axes inp) ds))) ->
  active (gi_mask inp (globalize (axes_ranges (gi_axes inp) ds) l)) ->
  no_file_of pf (gi_axes inp) read jobs (globalize (axes_ranges (gi_axes inp) ds) l) ->
  vic_file_worker pf read names n jobs fuel prm inp ds <> Some (Ok out).
Proof.
  intros Ax Gs Fs P I Whole Hn Hd Hs Lt Il M N H. unfold vic_file_worker in H.
  destruct (vic_slice_worker pf read names n jobs inp ds) as [w|] eqn:W; [|discriminate].
  destruct (vic_worker_cells pf read names n jobs inp g Ax Whole ds w Gs W) as (Lc & C).
  assert (Fields : wk_start w = gi_start inp /\ wk_stop w = gi_stop inp /\ wk_days w = gi_days inp /\
    wk_shape w = map (@List.length nat) (axes_ranges (gi_axes inp) ds)).
  { pose proof W as W'. unfold vic_slice_worker, worker_with in W'. apply bind_inv in W' as (g' & _ & W'). apply bind_inv in W' as (state & _ & W').
    apply bind_inv in W' as (cells & _ & W'). apply ok_inj in W'. rewrite <- W'. auto. }
  destruct Fields as (F1 & F2 & F3 & F4). rewrite <- F4 in Il. apply In_nth_error in Il as (i & Li).
  assert (Hi : (i < List.length (wk_cells w))%nat) by (rewrite Lc; apply nth_error_Some; congruence).
  destruct (nth_error (wk_cells w) i) as [r|] eqn:Rr; [|apply nth_error_None in Rr; lia].
  destruct (C i l r Li Rr) as (On & Mk & O & Fc). rewrite <- Mk in M.
  assert (Cols : rc_cols r = missing_cols names n).
  { destruct Fc as (Fc & _). rewrite <- Mk in Fc. destruct (Fc M) as [(job & J1 & J2 & J3)|(_ & E)]; [|exact E].
    destruct (N job J1 J2) as (e & E). congruence. }
  revert H. apply (worker_missing fuel prm w n "t_min" (repeat None n) out i l r Lt).
  - now rewrite F3, F1.
  - now rewrite F2, F1.
  - intros r' I'. apply In_nth_error in I' as (i' & I'). assert (Hi' : (i' < List.length (wk_cells w))%nat) by (apply nth_error_Some; congruence).
    destruct (nth_error (indices (wk_shape w)) i') as [l'|] eqn:Li'; [|apply nth_error_None in Li'; lia].
    destruct (C i' l' r' Li' I') as (On' & _ & O' & Fc'). exact (proj1 (cells_shaped _ _ _ _ _ _ _ _ P I Fs On' O' Fc')).
  - exact Li.
  - exact Rr.
  - exact M.
  - cbn. auto.
  - unfold raw_col, dict_getitem. rewrite Cols, missing_get; [reflexivity|]. apply I. cbn. auto.
  - destruct n; [lia|]. now left.
Qed.

(** ** the two readers are proper *)
Lemma ascii_proper lines names n : NoDup names -> proper_reader (fun job => read_ascii (lines job) names n) names n.
Proof.
  intros Nd job d H. unfold read_ascii in H. destruct (lines job) as [|r rows] eqn:L; [discriminate|].
  set (head := firstn n (r :: rows)) in *. destruct (Nat.eqb_spec (List.length head) n) as [E|]; [|discriminate]. apply Ok_inj in H.
  assert (K : forall (f : nat * string -> list fl) m, (forall x, List.length (f x) = n) ->
    let e := map (fun iv => (snd iv, f iv)) (combine (seq m (List.length names)) names) in
    keys e = names /\ forall k v, dict_get e k = Some v -> List.length v = n).
  { clear - n. intros f m Hf. revert m. induction names as [|x names IH]; intros m; [split; [reflexivity|discriminate]|].
    cbn [List.length seq combine map]. destruct (IH (S m)) as (A & B). cbn [keys map fst snd dict_get]. split; [f_equal; exact A|].
    intros k v. destruct (String.eqb k x); [|apply B]. intros V. injection V as <-. apply Hf. }
  subst d. apply (K (fun iv => map (fun r0 => nth (surplus (r :: rows) names + fst iv) r0 None) head) 0%nat). intros x. now rewrite map_length.
Qed.


Lemma bin_loop_len vars fuel : forall i bytes data d, bin_loop vars fuel i bytes data = Ok d -> List.length d = List.length data.
Proof.
  induction fuel as [|fuel IH]; intros i bytes data d H; cbn [bin_loop] in H; [apply Ok_inj in H; now subst|].
  destruct bytes as [|lo [|hi rest]]; [apply Ok_inj in H; now subst|discriminate|].
  destruct (nth_error vars i); [|discriminate]. destruct (nth_error data i); [|discriminate]. destruct (Req_EM_T _ _); [discriminate|].
  apply IH in H. now rewrite upd_length' in H.
Qed.

Lemma bin_vars_len pf m vars : bin_vars pf m = Ok vars -> List.length vars = List.length m.
Proof.
  unfold bin_vars. intros H. apply bind_inv in H as (sc & A & H). apply bind_inv in H as (ty & B & H). apply Ok_inj in H. subst vars.
  apply mapM_inv in A, B. apply Forall2_len in A. apply Forall2_len in B. rewrite map_length, combine_length.
  unfold values in A, B. rewrite map_length in A, B. lia.
Qed.

Lemma binary_proper pf bytes m n : proper_reader (fun job => read_binary_named pf (bytes job) m n) (keys m) n.
Proof.
  intros job d H. unfold read_binary_named in H. apply bind_inv in H as (vars & V & H). apply bind_inv in H as (cols & C & H). apply Ok_inj in H.
  unfold read_binary in C. apply bind_inv in C as (cs & L & C). destruct (forallb _ cs) eqn:F; [|discriminate]. apply Ok_inj in C. subst cs.
  apply bin_loop_len in L. rewrite repeat_length, (bin_vars_len _ _ _ V) in L. rewrite forallb_forall in F. subst d.
  clear V. unfold keys. revert cols L F. induction m as [|[k s] m IH]; intros [|c cols] L F; try discriminate L; [split; [reflexivity|discriminate]|].
  cbn [map combine fst snd dict_get]. destruct (IH cols) as (A & B); [cbn in L; lia|intros x X; apply F; now right|]. split; [f_equal; exact A|].
  intros k' v. destruct (String.eqb k' k); [|apply B]. intros E. injection E as <-. rewrite map_length.
  apply Nat.eqb_eq, F. now left.
Qed.

Theorem readers_proper pf bytes lines fmt m n : NoDup (keys m) -> proper_reader (read_vic pf bytes lines fmt m n) (keys m) n.
Proof.
  intros Nd job d H. unfold read_vic in H. destruct (String.eqb fmt "binary").
  - exact (binary_proper pf bytes m n job d H).
  - exact (ascii_proper lines (keys m) n Nd job d H).
Qed.

(** ** a directory with acceptable files for all active cells *)
Theorem vic_finishes pf read names n jobs inp g prm chunks ss :
  lat_lon (gi_axes inp) -> good_state inp -> labels_cover (nc_axes (gi_state inp)) (gi_axes inp) ->
  process_vic pf (slice_vic_domain inp []) read jobs = Ok g ->
  (chunks = [] \/ covers chunks (axes_dims (gi_axes inp))) -> slices chunks (axes_dims (gi_axes inp)) = Ok ss ->
  (0 < p_time_step prm)%Z -> (0 < p_tmax_frac prm <= 1)%R -> (0 < n)%nat ->
  gi_days inp = dates_from (gi_start inp) n -> gi_stop inp = (gi_start inp + Z.of_nat n - 1)%Z ->
  (forall c r, on_grid (gi_axes inp) c -> own_place inp c r -> file_columns pf read names n jobs inp c (rc_cols r) ->
     loadable prm n r /\ (active (gi_mask inp c) -> good_raw prm n r) /\ (In "wind" (keys (gi_out_vars inp)) -> exists v, raw_col r "wind" = Ok v)) ->
  (forall name unit, In (name, unit) (gi_out_vars inp) -> exists conv, converter_for name unit = Ok conv) ->
  validate_setup (gi_setup inp) = Ok tt -> describes (gi_setup inp) prm (gi_out_vars inp) ->
  exists N, forall fuel, (fuel >= N)%nat ->
    exists outs, Forall2 (fun ds out => vic_file_worker pf read names n jobs fuel prm inp ds = Some (Ok out)) ss outs.
Proof.
  intros Ax Gs Cs Whole Cv E Ps Fr Hn Hd Hs Cells Cv' Vs De. set (inp' := with_forcing inp (vic_nc names n (gi_axes inp) g)).
  destruct (files_run_finishes prm inp' chunks ss n) as (N & H); try assumption.
  - exact (vic_good names n inp g Ax Gs).
  - exact (vic_cover names n inp g).
  - intros c r On [O1 O2 O3 O4]. apply Cells; [exact On|constructor; assumption|].
    exact (own_columns pf read names n jobs inp g Ax Whole c r On O3).
  - exists N. intros fuel F. destruct (H fuel F) as (outs & O). exists outs. eapply forall2_In; [exact O|]. intros ds out _ K.
    unfold vic_file_worker. rewrite (slice_of_whole pf read names n jobs inp g ds Ax Whole). exact K.
Qed.

(** with one file per cell the forcing is determined *)
Lemma columns_only pf read names n jobs inp c cols job d : file_columns pf read names n jobs inp c cols -> active (gi_mask inp c) ->
  only_file_of pf (gi_axes inp) jobs job c -> read job = Ok d -> cols = d.
Proof.
  intros (A & _) M (I & N & U) R. destruct (A M) as [(job' & I' & N' & R')|(No & _)].
  - rewrite (U job' I' N') in R'. apply Ok_inj. now rewrite <- R, <- R'.
  - destruct (No job I N) as (e & X). congruence.
Qed.

(** ** example: a file for the active cell on the equator *)
Lemma equator_reads job : equator_read job = Ok (rc_cols equator_raw).
Proof. reflexivity. Qed.

Lemma demo_lat_lon : lat_lon (gi_axes demo_inputs).
Proof.
  exists [0]%R, [0; 1]%R. split; [repeat constructor; cbn; tauto|]. split; [AlignCases.nodup|]. split; [discriminate|]. split; [discriminate|]. left. reflexivity.
Qed.
Lemma demo_good_state : good_state demo_inputs.
Proof. destruct AlignCases.demo_good as [A B C D E]. constructor; assumption. Qed.

Lemma equator_active c : active (gi_mask demo_inputs c) -> c = [0; 0]%nat.
Proof.
  intros (x & E & P). cbn in E. destruct c as [|[|?] [|[|?] [|? ?]]]; cbn in E; try (injection E as <-; lra). reflexivity.
Qed.

Lemma demo_full : full_state demo_inputs.
Proof.
  intros c sp sn sx On (_ & H). destruct (AlignCases.demo_points c On) as [-> | ->].
  - specialize (H [0; 1]%nat). assert (E : (sp, sn, sx) = (rc_st_prec equator_raw, rc_st_tmin equator_raw, rc_st_tmax equator_raw)) by (apply H; AlignCases.at_point).
    injection E as -> -> ->. auto.
  - specialize (H [0; 0]%nat). assert (E : (sp, sn, sx) = (rc_st_prec AlignSpec.cold_raw, rc_st_tmin cold_raw, rc_st_tmax cold_raw)) by (apply H; AlignCases.at_point).
    injection E as -> -> ->. auto.
Qed.

Lemma equator_only : only_file_of zero_float (gi_axes demo_inputs) equator_jobs "/data/full_0_0" [0; 0]%nat.
Proof.
  split; [cbn; auto|]. split.
  - exists 0%R, 0%R. split; [reflexivity|]. split; [apply (coord_first "lat" [0]%R "lon" [0; 1]%R)|apply (coord_second "lat" [0]%R "lon" [0; 1]%R)]; try discriminate; reflexivity.
  - intros job [<-|[<-|[]]]; [|reflexivity]. intros (lat & lon & P & _). discriminate P.
Qed.

Theorem equator_case : lat_lon (gi_axes demo_inputs) /\ good_state demo_inputs /\ full_state demo_inputs /\
  proper_reader equator_read equator_names 2 /\ incl ["prec"; "t_min"; "t_max"] equator_names /\
  (exists g, process_vic zero_float (slice_vic_domain demo_inputs []) equator_read equator_jobs = Ok g) /\
  (exists w, vic_slice_worker zero_float equator_read equator_names 2 equator_jobs demo_inputs [] = Ok w /\ wk_shape w = [1; 2]%nat) /\
  active (gi_mask demo_inputs [0; 0]%nat) /\ only_file_of zero_float (gi_axes demo_inputs) equator_jobs "/data/full_0_0" [0; 0]%nat /\
  equator_read "/data/full_0_0" = Ok (rc_cols equator_raw) /\
  no_file_of zero_float (gi_axes demo_inputs) equator_read ["/data/readme"] [0; 0]%nat /\
  (exists g, process_vic zero_float (slice_vic_domain demo_inputs []) equator_read ["/data/readme"] = Ok g).
Proof.
  assert (T : forall jobs, exists g, process_vic zero_float (slice_vic_domain demo_inputs []) equator_read jobs = Ok g).
  { intros jobs. apply process_total. intros job e _ H. rewrite equator_reads in H. discriminate. }
  split; [exact demo_lat_lon|]. split; [exact demo_good_state|]. split; [exact demo_full|].
  split; [apply ascii_proper; unfold equator_names; AlignCases.nodup|]. split; [intros k [<-|[<-|[<-|[]]]]; cbn; auto|].
  split; [apply T|]. split.
  - destruct (T equator_jobs) as (g & G). destruct (vic_worker_reads zero_float equator_read equator_names 2 equator_jobs demo_inputs g demo_lat_lon G [] demo_good_state (proj2 AlignCases.demo_cover)) as (w & W).
    exists w. split; [exact W|]. unfold vic_slice_worker, worker_with in W. apply bind_inv in W as (g' & _ & W). apply bind_inv in W as (s & _ & W).
    apply bind_inv in W as (cs & _ & W). apply ok_inj in W. rewrite <- W. reflexivity.
  - split; [exists 1%R; split; [reflexivity|lra]|]. split; [exact equator_only|]. split; [reflexivity|]. split; [|apply T].
    intros job [<-|[]] (lat & lon & P & _). discriminate P.
Qed.

Lemma first_place : at_place (nc_axes (gi_state demo_inputs)) [0; 1]%nat (gi_axes demo_inputs) [0; 0]%nat.
Proof. AlignCases.at_point. Qed.

Lemma place_first r : own_place demo_inputs [0; 0]%nat r -> rc_cols r = rc_cols equator_raw -> r = equator_raw.
Proof.
  intros [(A1 & A2 & A3) (A4 & A5) (_ & St)] C. specialize (St [0; 1]%nat).
  specialize (St first_place). destruct r as [la lo el co du tp sp sn sx]. cbn [rc_lat rc_lon rc_elev rc_cols rc_dur rc_tpk rc_st_prec rc_st_tmin rc_st_tmax] in *.
  injection St as -> -> ->. subst. reflexivity.
Qed.

Lemma missing_loadable m ts c r : on_grid (gi_axes demo_inputs) c -> own_place demo_inputs c r -> rc_cols r = missing_cols equator_names 2 ->
  loadable (demo_method m ts) 2 r.
Proof.
  intros On O C. destruct (demo_full c _ _ _ On (op_state _ _ _ O)) as (F1 & F2 & F3).
  assert (G : forall k, In k ["t_min"; "t_max"; "prec"] -> raw_col r k = Ok (repeat None 2)).
  { intros k Ik. unfold raw_col, dict_getitem. rewrite C, missing_get; [reflexivity|]. destruct Ik as [<-|[<-|[<-|[]]]]; cbn; auto. }
  constructor.
  - exists (repeat None 2), (repeat None 2), (repeat None 2). do 3 (split; [apply G; cbn; auto|]). unfold shaped. cbn [List.length repeat]. auto 8.
  - intros (a & b & A & B & d & x & y & X & Y & I). rewrite G in A by (cbn; auto). rewrite G in B by (cbn; auto). apply Ok_inj in A. apply Ok_inj in B. subst.
    destruct d as [|[|d]]; cbn in X, Y; try discriminate; destruct d; discriminate.
  - intros T. exfalso. cbn in T. destruct T as [T|[T|[]]]; discriminate T.
Qed.

Lemma equator_cells c r : on_grid (gi_axes demo_inputs) c -> own_place demo_inputs c r ->
  file_columns zero_float equator_read equator_names 2 equator_jobs demo_inputs c (rc_cols r) ->
  loadable (demo_method "mtclim" 60) 2 r /\ (active (gi_mask demo_inputs c) -> good_raw (demo_method "mtclim" 60) 2 r) /\
  (In "wind" (keys (gi_out_vars demo_inputs)) -> exists v, raw_col r "wind" = Ok v).
Proof.
  intros On O F. assert (Nw : In "wind" (keys (gi_out_vars demo_inputs)) -> exists v, raw_col r "wind" = Ok v) by (intros [X|[X|[]]]; discriminate X).
  destruct (active_or (gi_mask demo_inputs c)) as [A|A].
  - pose proof (equator_active c A). subst c.
    assert (E : r = equator_raw). { apply (place_first r O). exact (columns_only _ _ _ _ _ _ _ _ _ _ F A equator_only (equator_reads _)). }
    subst r. split; [apply equator_loadable|]. split; [|exact Nw]. intros _. apply equator_raw_good. cbn. auto.
  - split; [exact (missing_loadable _ _ c r On O (proj2 F A))|]. split; [tauto|exact Nw].
Qed.

Theorem equator_finishes : exists ss, slices demo_chunks (axes_dims (gi_axes demo_inputs)) = Ok ss /\ List.length ss = 2%nat /\
  exists N, forall fuel, (fuel >= N)%nat ->
  exists outs, Forall2 (fun ds out => vic_file_worker zero_float equator_read equator_names 2 equator_jobs fuel (demo_method "mtclim" 60) demo_inputs ds = Some (Ok out)) ss outs.
Proof.
  assert (E : exists ss, slices demo_chunks (axes_dims (gi_axes demo_inputs)) = Ok ss /\ List.length ss = 2%nat).
  { eexists. split; [vm_compute; reflexivity|reflexivity]. }
  destruct E as (ss & E & L). exists ss. split; [exact E|]. split; [exact L|].
  destruct equator_case as (A & B & _ & _ & _ & (g & G) & _).
  apply (vic_finishes zero_float equator_read equator_names 2 equator_jobs demo_inputs g (demo_method "mtclim" 60) demo_chunks ss A B (proj2 demo_cover) G (or_intror demo_covers) E); try reflexivity.
  - cbn. lra.
  - lia.
  - intros c r On O F. exact (equator_cells c r On O F).
  - intros name unit [Y|[Y|[]]]; injection Y as <- <-; eexists; reflexivity.
  - exact (equator_describes "mtclim").
Qed.

(** ** the second cell has no file *)
Lemma both_no_file : no_file_of zero_float (gi_axes both_inputs) equator_read equator_jobs [0; 1]%nat.
Proof.
  intros job [<-|[<-|[]]] (lat & lon & P & _ & B); [discriminate P|]. apply Ok_inj in P. injection P as <- <-.
  apply (coord_second "lat" [0]%R "lon" [0; 1]%R) in B; [|discriminate]. cbn in B. injection B as B. lra.
Qed.

Theorem both_stop : ~ (forall pf read names n jobs inp g prm chunks ss,
  (chunks = [] \/ covers chunks (axes_dims (gi_axes inp))) -> slices chunks (axes_dims (gi_axes inp)) = Ok ss ->
  lat_lon (gi_axes inp) -> good_state inp -> full_state inp -> labels_cover (nc_axes (gi_state inp)) (gi_axes inp) ->
  proper_reader read names n -> incl ["prec"; "t_min"; "t_max"] names ->
  process_vic pf (slice_vic_domain inp []) read jobs = Ok g ->
  (0 < p_time_step prm)%Z -> (0 < p_tmax_frac prm <= 1)%R -> (0 < n)%nat ->
  gi_days inp = dates_from (gi_start inp) n -> gi_stop inp = (gi_start inp + Z.of_nat n - 1)%Z ->
  (exists c, on_grid (gi_axes inp) c /\ active (gi_mask inp c) /\ ~ no_file_of pf (gi_axes inp) read jobs c) ->
  (forall c r, on_grid (gi_axes inp) c -> own_place inp c r -> file_columns pf read names n jobs inp c (rc_cols r) -> loadable prm n r) ->
  (forall c r, on_grid (gi_axes inp) c -> own_place inp c r -> file_columns pf read names n jobs inp c (rc_cols r) ->
     active (gi_mask inp c) -> ~ no_file_of pf (gi_axes inp) read jobs c -> good_raw prm n r) ->
  ~ In "wind" (keys (gi_out_vars inp)) ->
  (forall name unit, In (name, unit) (gi_out_vars inp) -> exists conv, converter_for name unit = Ok conv) ->
  validate_setup (gi_setup inp) = Ok tt -> describes (gi_setup inp) prm (gi_out_vars inp) ->
  exists fuel outs, Forall2 (fun ds out => vic_file_worker pf read names n jobs fuel prm inp ds = Some (Ok out)) ss outs).
Proof.
  intros H. destruct equator_case as (A & B & C & D & E & _).
  assert (T : exists g, process_vic zero_float (slice_vic_domain both_inputs []) equator_read equator_jobs = Ok g).
  { apply process_total. intros job e _ X. rewrite equator_reads in X. discriminate. }
  destruct T as (g & G).
  assert (B' : good_state both_inputs) by (destruct B as [B1 B2]; constructor; assumption).
  assert (Act : forall c, active (gi_mask both_inputs c)) by (intros c; exists 1%R; split; [reflexivity|lra]).
  assert (Ex : ~ no_file_of zero_float (gi_axes both_inputs) equator_read equator_jobs [0; 0]%nat).
  { intros N. destruct (N "/data/full_0_0") as (e & X); [cbn; auto|exact (proj1 (proj2 equator_only))|]. rewrite equator_reads in X. discriminate. }
  assert (Cells : forall c r, on_grid (gi_axes both_inputs) c -> own_place both_inputs c r ->
    file_columns zero_float equator_read equator_names 2 equator_jobs both_inputs c (rc_cols r) ->
    c = [0; 0]%nat /\ r = equator_raw \/ c = [0; 1]%nat /\ rc_cols r = missing_cols equator_names 2).
  { intros c r On O F. destruct (demo_points c On) as [-> | ->].
    - left. split; [reflexivity|]. apply place_first; [destruct O as [O1 O2 O3]; constructor; assumption|].
      exact (columns_only _ _ _ _ _ _ _ _ _ _ F (Act _) equator_only (equator_reads _)).
    - right. split; [reflexivity|]. destruct (proj1 F (Act _)) as [(job & I & N & R)|(_ & X)]; [|exact X].
      destruct (both_no_file job I N) as (e & X). congruence. }
  destruct (H zero_float equator_read equator_names 2%nat equator_jobs both_inputs g (demo_method "mtclim" 60) []
    [map (fun d => (fst d, mkslice None None)) (axes_dims (gi_axes both_inputs))]) as (fuel & outs & X); try reflexivity; try assumption.
  - now left.
  - exact (proj2 demo_cover).
  - cbn. lra.
  - lia.
  - exists [0; 0]%nat. split; [repeat constructor|]. split; [apply Act|exact Ex].
  - intros c r On O F. destruct (Cells c r On O F) as [(-> & ->)|(-> & X)]; [apply equator_loadable|].
    apply (missing_loadable _ _ [0; 1]%nat r On); [destruct O as [O1 O2 O3]; constructor; assumption|exact X].
  - intros c r On O F _ N. destruct (Cells c r On O F) as [(-> & ->)|(-> & X)]; [apply equator_raw_good; cbn; auto|]. destruct (N both_no_file).
  - intros [Y|[Y|[]]]; discriminate Y.
  - intros name unit [Y|[Y|[]]]; injection Y as <- <-; eexists; reflexivity.
  - exact (equator_describes "mtclim").
  - inversion X as [|ds out ss' outs' Y Z]. subst. revert Y.
    apply (vic_missing_stops zero_float equator_read equator_names 2 equator_jobs both_inputs g _ fuel (demo_method "mtclim" 60) [0; 1]%nat out); try reflexivity; try assumption.
    + lia.
    + cbn. auto.
    + apply Act.
    + exact both_no_file.
Qed.
