(** C117 *)
From Coq Require Import ZArith QArith Qround Reals String List Bool Arith Lia Lra Sorting.Sorted Classical_Prop.
From Verif Require Import Model.Py Model.Fl Model.Calendar Model.Datetime Model.DateRange Model.Header Model.Params Model.State Model.Validate
  Model.Output Model.Cell Model.Worker Model.CalendarRun Spec.CalendarSpec Spec.RowsSpec Spec.CalendarRunSpec Spec.GapSpec
  Spec.StateSpec Spec.WorkerSpec Spec.CellSpec Spec.SetupSpec Spec.FrameSpec
  Proofs.Base Proofs.StateProofs Proofs.WorkerProofs Proofs.LoadProofs Proofs.WorkerTotal Proofs.SetupProofs Proofs.CellTotal Proofs.GapProofs Proofs.DateProofs Proofs.YearProofs Proofs.HeaderProofs Proofs.OutputProofs Proofs.DateRangeProofs.
Import ListNotations.
Local Open Scope list_scope.
Local Open Scope Z_scope.

Definition days_of (a b : Z) : list Z := map (fun i => a + Z.of_nat i) (seq 0 (Z.to_nat (b - a + 1))).

Lemma stamps_days a b : stamps (1440 * a) (1440 * b) 1440 = map (fun d => 1440 * d) (days_of a b).
Proof.
  unfold stamps, days_of. rewrite map_map. replace ((1440 * b - 1440 * a) / 1440) with (b - a) by (Z.to_euclidean_division_equations; lia).
  apply map_ext. intros i. lia.
Qed.

Lemma filter_map {A B} (f : A -> B) p l : filter p (map f l) = map f (filter (fun x => p (f x)) l).
Proof. induction l as [|x l IH]; cbn [map filter]; auto. destruct (p (f x)); cbn [map]; now rewrite IH. Qed.

Lemma floors l ds : same_stamps l (map (fun d => 1440 * d) ds) -> map (fun q => Qfloor q / minutes_per_day) l = ds.
Proof.
  assert (G : forall d, (fun d => 1440 * d) d / minutes_per_day = d) by (intros d; unfold minutes_per_day; rewrite Z.mul_comm; apply Z.div_mul; lia).
  revert G. generalize (fun d => 1440 * d) as f. intros f G. revert ds.
  induction l as [|q l IH]; intros [|d ds] H; inversion H as [|? ? ? ? E F]; subst; auto. cbn [map]. rewrite (IH ds F). f_equal.
  rewrite E, Qfloor_Z. apply G.
Qed.

Lemma every_day : every "D" 1440.
Proof. exists 1440, "D"%string. split; [cbn [In]; auto|left; auto]. Qed.

Lemma mid a : midnight a = 1440 * a.
Proof. unfold midnight, minutes_per_day. lia. Qed.

Lemma whole_days a b : (1440 * b - 1440 * a) mod 1440 = 0.
Proof. replace (1440 * b - 1440 * a) with ((b - a) * 1440) by lia. apply Z.mod_mul. lia. Qed.

Lemma window_dates s : days_of (s - 90) (s - 1) = record_dates (s - 90) (s - 1).
Proof. unfold days_of, record_dates, zrange. apply map_ext. intros i. lia. Qed.

Lemma window_len s : List.length (days_of (s - 90) (s - 1)) = 90%nat.
Proof. unfold days_of. rewrite map_length, seq_length. lia. Qed.

Lemma in_days a b d : In d (days_of a b) <-> a <= d <= b.
Proof.
  unfold days_of. rewrite in_map_iff. split.
  - intros (i & <- & I). apply in_seq in I. lia.
  - intros H. exists (Z.to_nat (d - a)). split; [lia|]. apply in_seq. lia.
Qed.

Lemma filter_le {A} (p : A -> bool) l : (List.length (filter p l) <= List.length l)%nat.
Proof. induction l as [|x l IH]; cbn [filter List.length]; [lia|]. destruct (p x); cbn [List.length]; lia. Qed.

Lemma filter_shorter {A} (p : A -> bool) l x : In x l -> p x = false -> (List.length (filter p l) < List.length l)%nat.
Proof.
  induction l as [|y l IH]; cbn [In filter List.length]; [easy|]. intros [->|I] H.
  - rewrite H. pose proof (filter_le p l). lia.
  - specialize (IH I H). destruct (p y); cbn [List.length]; lia.
Qed.

Lemma filter_all {A} (p : A -> bool) l : (forall x, In x l -> p x = true) -> filter p l = l.
Proof. induction l as [|x l IH]; cbn [filter]; auto. intros H. rewrite H by now left. f_equal. apply IH. intros; apply H; now right. Qed.

(** ** the dates of the state *)
Lemma dates_of name a b r : date_range name (1440 * a) (1440 * b) "D" = r ->
  calendar_dates name a b = option_map (fun r => do l <- r; Ok (map (fun q => Qfloor q / minutes_per_day) l)) r.
Proof. intros <-. unfold calendar_dates. now rewrite !mid. Qed.

Lemma standard_dates name s : In name ["standard"; "gregorian"; "proleptic_gregorian"]%string ->
  calendar_dates name (s - 90) (s - 1) = Some (Ok (record_dates (s - 90) (s - 1))).
Proof.
  intros N.
  assert (H : exists l, date_range name (1440 * (s - 90)) (1440 * (s - 1)) "D" = Some (Ok l) /\
     same_stamps l (stamps (1440 * (s - 90)) (1440 * (s - 1)) 1440)).
  { cbn [In] in N. destruct N as [<-|[<-|[<-|[]]]].
    - apply standard_range; [cbn [In]; auto|apply every_day|lia].
    - apply standard_range; [cbn [In]; auto|apply every_day|lia].
    - apply proleptic_range; [apply every_day|lia|lia|apply whole_days]. }
  destruct H as (l & H & F). rewrite (dates_of _ _ _ _ H). cbn [option_map bind]. rewrite stamps_days in F.
  rewrite (floors _ _ F). now rewrite window_dates.
Qed.

(** the dates of a calendar are its own, or a ValueError *)
Lemma fixed_dates name k a b : named name k -> a <= b ->
  calendar_dates name a b = Some (Err ValueError) \/
  calendar_dates name a b = Some (Ok (filter (fun d => has_date k (1440 * d)) (days_of a b))).
Proof.
  intros N AB. destruct (has_date k (1440 * a)) eqn:HA; [destruct (has_date k (1440 * b)) eqn:HB|].
  - assert (H : date_range name (1440 * a) (1440 * b) "D" = Some (Err ValueError) \/
       exists l, date_range name (1440 * a) (1440 * b) "D" = Some (Ok l) /\
       same_stamps l (filter (has_date k) (stamps (1440 * a) (1440 * b) 1440))).
    { destruct k.
      - right. apply noleap_range; auto; try lia; [apply every_day|apply whole_days].
      - pose proof every_day as Ev.
        destruct (range_360 name "D" 1440 (1440 * a) (1440 * b) N Ev ltac:(lia) ltac:(reflexivity) ltac:(lia) (whole_days a b) HA HB) as [P Q].
        destruct (classic (crosses_february (1440 * a) (1440 * b))) as [C|C]; auto. }
    destruct H as [H|(l & H & F)]; [left; now rewrite (dates_of _ _ _ _ H)|right].
    rewrite (dates_of _ _ _ _ H). cbn [option_map bind]. rewrite stamps_days, filter_map in F. now rewrite (floors _ _ F).
  - left. erewrite dates_of; [|apply (missing_ends name k "D" 1440); auto using every_day]. reflexivity.
  - left. erewrite dates_of; [|apply (missing_ends name k "D" 1440); auto using every_day]. reflexivity.
Qed.

Lemma window_complete name s : named name NoLeap -> ~ lacking_window NoLeap s ->
  calendar_dates name (s - 90) (s - 1) = Some (Ok (record_dates (s - 90) (s - 1))).
Proof.
  intros N W.
  assert (All : forall d, s - 90 <= d <= s - 1 -> has_date NoLeap (1440 * d) = true).
  { intros d D. destruct (has_date NoLeap (1440 * d)) eqn:E; auto. exfalso. apply W. exists d. auto. }
  destruct (noleap_range name "D" 1440 (1440 * (s - 90)) (1440 * (s - 1)) N every_day ltac:(lia) (Z_mod_same_full 1440) ltac:(lia)
    (whole_days _ _) (All (s - 90) ltac:(lia)) (All (s - 1) ltac:(lia))) as (l & H & F).
  rewrite (dates_of _ _ _ _ H). cbn [option_map bind]. rewrite stamps_days, filter_map in F. rewrite (floors _ _ F).
  rewrite filter_all, window_dates; auto. intros d D. apply All. now apply in_days.
Qed.

Lemma window_lacking name k s : named name k -> lacking_window k s ->
  calendar_dates name (s - 90) (s - 1) = Some (Err ValueError) \/
  exists l, calendar_dates name (s - 90) (s - 1) = Some (Ok l) /\ List.length l <> 90%nat.
Proof.
  intros N (d & D & H). destruct (fixed_dates name k (s - 90) (s - 1) N ltac:(lia)) as [E|E]; [auto|right].
  eexists. split; [exact E|]. pose proof (filter_shorter (fun d => has_date k (1440 * d)) (days_of (s - 90) (s - 1)) d) as L.
  rewrite window_len in L. specialize (L ltac:(now apply in_days) H). lia.
Qed.

(** ** the days of the time axis *)
Lemma last_days a b : a <= b -> exists r, days_of a b = a :: r /\ last r a = b.
Proof.
  intros AB. unfold days_of. destruct (Z.to_nat (b - a + 1)) as [|n] eqn:E; [lia|].
  exists (map (fun i => a + Z.of_nat i) (seq 1 n)). split; [cbn [seq map]; f_equal; lia|].
  destruct n as [|n]; [cbn; lia|]. rewrite seq_S, map_app. cbn [map]. rewrite last_last. lia.
Qed.

Lemma filter_ends (p : Z -> bool) a b : a <= b -> p a = true -> p b = true ->
  exists r, filter p (days_of a b) = a :: r /\ last r a = b.
Proof.
  intros AB Pa Pb. destruct (last_days a b AB) as (r & E & L). rewrite E. cbn [filter]. rewrite Pa. eexists. split; [reflexivity|].
  destruct (rev r) as [|x r'] eqn:R.
  - apply (f_equal (@rev Z)) in R. rewrite rev_involutive in R. subst r. exact L.
  - apply (f_equal (@rev Z)) in R. rewrite rev_involutive in R. cbn [rev] in R. subst r. rewrite last_last in L. subst x.
    rewrite filter_app. cbn [filter]. rewrite Pb. apply last_last.
Qed.

Lemma step_nat ts : 0 < ts -> every (freq_minutes (Z.to_nat ts)) ts.
Proof. intros H. pose proof (every_minutes (Z.to_nat ts)) as E. now rewrite Z2Nat.id in E by lia. Qed.

Lemma standard_span name days ts : In name ["standard"; "gregorian"; "proleptic_gregorian"]%string -> increasing days -> 0 < ts -> 1440 mod ts = 0 ->
  calendar_span name days ts = Some (Ok (date_span days)).
Proof.
  intros N S T0 TD. destruct days as [|d r]; [reflexivity|]. unfold calendar_span, date_span.
  assert (AB : d <= last r d).
  { apply Sorted_StronglySorted in S; [|exact Z.lt_trans]. inversion S as [|? ? _ F]; subst. rewrite Forall_forall in F.
    destruct r as [|x r]; [cbn; lia|]. apply Z.lt_le_incl, F. clear. revert x. induction r as [|y r IH]; intros x; [now left|]. right. apply (IH y). }
  set (b := last r d) in *. rewrite !mid. unfold minutes_per_day.
  assert (TL : ts <= 1440). { destruct (Z.le_gt_cases ts 1440); auto. rewrite Z.mod_small in TD by lia. discriminate. }
  pose proof (axis_even d b ts T0 TD) as M. replace (1440 * b + 1440 - ts - 1440 * d) with (1440 * b + 1440 - ts - 1440 * d) in M by lia.
  assert (H : exists l, date_range name (1440 * d) (1440 * b + 1440 - ts) (freq_minutes (Z.to_nat ts)) = Some (Ok l) /\
     same_stamps l (stamps (1440 * d) (1440 * b + 1440 - ts) ts)).
  { cbn [In] in N. destruct N as [<-|[<-|[<-|[]]]].
    - apply standard_range; [cbn [In]; auto|apply step_nat; lia|lia].
    - apply standard_range; [cbn [In]; auto|apply step_nat; lia|lia].
    - apply proleptic_range; [apply step_nat; lia|lia|lia|exact M]. }
  destruct H as (l & H & F). rewrite H. cbn [option_map bind]. do 2 f_equal. apply Forall2_len in F. rewrite F. unfold stamps.
  rewrite map_length, seq_length. destruct (day_steps ts T0 TD) as [c C].
  assert (E : 1440 * b + 1440 - ts - 1440 * d = ((b - d + 1) * c - 1) * ts) by (rewrite !C; ring).
  rewrite E, Z.div_mul by lia. rewrite Z2Nat.id by nia.
  replace (((b - d + 1) * c - 1 + 1) * ts) with ((b - d + 1) * (c * ts)) by ring. rewrite <- C, Z.div_mul by lia. lia.
Qed.

Lemma noleap_span name days ts : named name NoLeap -> all_dates NoLeap days -> 0 < ts -> 1440 mod ts = 0 ->
  calendar_span name days ts = Some (Ok (List.length days)).
Proof.
  intros N (a & b & AB & HA & HB & E) T0 TD. fold (days_of a b) in E.
  destruct (filter_ends (fun d => has_date NoLeap (1440 * d)) a b AB HA HB) as (r & R & L).
  rewrite R in E. subst days. unfold calendar_span. rewrite L, !mid. unfold minutes_per_day.
  destruct (noleap_axis name a b (Z.to_nat ts) N ltac:(lia) ltac:(rewrite Z2Nat.id by lia; auto) AB HA HB) as (l & H & _ & C).
  rewrite Z2Nat.id in C by lia. unfold calendar_axis in H. cbv zeta in H. rewrite Z2Nat.id in H by lia.
  fold (axis_end ts) in H. rewrite axis_end_eq in H by auto. rewrite !Z.add_0_r in H.
  replace (1440 * b + (1440 - ts)) with (1440 * b + 1440 - ts) in H by lia. rewrite H. cbn [option_map bind].
  rewrite stamps_days, filter_map, map_length, R in C. rewrite C. rewrite Z.mul_comm, Z.div_mul by lia. now rewrite Nat2Z.id.
Qed.

(** ** the worker *)
Lemma load_in dates start stop days cells : dates = record_dates (start - 90) (start - 1) ->
  load_slice_in (Ok dates) start stop days cells = load_slice start stop days cells.
Proof.
  intros ->. unfold load_slice_in, load_slice. destruct (mapM _ cells); [|reflexivity]. cbn [bind].
  assert (L : List.length (record_dates (start - 90) (start - 1)) = 90%nat) by (rewrite <- window_dates; apply window_len).
  rewrite L. reflexivity.
Qed.

Theorem standard_worker name fuel prm w : In name ["standard"; "gregorian"; "proleptic_gregorian"]%string ->
  0 < p_time_step prm -> 1440 mod p_time_step prm = 0 -> increasing (wk_days w) ->
  run_worker_in name fuel prm w = run_worker fuel prm w.
Proof.
  intros N T0 TD S. unfold run_worker_in. rewrite (standard_dates _ _ N), (standard_span _ _ _ N S T0 TD).
  rewrite (load_in _ _ _ _ _ eq_refl). unfold run_worker. cbv zeta.
  destruct (load_slice _ _ _ _); [|reflexivity]. cbn [bind]. destruct (validate_setup _); [|reflexivity]. cbn [bind].
  destruct (mapM _ _); reflexivity.
Qed.

Theorem noleap_worker name fuel prm w : named name NoLeap -> 0 < p_time_step prm -> 1440 mod p_time_step prm = 0 ->
  all_dates NoLeap (wk_days w) -> ~ lacking_window NoLeap (wk_start w) ->
  run_worker_in name fuel prm w = run_worker_rows fuel prm w.
Proof.
  intros N T0 TD S W. unfold run_worker_in. rewrite (window_complete _ _ N W), (noleap_span _ _ _ N S T0 TD).
  rewrite (load_in _ _ _ _ _ eq_refl). unfold run_worker_rows. cbv zeta.
  destruct (load_slice _ _ _ _); [|reflexivity]. cbn [bind]. destruct (validate_setup _); [|reflexivity]. cbn [bind].
  destruct (mapM _ _); reflexivity.
Qed.

Lemma named_span name k days ts : named name k -> exists r, calendar_span name days ts = Some r.
Proof.
  intros N. destruct (named_not _ _ N) as [S C]. unfold calendar_span, date_range. destruct days; [eauto|]. rewrite S, C. cbn [option_map]. eauto.
Qed.

Theorem lacking_worker name k fuel prm w : named name k -> lacking_window k (wk_start w) ->
  (forall r, In r (wk_cells w) -> List.length (rc_st_prec r) = 90%nat) ->
  run_worker_in name fuel prm w = Some (Err ValueError).
Proof.
  intros N W Ln. unfold run_worker_in. destruct (named_span name k (wk_days w) (p_time_step prm) N) as [sp ->].
  assert (M : mapM (fun r => if (List.length (rc_st_prec r) =? 90)%nat then Ok tt else Err AssertionError) (wk_cells w) = Ok (map (fun _ => tt) (wk_cells w))).
  { apply mapM_Ok. intros r I. now rewrite (Ln r I). }
  destruct (window_lacking _ _ _ N W) as [->|(l & -> & L)]; unfold load_slice_in; rewrite M; cbn [bind]; [reflexivity|].
  apply Nat.eqb_neq in L. now rewrite L.
Qed.

(** ** every 90 days have a 31st *)
Lemma has_31 y m : In m [1; 3; 5; 7; 8; 10; 12] -> has_date Days360 (1440 * days_from_civil (mkcivil y m 31)) = false.
Proof.
  intros I. unfold has_date, date_of. replace (1440 * days_from_civil (mkcivil y m 31) / 1440) with (days_from_civil (mkcivil y m 31))
    by (Z.to_euclidean_division_equations; lia).
  rewrite real_civil; [reflexivity|]. unfold real_date. cbn [c_year c_month c_day]. cbn [In] in I.
  destruct I as [<-|[<-|[<-|[<-|[<-|[<-|[<-|[]]]]]]]]; (split; [lia|]); vm_compute; split; discriminate.
Qed.

Definition before (m : Z) : Z * Z :=   (* month and year shift of the last 31st before a month *)
  if m =? 1 then (12, -1) else if m <=? 3 then (1, 0) else if m <=? 5 then (3, 0) else if m <=? 7 then (5, 0)
  else if m <=? 8 then (7, 0) else if m <=? 10 then (8, 0) else if m <=? 12 then (10, 0) else (1, 0).

Lemma last_31 s : lacking_window Days360 s.
Proof.
  unfold lacking_window. destruct (civil_real (s - 1)) as [M D]. pose proof (civil_spec (s - 1)) as (E & _ & D31).
  destruct (civil_from_days (s - 1)) as [y m d]. cbn [c_year c_month c_day] in *.
  exists (days_from_civil (mkcivil (y + snd (before m)) (fst (before m)) 31)). split.
  - assert (K : 1 <= s - 1 - days_from_civil (mkcivil (y + snd (before m)) (fst (before m)) 31) <= 62); [|lia].
    rewrite <- E. clear - M D31. unfold days_from_civil. cbn [c_year c_month c_day]. cbv zeta.
    assert (C : In m [1; 2; 3; 4; 5; 6; 7; 8; 9; 10; 11; 12]) by (cbn [In]; lia).
    cbn [In] in C. destruct C as [<-|[<-|[<-|[<-|[<-|[<-|[<-|[<-|[<-|[<-|[<-|[<-|[]]]]]]]]]]]]]; cbn -[Z.mul Z.add Z.sub Z.div];
      rewrite ?Z.add_0_r; replace (y + -1) with (y - 1) by lia;
      Z.to_euclidean_division_equations; lia.
  - apply has_31. unfold before. repeat (match goal with |- context [if ?c then _ else _] => destruct c end); cbn; tauto.
Qed.

Theorem worker_360 name fuel prm w : named name Days360 ->
  (forall r, In r (wk_cells w) -> List.length (rc_st_prec r) = 90%nat) ->
  run_worker_in name fuel prm w = Some (Err ValueError).
Proof. intros N Ln. apply (lacking_worker name Days360); auto. apply last_31. Qed.

(** ** what the noleap worker computes *)
Lemma all_dates_nodup k days : all_dates k days -> NoDup days.
Proof.
  intros (a & b & _ & _ & _ & ->). apply NoDup_filter. apply FinFun.Injective_map_NoDup; [|apply seq_NoDup]. intros x y E. lia.
Qed.

Lemma noleap_run_dates w : all_dates NoLeap (wk_days w) -> (forall d, In d (wk_days w) -> wk_start w <= d <= wk_stop w) ->
  run_dates (wk_start w) (wk_stop w) (wk_days w).
Proof. intros A B. split; [exact (all_dates_nodup _ _ A)|exact B]. Qed.

Theorem noleap_cells name fuel prm w n out : named name NoLeap -> 0 < p_time_step prm -> 1440 mod p_time_step prm = 0 ->
  all_dates NoLeap (wk_days w) -> ~ lacking_window NoLeap (wk_start w) -> (forall d, In d (wk_days w) -> wk_start w <= d <= wk_stop w) ->
  List.length (wk_days w) = n -> (forall r, In r (wk_cells w) -> raw_shaped n r) ->
  run_worker_in name fuel prm w = Some (Ok out) ->
  forall i c r, nth_error (indices (wk_shape w)) i = Some c -> nth_error (wk_cells w) i = Some r ->
    (active (wk_mask w c) -> exists cd vs, loaded_on prm (wk_days w) n r cd /\ cell_alone fuel (wk_out_vars w) prm cd vs /\ out c = Some vs) /\
    (~ active (wk_mask w c) -> out c = None).
Proof.
  intros N T0 TD A W B Ln Sh H. rewrite (noleap_worker name fuel prm w N T0 TD A W) in H.
  exact (rows_cells fuel prm w n out (noleap_run_dates w A B) Ln Sh H).
Qed.

Theorem noleap_total name prm w n : named name NoLeap -> (0 < p_tmax_frac prm <= 1)%R -> (0 < n)%nat -> 0 < p_time_step prm ->
  all_dates NoLeap (wk_days w) -> ~ lacking_window NoLeap (wk_start w) -> (forall d, In d (wk_days w) -> wk_start w <= d <= wk_stop w) ->
  List.length (wk_days w) = n -> List.length (wk_cells w) = List.length (indices (wk_shape w)) ->
  (forall r, In r (wk_cells w) -> loadable prm n r) ->
  (forall i c r, nth_error (indices (wk_shape w)) i = Some c -> nth_error (wk_cells w) i = Some r -> active (wk_mask w c) -> good_raw prm n r) ->
  validate_setup (wk_setup w) = Ok tt -> describes (wk_setup w) prm (wk_out_vars w) -> requestable (wk_out_vars w) (wk_cells w) ->
  exists N, forall fuel, (fuel >= N)%nat -> exists out, run_worker_in name fuel prm w = Some (Ok out).
Proof.
  intros Nm Fr Hn Ps A W B Ln Lc Lo Good Vs De Rq.
  assert (TD : 1440 mod p_time_step prm = 0).
  { destruct (go_ts _ (setup_options _ _ _ Vs De Ps Fr)) as (_ & D & _). exact D. }
  destruct (rows_total prm w n Ps Fr Hn (noleap_run_dates w A B) Ln Lc Lo Good Vs De Rq) as [N H]. exists N. intros fuel F.
  rewrite (noleap_worker name fuel prm w Nm Ps TD A W). auto.
Qed.

(** ** example: 28 February and 1 March 2000 *)
Definition leap_worker (start stop : Z) (days : list Z) : worker_in :=
  mk_worker_in start stop days (wk_shape equator_worker) (wk_cells equator_worker) (wk_mask equator_worker) (wk_setup equator_worker) (wk_out_vars equator_worker).

Lemma window_check k s : forallb (fun d => has_date k (1440 * d)) (days_of (s - 90) (s - 1)) = true -> ~ lacking_window k s.
Proof. intros H (d & D & E). rewrite forallb_forall in H. rewrite H in E; [discriminate|]. now apply in_days. Qed.

Lemma leap_dates : all_dates NoLeap [11015; 11017].
Proof. exists 11015, 11017. split; [lia|]. split; [reflexivity|]. split; reflexivity. Qed.

Theorem leap_runs name m : named name NoLeap -> In m ["passthrough"; "mtclim"]%string ->
  exists N, forall fuel, (fuel >= N)%nat -> exists out, run_worker_in name fuel (demo_method m 60) (leap_worker 11015 11017 [11015; 11017]) = Some (Ok out).
Proof.
  intros Nm Hm. apply (noleap_total name (demo_method m 60) (leap_worker 11015 11017 [11015; 11017]) 2); try reflexivity.
  - exact Nm.
  - cbn. lra.
  - lia.
  - exact leap_dates.
  - apply window_check. vm_compute. reflexivity.
  - intros d I. cbn [leap_worker wk_start wk_stop wk_days In] in *. lia.
  - intros r [<-|[<-|[]]]; exact (equator_loadable m 60).
  - intros i c r _ Nr _. apply nth_error_In in Nr. destruct Nr as [<-|[<-|[]]]; exact (equator_raw_good m 60 Hm).
  - exact (equator_describes m).
  - exact equator_requestable.
Qed.

Lemma leap_gap fuel m out : In m ["passthrough"; "mtclim"]%string ->
  run_worker_in "standard" fuel (demo_method m 60) (leap_worker 11015 11017 [11015; 11017]) <> Some (Ok out).
Proof.
  intros Hm. assert (S : increasing [11015; 11017]) by (repeat constructor).
  rewrite (standard_worker "standard" fuel (demo_method m 60) (leap_worker 11015 11017 [11015; 11017]) (or_introl eq_refl) ltac:(cbn; lia) eq_refl S).
  apply (worker_gap fuel (demo_method m 60) (leap_worker 11015 11017 [11015; 11017]) 11016 out 0 [0; 0]%nat equator_raw); [cbn; lia|exact S| |reflexivity|reflexivity|].
  - split; [cbn; lia|]. split; [exists 11015|exists 11017]; cbn; lia.
  - exists 1%R. split; [reflexivity|lra].
Qed.

(** the same cells on 15 and 16 March 2000 *)
Lemma march_case name fuel m : named name NoLeap ->
  run_worker_in name fuel (demo_method m 60) (leap_worker 11031 11032 [11031; 11032]) = Some (Err ValueError).
Proof.
  intros N. apply (lacking_worker name NoLeap); [exact N|exists 11016; split; [cbn; lia|reflexivity]|].
  intros r [<-|[<-|[]]]; reflexivity.
Qed.

Theorem leap_refuted : ~ (forall name prm w n, named name NoLeap -> (0 < p_tmax_frac prm <= 1)%R -> (0 < n)%nat -> 0 < p_time_step prm ->
  all_dates NoLeap (wk_days w) -> (forall d, In d (wk_days w) -> wk_start w <= d <= wk_stop w) ->
  List.length (wk_days w) = n -> List.length (wk_cells w) = List.length (indices (wk_shape w)) ->
  (forall r, In r (wk_cells w) -> loadable prm n r) ->
  (forall i c r, nth_error (indices (wk_shape w)) i = Some c -> nth_error (wk_cells w) i = Some r -> active (wk_mask w c) -> good_raw prm n r) ->
  validate_setup (wk_setup w) = Ok tt -> describes (wk_setup w) prm (wk_out_vars w) -> requestable (wk_out_vars w) (wk_cells w) ->
  exists N, forall fuel, (fuel >= N)%nat -> exists out, run_worker_in name fuel prm w = Some (Ok out)).
Proof.
  intros H. assert (Nm : named "noleap" NoLeap) by (left; reflexivity).
  assert (Hm : In "passthrough"%string ["passthrough"; "mtclim"]%string) by (left; reflexivity).
  destruct (H "noleap"%string (demo_method "passthrough" 60) (leap_worker 11031 11032 [11031; 11032]) 2%nat Nm) as [N R]; try reflexivity.
  - cbn. lra.
  - lia.
  - exists 11031, 11032. split; [lia|]. split; [reflexivity|]. split; reflexivity.
  - intros d I. cbn [leap_worker wk_start wk_stop wk_days In] in *. lia.
  - intros r [<-|[<-|[]]]; exact (equator_loadable "passthrough" 60).
  - intros i c r _ Nr _. apply nth_error_In in Nr. destruct Nr as [<-|[<-|[]]]; exact (equator_raw_good "passthrough" 60 Hm).
  - exact (equator_describes "passthrough").
  - exact equator_requestable.
  - destruct (R N (Nat.le_refl N)) as [out O]. rewrite (march_case "noleap" N "passthrough" Nm) in O. discriminate.
Qed.

Theorem leap_window s : lacking_window NoLeap s <-> exists y d, civil_from_days d = mkcivil y 2 29 /\ d + 1 <= s <= d + 90.
Proof.
  assert (Q : forall d, (1440 * d) / 1440 = d) by (intros d; rewrite Z.mul_comm; apply Z.div_mul; lia).
  unfold lacking_window, has_date, date_of. split.
  - intros (d & D & H). rewrite Q in H. exists (c_year (civil_from_days d)), d. split; [|lia].
    apply Bool.negb_false_iff, Bool.andb_true_iff in H as [H1 H2]. apply Z.eqb_eq in H1, H2. destruct (civil_from_days d) as [y m x]. cbn in *. now subst.
  - intros (y & d & E & B). exists d. split; [lia|]. rewrite Q, E. reflexivity.
Qed.
