(** C118 *)
From Coq Require Import ZArith QArith Reals String List Bool Arith Lia Lra Sorting.Sorted.
From Verif Require Import Model.Py Model.Fl Model.Calendar Model.Datetime Model.DateRange Model.Header Model.Params Model.Reader Model.State Model.Validate
  Model.Output Model.Cell Model.Worker Model.CalendarRun Model.FileCalendar Spec.CalendarSpec Spec.RowsSpec Spec.CalendarRunSpec Spec.FileCalendarSpec Spec.GapSpec
  Spec.StateSpec Spec.WorkerSpec Spec.CellSpec Spec.SetupSpec Spec.FrameSpec
  Proofs.Base Proofs.SettingsProofs Proofs.ConfigProofs Proofs.WorkerTotal Proofs.GapProofs Proofs.DateProofs Proofs.YearProofs Proofs.HeaderProofs Proofs.PeriodProofs Proofs.DateRangeProofs Proofs.CalendarRunProofs.
Import ListNotations.
Local Open Scope list_scope.
Local Open Scope Z_scope.

Lemma normal d s : early s -> normalize_pair (d, s) = (d, 0).
Proof.
  intros H. unfold normalize_pair. cbn [fst snd]. rewrite (own_day d s H). f_equal. apply Z.div_mul. discriminate.
Qed.

(** ** the dates of the file *)
Definition noleap_day (n : Z) : Z := match real_day NoLeap n with Ok z => z | Err _ => 0 end.
Lemma noleap_day_eq n : real_day NoLeap n = Ok (noleap_day n).
Proof. unfold noleap_day. destruct (real_noleap n) as [z ->]. reflexivity. Qed.
Lemma noleap_num n : fixed_day_num NoLeap (civil_from_days (noleap_day n)) = Ok n.
Proof. apply num_of_real, noleap_day_eq. Qed.
Lemma stamp_num n : minute_num (Fixed NoLeap) (1440 * noleap_day n) = Ok (1440 * n).
Proof.
  apply minute_iff. replace (1440 * noleap_day n / 1440) with (noleap_day n) by (Z.to_euclidean_division_equations; lia).
  replace (1440 * n / 1440) with n by (Z.to_euclidean_division_equations; lia). split; [apply noleap_num|].
  rewrite (Z.mul_comm 1440 n), (Z.mul_comm 1440 (noleap_day n)), !Z.mod_mul by lia. reflexivity.
Qed.
Lemma noleap_mono a b : a < b <-> noleap_day a < noleap_day b.
Proof. pose proof (minute_order NoLeap _ _ _ _ (stamp_num a) (stamp_num b)). lia. Qed.
Lemma noleap_has n : has_date NoLeap (1440 * noleap_day n) = true.
Proof.
  apply has_num. exists n. replace (1440 * noleap_day n / 1440) with (noleap_day n) by (Z.to_euclidean_division_equations; lia). apply noleap_num.
Qed.
Lemma noleap_onto d : has_date NoLeap (1440 * d) = true -> exists n, noleap_day n = d.
Proof.
  intros H. apply has_num in H as [n H]. replace (1440 * d / 1440) with d in H by (Z.to_euclidean_division_equations; lia).
  exists n. apply real_of_num in H. rewrite noleap_day_eq in H. exact (ok_eq _ _ H).
Qed.

Definition noleap_dates (a : Z) (n : nat) : list Z := map (fun i => noleap_day (a + Z.of_nat i)) (seq 0 n).

Lemma noleap_dates_sorted a n : StronglySorted Z.lt (noleap_dates a n).
Proof.
  unfold noleap_dates. rewrite <- (map_map (fun i => a + Z.of_nat i) noleap_day). apply map_sorted.
  - intros x y _ _ L. exact (proj1 (noleap_mono x y) L).
  - generalize 0%nat. induction n as [|n IH]; intros k; cbn [seq map]; constructor; [apply IH|].
    apply Forall_forall. intros y I. apply in_map_iff in I as (j & <- & J). apply in_seq in J. lia.
Qed.

Lemma days_sorted a b : StronglySorted Z.lt (days_of a b).
Proof.
  unfold days_of. generalize (Z.to_nat (b - a + 1)) as n, 0%nat as k. induction n as [|n IH]; intros k; cbn [seq map]; constructor; [apply IH|].
  apply Forall_forall. intros y I. apply in_map_iff in I as (j & <- & J). apply in_seq in J. lia.
Qed.

Lemma in_noleap a n d : In d (noleap_dates a n) <-> (exists i, (i < n)%nat /\ d = noleap_day (a + Z.of_nat i)).
Proof.
  unfold noleap_dates. rewrite in_map_iff. split.
  - intros (i & <- & I). apply in_seq in I. exists i. split; [lia|reflexivity].
  - intros (i & I & ->). exists i. split; [reflexivity|apply in_seq; lia].
Qed.

Lemma in_file_iff a n d : In d (noleap_dates a n) <-> in_file a n d.
Proof.
  rewrite in_noleap. unfold in_file. split; intros (i & I & H); exists i; (split; [exact I|]).
  - subst d. apply fixed_date_of, noleap_num.
  - pose proof (fixed_date_num NoLeap (a + Z.of_nat i)) as E. rewrite H in E. apply real_of_num in E. rewrite noleap_day_eq in E. symmetry. exact (ok_eq _ _ E).
Qed.

(** the part of the file from its date [s] to its date [t] has all dates *)
Lemma part_dates a n s t : In s (noleap_dates a n) -> In t (noleap_dates a n) -> s <= t ->
  filter (fun d => (s <=? d) && (d <=? t)) (noleap_dates a n) = filter (fun d => has_date NoLeap (1440 * d)) (days_of s t).
Proof.
  intros S T ST. apply sorted_unique; auto using filter_sorted, noleap_dates_sorted, days_sorted.
  intros d. rewrite !filter_In, in_days, Bool.andb_true_iff, !Z.leb_le. split.
  - intros (I & B). split; [lia|]. apply in_noleap in I as (i & _ & ->). apply noleap_has.
  - intros (B & H). split; [|lia]. apply in_noleap in S as (i & I & ->), T as (j & J & ->). destruct (noleap_onto d H) as [m <-].
    apply in_noleap. exists (Z.to_nat (m - a)).
    assert (L1 : a + Z.of_nat i <= m). { apply Z.nlt_ge. intros L. apply (proj1 (noleap_mono _ _)) in L. lia. }
    assert (L2 : m <= a + Z.of_nat j). { apply Z.nlt_ge. intros L. apply (proj1 (noleap_mono _ _)) in L. lia. }
    split; [lia|]. f_equal. lia.
Qed.

Lemma part_all a n s t : In s (noleap_dates a n) -> In t (noleap_dates a n) -> s <= t ->
  all_dates NoLeap (filter (fun d => (s <=? d) && (d <=? t)) (noleap_dates a n)).
Proof.
  intros S T ST. rewrite (part_dates a n s t S T ST). exists s, t. split; [exact ST|].
  apply in_noleap in S as (i & _ & ->), T as (j & _ & ->). split; [apply noleap_has|]. split; [apply noleap_has|reflexivity].
Qed.

(** ** reading *)
Lemma open_noleap name l : named name NoLeap -> open_times name l = Some (mk_time_coord (CFTimes NoLeap l) [("calendar"%string, name)]).
Proof. unfold named. cbn [In]. intros [H|[H|[H|[]]]]; try discriminate; injection H as <-; reflexivity. Qed.

Lemma read_noleap a n s enc : early s ->
  read_times (mk_time_coord (CFTimes NoLeap (daily_times a n s)) enc) = Ok (mk_time_coord (Datetimes (map (fun d => (d, 0)) (noleap_dates a n))) []).
Proof.
  intros E. unfold read_times. cbn [tc_index].
  rewrite (mapM_Ok _ (fun p => (noleap_day (fst p), snd p))) by (intros p _; rewrite noleap_day_eq; reflexivity). cbn [bind].
  do 3 f_equal. unfold daily_times, noleap_dates. rewrite !map_map. apply map_ext. intros i. cbn [fst snd]. now apply normal.
Qed.

Lemma days_back (l : list Z) enc : coord_days (mk_time_coord (Datetimes (map (fun d => (d, 0)) l)) enc) = l.
Proof. unfold coord_days. cbn [tc_index]. rewrite map_map. apply map_id. Qed.

(** a file of 365 day years is read as its dates, in the calendar of the
    configuration *)
Theorem noleap_file name param a n s fuel prm w : named name NoLeap -> early s ->
  exists c, read_times (mk_time_coord (CFTimes NoLeap (daily_times a n s)) [("calendar"%string, name)]) = Ok c /\ coord_days c = noleap_dates a n /\
    run_file_worker name param (daily_times a n s) fuel prm w = run_worker_in param fuel prm (file_worker c w).
Proof.
  intros N E. eexists. split; [apply read_noleap; exact E|]. split; [apply days_back|].
  unfold run_file_worker. rewrite (open_noleap _ _ N), (read_noleap _ _ _ _ E). reflexivity.
Qed.

Theorem noleap_file_dates name a n s c : named name NoLeap -> early s ->
  open_times name (daily_times a n s) = Some c -> exists c', read_times c = Ok c' /\ StronglySorted Z.lt (coord_days c') /\
    (forall d, In d (coord_days c') <-> in_file a n d).
Proof.
  intros N E O. rewrite (open_noleap _ _ N) in O. injection O as <-. eexists. split; [apply read_noleap; exact E|].
  rewrite days_back. split; [apply noleap_dates_sorted|apply in_file_iff].
Qed.

(** the calendar of the file does not matter once it is read *)
Theorem file_calendar_ignored c c' param : read_times c = Ok c' -> run_calendar c' param = param.
Proof. unfold read_times. intros H. apply bind_inv in H as (l & _ & H). apply ok_eq in H. subst c'. reflexivity. Qed.

Theorem memory_calendar l name rest param : run_calendar (mk_time_coord (Datetimes l) (("calendar"%string, name) :: rest)) param = name.
Proof. reflexivity. Qed.

Lemma sorted_weaken l : StronglySorted Z.lt l -> increasing l.
Proof. apply StronglySorted_Sorted. Qed.

Theorem default_refused name param a n s fuel prm w f out i c r : named name NoLeap -> early s ->
  In param ["standard"; "gregorian"; "proleptic_gregorian"]%string -> 0 < p_time_step prm -> 1440 mod p_time_step prm = 0 ->
  in_file a n (wk_start w) -> in_file a n (wk_stop w) ->
  wk_start w < f < wk_stop w -> has_date NoLeap (1440 * f) = false ->
  nth_error (indices (wk_shape w)) i = Some c -> nth_error (wk_cells w) i = Some r -> active (wk_mask w c) ->
  run_file_worker name param (daily_times a n s) fuel prm w <> Some (Ok out).
Proof.
  intros N E P T0 TD S T F Nf C Rr A. apply in_file_iff in S. apply in_file_iff in T. destruct (noleap_file name param a n s fuel prm w N E) as (cc & _ & Cd & ->).
  assert (I : increasing (wk_days (file_worker cc w))).
  { cbn [file_worker wk_days]. rewrite Cd. apply sorted_weaken, filter_sorted, noleap_dates_sorted. }
  rewrite (standard_worker param fuel prm (file_worker cc w) P T0 TD I).
  apply (worker_gap fuel prm (file_worker cc w) f out i c r T0 I); [|exact C|exact Rr|exact A].
  cbn [file_worker wk_days]. rewrite Cd. split; [|split].
  - rewrite filter_In. intros [J _]. apply in_noleap in J as (j & _ & ->). rewrite noleap_has in Nf. discriminate.
  - exists (wk_start w). split; [|lia]. rewrite filter_In, Bool.andb_true_iff, !Z.leb_le. split; [exact S|lia].
  - exists (wk_stop w). split; [|lia]. rewrite filter_In, Bool.andb_true_iff, !Z.leb_le. split; [exact T|lia].
Qed.

Theorem named_runs name param a k s prm w n : named name NoLeap -> named param NoLeap -> early s ->
  in_file a k (wk_start w) -> in_file a k (wk_stop w) -> wk_start w <= wk_stop w ->
  ~ lacking_window NoLeap (wk_start w) ->
  n = List.length (dates_between (wk_start w) (wk_stop w)) ->
  (0 < p_tmax_frac prm <= 1)%R -> 0 < p_time_step prm -> List.length (wk_cells w) = List.length (indices (wk_shape w)) ->
  (forall r, In r (wk_cells w) -> loadable prm n r) ->
  (forall i c r, nth_error (indices (wk_shape w)) i = Some c -> nth_error (wk_cells w) i = Some r -> active (wk_mask w c) -> good_raw prm n r) ->
  validate_setup (wk_setup w) = Ok tt -> describes (wk_setup w) prm (wk_out_vars w) -> requestable (wk_out_vars w) (wk_cells w) ->
  exists N, forall fuel, (fuel >= N)%nat -> exists out, run_file_worker name param (daily_times a k s) fuel prm w = Some (Ok out).
Proof.
  intros N P E S T ST W Hn Fr Ps Lc Lo Good Vs De Rq.
  apply in_file_iff in S. apply in_file_iff in T. change (dates_between (wk_start w) (wk_stop w)) with (filter (fun d => has_date NoLeap (1440 * d)) (days_of (wk_start w) (wk_stop w))) in Hn.
  pose proof (noleap_file name param a k s) as Nf.
  destruct (Nf 0%nat prm w N E) as (cc & Rc & Cd & _).
  assert (Dd : wk_days (file_worker cc w) = filter (fun d => has_date NoLeap (1440 * d)) (days_of (wk_start w) (wk_stop w))).
  { cbn [file_worker wk_days]. rewrite Cd. now apply part_dates. }
  destruct (noleap_total param prm (file_worker cc w) n P Fr) as [M R]; auto.
  - rewrite Hn. destruct (filter_ends (fun d => has_date NoLeap (1440 * d)) (wk_start w) (wk_stop w) ST) as (l & -> & _).
    + apply in_noleap in S as (i & _ & ->). apply noleap_has.
    + apply in_noleap in T as (i & _ & ->). apply noleap_has.
    + cbn [List.length]. lia.
  - cbn [file_worker wk_days]. rewrite Cd. now apply part_all.
  - intros d I. rewrite Dd in I. apply filter_In in I as [I _]. apply in_days in I. exact I.
  - rewrite Dd. auto.
  - exists M. intros fuel F. destruct (Nf fuel prm w N E) as (c2 & Rc2 & _ & ->). rewrite Rc in Rc2. apply ok_eq in Rc2. subst c2. auto.
Qed.

(** ** example: the days from 20 February to 10 March 2000 at noon, 365 day
    years, run from 28 February to 1 March *)
Definition noon : Z := 12 * 3600 * 1000000000.
Lemma noon_early : early noon.
Proof. unfold early, noon. lia. Qed.

Definition leap_run : worker_in := leap_worker 11015 11017 [].

(** day 365 * 1999 + 50 is 20 February 2000 *)
Lemma leap_file_dates : noleap_dates 729685 19 = [11007; 11008; 11009; 11010; 11011; 11012; 11013; 11014; 11015; 11017; 11018; 11019; 11020; 11021; 11022; 11023; 11024; 11025; 11026].
Proof. vm_compute. reflexivity. Qed.

Theorem leap_default fuel m param out : In m ["passthrough"; "mtclim"]%string -> In param ["standard"; "gregorian"; "proleptic_gregorian"]%string ->
  run_file_worker "noleap" param (daily_times 729685 19 noon) fuel (demo_method m 60) leap_run <> Some (Ok out).
Proof.
  intros Hm Hp. apply (default_refused "noleap" param 729685 19 noon fuel (demo_method m 60) leap_run 11016 out 0 [0; 0]%nat equator_raw (or_introl eq_refl) noon_early Hp); try reflexivity.
  - apply in_file_iff. rewrite leap_file_dates. cbn [leap_run leap_worker wk_start In]. lia.
  - apply in_file_iff. rewrite leap_file_dates. cbn [leap_run leap_worker wk_stop In]. lia.
  - cbn [leap_run leap_worker wk_start wk_stop]. lia.
  - exists 1%R. split; [reflexivity|lra].
Qed.

Theorem leap_set m : In m ["passthrough"; "mtclim"]%string ->
  exists N, forall fuel, (fuel >= N)%nat -> exists out, run_file_worker "noleap" "noleap" (daily_times 729685 19 noon) fuel (demo_method m 60) leap_run = Some (Ok out).
Proof.
  intros Hm. apply (named_runs "noleap" "noleap" 729685 19 noon (demo_method m 60) leap_run 2 (or_introl eq_refl) (or_introl eq_refl) noon_early).
  - apply in_file_iff. rewrite leap_file_dates. cbn [leap_run leap_worker wk_start In]. lia.
  - apply in_file_iff. rewrite leap_file_dates. cbn [leap_run leap_worker wk_stop In]. lia.
  - cbn. lia.
  - apply window_check. vm_compute. reflexivity.
  - vm_compute. reflexivity.
  - cbn. lra.
  - reflexivity.
  - reflexivity.
  - intros r [<-|[<-|[]]]; exact (equator_loadable m 60).
  - intros i c r _ Nr _. apply nth_error_In in Nr. destruct Nr as [<-|[<-|[]]]; exact (equator_raw_good m 60 Hm).
  - reflexivity.
  - exact (equator_describes m).
  - exact equator_requestable.
Qed.

Lemma short_file : exists c c', open_times "noleap" (daily_times 729692 4 noon) = Some c /\ read_times c = Ok c' /\
  coord_days c' = [11014; 11015; 11017; 11018] /\ in_file 729692 4 11017 /\ ~ in_file 729692 4 11016.
Proof.
  assert (D : noleap_dates 729692 4 = [11014; 11015; 11017; 11018]) by (vm_compute; reflexivity).
  exists (mk_time_coord (CFTimes NoLeap (daily_times 729692 4 noon)) [("calendar"%string, "noleap"%string)]). eexists.
  split; [reflexivity|]. split; [apply read_noleap, noon_early|]. rewrite days_back, <- !in_file_iff, D. split; [reflexivity|]. cbn [In]. lia.
Qed.

(** an opened file knows its calendar *)
Theorem file_noted name l c param : open_times name l = Some c -> run_calendar c param = name.
Proof.
  unfold open_times. destruct (str_in _ _); [intros H; injection H as <-; reflexivity|].
  destruct (cf_calendar name) as [[|k]|]; try discriminate. intros H. injection H as <-. reflexivity.
Qed.

Lemma mapM_fails {A B} (f : A -> res B) l e : (forall x e', In x l -> f x = Err e' -> e' = e) -> (exists x, In x l /\ f x = Err e) -> mapM f l = Err e.
Proof.
  intros E (x & I & X). induction l as [|y l IH]; [destruct I|]. cbn [mapM]. destruct (f y) as [v|e'] eqn:Y; cbn [bind].
  - destruct I as [->|I]; [congruence|]. rewrite IH; [reflexivity| |exact I]. intros x' e' I'. apply E. now right.
  - f_equal. apply (E y); [now left|exact Y].
Qed.

(** a date that the standard calendar lacks *)
Theorem days360_file name param l fuel prm w n s : named name Days360 -> In (n, s) l -> (forall d, civil_from_days d <> fixed_date Days360 n) ->
  run_file_worker name param l fuel prm w = Some (Err ValueError).
Proof.
  intros N I L. assert (O : open_times name l = Some (mk_time_coord (CFTimes Days360 l) [("calendar"%string, name)])).
  { unfold named in N. cbn [In] in N. destruct N as [H|[H|[H|[]]]]; try discriminate; injection H as <-; reflexivity. }
  unfold run_file_worker. rewrite O. unfold read_times. cbn [tc_index]. rewrite (mapM_fails _ l ValueError); [reflexivity| |].
  - intros x e _ X. destruct (real_day Days360 (fst x)) eqn:R; cbn [bind] in X; [discriminate|]. injection X as <-. eapply real_day_err; eauto.
  - exists (n, s). split; [exact I|]. cbn [fst]. destruct (real_day Days360 n) as [z|e] eqn:R; cbn [bind].
    + exfalso. apply num_of_real in R. apply (L z). symmetry. now apply fixed_date_of.
    + f_equal. eapply real_day_err; eauto.
Qed.

(** 30 February 2000 *)
Theorem days360_case : fixed_date Days360 (360 * 1999 + 59) = mkcivil 2000 2 30 /\ forall d, civil_from_days d <> fixed_date Days360 (360 * 1999 + 59).
Proof.
  split; [reflexivity|]. intros d E. pose proof (feb_30 2000) as F. destruct (civil_real d) as [M D]. rewrite E in D.
  change (fixed_date Days360 (360 * 1999 + 59)) with (mkcivil 2000 2 30) in D. vm_compute in D. destruct D as [_ D]. now apply D.
Qed.
