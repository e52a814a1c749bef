(** State window, seasonal predictors, temperature check, monthly tables. *)
From Coq Require Import ZArith Reals String List Bool Arith Lia Lra.
From Verif Require Import Model.Py Model.Fl Model.Np Model.Constants Model.Calendar Model.Datetime
  Model.State Spec.StateSpec Proofs.Base Proofs.ArrayProofs Proofs.DateProofs.
Import ListNotations.
Local Open Scope list_scope.

Lemma dates_from_length s n : List.length (dates_from s n) = n.
Proof. unfold dates_from. now rewrite map_length, seq_length. Qed.

Lemma dates_from_nth s n i : (i < n)%nat -> nth_error (dates_from s n) i = Some (s + Z.of_nat i)%Z.
Proof.
  intros H. unfold dates_from.
  rewrite (map_nth_error (fun i => (s + Z.of_nat i)%Z) i (seq 0 n) (d := i)); auto.
  rewrite <- (Nat.add_0_l i) at 2. rewrite (nth_error_nth' _ 0%nat) by (rewrite seq_length; lia).
  f_equal. rewrite seq_nth; lia.
Qed.

Lemma dates_from_S s n : dates_from s (S n) = s :: dates_from (s + 1)%Z n.
Proof.
  unfold dates_from. cbn [seq map]. f_equal; [lia|]. rewrite <- seq_shift, map_map.
  apply map_ext. intros; lia.
Qed.

Lemma dates_from_app s : forall a b, dates_from s (a + b) = dates_from s a ++ dates_from (s + Z.of_nat a) b.
Proof.
  intros a. revert s. induction a as [|a IH]; intros s b.
  - cbn [Nat.add Z.of_nat]. rewrite Z.add_0_r. reflexivity.
  - cbn [Nat.add]. rewrite !dates_from_S, IH. cbn [List.app]. replace (s + Z.of_nat (S a))%Z with (s + 1 + Z.of_nat a)%Z by lia. reflexivity.
Qed.

Lemma in_dates_from s n d : In d (dates_from s n) <-> (s <= d < s + Z.of_nat n)%Z.
Proof.
  unfold dates_from. rewrite in_map_iff. split.
  - intros (i & <- & Hi). apply in_seq in Hi. lia.
  - intros H. exists (Z.to_nat (d - s)). split; [lia|]. apply in_seq. lia.
Qed.

Lemma zrange_dates a n : zrange a 1 (Z.of_nat n) = dates_from a n.
Proof. unfold zrange, dates_from. rewrite Nat2Z.id. apply map_ext. intros; lia. Qed.

Lemma record_dates_90 start : record_dates (start - 90) (start - 1) = dates_from (start - 90) 90.
Proof. unfold record_dates. replace (_ + 1)%Z with (Z.of_nat 90) by lia. apply zrange_dates. Qed.

(** C51, standard calendar *)
Lemma state_window force_first force_last start stop :
  validate_force_times force_first force_last start stop = Ok ((start - 90)%Z, (start - 1)%Z) \/
  validate_force_times force_first force_last start stop = Err AssertionError.
Proof.
  unfold validate_force_times. destruct (_ <=? _)%Z; [|now right].
  destruct (_ <=? _)%Z; [now left|now right].
Qed.

Theorem state_window_90 ff fl' start stop a b :
  validate_force_times ff fl' start stop = Ok (a, b) ->
  List.length (record_dates a b) = 90%nat /\
  (forall d, In d (record_dates a b) <-> (start - 90 <= d <= start - 1)%Z) /\
  record_dates a b = dates_from (start - 90) 90 /\
  last (record_dates a b) 0%Z = (start - 1)%Z.
Proof.
  intros H. destruct (state_window ff fl' start stop) as [E|E]; rewrite E in H; [|discriminate].
  assert (E2 := f_equal (fun r => match r with Ok x => x | Err _ => (0, 0)%Z end) H). cbn in E2.
  assert (a = (start - 90)%Z) by congruence. assert (b = (start - 1)%Z) by congruence. subst.
  rewrite record_dates_90. split; [apply dates_from_length|]. split; [|split; auto].
  - intros d. rewrite in_dates_from. lia.
  - change 90%nat with (89 + 1)%nat. rewrite dates_from_app.
    rewrite (dates_from_S _ 0). change (dates_from ?x 0) with (@nil Z). rewrite last_last. lia.
Qed.

(** lookup in a labelled series *)
Lemma lookup_filter p d (s : series) : p d = true -> lookup d (filter (fun q => p (fst q)) s) = lookup d s.
Proof.
  intros H. induction s as [|[d' v] s IH]; cbn [filter fst lookup]; auto.
  destruct (p d') eqn:E; cbn [lookup].
  - destruct (d =? d')%Z; auto.
  - destruct (Z.eqb_spec d d'); [congruence|auto].
Qed.

Lemma lookup_map d (f : fl -> fl) (s : series) : f None = None ->
  lookup d (map (fun p => (fst p, f (snd p))) s) = f (lookup d s).
Proof.
  intros H. induction s as [|[d' v] s IH]; cbn [map fst snd lookup]; auto.
  destruct (d =? d')%Z; auto.
Qed.

Lemma lookup_dates k : forall a n (l : list fl), List.length l = n -> (k < n)%nat ->
  lookup (a + Z.of_nat k) (combine (dates_from a n) l) = nth k l None.
Proof.
  induction k as [|k IH]; intros a n l Hl Hk; destruct n as [|n]; try lia;
    destruct l as [|x l]; try discriminate Hl; rewrite dates_from_S; cbn [combine lookup nth].
  - destruct (Z.eqb_spec (a + Z.of_nat 0) a); [auto|lia].
  - destruct (Z.eqb_spec (a + Z.of_nat (S k)) a); [lia|].
    replace (a + Z.of_nat (S k))%Z with ((a + 1) + Z.of_nat k)%Z by lia. apply IH; cbn in Hl; lia.
Qed.

Lemma combine_app {A B} (a a' : list A) : forall (b b' : list B), List.length a = List.length b ->
  combine (a ++ a') (b ++ b') = combine a b ++ combine a' b'.
Proof.
  induction a as [|x a IH]; intros [|y b] b' H; try discriminate H; auto.
  cbn. f_equal. apply IH. now injection H.
Qed.

Lemma map_fst_combine {A B} (a : list A) : forall (b : list B), List.length a = List.length b ->
  map fst (combine a b) = a.
Proof. induction a as [|x a IH]; intros [|y b] H; try discriminate H; auto. cbn. f_equal. apply IH. now injection H. Qed.
Lemma map_snd_combine {A B} (a : list A) : forall (b : list B), List.length a = List.length b ->
  map snd (combine a b) = b.
Proof. induction a as [|x a IH]; intros [|y b] H; try discriminate H; auto. cbn. f_equal. apply IH. now injection H. Qed.

Lemma rolling_mean_length w (l : list fl) : List.length (rolling_mean w l) = List.length l.
Proof. unfold rolling_mean. now rewrite map_length, seq_length. Qed.

Lemma rolling_mean_nth w (l : list fl) i : (i < List.length l)%nat -> (w <= S i)%nat ->
  nth i (rolling_mean w l) None = fmean (last_days w (firstn (S i) l)).
Proof.
  intros Hi Hw. unfold rolling_mean.
  apply nth_error_nth. rewrite nth_error_map, (nth_error_nth' _ 0%nat) by (rewrite seq_length; lia).
  rewrite seq_nth by lia. cbn [Nat.add option_map]. f_equal.
  destruct (Nat.ltb_spec (S i) w); [lia|]. f_equal. unfold list_slice, last_days.
  rewrite firstn_length, Nat.min_l by lia.
  replace (S i - (S i - w))%nat with w by lia.
  rewrite skipn_firstn_comm. f_equal. lia.
Qed.

Lemma firstn_up_to {A} (st run : list A) k i : List.length st = k ->
  firstn (S (k + i)) (st ++ run) = up_to st run i.
Proof.
  intros H. unfold up_to. rewrite firstn_app, firstn_all2 by lia. do 2 f_equal. lia.
Qed.

(** the joined record and its rolling mean *)
Lemma joined start (st x : list fl) n : List.length st = 90%nat -> List.length x = n ->
  combine (dates_from (start - 90) 90) st ++ combine (dates_from start n) x =
  combine (dates_from (start - 90) (90 + n)) (st ++ x).
Proof.
  intros Hs Hx. rewrite dates_from_app, combine_app by (now rewrite dates_from_length).
  do 3 f_equal. lia.
Qed.

Lemma rolling_lookup start (st x : list fl) n w i : List.length st = 90%nat -> List.length x = n ->
  (w <= 90)%nat -> (i < n)%nat ->
  lookup (start + Z.of_nat i) (rolling w (combine (dates_from (start - 90) 90) st ++ combine (dates_from start n) x)) =
  fmean (last_days w (up_to st x i)).
Proof.
  intros Hs Hx Hw Hi. rewrite joined by auto. unfold rolling, labels, vals.
  assert (L : List.length (st ++ x) = (90 + n)%nat) by (rewrite app_length; lia).
  rewrite map_fst_combine, map_snd_combine by (rewrite dates_from_length; auto).
  replace (start + Z.of_nat i)%Z with ((start - 90) + Z.of_nat (90 + i))%Z by lia.
  rewrite lookup_dates by (rewrite ?rolling_mean_length; lia).
  rewrite rolling_mean_nth by lia. now rewrite firstn_up_to by auto.
Qed.

Lemma relabel_ok (s : list fl) dates : List.length s = List.length dates ->
  relabel s dates = Ok (combine dates s).
Proof. intros H. unfold relabel. now rewrite H, Nat.eqb_refl. Qed.

Lemma map2_len {A B C} (f : A -> B -> C) a b : List.length (map2 f a b) = Nat.min (List.length a) (List.length b).
Proof. unfold map2. now rewrite map_length, combine_length. Qed.

Lemma zmem_In d l : zmem d l = true <-> In d l.
Proof.
  unfold zmem. rewrite existsb_exists. split.
  - intros (x & Hx & E). apply Z.eqb_eq in E. now subst.
  - intros H. exists d. split; auto. apply Z.eqb_refl.
Qed.

Lemma labels_rolling w start (st x : list fl) n : List.length st = 90%nat -> List.length x = n ->
  labels (rolling w (combine (dates_from (start - 90) 90) st ++ combine (dates_from start n) x)) =
  dates_from (start - 90) (90 + n).
Proof.
  intros Hs Hx. rewrite joined by auto. unfold rolling, labels, vals.
  assert (L : List.length (st ++ x) = (90 + n)%nat) by (rewrite app_length; lia).
  assert (E : map fst (combine (dates_from (start - 90) (90 + n)) (st ++ x)) = dates_from (start - 90) (90 + n))
    by (apply map_fst_combine; rewrite dates_from_length; auto).
  rewrite E. apply map_fst_combine. rewrite rolling_mean_length, map_snd_combine;
    rewrite dates_from_length; auto.
Qed.

Definition dtr_negative (tmin tmax : list fl) : bool := existsb (fun x => flt x (Some 0%R)) (map2 fsub tmax tmin).

Lemma dtr_negative_spec tmin tmax : dtr_negative tmin tmax = true <-> inverted_day tmin tmax.
Proof.
  unfold dtr_negative, inverted_day. rewrite existsb_exists. split.
  - intros (x & Hx & Hlt). apply In_nth_error in Hx as (d & Hd). unfold map2 in Hd.
    rewrite nth_error_map in Hd.
    destruct (nth_error (combine tmax tmin) d) as [[b a]|] eqn:E; [|discriminate].
    cbn [option_map fst snd] in Hd.
    assert (Ha : nth_error tmin d = Some a /\ nth_error tmax d = Some b).
    { clear -E. revert tmin d E. induction tmax as [|y tmax IH]; intros [|z tmin] [|d] E; cbn in *; try discriminate.
      - injection E as -> ->. auto.
      - now apply IH. }
    destruct Ha as [Ha Hb]. destruct a as [a|], b as [b|]; cbn in Hd; injection Hd as <-; try discriminate Hlt.
    cbn in Hlt. apply Rltb_true in Hlt. exists d, a, b. split; [|split]; auto. lra.
  - intros (d & a & b & Ha & Hb & Hlt). exists (Some (b - a)%R). split.
    + assert (E : nth_error (combine tmax tmin) d = Some (Some b, Some a)).
      { revert tmin d Ha Hb. induction tmax as [|y tmax IH]; intros [|z tmin] [|d] Ha Hb; cbn in *; try discriminate.
        - injection Ha as ->. injection Hb as ->. auto.
        - now apply IH. }
      unfold map2. apply (nth_error_In _ d). rewrite nth_error_map, E. reflexivity.
    + cbn. apply Rltb_true. lra.
Qed.

Lemma align_dates s n ser : align (dates_from s n) ser = map (fun i => lookup (s + Z.of_nat i) ser) (seq 0 n).
Proof. unfold align, dates_from. now rewrite map_map. Qed.

(** ** what [aggregate_state] computes *)
Lemma lookup_combine k : forall (ls : list Z) d (l : list fl), NoDup ls -> List.length ls = List.length l -> nth_error ls k = Some d ->
  lookup d (combine ls l) = nth k l None.
Proof.
  induction k as [|k IH]; intros [|y ls] d [|x l] N L H; try discriminate; cbn [combine lookup nth nth_error] in *.
  - injection H as ->. now rewrite Z.eqb_refl.
  - inversion N as [|? ? N1 N2]. subst. destruct (Z.eqb_spec d y) as [->|_]; [exfalso; apply N1; now apply nth_error_In in H|].
    apply IH; auto.
Qed.

Lemma join_on (dates days : list Z) (st x : list fl) : List.length st = List.length dates ->
  combine dates st ++ combine days x = combine (dates ++ days) (st ++ x).
Proof. intros H. symmetry. now apply combine_app. Qed.

Lemma rolling_on (dates days : list Z) (st x : list fl) w i d : NoDup (dates ++ days) -> List.length st = List.length dates -> List.length x = List.length days ->
  (w <= List.length dates)%nat -> nth_error days i = Some d ->
  lookup d (rolling w (combine dates st ++ combine days x)) = fmean (last_days w (up_to st x i)).
Proof.
  intros N Hs Hx Hw Hi. assert (Li : (i < List.length days)%nat) by (apply nth_error_Some; congruence).
  rewrite join_on by auto. unfold rolling, labels, vals.
  assert (L : List.length (dates ++ days) = List.length (st ++ x)) by (rewrite !app_length; lia).
  rewrite map_fst_combine, map_snd_combine by auto.
  rewrite (lookup_combine (List.length dates + i)); [|exact N|now rewrite rolling_mean_length|rewrite nth_error_app2 by lia; rewrite <- Hi; f_equal; lia].
  rewrite rolling_mean_nth by (rewrite ?app_length; lia). now rewrite firstn_up_to by auto.
Qed.

Lemma labels_on w (dates days : list Z) (st x : list fl) : List.length st = List.length dates -> List.length x = List.length days ->
  labels (rolling w (combine dates st ++ combine days x)) = dates ++ days.
Proof.
  intros Hs Hx. rewrite join_on by auto. unfold rolling, labels, vals.
  assert (L : List.length (dates ++ days) = List.length (st ++ x)) by (rewrite !app_length; lia).
  assert (E : map fst (combine (dates ++ days) (st ++ x)) = dates ++ days) by now apply map_fst_combine.
  rewrite E. apply map_fst_combine. now rewrite rolling_mean_length, map_snd_combine.
Qed.

Lemma nth_map_seq {A B} (f : A -> B) (g : nat -> B) (l : list A) : (forall i d, nth_error l i = Some d -> f d = g i) -> map f l = map g (seq 0 (List.length l)).
Proof.
  revert g. induction l as [|x l IH]; intros g H; [reflexivity|]. cbn [map List.length seq]. f_equal; [exact (H 0%nat x eq_refl)|].
  rewrite <- seq_shift, map_map. apply IH. intros i d I. exact (H (S i) d I).
Qed.

Section Agg.
Variables (dates : list Z) (start stop : Z) (days : list Z) (n : nat).
Variables (sp stn stx pr tmin tmax : list fl).
Hypothesis Hdates : List.length dates = 90%nat.
Hypothesis Hbefore : forall d, In d dates -> (d < start)%Z.
Hypothesis Hnodates : NoDup dates.
Hypothesis Hdays : run_dates start stop days.
Hypothesis Hn : List.length days = n.
Hypothesis Hsp : List.length sp = 90%nat.
Hypothesis Hstn : List.length stn = 90%nat.
Hypothesis Hstx : List.length stx = 90%nat.
Hypothesis Hpr : List.length pr = n.
Hypothesis Htmin : List.length tmin = n.
Hypothesis Htmax : List.length tmax = n.

Theorem aggregate_over_result :
  aggregate_over dates start stop days sp stn stx pr tmin tmax =
  if dtr_negative tmin tmax then Err ValueError
  else Ok {| ag_seasonal := map (fun i => fmul (Some DAYS_PER_YEAR) (fmean (last_days 90 (up_to sp pr i)))) (seq 0 n);
             ag_dtr := map2 fsub tmax tmin;
             ag_smoothed := map (fun i => fmean (last_days 30 (up_to (map2 fsub stx stn) (map2 fsub tmax tmin) i))) (seq 0 n) |}.
Proof.
  destruct Hdays as [Hnd Hin].
  assert (Nd : NoDup (dates ++ days)).
  { clear - Hnd Hin Hbefore Hnodates. induction dates as [|x l IH]; [exact Hnd|]. inversion Hnodates as [|? ? N1 N2]. subst. cbn. constructor.
    - intros I. apply in_app_or in I as [I|I]; [contradiction|]. apply Hin in I. specialize (Hbefore x (or_introl eq_refl)). lia.
    - apply IH; auto. intros d D. apply Hbefore. now right. }
  unfold aggregate_over. rewrite Hsp. cbn [Nat.eqb negb].
  rewrite relabel_ok by congruence. cbn [bind].
  assert (Ld : List.length (map2 fsub stx stn) = 90%nat) by (rewrite map2_len; lia).
  assert (Lt : List.length (map2 fsub tmax tmin) = n) by (rewrite map2_len; lia).
  rewrite relabel_ok by congruence. cbn [bind].
  fold (dtr_negative tmin tmax). destruct (dtr_negative tmin tmax); [reflexivity|].
  unfold drop. rewrite labels_on by congruence.
  replace (forallb _ dates) with true.
  2:{ symmetry. apply forallb_forall. intros d Hd. apply zmem_In. apply in_or_app. now left. }
  cbn [bind]. f_equal. f_equal.
  - unfold align. rewrite <- Hn. apply nth_map_seq. intros i d Hi. pose proof (nth_error_In _ _ Hi) as I. apply Hin in I.
    rewrite (lookup_map _ (fmul (Some DAYS_PER_YEAR))) by reflexivity. f_equal.
    unfold sel_slice. rewrite (lookup_filter (fun d => (start <=? d) && (d <=? stop))%Z).
    + apply rolling_on; auto; try congruence. lia.
    + apply andb_true_intro. split; apply Z.leb_le; lia.
  - unfold align. rewrite <- Hn. apply nth_map_seq. intros i d Hi. pose proof (nth_error_In _ _ Hi) as I. apply Hin in I.
    rewrite (lookup_filter (fun d => negb (zmem d dates))).
    + apply rolling_on; auto; try congruence. lia.
    + apply negb_true_iff. apply not_true_is_false. rewrite zmem_In. intros J. apply Hbefore in J. lia.
Qed.
End Agg.

Lemma dates_from_nodup a n : NoDup (dates_from a n).
Proof. unfold dates_from. apply FinFun.Injective_map_NoDup; [|apply seq_NoDup]. intros x y E. lia. Qed.

Lemma dates_from_run start n : run_dates start (start + Z.of_nat n - 1) (dates_from start n).
Proof. split; [apply dates_from_nodup|]. intros d I. apply in_dates_from in I. lia. Qed.

Theorem aggregate_rows start stop days n sp stn stx pr tmin tmax : run_dates start stop days -> List.length days = n -> shaped n sp stn stx pr tmin tmax ->
  aggregate_state start stop days sp stn stx pr tmin tmax =
  if dtr_negative tmin tmax then Err ValueError
  else Ok {| ag_seasonal := map (fun i => fmul (Some DAYS_PER_YEAR) (fmean (last_days 90 (up_to sp pr i)))) (seq 0 n);
             ag_dtr := map2 fsub tmax tmin;
             ag_smoothed := map (fun i => fmean (last_days 30 (up_to (map2 fsub stx stn) (map2 fsub tmax tmin) i))) (seq 0 n) |}.
Proof.
  intros Rd Ln (H1 & H2 & H3 & H4 & H5 & H6). unfold aggregate_state. rewrite record_dates_90. apply aggregate_over_result; auto.
  - intros d I. apply in_dates_from in I. lia.
  - apply dates_from_nodup.
Qed.

Lemma map2_app {A B C} (f : A -> B -> C) a a' : forall b b', List.length a = List.length b ->
  map2 f (a ++ a') (b ++ b') = map2 f a b ++ map2 f a' b'.
Proof. intros b b' H. unfold map2. now rewrite combine_app, map_app. Qed.
Lemma map2_firstn' {A B C} (f : A -> B -> C) n : forall a b, firstn n (map2 f a b) = map2 f (firstn n a) (firstn n b).
Proof. intros a b. unfold map2. now rewrite firstn_map, combine_firstn. Qed.
Lemma map2_skipn' {A B C} (f : A -> B -> C) n : forall a b, skipn n (map2 f a b) = map2 f (skipn n a) (skipn n b).
Proof.
  unfold map2. induction n as [|n IH]; intros [|x a] [|y b]; cbn; auto.
  destruct (skipn n a); auto.
Qed.
Lemma up_to_map2 {A B C} (f : A -> B -> C) s s' r r' i : List.length s = List.length s' ->
  up_to (map2 f s s') (map2 f r r') i = map2 f (up_to s r i) (up_to s' r' i).
Proof. intros H. unfold up_to. rewrite map2_firstn'. now rewrite map2_app. Qed.

Lemma up_to_length {A} (s r : list A) i : (i < List.length r)%nat ->
  List.length (up_to s r i) = (List.length s + S i)%nat.
Proof. intros H. unfold up_to. rewrite app_length, firstn_length. lia. Qed.
Lemma last_days_length {A} w (l : list A) : List.length (last_days w l) = Nat.min w (List.length l).
Proof. unfold last_days. rewrite skipn_length. lia. Qed.
Lemma last_days_In {A} w (l : list A) x : In x (last_days w l) -> In x l.
Proof. unfold last_days. intros H. rewrite <- (firstn_skipn (List.length l - w) l). apply in_or_app. now right. Qed.

Lemma fsum_finite (l : list fl) : no_missing l -> exists x, fsum l = Some x.
Proof.
  induction l as [|y l IH]; intros H; [now exists 0%R|].
  destruct IH as [x Hx]. { intros z Hz. apply H. now right. }
  destruct y as [y|]; [|exfalso; apply (H None); [now left|reflexivity]].
  exists (y + x)%R. rewrite fsum_cons, Hx. reflexivity.
Qed.
Lemma fmean_finite (l : list fl) : no_missing l -> l <> [] -> fmean l <> None.
Proof.
  intros H Hl. destruct (fsum_finite l H) as [x Hx]. unfold fmean. rewrite Hx.
  rewrite fdiv_some; [discriminate|]. apply not_0_INR. destruct l; [congruence|discriminate].
Qed.
Lemma map2_fsub_finite (a b : list fl) : no_missing a -> no_missing b -> no_missing (map2 fsub a b).
Proof.
  intros Ha Hb x Hx. unfold map2 in Hx. apply in_map_iff in Hx as ([u v] & <- & Huv).
  pose proof (Ha u (in_combine_l _ _ _ _ Huv)). pose proof (Hb v (in_combine_r _ _ _ _ Huv)).
  cbn [fst snd]. destruct u, v; cbn; congruence.
Qed.
Lemma up_to_In {A} (s r : list A) i x : In x (up_to s r i) -> In x s \/ In x r.
Proof.
  intros H. apply in_app_or in H as [H|H]; [now left|right].
  rewrite <- (firstn_skipn (S i) r). apply in_or_app. now left.
Qed.

Lemma agg_eq start n sp stn stx pr tmin tmax : shaped n sp stn stx pr tmin tmax ->
  aggregate_state start (start + Z.of_nat n - 1) (dates_from start n) sp stn stx pr tmin tmax =
  if dtr_negative tmin tmax then Err ValueError
  else Ok {| ag_seasonal := map (fun i => fmul (Some DAYS_PER_YEAR) (fmean (last_days 90 (up_to sp pr i)))) (seq 0 n);
             ag_dtr := map2 fsub tmax tmin;
             ag_smoothed := map (fun i => fmean (last_days 30 (up_to (map2 fsub stx stn) (map2 fsub tmax tmin) i))) (seq 0 n) |}.
Proof. intros S. apply aggregate_rows; [apply dates_from_run|apply dates_from_length|exact S]. Qed.

Lemma nth_error_seq0 n i : (i < n)%nat -> nth_error (seq 0 n) i = Some i.
Proof. intros H. rewrite (nth_error_nth' _ 0%nat) by (rewrite seq_length; lia). now rewrite seq_nth. Qed.

Lemma res_inj {A} (a b : A) : Ok a = Ok b -> a = b.
Proof. intros H. exact (f_equal (fun r => match r with Ok x => x | Err _ => a end) H). Qed.

Theorem row_predictors start stop days n sp stn stx pr tmin tmax out :
  run_dates start stop days -> List.length days = n -> shaped n sp stn stx pr tmin tmax ->
  aggregate_state start stop days sp stn stx pr tmin tmax = Ok out ->
  List.length (ag_seasonal out) = n /\ List.length (ag_smoothed out) = n /\
  forall i, (i < n)%nat ->
    let rain := last_days 90 (up_to sp pr i) in
    let range := last_days 30 (map2 fsub (up_to stx tmax i) (up_to stn tmin i)) in
    List.length rain = 90%nat /\ List.length range = 30%nat /\
    nth_error (ag_seasonal out) i = Some (fmul (Some 365.25%R) (fmean rain)) /\
    nth_error (ag_smoothed out) i = Some (fmean range).
Proof.
  intros Rd Ln S H. rewrite (aggregate_rows _ _ _ _ _ _ _ _ _ _ Rd Ln S) in H. destruct (dtr_negative tmin tmax); [discriminate|].
  apply res_inj in H. subst out. cbn [ag_seasonal ag_smoothed].
  destruct S as (H1 & H2 & H3 & H4 & H5 & H6).
  rewrite !map_length, !seq_length. split; auto. split; auto. intros i Hi. cbv zeta.
  rewrite <- up_to_map2 by congruence.
  rewrite !last_days_length, !up_to_length by (rewrite ?map2_len; lia). rewrite map2_len, H1, H2, H3.
  split; [lia|]. split; [lia|].
  rewrite !nth_error_map, !nth_error_seq0 by auto. split; reflexivity.
Qed.

Theorem seasonal_predictors start n sp stn stx pr tmin tmax out :
  shaped n sp stn stx pr tmin tmax ->
  aggregate_state start (start + Z.of_nat n - 1) (dates_from start n) sp stn stx pr tmin tmax = Ok out ->
  List.length (ag_seasonal out) = n /\ List.length (ag_smoothed out) = n /\
  forall i, (i < n)%nat ->
    let rain := last_days 90 (up_to sp pr i) in
    let range := last_days 30 (map2 fsub (up_to stx tmax i) (up_to stn tmin i)) in
    List.length rain = 90%nat /\ List.length range = 30%nat /\
    nth_error (ag_seasonal out) i = Some (fmul (Some 365.25%R) (fmean rain)) /\
    nth_error (ag_smoothed out) i = Some (fmean range).
Proof. intros S. apply row_predictors; [apply dates_from_run|apply dates_from_length|exact S]. Qed.

Theorem seasonal_not_missing start n sp stn stx pr tmin tmax out :
  shaped n sp stn stx pr tmin tmax ->
  aggregate_state start (start + Z.of_nat n - 1) (dates_from start n) sp stn stx pr tmin tmax = Ok out ->
  no_missing (sp ++ pr) -> no_missing (stn ++ tmin) -> no_missing (stx ++ tmax) ->
  no_missing (ag_seasonal out) /\ no_missing (ag_smoothed out).
Proof.
  intros S H Np Nn Nx. destruct (seasonal_predictors _ _ _ _ _ _ _ _ _ S H) as (L1 & L2 & Hi).
  assert (Sub : forall (s r : list fl) i, no_missing (s ++ r) -> no_missing (up_to s r i)).
  { intros s r i N x Hx. apply N. apply in_or_app. destruct (up_to_In _ _ _ _ Hx); auto. }
  split; intros x Hx; apply In_nth_error in Hx as (i & Hx).
  - assert (Hlt : (i < n)%nat) by (rewrite <- L1; apply nth_error_Some; now rewrite Hx).
    destruct (Hi i Hlt) as (A & _ & E & _). change (@nth_error fl (ag_seasonal out) i = Some x) in Hx.
    rewrite E in Hx. injection Hx as <-.
    assert (F : fmean (last_days 90 (up_to sp pr i)) <> None).
    { apply fmean_finite. - intros y Hy. apply (Sub sp pr i Np). eapply last_days_In; eauto.
      - intros C. rewrite C in A. discriminate. }
    destruct (fmean _); [discriminate|congruence].
  - assert (Hlt : (i < n)%nat) by (rewrite <- L2; apply nth_error_Some; now rewrite Hx).
    destruct (Hi i Hlt) as (_ & A & _ & E). change (@nth_error fl (ag_smoothed out) i = Some x) in Hx.
    rewrite E in Hx. assert (x = _) as -> by (injection Hx as <-; reflexivity).
    apply fmean_finite.
    + intros y Hy. apply last_days_In in Hy. revert y Hy. apply map2_fsub_finite; auto.
    + intros C. rewrite C in A. discriminate.
Qed.

(** ** C49: splitting *)
Lemma last_days_skipn {A} w k (l : list A) : (w + k <= List.length l)%nat ->
  last_days w (skipn k l) = last_days w l.
Proof. intros H. unfold last_days. rewrite skipn_length, skipn_skipn'. f_equal. lia. Qed.
Lemma firstn_add {A} m k (l : list A) : firstn (m + k) l = firstn m l ++ firstn k (skipn m l).
Proof. revert l. induction m as [|m IH]; intros [|x l]; cbn; auto. - now rewrite firstn_nil. - now rewrite IH. Qed.

Lemma split_window {A} w (st x : list A) m i : (w <= 90)%nat -> List.length st = 90%nat ->
  (m + i < List.length x)%nat ->
  last_days w (up_to (last_days 90 (st ++ firstn m x)) (skipn m x) i) = last_days w (up_to st x (m + i)).
Proof.
  intros Hw Hs Hi. set (l := st ++ firstn m x).
  assert (Ll : List.length l = (90 + m)%nat) by (unfold l; rewrite app_length, firstn_length; lia).
  assert (E : up_to st x (m + i) = l ++ firstn (S i) (skipn m x)).
  { unfold up_to, l. rewrite <- app_assoc. f_equal. replace (S (m + i)) with (m + S i)%nat by lia. apply firstn_add. }
  rewrite E. unfold up_to, last_days at 2. rewrite Ll.
  replace (90 + m - 90)%nat with m by lia.
  rewrite <- (last_days_skipn w m (l ++ _)).
  - f_equal. rewrite skipn_app. replace (m - List.length l)%nat with 0%nat by lia. reflexivity.
  - rewrite app_length, firstn_length, skipn_length. lia.
Qed.

Lemma dtr_negative_app a a' b b' : List.length a = List.length b ->
  dtr_negative (a ++ a') (b ++ b') = (dtr_negative a b || dtr_negative a' b')%bool.
Proof. intros H. unfold dtr_negative. now rewrite map2_app, existsb_app. Qed.

Lemma map_seq_split {A} (f : nat -> A) m n : (m <= n)%nat ->
  map f (seq 0 n) = map f (seq 0 m) ++ map (fun i => f (m + i)%nat) (seq 0 (n - m)).
Proof.
  intros H. replace n with (m + (n - m))%nat at 1 by lia. rewrite seq_app, map_app. f_equal.
  assert (G : forall k s, map f (seq (m + s) k) = map (fun i => f (m + i)%nat) (seq s k)).
  { induction k as [|k IH]; intros s; auto. cbn [seq map]. f_equal.
    replace (S (m + s)) with (m + S s)%nat by lia. apply IH. }
  rewrite <- G. do 2 f_equal. lia.
Qed.

Theorem split_run start n m sp stn stx pr tmin tmax full :
  shaped n sp stn stx pr tmin tmax -> (m <= n)%nat ->
  aggregate_state start (start + Z.of_nat n - 1) (dates_from start n) sp stn stx pr tmin tmax = Ok full ->
  exists first second,
    aggregate_state start (start + Z.of_nat m - 1) (dates_from start m) sp stn stx
      (firstn m pr) (firstn m tmin) (firstn m tmax) = Ok first /\
    aggregate_state (start + Z.of_nat m) (start + Z.of_nat m + Z.of_nat (n - m) - 1)
      (dates_from (start + Z.of_nat m) (n - m))
      (last_days 90 (sp ++ firstn m pr)) (last_days 90 (stn ++ firstn m tmin)) (last_days 90 (stx ++ firstn m tmax))
      (skipn m pr) (skipn m tmin) (skipn m tmax) = Ok second /\
    ag_seasonal full = ag_seasonal first ++ ag_seasonal second /\
    ag_dtr full = ag_dtr first ++ ag_dtr second /\
    ag_smoothed full = ag_smoothed first ++ ag_smoothed second.
Proof.
  intros S Hm H. rewrite (agg_eq _ _ _ _ _ _ _ _ S) in H.
  destruct (dtr_negative tmin tmax) eqn:D; [discriminate|]. apply res_inj in H. subst full.
  destruct S as (H1 & H2 & H3 & H4 & H5 & H6).
  assert (D2 : dtr_negative (firstn m tmin) (firstn m tmax) = false /\ dtr_negative (skipn m tmin) (skipn m tmax) = false).
  { rewrite <- (firstn_skipn m tmin), <- (firstn_skipn m tmax) in D. rewrite dtr_negative_app in D.
    - now apply orb_false_elim in D. - rewrite !firstn_length. congruence. }
  assert (S1 : shaped m sp stn stx (firstn m pr) (firstn m tmin) (firstn m tmax)).
  { repeat split; auto; rewrite firstn_length; lia. }
  assert (L90 : forall (st x : list fl), List.length st = 90%nat -> List.length (last_days 90 (st ++ x)) = 90%nat).
  { intros st x E. rewrite last_days_length, app_length. lia. }
  assert (S2 : shaped (n - m) (last_days 90 (sp ++ firstn m pr)) (last_days 90 (stn ++ firstn m tmin))
                 (last_days 90 (stx ++ firstn m tmax)) (skipn m pr) (skipn m tmin) (skipn m tmax)).
  { repeat split; auto; rewrite skipn_length; lia. }
  rewrite (agg_eq start m _ _ _ _ _ _ S1), (agg_eq (start + Z.of_nat m) (n - m) _ _ _ _ _ _ S2).
  destruct D2 as [-> ->].
  do 2 eexists. split; [reflexivity|]. split; [reflexivity|]. cbn [ag_seasonal ag_dtr ag_smoothed].
  assert (U : forall (s x : list fl) i, (i < m)%nat -> up_to s (firstn m x) i = up_to s x i).
  { intros s x i Hi. unfold up_to. rewrite firstn_firstn. do 2 f_equal. lia. }
  split; [|split].
  - rewrite (map_seq_split _ m n Hm). f_equal; apply map_ext_in; intros i Hi; apply in_seq in Hi.
    + now rewrite U by lia.
    + rewrite split_window by (auto; lia). reflexivity.
  - rewrite <- map2_app by (rewrite !firstn_length; congruence). now rewrite !firstn_skipn.
  - rewrite (map_seq_split _ m n Hm). f_equal; apply map_ext_in; intros i Hi; apply in_seq in Hi.
    + rewrite !up_to_map2 by congruence. now rewrite !U by lia.
    + rewrite <- map2_skipn'.
      replace (map2 fsub (last_days 90 (stx ++ firstn m tmax)) (last_days 90 (stn ++ firstn m tmin)))
        with (last_days 90 (map2 fsub stx stn ++ firstn m (map2 fsub tmax tmin))).
      * rewrite split_window; [reflexivity| | |]; rewrite ?map2_len; lia.
      * rewrite map2_firstn', <- map2_app by congruence. unfold last_days.
        rewrite map2_skipn', map2_len, !app_length, !firstn_length, H2, H3, H5, H6, Nat.min_id.
        reflexivity.
Qed.

(** ** C71 *)
Theorem unpack_keeps_90 (old run : list fl) last_day : List.length old = 90%nat ->
  unpack_state old run = last_days 90 (old ++ run) /\
  List.length (unpack_state old run) = 90%nat /\
  unpack_state_dates last_day = dates_from (last_day - 89) 90.
Proof.
  intros H. split; [reflexivity|]. split.
  - change (unpack_state old run) with (last_days 90 (old ++ run)).
    rewrite last_days_length, app_length. lia.
  - unfold unpack_state_dates, record_dates. replace (_ + 1)%Z with (Z.of_nat 90) by lia. apply zrange_dates.
Qed.

(** ** C52: monthly tables *)
Lemma set_months_len months m v l : List.length l = List.length months ->
  List.length (set_months months m v l) = List.length l.
Proof. intros H. unfold set_months. rewrite map2_len. lia. Qed.
Lemma set_months_nth months m v : forall l i m' x, nth_error months i = Some m' -> nth_error l i = Some x ->
  nth_error (set_months months m v l) i = Some (if (m' =? m)%Z then v else x).
Proof.
  unfold set_months, map2. induction months as [|a months IH]; intros [|y l] [|i] m' x H1 H2; try discriminate.
  - cbn in *. injection H1 as ->. injection H2 as ->. reflexivity.
  - cbn [combine map nth_error] in *. now apply IH.
Qed.

Lemma monthly_fold param months ms : NoDup ms -> forall l l', List.length l = List.length months ->
  fold_left (fun acc m => do l <- acc; do v <- zlookup param m; Ok (set_months months m v l)) ms (Ok l) = Ok l' ->
  List.length l' = List.length l /\
  forall i m x, nth_error months i = Some m -> nth_error l i = Some x ->
    (In m ms -> exists v, zlookup param m = Ok v /\ nth_error l' i = Some v) /\
    (~ In m ms -> nth_error l' i = Some x).
Proof.
  induction ms as [|m0 ms IH]; intros ND l l' Hl H.
  - cbn in H. apply res_inj in H. subst. split; auto. intros i m x Hm Hx. split; [intros []|auto].
  - cbn [fold_left bind] in H. destruct (zlookup param m0) as [v0|e] eqn:E.
    2:{ exfalso. clear -H. cbn [bind] in H. induction ms as [|m ms IH]; cbn in H; [discriminate|auto]. }
    cbn [bind] in H. inversion ND as [|? ? N0 ND']; subst.
    apply IH in H as [L H]; auto. 2:now rewrite set_months_len.
    rewrite set_months_len in L by auto. split; auto. intros i m x Hm Hx.
    pose proof (set_months_nth months m0 v0 l i m x Hm Hx) as Hs.
    destruct (H i m _ Hm Hs) as [H1 H2]. split.
    + intros [->|Hin]; [|auto]. rewrite Z.eqb_refl in H2. exists v0. split; auto.
    + intros Hn. rewrite H2 by (intros C; apply Hn; now right).
      destruct (Z.eqb_spec m m0); auto. subst. exfalso. apply Hn. now left.
Qed.

Lemma month_range d : (1 <= month_of d <= 12)%Z.
Proof. unfold month_of. exact (proj1 (proj2 (civil_spec d))). Qed.

Lemma months_0_11 m : In m (map Z.of_nat (seq 0 12)) <-> (0 <= m <= 11)%Z.
Proof.
  rewrite in_map_iff. split.
  - intros (i & <- & Hi). apply in_seq in Hi. lia.
  - intros H. exists (Z.to_nat m). rewrite in_seq. lia.
Qed.

Theorem monthly_param param days (pr l : list fl) i d :
  List.length pr = List.length days -> convert_monthly_param param days pr = Ok l ->
  nth_error days i = Some d ->
  (month_of d <> 12%Z -> exists v, zlookup param (month_of d) = Ok v /\ nth_error l i = Some v) /\
  (month_of d = 12%Z -> nth_error l i = nth_error pr i).
Proof.
  intros Hl H Hd. unfold convert_monthly_param in H.
  apply monthly_fold in H as [L H].
  - assert (Hx : exists x, nth_error pr i = Some x).
    { destruct (nth_error pr i) eqn:E; eauto. apply nth_error_None in E.
      assert (i < List.length days)%nat by (apply nth_error_Some; now rewrite Hd). lia. }
    destruct Hx as [x Hx]. destruct (H i (month_of d) x) as [H1 H2]; auto.
    { now apply map_nth_error. }
    rewrite months_0_11 in *. pose proof (month_range d). split.
    + intros N. apply H1. lia.
    + intros E. rewrite Hx. apply H2. lia.
  - apply FinFun.Injective_map_NoDup; [|apply seq_NoDup]. intros a b. apply Nat2Z.inj.
  - now rewrite map_length.
Qed.

(** a table labelled 1..12 is rejected whatever the record *)
Theorem monthly_1_12 (param : list (Z * fl)) days (pr : list fl) :
  (forall m v, In (m, v) param -> (1 <= m <= 12)%Z) -> convert_monthly_param param days pr = Err KeyError.
Proof.
  intros H. unfold convert_monthly_param. cbn [seq map fold_left bind Z.of_nat].
  replace (zlookup param 0) with (@Err fl KeyError); [reflexivity|].
  induction param as [|[m v] param IH]; auto. cbn [zlookup].
  pose proof (H m v (or_introl eq_refl)). destruct (Z.eqb_spec 0 m); [lia|].
  apply IH. intros; eapply H; right; eauto.
Qed.
