(** The period of a run. *)
From Coq Require Import ZArith Reals String Ascii List Bool Arith Lia Lra Sorted.
From Verif Require Import Model.Py Model.Fl Model.Np Model.Constants Model.Calendar Model.Datetime Model.Reader
  Model.State Model.Period Spec.StateSpec Spec.ReaderSpec Spec.PeriodSpec Proofs.ArrayProofs Proofs.StateProofs Proofs.OutputProofs Proofs.ReaderProofs Proofs.NameProofs Proofs.DateProofs.
Import ListNotations.
Local Open Scope list_scope.

Lemma has_slash s : no_slash s -> has_char "/" s = false.
Proof.
  unfold no_slash. induction s as [|c s IH]; cbn [lacks has_char]; auto. intros [H1 H2]. rewrite IH by auto.
  destruct (Ascii.eqb_spec "/" c); [congruence|reflexivity].
Qed.

Lemma has_app c a b : has_char c (a ++ b)%string = has_char c a || has_char c b.
Proof. induction a as [|x a IH]; cbn; auto. rewrite IH. now rewrite orb_assoc. Qed.

Lemma split_noslash s : no_slash s -> forall cur, split_char "/" s cur = [(string_rev cur ++ s)%string].
Proof. apply split_none. Qed.

Lemma split_slash s r : no_slash s -> forall cur,
  split_char "/" (s ++ "/" ++ r)%string cur = (string_rev cur ++ s)%string :: split_char "/" r EmptyString.
Proof. intros H cur. cbn [append]. rewrite split_at, split_none by auto. reflexivity. Qed.

Lemma last_default {A} (l : list A) x y : l <> [] -> last l x = last l y.
Proof.
  induction l as [|a l IH]; [congruence|]. intros _. destruct l as [|b l]; auto.
  change (last (b :: l) x = last (b :: l) y). apply IH. discriminate.
Qed.

Section Period.
  Variable parse : string -> option (Z * Z).
  Variable parse_int : string -> option Z.

  Lemma slash_ymd s d : ymd parse_int s d -> has_char "/" s = true /\ slash_date parse_int s = Ok d.
  Proof.
    intros (y & m & k & Hy & Hm & Hk & -> & y' & m' & k' & Ey & Em & Ek & By & Ec & Ed). split.
    - rewrite has_app. cbn [append has_char]. change (Ascii.eqb "/" "/") with true. cbn [orb]. now rewrite orb_true_r.
    - unfold slash_date. rewrite split_slash by auto. rewrite split_slash by auto. rewrite split_noslash by auto.
      change (string_rev "") with EmptyString. cbn [append]. rewrite Ey, Em, Ek. unfold make_date. cbv zeta.
      rewrite Ed, Ec. cbn [c_year c_month c_day]. rewrite !Z.eqb_refl.
      replace ((1 <=? y') && (y' <=? 9999))%Z with true; [reflexivity|].
      symmetry. apply andb_true_intro. split; apply Z.leb_le; lia.
  Qed.

  Lemma names_resolve p d : names parse parse_int p d ->
    slice_from parse p = Ok d /\ slice_to parse p = Ok d /\ forall e, resolve parse parse_int e p = Ok d.
  Proof.
    destruct p as [d'|s]; cbn [names slice_from slice_to resolve].
    - intros ->. auto.
    - intros (H1 & H2 & H3). rewrite H2. split; auto. split; auto. intros e.
      destruct (String.eqb_spec s "forcing"); [contradiction|]. destruct H3 as [H3|H3].
      + destruct (slash_ymd s d H3) as [E1 E2]. now rewrite E1.
      + now rewrite has_slash.
  Qed.

  Lemma kept_sorted times a b : StronglySorted Z.lt times ->
    StronglySorted Z.lt (filter (fun d => (a <=? d)%Z && (d <=? b)%Z) times).
  Proof.
    induction 1 as [|x l Hl IH Hx]; cbn [filter]; [constructor|].
    destruct (_ && _)%bool; auto. constructor; auto. rewrite Forall_forall in *. intros y Hy.
    apply Hx. now apply filter_In in Hy.
  Qed.

  Lemma in_kept times a b d : In d (filter (fun d => (a <=? d)%Z && (d <=? b)%Z) times) <->
    In d times /\ (a <= d <= b)%Z.
  Proof. rewrite filter_In, andb_true_iff, !Z.leb_le. tauto. Qed.

  Lemma sorted_head x l y : StronglySorted Z.lt (x :: l) -> In y (x :: l) -> (x <= y)%Z.
  Proof.
    intros H [->|H2]; [lia|]. inversion H as [|? ? H3 H4]; subst. rewrite Forall_forall in H4. specialize (H4 y H2). lia.
  Qed.

  Lemma sorted_end l : forall x y, StronglySorted Z.lt (x :: l) -> In y (x :: l) -> (y <= last (x :: l) x)%Z /\ In (last (x :: l) x) (x :: l).
  Proof.
    induction l as [|z l IH]; intros x y H Hy.
    - cbn. destruct Hy as [->|[]]. split; [lia|auto].
    - inversion H as [|? ? H3 H4]; subst. 
      assert (E : last (x :: z :: l) x = last (z :: l) z) by apply (last_default (z :: l) x z ltac:(discriminate)).
      rewrite E. destruct (IH z z H3 (or_introl eq_refl)) as [G1 G2]. split; [|now right].
      destruct Hy as [->|Hy].
      + rewrite Forall_forall in H4. specialize (H4 _ G2). lia.
      + now apply (IH z y H3).
  Qed.

  Theorem covers times start stop a b :
    StronglySorted Z.lt times -> names parse parse_int start a -> names parse parse_int stop b ->
    ((In a times /\ In b times /\ (a <= b)%Z) ->
     exists p, load_period parse parse_int times start stop = Ok p /\
      pr_start p = a /\ pr_stop p = b /\ pr_state_start p = (a - 90)%Z /\ pr_state_stop p = (a - 1)%Z /\
      StronglySorted Z.lt (pr_days p) /\
      (forall d, In d (pr_days p) <-> In d times /\ (a <= d <= b)%Z)) /\
    (~ (In a times /\ In b times /\ (a <= b)%Z) ->
     exists e, load_period parse parse_int times start stop = Err e).
  Proof.
    intros HS Ha Hb. destruct (names_resolve _ _ Ha) as (A1 & A2 & A3). destruct (names_resolve _ _ Hb) as (B1 & B2 & B3).
    unfold load_period, read_period. rewrite A1, B2. cbn [bind].
    set (f := fun d => (a <=? d)%Z && (d <=? b)%Z). rewrite A3, B3. cbn [bind].
    assert (KS := kept_sorted times a b HS). assert (KI := in_kept times a b). fold f in KS, KI.
    destruct (filter f times) as [|x l] eqn:EK; cbn [first_of last_of bind].
    - split; [|intros _; eexists; reflexivity]. intros (H1 & _ & H3). exfalso. apply (proj2 (KI a)). split; auto. lia.
    - unfold validate_force_times.
      destruct (sorted_end l x x KS (or_introl eq_refl)) as [_ L].
      set (z := last (x :: l) x) in *.
      assert (Xb := proj1 (KI x) (or_introl eq_refl)). assert (Zb := proj1 (KI z) L).
      split.
      + intros (H1 & H2 & H3).
        assert (Ia : In a (x :: l)) by (apply KI; split; auto; lia).
        assert (Ib : In b (x :: l)) by (apply KI; split; auto; lia).
        assert (x <= a)%Z by (apply sorted_head with l; auto).
        assert (b <= z)%Z by (apply (sorted_end l x b); auto).
        destruct (Z.leb_spec x a); [|lia]. destruct (Z.leb_spec b z); [|lia]. cbn [bind fst snd].
        eexists. split; [reflexivity|]. cbn [pr_start pr_stop pr_state_start pr_state_stop pr_days].
        split; [auto|]. split; [auto|]. split; [auto|]. split; [auto|]. split; [auto|]. exact KI.
      + intros H. destruct (Z.leb_spec x a); cbn [bind]; [|eexists; reflexivity].
        destruct (Z.leb_spec b z); cbn [bind]; [|eexists; reflexivity]. exfalso. apply H.
        assert (x = a) by lia. assert (z = b) by lia. subst. split; [tauto|]. split; [tauto|lia].
  Qed.

  Lemma sorted_unique l : forall l', StronglySorted Z.lt l -> StronglySorted Z.lt l' ->
    (forall d, In d l <-> In d l') -> l = l'.
  Proof.
    induction l as [|x l IH]; intros [|y l'] S1 S2 H; auto.
    - exfalso. apply (proj2 (H y)). now left.
    - exfalso. apply (proj1 (H x)). now left.
    - assert (x = y).
      { assert (x <= y)%Z by (apply sorted_head with l; [auto|apply H; now left]).
        assert (y <= x)%Z by (apply sorted_head with l'; [auto|apply H; now left]). lia. }
      subst y. f_equal. inversion S1 as [|? ? T1 F1]; inversion S2 as [|? ? T2 F2]; subst. rewrite Forall_forall in *.
      apply IH; auto. intros d. split; intros Hd.
      + assert (x < d)%Z by auto. destruct (proj1 (H d) (or_intror Hd)); [lia|auto].
      + assert (x < d)%Z by auto. destruct (proj2 (H d) (or_intror Hd)); [lia|auto].
  Qed.

  Lemma dates_sorted s n : StronglySorted Z.lt (dates_from s n).
  Proof. rewrite <- zrange_dates. apply zrange_sorted. lia. Qed.

  Theorem contiguous t0 n start stop a b p :
    names parse parse_int start a -> names parse parse_int stop b ->
    load_period parse parse_int (dates_from t0 n) start stop = Ok p ->
    (a <= b)%Z /\ pr_days p = dates_from a (Z.to_nat (b - a + 1)).
  Proof.
    intros Ha Hb E. destruct (covers (dates_from t0 n) start stop a b (dates_sorted t0 n) Ha Hb) as [C1 C2].
    assert (D : (In a (dates_from t0 n) /\ In b (dates_from t0 n) /\ (a <= b)%Z) \/
               ~ (In a (dates_from t0 n) /\ In b (dates_from t0 n) /\ (a <= b)%Z)).
    { rewrite !in_dates_from. lia. }
    destruct D as [D|D]; [|destruct (C2 D) as [e E2]; rewrite E2 in E; discriminate].
    destruct (C1 D) as (p' & E' & _ & _ & _ & _ & S & I). rewrite E' in E.
    apply res_inj in E. subst p'. split; [lia|]. apply sorted_unique; auto using dates_sorted.
    intros d. rewrite I, !in_dates_from. destruct D as (D1 & D2 & D3). rewrite in_dates_from in D1, D2. lia.
  Qed.

  (** a missing day in the middle is not noticed *)
  Theorem gap_accepted : exists p, load_period parse parse_int [0; 1; 3; 4]%Z (Given 0) (Given 4) = Ok p /\
    (pr_start p < 2 < pr_stop p)%Z /\ ~ In 2%Z (pr_days p).
  Proof.
    eexists. split; [reflexivity|]. cbn. split; [lia|]. intros H. repeat destruct H as [H|H]; try lia.
  Qed.

  (** the word 'forcing' never reaches the code that interprets it *)
  Theorem forcing_word times start stop :
    parse "forcing" = None -> start = Text "forcing" \/ stop = Text "forcing" ->
    load_period parse parse_int times start stop = Err TypeError.
  Proof.
    intros H HH. unfold load_period, read_period.
    destruct HH as [-> | ->].
    - cbn [slice_from]. now rewrite H.
    - destruct start as [d|s]; cbn [slice_from slice_to].
      + cbn [bind]. now rewrite H.
      + destruct (parse s) as [[u v]|]; cbn [bind]; [now rewrite H|reflexivity].
  Qed.

  (** days after [stop] have no seasonal precipitation *)
  Lemma lookup_filter_false q d (s : series) : q d = false -> lookup d (filter (fun x => q (fst x)) s) = None.
  Proof.
    intros H. induction s as [|[d' v] s IH]; cbn [filter fst lookup]; auto.
    destruct (q d') eqn:E; auto. cbn [lookup]. destruct (Z.eqb_spec d d'); [congruence|auto].
  Qed.

  Theorem after_stop start stop days sp stn stx pr tmin tmax out i d :
    aggregate_state start stop days sp stn stx pr tmin tmax = Ok out ->
    nth_error days i = Some d -> (stop < d)%Z -> nth_error (ag_seasonal out) i = Some None.
  Proof.
    unfold aggregate_state, aggregate_over. intros H Hd Hs.
    destruct (negb _); [discriminate|]. cbv zeta in H.
    destruct (relabel sp _); [|discriminate]. cbn [bind] in H.
    destruct (relabel _ _); [|discriminate]. cbn [bind] in H.
    destruct (existsb _ _); [discriminate|]. destruct (drop _ _); [|discriminate]. cbn [bind] in H.
    apply res_inj in H. subst out. cbn [ag_seasonal]. unfold align.
    rewrite (map_nth_error _ i days Hd). f_equal.
    rewrite (lookup_map _ (fmul (Some DAYS_PER_YEAR))) by reflexivity. unfold sel_slice.
    rewrite (lookup_filter_false (fun d => (start <=? d) && (d <=? stop))%Z); [reflexivity|].
    apply andb_false_iff. right. apply Z.leb_gt. lia.
  Qed.

  (** a text that stands for several days: the forcing is read to the end of
      it, the run is taken to stop at its first day *)
  Theorem long_stop t0 n a b b' s :
    parse s = Some (b, b') -> s <> "forcing"%string -> no_slash s ->
    (t0 <= a <= b)%Z -> (b <= b')%Z -> (b' < t0 + Z.of_nat n)%Z ->
    load_period parse parse_int (dates_from t0 n) (Given a) (Text s) =
    Ok (mk_period (dates_from a (Z.to_nat (b' - a + 1))) a b (a - 90)%Z (a - 1)%Z).
  Proof.
    intros Hp Hf Hs Ba Bb Bn. unfold load_period, read_period. cbn [slice_from slice_to bind resolve]. rewrite Hp. cbn [bind].
    set (f := fun d => (a <=? d)%Z && (d <=? b')%Z).
    assert (K : filter f (dates_from t0 n) = dates_from a (Z.to_nat (b' - a + 1))).
    { apply sorted_unique; auto using dates_sorted, kept_sorted.
      - apply kept_sorted, dates_sorted.
      - intros d. unfold f. rewrite in_kept, !in_dates_from. lia. }
    rewrite K. destruct (String.eqb_spec s "forcing"); [contradiction|]. rewrite has_slash by auto. cbn [bind].
    destruct (Z.to_nat (b' - a + 1)) as [|k] eqn:EN; [lia|]. rewrite dates_from_S. cbn [first_of last_of bind].
    rewrite <- dates_from_S. unfold validate_force_times.
    replace (last (dates_from a (S k)) a) with b'.
    2:{ replace (S k) with (k + 1)%nat by lia. rewrite dates_from_app, (dates_from_S _ 0). change (dates_from ?x 0) with (@nil Z).
        rewrite last_last. lia. }
    destruct (Z.leb_spec a a); [|lia]. destruct (Z.leb_spec b b'); [|lia]. reflexivity.
  Qed.
End Period.

(** C80 *)
Theorem named_complete parse parse_int t0 n start stop a b p sp stn stx pr tmin tmax out :
  names parse parse_int start a -> names parse parse_int stop b ->
  load_period parse parse_int (dates_from t0 n) start stop = Ok p ->
  shaped (List.length (pr_days p)) sp stn stx pr tmin tmax ->
  no_missing (sp ++ pr) -> no_missing (stn ++ tmin) -> no_missing (stx ++ tmax) ->
  aggregate_state (pr_start p) (pr_stop p) (pr_days p) sp stn stx pr tmin tmax = Ok out ->
  List.length (ag_seasonal out) = List.length (pr_days p) /\ no_missing (ag_seasonal out).
Proof.
  intros Ha Hb E. destruct (contiguous parse parse_int t0 n start stop a b p Ha Hb E) as [Hab Hd].
  assert (D : (In a (dates_from t0 n) /\ In b (dates_from t0 n) /\ (a <= b)%Z) \/
               ~ (In a (dates_from t0 n) /\ In b (dates_from t0 n) /\ (a <= b)%Z)).
  { rewrite !in_dates_from. lia. }
  destruct (covers parse parse_int (dates_from t0 n) start stop a b (dates_sorted t0 n) Ha Hb) as [C1 C2].
  destruct D as [D|D]; [|destruct (C2 D) as [e E2]; rewrite E2 in E; discriminate].
  destruct (C1 D) as (p' & E' & P1 & P2 & _). rewrite E' in E. apply res_inj in E. subst p'.
  rewrite P1, P2, Hd, dates_from_length. set (k := Z.to_nat (b - a + 1)).
  intros S M1 M2 M3 H. replace b with (a + Z.of_nat k - 1)%Z in H by (unfold k; lia).
  split; [now apply (seasonal_predictors a k sp stn stx pr tmin tmax out S H)|].
  now apply (seasonal_not_missing a k sp stn stx pr tmin tmax out S H).
Qed.

(** the last day of a whole month given as a text *)
Theorem month_text_missing parse parse_int :
  parse "2000-02"%string = Some (10988, 11016)%Z ->
  exists p, load_period parse parse_int (dates_from 10957 60) (Given 10957) (Text "2000-02") = Ok p /\
    pr_days p = dates_from 10957 60 /\ civil_from_days 11016 = mkcivil 2000 2 29 /\
    forall sp stn stx pr tmin tmax out,
      aggregate_state (pr_start p) (pr_stop p) (pr_days p) sp stn stx pr tmin tmax = Ok out ->
      nth_error (ag_seasonal out) 59 = Some None.
Proof.
  intros H. eexists. split.
  - apply (long_stop parse parse_int 10957 60 10957 10988 11016); auto; try discriminate; try lia.
    unfold no_slash. cbn [lacks]. repeat (split; [discriminate|]). exact I.
  - cbn [pr_days pr_start pr_stop]. split; [reflexivity|]. split; [reflexivity|].
    intros sp stn stx pr tmin tmax out Ha.
    apply (after_stop _ _ _ _ _ _ _ _ _ _ 59 11016 Ha); [reflexivity|lia].
Qed.

Lemma agg_stop start stop stop' days sp stn stx pr tmin tmax :
  (exists out, aggregate_state start stop days sp stn stx pr tmin tmax = Ok out) ->
  exists out, aggregate_state start stop' days sp stn stx pr tmin tmax = Ok out.
Proof.
  unfold aggregate_state, aggregate_over. intros [out H]. destruct (negb _); [discriminate|]. cbv zeta in *.
  destruct (relabel sp _); [|discriminate]. cbn [bind] in *.
  destruct (relabel _ _); [|discriminate]. cbn [bind] in *.
  destruct (existsb _ _); [discriminate|]. destruct (drop _ _); [|discriminate]. cbn [bind]. eexists. reflexivity.
Qed.

(** the record of that run does load: dry, 1 to 3 C *)
Example month_text_runs : exists out,
  aggregate_state 10957 10988 (dates_from 10957 60) (repeat (Some 0%R) 90) (repeat (Some 1%R) 90) (repeat (Some 3%R) 90)
    (repeat (Some 0%R) 60) (repeat (Some 1%R) 60) (repeat (Some 3%R) 60) = Ok out.
Proof.
  apply (agg_stop 10957 (10957 + Z.of_nat 60 - 1)). exists
    {| ag_seasonal := map (fun i => fmul (Some DAYS_PER_YEAR) (fmean (last_days 90 (up_to (repeat (Some 0%R) 90) (repeat (Some 0%R) 60) i)))) (seq 0 60);
       ag_dtr := map2 fsub (repeat (Some 3%R) 60) (repeat (Some 1%R) 60);
       ag_smoothed := map (fun i => fmean (last_days 30 (up_to (map2 fsub (repeat (Some 3%R) 90) (repeat (Some 1%R) 90)) (map2 fsub (repeat (Some 3%R) 60) (repeat (Some 1%R) 60)) i))) (seq 0 60) |}.
  rewrite agg_eq by (repeat split; apply repeat_length).
  assert (E : dtr_negative (repeat (Some 1%R) 60) (repeat (Some 3%R) 60) = false).
  { unfold dtr_negative. replace (map2 fsub (repeat (Some 3%R) 60) (repeat (Some 1%R) 60)) with (repeat (Some (3 - 1)%R) 60) by reflexivity.
    apply not_true_is_false. intros H. apply existsb_exists in H. destruct H as (x & Hx & H). apply repeat_spec in Hx. subst x.
    unfold flt, Rltb in H. destruct (Rlt_dec (3 - 1) 0) as [L|L]; [lra|discriminate H]. }
  rewrite E. reflexivity.
Qed.

Theorem forcing_meaning parse parse_int times edge :
  resolve parse parse_int (first_of times) (Text "forcing") = first_of times /\
  resolve parse parse_int (last_of times) (Text "forcing") = last_of times /\
  resolve parse parse_int edge (Text "forcing") = edge.
Proof. split; [|split]; reflexivity. Qed.

(** if the word were a bound beyond the forcing *)
Theorem forcing_whole parse parse_int times t0 lo hi : parse "forcing"%string = Some (lo, hi) ->
  (forall d, In d times -> (lo <= d <= hi)%Z) -> first_of times = Ok t0 ->
  exists p, load_period parse parse_int times (Text "forcing") (Text "forcing") = Ok p /\
    pr_days p = times /\ pr_start p = t0 /\ pr_stop p = last times t0.
Proof.
  intros P W F. unfold load_period, read_period, slice_from, slice_to. rewrite P. cbn [bind].
  replace (filter (fun d => (lo <=? d)%Z && (d <=? hi)%Z) times) with times.
  2:{ clear F. induction times as [|d times IH]; [reflexivity|]. cbn [filter].
      destruct (W d (or_introl eq_refl)) as [A B]. apply Z.leb_le in A, B. rewrite A, B. cbn [andb]. f_equal. apply IH. intros; apply W; now right. }
  assert (E : last_of times = Ok (last times t0)) by (destruct times; [discriminate|]; injection F as ->; reflexivity).
  unfold resolve. cbn [String.eqb Ascii.eqb Bool.eqb]. rewrite F, E. cbn [bind].
  unfold validate_force_times. rewrite !Z.leb_refl. cbn [bind].
  eexists. split; [reflexivity|]. auto.
Qed.

(** year/month/day that is no date *)
Theorem no_such_date parse parse_int times start stop y m k y' m' k' :
  no_slash y -> no_slash m -> no_slash k -> parse_int y = Some y' -> parse_int m = Some m' -> parse_int k = Some k' ->
  (forall d, civil_from_days d <> mkcivil y' m' k') ->
  let s := (y ++ "/" ++ m ++ "/" ++ k)%string in start = Text s \/ stop = Text s ->
  exists e, load_period parse parse_int times start stop = Err e.
Proof.
  intros Hy Hm Hk Ey Em Ek N s O.
  assert (E : forall e, resolve parse parse_int e (Text s) = Err ValueError).
  { intros e. unfold resolve. 
    assert (C : has_char "/" s = true).
    { unfold s. rewrite has_app. cbn [append has_char]. change (Ascii.eqb "/" "/") with true. cbn [orb]. now rewrite orb_true_r. }
    destruct (String.eqb_spec s "forcing") as [X|_]; [rewrite X in C; discriminate|]. rewrite C.
    unfold slash_date, s. rewrite split_slash by auto. rewrite split_slash by auto. rewrite split_noslash by auto.
    change (string_rev "") with EmptyString. cbn [append]. rewrite Ey, Em, Ek. unfold make_date. cbv zeta.
    set (n := days_from_civil (mkcivil y' m' k')). specialize (N n). destruct (civil_from_days n) as [a b c]. cbn [c_year c_month c_day].
    destruct (Z.eqb_spec a y'), (Z.eqb_spec b m'), (Z.eqb_spec c k'); subst; try (now exfalso; apply N);
      rewrite ?andb_false_r; reflexivity. }
  unfold load_period. destruct (read_period parse times start stop) as [days|e]; cbn [bind]; [|eauto].
  destruct O as [-> | ->].
  - rewrite E. cbn [bind]. eauto.
  - destruct (resolve parse parse_int (first_of days) start) as [a|e]; cbn [bind]; [|eauto]. rewrite E. cbn [bind]. eauto.
Qed.

Lemma no_feb_30 d : civil_from_days d <> mkcivil 2000 2 30.
Proof.
  intros E. pose proof (civil_spec d) as [A _]. rewrite E in A. vm_compute in A. subst d. vm_compute in E. discriminate.
Qed.

Example demo_period :
  names (fun _ => Some (10958, 10958)%Z) (fun s => match s with "2000" => Some 2000 | "01" => Some 1 | "02" => Some 2 | _ => None end%string%Z)
    (Text "2000/01/02") 10958 /\
  load_period (fun _ => None) (fun _ => None) (dates_from 10957 5) (Given 10958) (Given 10960) =
    Ok (mk_period [10958; 10959; 10960] 10958 10960 10868 10957)%Z /\
  load_period (fun _ => None) (fun _ => None) (dates_from 10957 5) (Given 10956) (Given 10960) = Err AssertionError /\
  load_period (fun _ => None) (fun _ => None) (dates_from 10957 5) (Given 10958) (Given 10962) = Err AssertionError.
Proof.
  split; [|split; [|split]]; try reflexivity.
  split; [discriminate|]. split; [reflexivity|]. left. exists "2000"%string, "01"%string, "02"%string.
  assert (N : forall a b : ascii, Ascii.eqb a b = false -> a <> b) by (intros a b H ->; rewrite Ascii.eqb_refl in H; discriminate).
  split; [repeat (split; [now apply N|]); exact I|]. split; [repeat (split; [now apply N|]); exact I|].
  split; [repeat (split; [now apply N|]); exact I|]. split; [reflexivity|].
  exists 2000%Z, 1%Z, 2%Z. split; [reflexivity|]. split; [reflexivity|]. split; [reflexivity|]. split; [lia|]. split; reflexivity.
Qed.
