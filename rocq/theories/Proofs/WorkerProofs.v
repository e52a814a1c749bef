(** The temperature check of a worker. *)
From Coq Require Import ZArith Reals String List Bool Arith Lia Lra.
From Verif Require Import Model.Py Model.Fl Model.Np Model.Calendar Model.Datetime Model.Params Model.Disagg
  Model.State Model.Validate Model.Output Model.Cell Model.Worker
  Spec.StateSpec Spec.WorkerSpec Proofs.Base Proofs.ArrayProofs Proofs.StateProofs.
Import ListNotations.
Local Open Scope string_scope.
Local Open Scope list_scope.

Lemma dtr_check_spec cells :
  (dtr_check cells = Err ValueError /\ exists c, In c cells /\ inverted_day (fst c) (snd c)) \/
  (dtr_check cells = Ok tt /\ forall c, In c cells -> ~ inverted_day (fst c) (snd c)).
Proof.
  unfold dtr_check. destruct (existsb _ cells) eqn:E.
  - left. split; auto. apply existsb_exists in E as (c & Hc & E). exists c. split; auto.
    apply dtr_negative_spec. exact E.
  - right. split; auto. intros c Hc I. apply dtr_negative_spec in I.
    assert (T : existsb (fun c => existsb (fun x => flt x (Some 0%R)) (map2 fsub (snd c) (fst c))) cells = true).
    { apply existsb_exists. eauto. }
    congruence.
Qed.

Lemma slice_check cells n : (forall r, In r cells -> raw_shaped n r) ->
  (slice_dtr_check cells = Err ValueError /\ exists r, In r cells /\ raw_inverted r) \/
  (slice_dtr_check cells = Ok tt /\ forall r, In r cells -> ~ raw_inverted r).
Proof.
  intros Hs. unfold slice_dtr_check.
  set (f := fun r : raw_cell => do a <- raw_col r "t_min"; do b <- raw_col r "t_max"; Ok (a, b)).
  assert (Hf : forall r, In r cells -> exists p, f r = Ok p /\ raw_col r "t_min" = Ok (fst p) /\ raw_col r "t_max" = Ok (snd p)).
  { intros r Hr. destruct (Hs r Hr) as (p & a & b & _ & Ea & Eb & _). exists (a, b). unfold f.
    rewrite Ea, Eb. auto. }
  assert (Hm : exists ps, mapM f cells = Ok ps /\ Forall2 (fun r p => raw_col r "t_min" = Ok (fst p) /\ raw_col r "t_max" = Ok (snd p)) cells ps).
  { clear Hs. induction cells as [|r cells IH]; [now exists []|].
    destruct IH as (ps & E & F). { intros; apply Hf; now right. }
    destruct (Hf r (or_introl eq_refl)) as (p & E1 & E2). exists (p :: ps). cbn [mapM].
    rewrite E1. cbn [bind]. rewrite E. cbn [bind]. split; auto. }
  destruct Hm as (ps & -> & F). cbn [bind].
  destruct (dtr_check_spec ps) as [(E & c & Hc & I)|(E & N)].
  - left. split; auto. clear -F Hc I. induction F as [|r p rs ps [A B] F IH]; [easy|].
    destruct Hc as [->|Hc].
    + exists r. split; [now left|]. exists (fst c), (snd c). auto.
    + destruct (IH Hc) as (r' & H1 & H2). exists r'. split; auto. now right.
  - right. split; auto. intros r Hr (a & b & Ea & Eb & I). clear -F Hr N Ea Eb I.
    induction F as [|r' p rs ps [A B] F IH]; [easy|]. destruct Hr as [->|Hr].
    + apply (N p (or_introl eq_refl)).
      assert (a = fst p) by (rewrite Ea in A; now apply res_inj in A).
      assert (b = snd p) by (rewrite Eb in B; now apply res_inj in B). now subst.
    + apply IH; auto. intros c Hc. apply N. now right.
Qed.

Lemma check_90 n cells : (forall r, In r cells -> raw_shaped n r) ->
  exists us, mapM (fun r => if (List.length (rc_st_prec r) =? 90)%nat then Ok tt else Err AssertionError) cells = Ok us.
Proof.
  intros Hs. induction cells as [|r cells IH]; [now exists []|].
  destruct IH as (us & E). { intros; apply Hs; now right. }
  destruct (Hs r (or_introl eq_refl)) as (p & a & b & _ & _ & _ & L & _).
  exists (tt :: us). cbn [mapM]. rewrite L. cbn [Nat.eqb bind]. now rewrite E.
Qed.

Theorem inverted_rejected fuel prm w n :
  (forall r, In r (wk_cells w) -> raw_shaped n r) ->
  (exists r, In r (wk_cells w) /\ raw_inverted r) ->
  run_worker fuel prm w = Some (Err ValueError).
Proof.
  intros Hs (r & Hr & I). unfold run_worker, load_slice.
  destruct (check_90 n _ Hs) as (us & ->). cbn [bind].
  destruct (slice_check _ n Hs) as [(-> & _)|(_ & N)].
  - reflexivity.
  - exfalso. exact (N r Hr I).
Qed.

Lemma load_row_ok start stop days n r : run_dates start stop days -> List.length days = n -> raw_shaped n r -> ~ raw_inverted r ->
  exists c, load_cell start stop days r = Ok c.
Proof.
  intros Rd Ln (p & a & b & Ep & Ea & Eb & S) N. unfold load_cell, load_cell_over. rewrite Ep, Ea, Eb. cbn [bind].
  change (aggregate_over (record_dates (start - 90) (start - 1)) start) with (aggregate_state start).
  rewrite (aggregate_rows _ _ _ _ _ _ _ _ _ _ Rd Ln S). destruct (dtr_negative a b) eqn:D.
  - exfalso. apply N. exists a, b. rewrite dtr_negative_spec in D. auto.
  - cbn [bind]. eauto.
Qed.

Theorem upright_loaded start stop days n cells : run_dates start stop days -> List.length days = n ->
  (forall r, In r cells -> raw_shaped n r) -> (forall r, In r cells -> ~ raw_inverted r) ->
  exists data, load_slice start stop days cells = Ok data /\ List.length data = List.length cells.
Proof.
  intros Rd Ln Hs N. unfold load_slice. destruct (check_90 n _ Hs) as (us & ->). cbn [bind].
  destruct (slice_check _ n Hs) as [(_ & r & Hr & I)|(-> & _)]; [exfalso; exact (N r Hr I)|]. cbn [bind].
  induction cells as [|r cells IH]; [now exists []|].
  destruct IH as (data & E & L). { intros; apply Hs; now right. } { intros; apply N; now right. }
  destruct (load_row_ok start stop days n r Rd Ln (Hs r (or_introl eq_refl)) (N r (or_introl eq_refl))) as (c & Ec).
  exists (c :: data). cbn [mapM]. rewrite Ec. cbn [bind]. rewrite E. cbn [bind]. split; auto. cbn. now rewrite L.
Qed.

Theorem not_inverted_loaded start n cells :
  (forall r, In r cells -> raw_shaped n r) -> (forall r, In r cells -> ~ raw_inverted r) ->
  exists data, load_slice start (start + Z.of_nat n - 1) (dates_from start n) cells = Ok data /\
               List.length data = List.length cells.
Proof. apply upright_loaded; [apply dates_from_run|apply dates_from_length]. Qed.

(** ** C51: other calendars *)
Theorem noleap_window_short :
  exists start l, date_range_days NoLeap (civil_from_days (start - 90)) (civil_from_days (start - 1)) = Ok l /\
    civil_from_days start = mkcivil 2000 3 15 /\ List.length l = 89%nat.
Proof.
  exists (days_from_civil (mkcivil 2000 3 15)). eexists. split; [vm_compute; reflexivity|]. split; vm_compute; reflexivity.
Qed.

Theorem noleap_window_rejected :
  exists start, civil_from_days start = mkcivil 2000 5 29 /\
   date_range_days NoLeap (civil_from_days (start - 90)) (civil_from_days (start - 1)) = Err ValueError.
Proof. exists (days_from_civil (mkcivil 2000 5 29)). split; vm_compute; reflexivity. Qed.

Lemma relabel_short (s : list fl) dates : List.length s <> List.length dates -> relabel s dates = Err ValueError.
Proof. intros H. unfold relabel. apply Nat.eqb_neq in H. now rewrite H. Qed.

(** ** concrete cases *)
Lemma demo_raw_case :
  raw_shaped 1 (demo_raw 2 3) /\ ~ raw_inverted (demo_raw 2 3) /\
  raw_shaped 1 (demo_raw 4 3) /\ raw_inverted (demo_raw 4 3).
Proof.
  assert (S : forall a b, raw_shaped 1 (demo_raw a b)).
  { intros a b. exists [Some 0%R], [Some a], [Some b]. repeat split. }
  split; [apply S|]. split; [|split; [apply S|]].
  - intros (a & b & Ea & Eb & d & x & y & Hx & Hy & L). cbn in Ea, Eb. apply res_inj in Ea, Eb. subst.
    destruct d as [|d]; [|destruct d; discriminate]. cbn in Hx, Hy.
    injection Hx as <-. injection Hy as <-. lra.
  - exists [Some 4%R], [Some 3%R]. split; [reflexivity|]. split; [reflexivity|].
    exists 0%nat, 4%R, 3%R. repeat split. lra.
Qed.

Lemma fsum_repeat x n : fsum (@repeat fl (Some x) n) = Some (INR n * x)%R.
Proof.
  assert (E : @repeat fl (Some x) n = @map R fl (@Some R) (repeat x n)) by (induction n; cbn; congruence).
  rewrite E. now rewrite fsum_some, total_repeat.
Qed.

Lemma demo_predictors : exists out,
  aggregate_state 100 101 (dates_from 100 2) (repeat (Some 0%R) 90) (repeat (Some 1%R) 90) (repeat (Some 3%R) 90)
    [Some 9%R; Some 0%R] [Some 1%R; Some 1%R] [Some 3%R; Some 3%R] = Ok out /\
  nth_error (ag_seasonal out) 0 = Some (Some 36.525%R) /\
  nth_error (ag_smoothed out) 1 = Some (Some 2%R).
Proof.
  change 101%Z with (100 + Z.of_nat 2 - 1)%Z. rewrite agg_eq by (repeat split).
  destruct (dtr_negative _ _) eqn:D.
  { exfalso. apply dtr_negative_spec in D as (d & x & y & Hx & Hy & L).
    destruct d as [|[|d]]; cbn in Hx, Hy; try (injection Hx as <-; injection Hy as <-; lra). destruct d; discriminate. }
  eexists. split; [reflexivity|]. cbn [ag_seasonal ag_smoothed seq map nth_error].
  split.
  - f_equal. transitivity (fmul (Some Constants.DAYS_PER_YEAR)
                (fmean (map Some (repeat 0%R 89 ++ [9%R])))); [reflexivity|].
    rewrite fmean_some by discriminate. rewrite total_app, total_repeat, total_cons, total_nil.
    rewrite app_length, repeat_length. rewrite (INR_IZR_INZ (89 + _)).
    cbn [Z.of_nat Nat.add Pos.of_succ_nat Pos.succ List.length fmul flift2]. f_equal.
    unfold Constants.DAYS_PER_YEAR. lra.
  - f_equal. transitivity (fmean (map Some (repeat (3 - 1)%R 30))); [reflexivity|].
    rewrite fmean_some by discriminate. rewrite total_repeat, repeat_length, (INR_IZR_INZ 30).
    cbn [Z.of_nat Pos.of_succ_nat Pos.succ]. f_equal. lra.
Qed.

Lemma demo_months :
  convert_monthly_param (map (fun m => (Z.of_nat m, Some (100 + INR m)%R)) (seq 0 12)) [10987%Z; 11292%Z]
    [Some 7%R; Some 5%R] = Ok [Some (100 + INR 1)%R; Some 5%R] /\
  civil_from_days 10987 = mkcivil 2000 1 31 /\ civil_from_days 11292 = mkcivil 2000 12 1.
Proof. split; [|split; reflexivity]. unfold convert_monthly_param. reflexivity. Qed.
