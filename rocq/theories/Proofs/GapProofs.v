(** Missing dates: C109. *)
From Coq Require Import ZArith Reals String List Bool Arith Lia Lra Sorting.Sorted.
From Verif Require Import Model.Py Model.Fl Model.Np Model.Constants Model.Calendar Model.Physics Model.Params Model.Disagg Model.Mtclim
  Model.State Model.Validate Model.Output Model.Cell Model.Worker
  Spec.TimeSpec Spec.StateSpec Spec.CellSpec Spec.GapSpec Spec.WorkerSpec Proofs.Base Proofs.ArrayProofs Proofs.PrecProofs Proofs.SettingsProofs Proofs.SliceProofs Proofs.CellProofs Proofs.LoadProofs Proofs.SpanProofs Proofs.CellTotal Proofs.DewCell Proofs.DisaggProofs Proofs.PrecExamples.
Import ListNotations.
Local Open Scope string_scope.
Local Open Scope list_scope.

(** ** the dates *)
Lemma span_tail r : forall a, Sorted Z.lt (a :: r) -> (Z.of_nat (List.length r) <= last r a - a)%Z.
Proof.
  induction r as [|b r IH]; intros a H; [cbn; lia|]. apply Sorted_inv in H as (H & Lt). inversion Lt as [|? ? Q]. subst.
  specialize (IH b H). replace (last (b :: r) a) with (last r b) by (clear; revert b; induction r as [|c r IH]; intros b; [reflexivity|cbn [last] in *; destruct r; [reflexivity|apply IH]]).
  cbn [List.length]. lia.
Qed.

Lemma last_step {A} (r : list A) a b : last (b :: r) a = last r b.
Proof. revert a b. induction r as [|c r IH]; intros a b; [reflexivity|]. change (last (b :: c :: r) a) with (last (c :: r) a). now rewrite !IH. Qed.

Lemma sorted_last r : forall a x, Sorted Z.lt (a :: r) -> In x (a :: r) -> (a <= x <= last r a)%Z.
Proof.
  induction r as [|b r IH]; intros a x H I; [destruct I as [<-|[]]; cbn; lia|].
  apply Sorted_inv in H as (H & Lt). inversion Lt as [|? ? Q]. subst. rewrite last_step.
  destruct I as [<-|I]; [|specialize (IH b x H I); lia]. specialize (IH b b H (or_introl eq_refl)). lia.
Qed.

Lemma gap_tail r : forall a d, Sorted Z.lt (a :: r) -> ~ In d (a :: r) -> (a < d < last r a)%Z -> (Z.of_nat (List.length r) < last r a - a)%Z.
Proof.
  induction r as [|b r IH]; intros a d H N L; [cbn in L; lia|]. pose proof H as H0. apply Sorted_inv in H as (H & Lt). inversion Lt as [|? ? Q]. subst.
  rewrite last_step in *. pose proof (span_tail r b H). cbn [List.length].
  destruct (Z.lt_trichotomy d b) as [K|[K|K]]; [lia|subst d; exfalso; apply N; right; now left|].
  assert ((Z.of_nat (List.length r) < last r b - b)%Z) by (apply (IH b d H); [intros I; apply N; now right|lia]). lia.
Qed.

(** more days than rows *)
Theorem gap_span days d : increasing days -> missing_date days d -> (List.length days < date_span days)%nat.
Proof.
  intros S (N & (a & Ia & La) & (b & Ib & Lb)). destruct days as [|f r]; [destruct Ia|]. cbn [date_span List.length].
  pose proof (sorted_last r f a S Ia). pose proof (sorted_last r f b S Ib).
  pose proof (gap_tail r f d S N ltac:(lia)). lia.
Qed.

Theorem days_spanned : (forall start n, date_span (map (fun i => (start + Z.of_nat i)%Z) (seq 0 n)) = n) /\
  (forall days d, increasing days -> missing_date days d -> (List.length days < date_span days)%nat).
Proof. exact (conj span_dates gap_span). Qed.

(** ** the columns do not fit *)
Lemma shortwave_short sw dl doy tiny prm out : shortwave sw dl doy tiny prm = Ok out -> (List.length sw <= List.length doy)%nat.
Proof.
  unfold shortwave. cbv zeta. intros H. inv_bind H. inv_bind H. inv_bind H.
  unfold zipw in E0. destruct (Nat.eqb_spec (List.length sw) (List.length dl)) as [Ls|]; [|discriminate]. apply Ok_inj in E0. subst v0.
  rewrite map_length, (ShortwaveProofs.map2_length fmul) in E1 by auto. apply mapM_inv in E1.
  destruct (Nat.le_gt_cases (List.length sw) (List.length doy)) as [|G]; [assumption|exfalso].
  assert (I : nth_error (seq 0 (List.length sw)) (List.length doy) = Some (List.length doy)) by now apply StateProofs.nth_error_seq0.
  destruct (Forall2_nth _ _ _ E1 _ _ I) as (c & _ & P).
  unfold getitem in P. rewrite (proj2 (nth_error_None doy (List.length doy)) (le_n _)) in P. discriminate.
Qed.

Lemma steps_positive ts tpd : (0 < ts <= 1440)%Z -> ts_per_day ts = Ok tpd -> (0 < tpd)%nat.
Proof.
  intros L H. unfold ts_per_day in H. destruct (Z.eqb_spec ts 0); [discriminate|]. apply Ok_inj in H. subst tpd.
  rewrite Z.quot_div_nonneg by lia. assert (1 <= 1440 / ts)%Z by (apply Z.div_le_lower_bound; lia). lia.
Qed.

Lemma disaggregate_gap span df prm tiny tb te out : (0 < p_time_step prm <= 1440)%Z -> (List.length (dl_doy df) < span)%nat ->
  disaggregate_over span df prm tiny tb te <> Ok out.
Proof.
  intros L Sp H. unfold disaggregate_over in H. cbv zeta in H.
  apply bind_inv in H as (tpd & T & H). apply bind_inv in H as (sw & C & H). apply bind_inv in H as (dl & D & H). apply bind_inv in H as (sw' & S & H).
  destruct (Nat.eqb_spec (List.length sw') (span * tpd)) as [E|]; [|discriminate H]. clear H.
  assert (Doy : forall b : bool, dl_doy (if b then set_col df "daylength" (repeat (Some 86400.0%R) (List.length (dl_doy df))) else df) = dl_doy df) by (intros []; reflexivity).
  rewrite Doy in S. pose proof (shortwave_short _ _ _ _ _ _ S) as Le.
  destruct (shortwave_lengths _ _ _ _ _ _ S) as (_ & tpd' & T' & Lo). pose proof (steps_positive _ _ L T) as P.
  change (p_time_step (set_lon prm (remainder360 (p_lon prm)))) with (p_time_step prm) in T, T'.
  assert (tpd' = tpd) by (apply Ok_inj; congruence). subst tpd'. unfold fl in *. rewrite E in Lo. nia.
Qed.

(** what succeeds when there are as many days as rows is a ValueError
    otherwise *)
Lemma disaggregate_other span df prm tiny tb te out : (0 < p_time_step prm <= 1440)%Z -> List.length (dl_doy df) <> span ->
  disaggregate df prm tiny tb te = Ok out -> disaggregate_over span df prm tiny tb te = Err ValueError.
Proof.
  intros L Sp H. unfold disaggregate, disaggregate_over in *. cbv zeta in *.
  apply bind_inv in H as (tpd & T & H). rewrite T. cbn [bind]. apply bind_inv in H as (sw & C & H). rewrite C. cbn [bind].
  apply bind_inv in H as (dl & D & H). rewrite D. cbn [bind]. apply bind_inv in H as (sw' & S & H). rewrite S. cbn [bind].
  destruct (Nat.eqb_spec (List.length sw') (List.length (dl_doy df) * tpd)) as [E|]; [|discriminate H]. clear H.
  pose proof (steps_positive _ _ L T) as P. destruct (Nat.eqb_spec (List.length sw') (span * tpd)) as [E'|]; [|reflexivity].
  exfalso. unfold fl in *. nia.
Qed.

(** ** one cell *)
Theorem cell_gap span fuel prm c out prm' : (0 < p_time_step prm)%Z -> (List.length (dl_doy (cd_daily c)) < span)%nat ->
  run_cell_over span fuel prm c <> Some (Ok out, prm').
Proof.
  intros L Sp H. unfold run_cell_over, run_cell_by in H. cbv zeta in H. destruct (bind _ _) as [[sg df]|e] eqn:P; [|discriminate].
  apply bind_inv in P as (g0 & _ & P). apply bind_inv in P as (dl & _ & P). apply bind_inv in P as (po & _ & P).
  apply bind_inv in P as (tt_ & _ & P). apply ok_inj in P. injection P as <- <-.
  destruct (run_method _ _ _) as [[df1|e]|] eqn:M; [|discriminate|discriminate].
  apply method_keeps in M as (D & _). change (dl_doy df1 = dl_doy (cd_daily c)) in D.
  change (p_time_step (set_location prm (cd_elev c) (cd_lat c) (cd_lon c))) with (p_time_step prm) in H.
  destruct (Z.ltb_spec (p_time_step prm) 1440) as [Lt|Ge].
  - injection H as H _. apply bind_inv in H as (a & _ & H). apply bind_inv in H as (b & _ & H). apply bind_inv in H as (tb & _ & H).
    apply disaggregate_gap in H; [exact H| |now rewrite D]. change (0 < p_time_step prm <= 1440)%Z. lia.
  - injection H as H _. apply bind_inv in H as (a & _ & H). apply bind_inv in H as (b & _ & H). apply bind_inv in H as (v & _ & H).
    rewrite D in H. destruct (Nat.eqb_spec span (List.length (dl_doy (cd_daily c)))); [lia|discriminate].
Qed.

Theorem cell_kind span fuel prm c out prm' : (0 < p_time_step prm)%Z -> List.length (dl_doy (cd_daily c)) <> span ->
  run_cell fuel prm c = Some (Ok out, prm') -> run_cell_over span fuel prm c = Some (Err ValueError, prm').
Proof.
  intros L Sp H. rewrite CellBody.run_cell_eq in H. unfold run_cell_over, run_cell_by. cbv zeta in *. destruct (bind _ _) as [[sg df]|e] eqn:P; [|discriminate].
  apply bind_inv in P as (g0 & _ & P). apply bind_inv in P as (dl & _ & P). apply bind_inv in P as (po & _ & P).
  apply bind_inv in P as (tt_ & _ & P). apply ok_inj in P. injection P as <- <-.
  destruct (run_method _ _ _) as [[df1|e]|] eqn:M; [|discriminate|discriminate].
  apply method_keeps in M as (D & _). change (dl_doy df1 = dl_doy (cd_daily c)) in D.
  change (p_time_step (set_location prm (cd_elev c) (cd_lat c) (cd_lon c))) with (p_time_step prm) in *.
  destruct (Z.ltb_spec (p_time_step prm) 1440) as [Lt|Ge].
  - injection H as H <-. apply bind_inv in H as (a & A & H). apply bind_inv in H as (b & B & H). apply bind_inv in H as (tb & T & H).
    rewrite A, B. cbn [bind finite] in T |- *. rewrite T. cbn [bind].
    assert (Lt' : (0 < p_time_step (set_location prm (cd_elev c) (cd_lat c) (cd_lon c)) <= 1440)%Z) by (change (0 < p_time_step prm <= 1440)%Z; lia).
    assert (Ne : List.length (dl_doy df1) <> span) by now rewrite D.
    rewrite (disaggregate_other span _ _ _ _ _ _ Lt' Ne H). reflexivity.
  - injection H as H <-. apply bind_inv in H as (a & A & H). apply bind_inv in H as (b & B & H). apply bind_inv in H as (v & V & H).
    rewrite A, B. cbn [bind]. rewrite V. cbn [bind]. rewrite D. destruct (Nat.eqb_spec span (List.length (dl_doy (cd_daily c)))); [congruence|reflexivity].
Qed.

(** ** the worker *)
Lemma run_cell_by_step span fuel prm c r prm' : run_cell_by span fuel prm c = Some (r, prm') -> p_time_step prm' = p_time_step prm.
Proof.
  unfold run_cell_by. cbv zeta. destruct (bind _ _) as [[sg df]|e]; [|intros H; injection H as _ <-; reflexivity].
  destruct (run_method _ _ _) as [[df1|e]|]; [|intros H; injection H as _ <-; reflexivity|discriminate].
  destruct (_ <? _)%Z; intros H; injection H as _ <-; reflexivity.
Qed.

Lemma run_cells_active ts one ov mask data cells c : In c cells -> active (mask c) ->
  (forall q x r q', one q x = Some (r, q') -> p_time_step q' = p_time_step q) ->
  (forall q, p_time_step q = ts -> forall out q', one q (data c) <> Some (Ok out, q')) ->
  forall prm out out' prm', p_time_step prm = ts -> run_cells_by one ov mask data cells prm out <> Some (Ok out', prm').
Proof.
  intros I A K N. induction cells as [|x cells IH]; [destruct I|]. intros prm out out' prm' T H. cbn [run_cells_by] in H.
  destruct I as [->|I].
  - rewrite (proj2 (active_fgt _) A) in H. destruct (one prm (data c)) as [[[df|e] p]|] eqn:O; try discriminate. exact (N prm T _ _ O).
  - destruct (fgt _ _); [|exact (IH I _ _ _ _ T H)]. destruct (one prm (data x)) as [[[df|e] p]|] eqn:O; try discriminate.
    destruct (convert_outputs _ _ _); [|discriminate]. apply K in O. apply (IH I _ _ _ _ (eq_trans O T) H).
Qed.

Theorem worker_gap fuel prm w d out i c r : (0 < p_time_step prm)%Z -> increasing (wk_days w) -> missing_date (wk_days w) d ->
  nth_error (indices (wk_shape w)) i = Some c -> nth_error (wk_cells w) i = Some r -> active (wk_mask w c) ->
  run_worker fuel prm w <> Some (Ok out).
Proof.
  intros L S G C Rr A H. pose proof (gap_span _ _ S G) as Sp. unfold run_worker in H. cbv zeta in H.
  destruct (bind _ _) as [data|e] eqn:P; [|discriminate].
  destruct (run_slice_by _ _ _ _ _ _) as [[r' prm']|] eqn:Rs; [|discriminate]. injection H as ->. revert Rs.
  apply (run_cells_active (p_time_step prm)) with (c := c); [exact (nth_error_In _ _ C)|exact A|intros q x r0 q'; apply run_cell_by_step| |reflexivity].
  intros q Q o q'. apply cell_gap; [lia|].
  apply bind_inv in P as (data0 & Ld & P). apply bind_inv in P as (u & _ & P).
  unfold load_slice in Ld. apply bind_inv in Ld as (u1 & _ & Ld). apply bind_inv in Ld as (u2 & _ & Ld). apply mapM_inv in Ld, P.
  destruct (Forall2_nth _ _ _ Ld _ _ Rr) as (c0 & N0 & P0).
  assert (Cm : nth_error (combine (wk_cells w) data0) i = Some (r, c0)).
  { clear - Rr N0. revert i Rr data0 N0. generalize (wk_cells w) as l. induction l as [|x l IH]; intros [|i] X [|y m] Y; try discriminate; cbn in *; [congruence|auto]. }
  destruct (Forall2_nth _ _ _ P _ _ Cm) as (cd & N1 & P1). cbn [fst snd] in P1.
  rewrite (nth_cell_at _ _ _ _ _ _ (indices_nodup _) C N1), (loaded_rows _ _ _ _ _ _ _ P0 P1), map_length. exact Sp.
Qed.

(** ** example: the second of three days is missing *)
Definition gap_worker : worker_in :=
  mk_worker_in 0 2 [0; 2]%Z (wk_shape equator_worker) (wk_cells equator_worker) (wk_mask equator_worker) (wk_setup equator_worker) (wk_out_vars equator_worker).

Lemma gap_case : increasing (wk_days gap_worker) /\ missing_date (wk_days gap_worker) 1 /\
  nth_error (indices (wk_shape gap_worker)) 0 = Some [0; 0]%nat /\ nth_error (wk_cells gap_worker) 0 = Some equator_raw /\ active (wk_mask gap_worker [0; 0]%nat).
Proof.
  split; [repeat constructor|]. split; [|split; [reflexivity|split; [reflexivity|exists 1%R; split; [reflexivity|lra]]]].
  split; [cbn; lia|]. split; [exists 0%Z|exists 2%Z]; cbn; lia.
Qed.

Lemma gap_cell : exists N, forall fuel, (fuel >= N)%nat -> exists prm',
  run_cell_over 3 fuel (demo_method "mtclim" 60) equator_cell = Some (Err ValueError, prm').
Proof.
  destruct (equator_mtclim 60 PrecExamples.legal_60) as [N H]. exists N. intros fuel F. destruct (H fuel F) as (out & prm' & R). exists prm'.
  apply (cell_kind 3 fuel (demo_method "mtclim" 60) equator_cell out prm'); [reflexivity|discriminate|exact R].
Qed.
