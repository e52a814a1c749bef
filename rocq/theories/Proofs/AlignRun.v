(** From the input files to the output files: C100. *)
From Coq Require Import ZArith Reals String List Bool Arith Lia.
From Verif Require Import Model.Py Model.Fl Model.Np Model.Params Model.Disagg Model.Mtclim Model.Units Model.Reader Model.State Model.Output Model.Validate Model.Cell Model.Machine Model.Run Model.Worker Model.Align
  Spec.TimeSpec Spec.SeriesSpec Spec.GridSpec Spec.WriterSpec Spec.StateSpec Spec.FrameSpec Spec.CellSpec Spec.WorkerSpec Spec.AlignSpec
  Proofs.Base Proofs.SliceProofs Proofs.HeaderProofs Proofs.SettingsProofs Proofs.GlobalsProofs Proofs.CellProofs Proofs.LoadProofs Proofs.WorkerTotal Proofs.EndToEnd Proofs.AlignProofs Proofs.CellBody Proofs.SpanProofs.
Import ListNotations.
Local Open Scope string_scope.
Local Open Scope list_scope.

(** ** columns of one length *)
Definition even (n : nat) (df : daily) : Prop := forall k v, dict_get (dl_cols df) k = Some v -> List.length v = n.

Lemma even_set n df k v : even n df -> List.length v = n -> even n (set_col df k v).
Proof.
  intros E L k' v' G. rewrite get_set_col in G. destruct (k' =? k); [|eauto]. unfold fl in *. congruence.
Qed.

Lemma even_col n df k v : even n df -> col df k = Ok v -> List.length v = n.
Proof. intros E H. apply (E k). now apply getitem_get. Qed.

Lemma len_map2 {A B C} (f : A -> B -> C) a b n : List.length a = n -> List.length b = n -> List.length (map2 f a b) = n.
Proof. intros. unfold map2. rewrite map_length, combine_length. lia. Qed.
Lemma len_map3 {A B C D} (f : A -> B -> C -> D) a b c n :
  List.length a = n -> List.length b = n -> List.length c = n -> List.length (map3 f a b c) = n.
Proof. intros. unfold map3. apply len_map2; auto. now apply len_map2. Qed.
Lemma len_map {A B} (f : A -> B) a n : List.length a = n -> List.length (map f a) = n.
Proof. now rewrite map_length. Qed.

Lemma len_days n tmin tfm ttm pot tday dayl sp dtr :
  List.length tmin = n -> List.length tfm = n -> List.length ttm = n -> List.length pot = n -> List.length tday = n ->
  List.length dayl = n -> List.length sp = n -> List.length dtr = n -> List.length (mk_days tmin tfm ttm pot tday dayl sp dtr) = n.
Proof.
  revert tmin tfm ttm pot tday dayl sp dtr. induction n as [|n IH]; intros tmin tfm ttm pot tday dayl sp dtr.
  - destruct tmin; [reflexivity|discriminate].
  - destruct tmin; [discriminate|]. destruct tfm; [discriminate|]. destruct ttm; [discriminate|]. destruct pot; [discriminate|].
    destruct tday; [discriminate|]. destruct dayl; [discriminate|]. destruct sp; [discriminate|]. destruct dtr; [discriminate|].
    cbn. intros. f_equal. apply IH; lia.
Qed.

Lemma len_loop prm days n : List.length days = n -> forall fuel a b td, List.length a = n -> List.length b = n ->
  tdew_loop fuel prm days a b = Some td -> List.length td = n.
Proof.
  intros Ld. induction fuel as [|fuel IH]; intros a b td La Lb H; cbn [tdew_loop] in H; destruct (fgt _ _); try discriminate.
  - now injection H as <-.
  - eapply IH; [exact Lb| |exact H]. now apply len_map2.
  - now injection H as <-.
Qed.

Ltac cols H := repeat (let x := fresh "x" in let E := fresh "E" in apply bind_inv in H as (x & E & H); cbv zeta in H).

Lemma even_mtclim n fuel df prm df' : even n df -> mtclim_run fuel df prm = Some (Ok df') -> even n df'.
Proof.
  intros Ev H. unfold mtclim_run in H.
  match type of H with match ?p with _ => _ end = _ => destruct p as [[[df1 (t_min & tfm & ttm & pot & tday & dayl)] days]|e] eqn:P end; [|discriminate].
  apply bind_inv in P as (a & Ha & P). apply bind_inv in P as (b & Hb & P). cbv zeta in P.
  pose proof (even_col _ _ _ _ Ev Ha) as La. pose proof (even_col _ _ _ _ Ev Hb) as Lb.
  set (df2 := set_col df "t_day" _) in P. assert (E2 : even n df2) by (apply even_set; [exact Ev|now apply len_map2]).
  apply bind_inv in P as (dtr & Hd & P). apply bind_inv in P as (sm & Hs & P). apply bind_inv in P as (pr & Hp & P).
  set (df3 := set_col df2 "tfmax" _) in P.
  assert (E3 : even n df3) by (apply even_set; [exact E2|apply len_map3; eapply even_col; eauto]).
  apply bind_inv in P as (tf & Hf & P). set (df4 := set_col df3 "tskc" _) in P.
  assert (E4 : even n df4) by (apply even_set; [exact E3|apply len_map; eapply even_col; [exact E3|exact Hf]]).
  apply bind_inv in P as (t1 & Ht & P). apply bind_inv in P as (p1 & Hpo & P). apply bind_inv in P as (d1 & Hdl & P).
  apply bind_inv in P as (s1 & Hsp & P). apply bind_inv in P as (td1 & Htd & P). apply ok_inj in P. injection P as <- <- <- <- <- <- <- <-.
  destruct (tdew_loop fuel prm _ a _) as [tdew|] eqn:Lo; [|discriminate]. injection H as <-.
  pose proof (even_col _ _ _ _ E3 Hf). pose proof (even_col _ _ _ _ E4 Ht). pose proof (even_col _ _ _ _ E4 Hpo).
  pose proof (even_col _ _ _ _ E4 Hdl). pose proof (even_col _ _ _ _ E4 Hsp). pose proof (even_col _ _ _ _ E4 Htd). pose proof (even_col _ _ _ _ E2 Hd).
  assert (Ldays : List.length (mk_days a tf t1 p1 td1 d1 s1 dtr) = n) by now apply len_days.
  assert (Ltd : List.length tdew = n). { eapply len_loop; [exact Ldays| | |exact Lo]; [exact La|now apply len_map2]. }
  assert (Lvp : List.length (map mt_vapor_pressure1 tdew) = n) by now apply len_map.
  assert (Lsw : List.length (map2 (fun f p => f p) (map3 mt_shortwave1 tf (map mt_vapor_pressure1 tdew) t1) p1) = n).
  { apply len_map2; [|assumption]. now apply len_map3. }
  repeat (apply even_set; [|assumption || now apply len_map3]). exact E4.
Qed.

Lemma even_add n name f df df' : even n df -> (forall v, f df = Ok v -> List.length v = n) -> add_missing name f df = Ok df' -> even n df'.
Proof.
  intros Ev Hf H. unfold add_missing in H. destruct (dict_mem _ _); [apply ok_inj in H; now subst|].
  apply bind_inv in H as (v & V & H). apply ok_inj in H. subst df'. apply even_set; auto.
Qed.

Lemma even_passthrough n df prm df' : even n df -> passthrough_run df prm = Ok df' -> even n df'.
Proof.
  intros Ev H. unfold passthrough_run in H. destruct (negb _); [discriminate|].
  apply bind_inv in H as (d1 & D1 & H). apply bind_inv in H as (d2 & D2 & H). apply bind_inv in H as (d3 & D3 & H).
  apply bind_inv in H as (d4 & D4 & H). apply bind_inv in H as (d5 & D5 & H).
  assert (E1 : even n d1). { eapply even_add; [exact Ev| |exact D1]. intros v V. cbn beta in V. cols V. apply ok_inj in V. subst v. apply len_map2; eapply even_col; eauto. }
  assert (E2 : even n d2). { eapply even_add; [exact E1| |exact D2]. intros v V. cbn beta in V. cols V. apply ok_inj in V. subst v. apply len_map3; eapply even_col; eauto. }
  assert (E3 : even n d3). { eapply even_add; [exact E2| |exact D3]. intros v V. cbn beta in V. cols V. apply ok_inj in V. subst v. apply len_map; eapply even_col; eauto. }
  assert (E4 : even n d4). { eapply even_add; [exact E3| |exact D4]. intros v V. cbn beta in V. cols V. apply ok_inj in V. subst v. apply len_map3; eapply even_col; eauto. }
  assert (E5 : even n d5). { eapply even_add; [exact E4| |exact D5]. intros v V. cbn beta in V. cols V. apply ok_inj in V. subst v.
    apply len_map2; [apply len_map3|]; eapply even_col; eauto. }
  eapply even_add; [exact E5| |exact H]. intros v V. cbn beta in V. cols V. apply ok_inj in V. subst v. apply len_map; eapply even_col; eauto.
Qed.

Lemma by_yday_len table doy v : by_yday table doy = Ok v -> List.length v = List.length doy.
Proof. intros H. apply mapM_inv in H. symmetry. exact (Forall2_len _ _ _ H). Qed.

(** the values of a daily run: one per day *)
Lemma daily_length fuel prm c df prm' n : (1440 <= p_time_step prm)%Z -> even n (cd_daily c) -> List.length (dl_doy (cd_daily c)) = n ->
  run_cell fuel prm c = Some (Ok df, prm') -> forall name v, dict_get df name = Some v -> List.length v = n.
Proof.
  intros Lt Ev Ld H name v V. rewrite run_cell_eq in H. cbv zeta in H.
  replace (p_time_step (set_location prm (cd_elev c) (cd_lat c) (cd_lon c)) <? 1440)%Z with false in H
    by (symmetry; apply Z.ltb_ge; exact Lt).
  match type of H with match ?p with _ => _ end = _ => destruct p as [[sg df0]|e] eqn:P end; [|discriminate].
  apply bind_inv in P as (g & G & P). cbv zeta in P. apply bind_inv in P as (dl & Hdl & P). apply bind_inv in P as (po & Hpo & P).
  apply bind_inv in P as (tt_ & Htt & P). apply ok_inj in P. injection P as <- <-.
  set (df0 := set_col _ _ _) in *.
  assert (E0 : even n df0).
  { repeat apply even_set; [exact Ev| | |]; rewrite <- Ld; eapply by_yday_len; eauto. }
  destruct (run_method fuel df0 _) as [[df1|e]|] eqn:M; try discriminate.
  assert (E1 : even n df1).
  { unfold run_method in M. destruct (_ =? "mtclim"); [eapply even_mtclim; eauto|]. destruct (_ =? "passthrough"); [|discriminate].
    eapply even_passthrough; [exact E0|]. injection M as M. exact M. }
  injection H as H _. apply bind_inv in H as (sw & Hs & H). apply bind_inv in H as (dl' & Hd & H). apply bind_inv in H as (sw' & Hz & H).
  apply ok_inj in H. subst df. eapply even_set; [exact E1| |exact V].
  unfold zipw in Hz. destruct (_ =? _)%nat; [|discriminate]. apply ok_inj in Hz. subst sw'. apply len_map2; eapply even_col; eauto.
Qed.

Lemma loaded_even prm start n r c : (forall k v, raw_col r k = Ok v -> List.length v = n) -> raw_shaped n r ->
  loaded prm start n r c -> List.length (dl_doy (cd_daily c)) = n /\ even n (cd_daily c).
Proof.
  intros Ev (p & a & b & Hp & Ha & Hb & _) L.
  assert (Ln : List.length (dl_doy (cd_daily c)) = n). { rewrite (ld_days _ _ _ _ _ L). unfold dates_from. now rewrite !map_length, seq_length. }
  split; [exact Ln|]. intros k v V. destruct (in_dec string_dec k (added_columns prm)) as [I|I].
  - assert (Hc : forall v', has_col (cd_daily c) k v' -> List.length v = n).
    { intros v' (A & B). assert (v = v') by (unfold fl in *; congruence). subst v'. unfold fl in *. lia. }
    unfold added_columns in I. apply in_app_or in I as [I|I].
    + destruct I as [<-|[<-|[<-|[]]]].
      * destruct (ld_seasonal _ _ _ _ _ L _ Hp) as (v' & A & _). eauto.
      * destruct (ld_dtr _ _ _ _ _ L _ _ Ha Hb) as (v' & A & _). eauto.
      * destruct (ld_smoothed _ _ _ _ _ L _ _ Ha Hb) as (v' & A & _). eauto.
    + destruct (str_in _ _) eqn:T; [|destruct I]. apply str_in_iff in T.
      destruct I as [<-|[<-|[]]].
      * destruct (ld_month _ _ _ _ _ L T "dur" (rc_dur r)) as (v' & A & _); [now left|eauto].
      * destruct (ld_month _ _ _ _ _ L T "t_pk" (rc_tpk r)) as (v' & A & _); [right; now left|eauto].
  - rewrite (ld_forcing _ _ _ _ _ L k I) in V. apply (Ev k). now apply getitem_get.
Qed.

(** ** the cells of all workers *)
Lemma own_fun inp c r r' : own_inputs inp c r -> own_inputs inp c r' -> r = r'.
Proof.
  intros A B. destruct (oi_place _ _ _ A) as (A1 & A2 & A3). destruct (oi_place _ _ _ B) as (B1 & B2 & B3).
  destruct (oi_months _ _ _ A) as (A4 & A5). destruct (oi_months _ _ _ B) as (B4 & B5).
  pose proof (holds_fun _ _ _ _ _ (oi_forcing _ _ _ A) (oi_forcing _ _ _ B)) as F.
  pose proof (holds_fun _ _ _ _ _ (oi_state _ _ _ A) (oi_state _ _ _ B)) as S.
  destruct r, r'. cbn in *. injection S as -> -> ->. congruence.
Qed.

Definition entries (inp : grid_inputs) (ds : dict pyslice) : list (cell * raw_cell) :=
  match slice_worker inp ds with
  | Ok w => combine (map (globalize (axes_ranges (gi_axes inp) ds)) (indices (wk_shape w))) (wk_cells w)
  | Err _ => []
  end.

Definition prepared (prm : params) (inp : grid_inputs) (r : raw_cell) : cell_data :=
  match load_cell (gi_start inp) (gi_stop inp) (gi_days inp) r with
  | Ok c0 => match monthly_cell prm (gi_days inp) r c0 with Ok c => c | Err _ => no_cell end
  | Err _ => no_cell
  end.

Definition table_data (prm : params) (inp : grid_inputs) (ss : list (dict pyslice)) (c : cell) : cell_data :=
  match find (fun p => cell_eqb c (fst p)) (concat (map (entries inp) ss)) with
  | Some p => prepared prm inp (snd p) | None => no_cell end.

Lemma nth_combine {A B} (l : list A) : forall (l' : list B) i a b, nth_error l i = Some a -> nth_error l' i = Some b -> nth_error (combine l l') i = Some (a, b).
Proof. induction l as [|x l IH]; intros [|y l'] [|i] a b H H'; try discriminate; cbn in *; [congruence|auto]. Qed.
Lemma combine_nth_inv {A B} (l : list A) : forall (l' : list B) i p, nth_error (combine l l') i = Some p -> nth_error l i = Some (fst p) /\ nth_error l' i = Some (snd p).
Proof. induction l as [|x l IH]; intros [|y l'] [|i] p H; try discriminate; cbn in *; [injection H as <-; auto|auto]. Qed.

Lemma entries_own inp ds c r : good_files inp -> In (c, r) (entries inp ds) -> own_inputs inp c r /\ on_grid (gi_axes inp) c.
Proof.
  intros G I. unfold entries in I. destruct (slice_worker inp ds) as [w|] eqn:W; [|destruct I].
  apply In_nth_error in I as (i & I). apply combine_nth_inv in I as (A & B). cbn [fst snd] in *. rewrite nth_error_map in A.
  destruct (nth_error (indices (wk_shape w)) i) as [l|] eqn:L; [|discriminate]. injection A as <-.
  destruct (worker_inputs _ _ _ G W) as (_ & X). destruct (X i l r L B) as (X1 & _ & X3). auto.
Qed.

Lemma table_at prm inp ss ds w i l r : good_files inp -> In ds ss -> slice_worker inp ds = Ok w ->
  nth_error (indices (wk_shape w)) i = Some l -> nth_error (wk_cells w) i = Some r ->
  table_data prm inp ss (globalize (axes_ranges (gi_axes inp) ds) l) = prepared prm inp r.
Proof.
  intros G Is W L C. set (c := globalize _ l). unfold table_data.
  assert (I : In (c, r) (concat (map (entries inp) ss))).
  { apply in_concat. exists (entries inp ds). split; [now apply in_map|]. unfold entries. rewrite W.
    apply nth_error_In with i. apply nth_combine; [|exact C]. now rewrite nth_error_map, L. }
  assert (O : own_inputs inp c r).
  { destruct (worker_inputs _ _ _ G W) as (_ & X). destruct (X i l r L C) as (_ & _ & X3). exact X3. }
  destruct (find _ _) as [[c' r']|] eqn:F.
  - apply find_some in F as (F1 & F2). cbn [fst snd] in *. apply cell_eqb_eq in F2. subst c'. f_equal.
    apply in_concat in F1 as (es & E1 & E2). apply in_map_iff in E1 as (ds' & <- & _). apply entries_own in E2 as (E2 & _); [|exact G].
    eapply own_fun; eauto.
  - exfalso. pose proof (find_none _ _ F _ I) as N. cbn [fst] in N. rewrite (proj2 (cell_eqb_eq c c) eq_refl) in N. discriminate.
Qed.

(** ** [run_cells] only looks at the cells it visits *)
Lemma run_cells_ext fuel ov mask data data' : forall cells prm out, (forall c, In c cells -> data c = data' c) ->
  run_cells fuel ov mask data cells prm out = run_cells fuel ov mask data' cells prm out.
Proof.
  induction cells as [|c cells IH]; intros prm out H; [reflexivity|]. unfold run_cells; cbn [run_cells_by]; fold (run_cells fuel). rewrite (H c (or_introl eq_refl)).
  assert (T : forall x, In x cells -> data x = data' x) by (intros x X; apply H; now right).
  destruct (fgt _ _); [|now apply IH]. destruct (run_cell _ _ _) as [[[df|e] prm']|]; [|reflexivity|reflexivity].
  destruct (convert_outputs _ _ _); [|reflexivity]. now apply IH.
Qed.

Lemma worker_data fuel prm w out : date_span (wk_days w) = List.length (wk_days w) -> run_worker fuel prm w = Some (Ok out) ->
  exists data prm', Forall2 (fun r d => exists c0, load_cell (wk_start w) (wk_stop w) (wk_days w) r = Ok c0 /\ monthly_cell prm (wk_days w) r c0 = Ok d) (wk_cells w) data /\
    run_slice fuel (wk_out_vars w) (wk_shape w) (wk_mask w) (nth_cell (indices (wk_shape w)) data no_cell) prm = Some (Ok out, prm').
Proof.
  intros Sp H. rewrite (run_worker_dates _ _ _ Sp) in H. cbv zeta in H.
  destruct (load_slice _ _ _ _) as [data0|] eqn:Ld; cbn [bind] in H; [|discriminate].
  destruct (validate_setup (wk_setup w)); cbn [bind] in H; [|discriminate].
  match type of H with match ?p with _ => _ end = _ => destruct p as [data|] eqn:Mo end; [|discriminate].
  destruct (run_slice _ _ _ _ _ _) as [[res prm']|] eqn:Rs; [|discriminate]. injection H as ->. exists data, prm'. split; [|exact Rs].
  unfold load_slice in Ld. apply bind_inv in Ld as (u1 & _ & Ld). apply bind_inv in Ld as (u2 & _ & Ld).
  apply mapM_inv in Ld. apply mapM_inv in Mo. clear - Ld Mo. revert data Mo.
  induction Ld as [|r c0 cs ds P Q IH]; intros data Mo; cbn [combine] in Mo.
  - inversion Mo. constructor.
  - inversion Mo as [|x y l l' M1 M2]. subst. constructor; [|now apply IH]. cbn [fst snd] in M1. eauto.
Qed.

Definition files_run (prm : params) (inp : grid_inputs) (data : cell -> cell_data) axis groups : run_input :=
  mk_run_input (axes_dims (gi_axes inp)) (gi_mask inp) data prm (gi_out_vars inp) axis groups.

Lemma worker_as_run fuel prm inp ss ds out axis groups : good_files inp -> date_span (gi_days inp) = List.length (gi_days inp) -> In ds ss ->
  file_worker fuel prm inp ds = Some (Ok out) ->
  exists prm', worker_run fuel (files_run prm inp (table_data prm inp ss) axis groups) prm ds = Some (Ok out, prm').
Proof.
  intros G Sp I H. unfold file_worker in H. destruct (slice_worker inp ds) as [w|] eqn:W; [|discriminate].
  pose proof W as W'. unfold slice_worker, worker_with in W'. apply bind_inv in W' as (met & _ & W'). apply bind_inv in W' as (state & _ & W').
  apply bind_inv in W' as (cells & M & W'). apply ok_inj in W'.
  assert (Sp' : date_span (wk_days w) = List.length (wk_days w)) by (rewrite <- W'; exact Sp).
  destruct (worker_data _ _ _ _ Sp' H) as (data & prm' & D & Rs). exists prm'.
  unfold worker_run. cbn [files_run ri_dims ri_out_vars ri_mask ri_data]. fold (axes_ranges (gi_axes inp) ds).
  rewrite <- W' in Rs. cbn [wk_out_vars wk_shape wk_mask] in Rs. unfold run_slice in *. rewrite <- Rs. apply run_cells_ext. intros l Il.
  apply In_nth_error in Il as (i & L). apply mapM_inv in M. pose proof (Forall2_len _ _ _ M) as Lc. pose proof (Forall2_len _ _ _ D) as Ld.
  rewrite <- W' in Ld. cbn [wk_cells] in Ld.
  assert (Hi : (i < List.length (indices (map (@List.length nat) (axes_ranges (gi_axes inp) ds))))%nat) by (apply nth_error_Some; congruence).
  destruct (nth_error cells i) as [r|] eqn:Cr; [|apply nth_error_None in Cr; lia].
  destruct (nth_error data i) as [d|] eqn:Cd; [|apply nth_error_None in Cd; lia].
  rewrite (nth_cell_at _ _ _ i l d (indices_nodup _) L Cd).
  rewrite (table_at prm inp ss ds w i l r G I W); [| |].
  - assert (Cr' : nth_error (wk_cells w) i = Some r) by (now rewrite <- W').
    destruct (forall2_at _ _ _ _ _ _ D Cr' Cd) as (c0 & L1 & L2). unfold prepared. rewrite <- W' in L1, L2. cbn [wk_start wk_stop wk_days] in L1, L2. now rewrite L1, L2.
  - rewrite <- W'. exact L.
  - rewrite <- W'. exact Cr.
Qed.

Lemma forall2_In {A B} (P Q : A -> B -> Prop) l l' : Forall2 P l l' -> (forall a b, In a l -> P a b -> Q a b) -> Forall2 Q l l'.
Proof.
  induction 1 as [|a b l l' H H' IH]; intros K; constructor; [apply K; [now left|exact H]|]. apply IH. intros x y I. apply K. now right.
Qed.

Lemma workers_as_runs fuel prm inp ss outs axis groups : good_files inp -> date_span (gi_days inp) = List.length (gi_days inp) ->
  Forall2 (fun ds out => file_worker fuel prm inp ds = Some (Ok out)) ss outs ->
  workers_ok fuel (files_run prm inp (table_data prm inp ss) axis groups) ss outs.
Proof.
  intros G Sp W. unfold workers_ok. eapply forall2_In; [exact W|]. intros ds out I H.
  destruct (worker_as_run fuel prm inp ss ds out axis groups G Sp I H) as (prm' & X). exists prm, prm'. split; [reflexivity|exact X].
Qed.

(** every cell of the grid is one of a worker *)
Lemma in_grid_on axes c : cell_in_grid (axes_dims axes) c <-> on_grid axes c.
Proof.
  unfold cell_in_grid, on_grid, axes_dims. revert c. induction axes as [|a axes IH]; intros c; cbn [map].
  - split; intros H; inversion H; constructor.
  - split; intros H; inversion H; subst; constructor; cbn [fst snd] in *; auto; now apply IH.
Qed.

Lemma axes_positive inp : good_files inp -> positive_sizes (axes_dims (gi_axes inp)).
Proof.
  intros G d n I. apply in_map_iff in I as ([k l] & E & I). injection E as <- <-. cbn [snd]. pose proof (gf_sizes _ G k l I). destruct l; [congruence|cbn; lia].
Qed.
Lemma axes_names inp : good_files inp -> NoDup (keys (axes_dims (gi_axes inp))).
Proof.
  intros G. unfold keys, axes_dims. rewrite map_map. cbn [fst]. apply G.
Qed.

Lemma cell_entry fuel prm inp chunks ss outs c : good_files inp -> date_span (gi_days inp) = List.length (gi_days inp) -> (chunks = [] \/ covers chunks (axes_dims (gi_axes inp))) ->
  slices chunks (axes_dims (gi_axes inp)) = Ok ss ->
  Forall2 (fun ds out => file_worker fuel prm inp ds = Some (Ok out)) ss outs -> on_grid (gi_axes inp) c ->
  exists r c0 cd, own_inputs inp c r /\ load_cell (gi_start inp) (gi_stop inp) (gi_days inp) r = Ok c0 /\ monthly_cell prm (gi_days inp) r c0 = Ok cd /\
    table_data prm inp ss c = cd.
Proof.
  intros G Sp Cv E W On.
  destruct (slice_of_cell chunks _ ss Cv (axes_positive _ G) (axes_names _ G) E c (proj2 (in_grid_on _ _) On)) as (k & Hk & I & _).
  destruct (globalize_onto _ _ I) as (l & Hl & Eg). set (ds := nth k ss []) in *.
  assert (Ids : In ds ss) by now apply nth_In.
  assert (H : exists out, file_worker fuel prm inp ds = Some (Ok out)).
  { clearbody ds. clear - W Ids. induction W as [|a b l l' P Q IH]; [destruct Ids|]. destruct Ids as [<-|Ids]; [eauto|auto]. }
  destruct H as (out & H). unfold file_worker in H. destruct (slice_worker inp ds) as [w|] eqn:Wk; [|discriminate].
  pose proof Wk as W'. unfold slice_worker, worker_with in W'. apply bind_inv in W' as (met & _ & W'). apply bind_inv in W' as (state & _ & W').
  apply bind_inv in W' as (cells & M & W'). apply ok_inj in W'. apply mapM_inv in M. pose proof (Forall2_len _ _ _ M) as Lc.
  assert (Sp' : date_span (wk_days w) = List.length (wk_days w)) by (rewrite <- W'; exact Sp).
  destruct (worker_data _ _ _ _ Sp' H) as (data & prm' & D & _). pose proof (Forall2_len _ _ _ D) as Ld.
  assert (Sh : wk_shape w = map (@List.length nat) (axes_ranges (gi_axes inp) ds)) by now rewrite <- W'.
  assert (Cs : wk_cells w = cells) by now rewrite <- W'.
  apply In_nth_error in Hl as (i & L). fold (axes_ranges (gi_axes inp) ds) in L, Eg. rewrite <- Sh in L.
  assert (Hi : (i < List.length (indices (wk_shape w)))%nat) by (apply nth_error_Some; congruence).
  destruct (nth_error (wk_cells w) i) as [r|] eqn:Cr; [|apply nth_error_None in Cr; rewrite Cs in Cr; rewrite Sh in Hi; lia].
  destruct (nth_error data i) as [d|] eqn:Cd; [|apply nth_error_None in Cd; rewrite Cs in Ld; rewrite Sh in Hi; lia].
  destruct (forall2_at _ _ _ _ _ _ D Cr Cd) as (c0 & L1 & L2).
  assert (St : wk_start w = gi_start inp /\ wk_stop w = gi_stop inp /\ wk_days w = gi_days inp) by (rewrite <- W'; auto).
  destruct St as (S1 & S2 & S3). rewrite S1, S2, S3 in L1. rewrite S3 in L2.
  exists r, c0, d. split.
  - destruct (worker_inputs _ _ _ G Wk) as (_ & X). destruct (X i l r L Cr) as (_ & _ & O). now rewrite Eg in O.
  - split; [exact L1|]. split; [exact L2|]. rewrite <- Eg. rewrite (table_at prm inp ss ds w i l r G Ids Wk L Cr). unfold prepared. now rewrite L1, L2.
Qed.

Local Open Scope Z_scope.
Theorem files_to_files fuel prm inp chunks ss outs n freq pe axis groups pr pf :
  good_files inp -> (chunks = [] \/ covers chunks (axes_dims (gi_axes inp))) -> slices chunks (axes_dims (gi_axes inp)) = Ok ss ->
  Forall2 (fun ds out => file_worker fuel prm inp ds = Some (Ok out)) ss outs ->
  (1 <= n)%nat -> gi_days inp = dates_from (gi_start inp) n -> gi_stop inp = gi_start inp + Z.of_nat n - 1 ->
  (forall c r, on_grid (gi_axes inp) c -> own_inputs inp c r -> raw_shaped n r /\ forall k v, raw_col r k = Ok v -> List.length v = n) ->
  NoDup (keys (gi_out_vars inp)) ->
  let ts := p_time_step prm in let st := 1440 * gi_start inp in
  legal_time_step ts -> match freq with Some bin => monotone_bins bin | None => True end ->
  output_axis st (st + (Z.of_nat n - 1) * 1440) ts pe = Ok axis ->
  get_output_times freq st (st + (Z.of_nat n - 1) * 1440) ts pe = Ok groups ->
  let S := run_system (mk_run_input (axes_dims (gi_axes inp)) (gi_mask inp) (fun _ => no_cell) prm (gi_out_vars inp) axis groups) ss outs pr pf in
  forall old m s, exec S m (start S old) s -> finished S s ->
  forall f g v name unit c, nth_error groups f = Some g -> nth_error (gi_out_vars inp) v = Some (name, unit) -> on_grid (gi_axes inp) c ->
  exists x, disk s f v c = Some x /\ List.length x = List.length g /\
    forall k t, nth_error g k = Some t -> exists i, t = st + (Z.of_nat i + (if pe then 1 else 0)) * ts /\
      (active (gi_mask inp c) -> exists r cd df prm' conv col y, own_inputs inp c r /\ loaded prm (gi_start inp) n r cd /\
         run_cell fuel prm cd = Some (Ok df, prm') /\
         converter_for name unit = Ok conv /\ dict_get df name = Some col /\ nth_error col i = Some y /\ nth_error x k = Some (conv y ts)) /\
      (~ active (gi_mask inp c) -> nth_error x k = Some None).
Proof.
  intros G Cv E W Hn Hd Hs Sh NV ts st L Mb Ax Gr S old m s X Fin f g v name unit c Hg Hv On.
  assert (Sp : date_span (gi_days inp) = List.length (gi_days inp)) by (rewrite Hd, span_dates; unfold dates_from; now rewrite map_length, seq_length).
  assert (Cell : forall c', on_grid (gi_axes inp) c' -> exists r, own_inputs inp c' r /\ loaded prm (gi_start inp) n r (table_data prm inp ss c') /\
     List.length (dl_doy (cd_daily (table_data prm inp ss c'))) = n /\ even n (cd_daily (table_data prm inp ss c'))).
  { intros c' On'. destruct (cell_entry fuel prm inp chunks ss outs c' G Sp Cv E W On') as (r & c0 & cd & O & L1 & L2 & Q).
    destruct (Sh c' r On' O) as (Sr & Ev). rewrite Hd, Hs in L1. rewrite Hd in L2. pose proof (cell_loaded prm _ _ _ _ _ Sr L1 L2) as Lo.
    exists r. rewrite Q. split; [exact O|]. split; [exact Lo|]. now apply (loaded_even prm (gi_start inp) n r). }
  set (inp' := files_run prm inp (table_data prm inp ss) axis groups).
  destruct (files_hold_values fuel inp' chunks ss outs freq st n pe pr pf) with (old := old) (m := m) (s := s) (f := f) (g := g) (v := v) (name := name) (unit := unit) (c := c)
    as (x & D & Lx & V); try assumption.
  - exact (axes_positive _ G).
  - exact (axes_names _ G).
  - now apply workers_as_runs.
  - destruct (Z.lt_ge_cases ts 1440) as [Lt|Ge]; [left; exact Lt|right]. intros c' df prm' nm col Gc Rc Dc.
    apply in_grid_on in Gc. destruct (Cell c' Gc) as (r & _ & _ & Ld & Ev). exact (daily_length fuel prm _ df prm' n Ge Ev Ld Rc nm col Dc).
  - intros c' Gc. apply in_grid_on in Gc. destruct (Cell c' Gc) as (r & _ & _ & Ld & _). exact Ld.
  - now apply in_grid_on.
  - exists x. split; [exact D|]. split; [exact Lx|]. intros k t K. destruct (V k t K) as (i & T & A & B). exists i. split; [exact T|]. split; [|exact B].
    intros Ac. destruct (A Ac) as (df & prm' & conv & col & y & Y1 & Y2 & Y3 & Y4 & Y5).
    destruct (Cell c On) as (r & O & Lo & _). exists r, (table_data prm inp ss c), df, prm', conv, col, y. auto 10.
Qed.

(** ** a run whose files cover the domain can be carried out *)
Theorem files_run_finishes prm inp chunks ss n :
  good_files inp -> labels_cover (nc_axes (gi_forcing inp)) (gi_axes inp) -> labels_cover (nc_axes (gi_state inp)) (gi_axes inp) ->
  (chunks = [] \/ covers chunks (axes_dims (gi_axes inp))) -> slices chunks (axes_dims (gi_axes inp)) = Ok ss ->
  0 < p_time_step prm -> (0 < p_tmax_frac prm <= 1)%R -> (0 < n)%nat ->
  gi_days inp = dates_from (gi_start inp) n -> gi_stop inp = gi_start inp + Z.of_nat n - 1 ->
  (forall c r, on_grid (gi_axes inp) c -> own_inputs inp c r -> loadable prm n r /\ (active (gi_mask inp c) -> good_raw prm n r) /\
     (In "wind" (keys (gi_out_vars inp)) -> exists v, raw_col r "wind" = Ok v)) ->
  (forall name unit, In (name, unit) (gi_out_vars inp) -> exists conv, converter_for name unit = Ok conv) ->
  validate_setup (gi_setup inp) = Ok tt -> describes (gi_setup inp) prm (gi_out_vars inp) ->
  exists N, forall fuel, (fuel >= N)%nat -> exists outs, Forall2 (fun ds out => file_worker fuel prm inp ds = Some (Ok out)) ss outs.
Proof.
  intros G CF CS Cv E Ps Fr Hn Hd Hs Cells Cv' Vs De.
  destruct (common_bound (fun fuel ds => exists out, file_worker fuel prm inp ds = Some (Ok out)) ss) as (N & HN).
  { intros ds Ids. destruct (worker_readable inp ds G CF CS) as (w & W). destruct (worker_inputs _ _ _ G W) as (Lc & X).
    assert (Fields : wk_start w = gi_start inp /\ wk_stop w = gi_stop inp /\ wk_days w = gi_days inp /\ wk_setup w = gi_setup inp /\ wk_out_vars w = gi_out_vars inp).
    { pose proof W as W'. unfold slice_worker, worker_with in W'. apply bind_inv in W' as (met & _ & W'). apply bind_inv in W' as (state & _ & W').
      apply bind_inv in W' as (cells & _ & W'). apply ok_inj in W'. rewrite <- W'. auto. }
    destruct Fields as (F1 & F2 & F3 & F4 & F5).
    assert (Each : forall r, In r (wk_cells w) -> exists c, on_grid (gi_axes inp) c /\ own_inputs inp c r).
    { intros r I. apply In_nth_error in I as (i & I). assert (Hi : (i < List.length (wk_cells w))%nat) by (apply nth_error_Some; congruence).
      destruct (nth_error (indices (wk_shape w)) i) as [l|] eqn:Li; [|apply nth_error_None in Li; lia].
      destruct (X i l r Li I) as (X1 & _ & X3). eauto. }
    destruct (worker_total prm w n Ps Fr Hn) as (N & HN).
    - now rewrite F3, F1.
    - now rewrite F2, F1.
    - exact Lc.
    - intros r I. destruct (Each r I) as (c & O1 & O2). apply (Cells c r O1 O2).
    - intros i l r Li C Ac. destruct (X i l r Li C) as (X1 & X2 & X3). rewrite X2 in Ac. apply (Cells _ r X1 X3). exact Ac.
    - now rewrite F4.
    - now rewrite F4, F5.
    - rewrite F5. intros name unit I. split; [exact (Cv' name unit I)|]. intros -> r Ir. destruct (Each r Ir) as (c & O1 & O2).
      apply (Cells c r O1 O2). apply (in_map fst) in I. exact I.
    - exists N. intros k Hk. unfold file_worker. rewrite W. exact (HN k Hk). }
  exists N. intros fuel Hf. specialize (HN fuel Hf). clear - HN. induction ss as [|ds ss' IH]; [exists []; constructor|].
  destruct (HN ds (or_introl eq_refl)) as (o & O). destruct IH as (os & OS); [intros x X; apply HN; now right|]. exists (o :: os). now constructor.
Qed.

(** a coordinate that a file lacks *)
Theorem missing_stops inp chunks ss k have want x :
  good_files inp -> (chunks = [] \/ covers chunks (axes_dims (gi_axes inp))) -> slices chunks (axes_dims (gi_axes inp)) = Ok ss ->
  dict_get (nc_axes (gi_forcing inp)) k = Some have \/ dict_get (nc_axes (gi_state inp)) k = Some have ->
  dict_get (gi_axes inp) k = Some want -> In x want -> ~ In x have ->
  exists ds, In ds ss /\ slice_worker inp ds = Err KeyError /\ forall fuel prm, file_worker fuel prm inp ds = Some (Err KeyError).
Proof.
  intros G Cv E H W I N. destruct (missing_refused inp chunks ss k have want x G Cv E H W I N) as (ds & J & K).
  exists ds. split; [exact J|]. split; [exact K|]. intros fuel prm. unfold file_worker. now rewrite K.
Qed.
