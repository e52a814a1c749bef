(** What a worker hands to its cells: C85. *)
From Coq Require Import ZArith Reals String List Bool Arith Lia Lra.
From Verif Require Import Model.Py Model.Fl Model.Np Model.Constants Model.Calendar Model.Datetime Model.Params Model.Disagg
  Model.State Model.Validate Model.Output Model.Cell Model.Worker
  Spec.StateSpec Spec.RowsSpec Spec.WorkerSpec Spec.CellSpec Spec.FrameSpec Proofs.Base Proofs.ArrayProofs Proofs.PrecProofs Proofs.DisaggProofs Proofs.ShortwaveProofs
  Proofs.StateProofs Proofs.WorkerProofs Proofs.FrameProofs Proofs.SliceProofs Proofs.CellProofs Proofs.SpanProofs.
Import ListNotations.
Local Open Scope string_scope.
Local Open Scope list_scope.

(** ** cells are found by their index *)
Lemma nodup_join {A} (a b : list A) : NoDup a -> NoDup b -> (forall x, In x a -> ~ In x b) -> NoDup (a ++ b).
Proof.
  induction a as [|x a IH]; intros Ha Hb D; [exact Hb|]. inversion Ha. subst. cbn. constructor.
  - intros I. apply in_app_or in I as [I|I]; [contradiction|]. apply (D x); [now left|exact I].
  - apply IH; auto. intros y Y. apply D. now right.
Qed.

Lemma product_nodup {A} (ls : list (list A)) : (forall l, In l ls -> NoDup l) -> NoDup (product ls).
Proof.
  induction ls as [|l ls IH]; intros H; cbn [product]; [repeat constructor; easy|].
  assert (Hl : NoDup l) by (apply H; now left). assert (Hp : NoDup (product ls)) by (apply IH; intros; apply H; now right). clear IH H.
  induction l as [|x l IHl]; [constructor|]. cbn [flat_map]. inversion Hl as [|? ? N1 N2]. subst.
  apply nodup_join.
  - apply FinFun.Injective_map_NoDup; [|exact Hp]. intros a b E. now inversion E.
  - now apply IHl.
  - intros y Y1 Y2. apply in_map_iff in Y1 as (z & <- & _). apply in_flat_map in Y2 as (w & W & Y2). apply in_map_iff in Y2 as (z' & E & _).
    inversion E. subst. contradiction.
Qed.

Lemma indices_nodup shape : NoDup (indices shape).
Proof. apply product_nodup. intros l H. apply in_map_iff in H as (n & <- & _). apply seq_NoDup. Qed.

Lemma nth_cell_at cells data dflt i c x : NoDup cells -> nth_error cells i = Some c -> nth_error data i = Some x ->
  nth_cell cells data dflt c = x.
Proof.
  unfold nth_cell. revert data i. induction cells as [|c0 cells IH]; intros data i ND; [destruct i; discriminate|].
  inversion ND as [|? ? N1 N2]. subst. destruct data as [|d data]; [destruct i; discriminate|].
  destruct i as [|i]; cbn [nth_error]; intros C X; cbn [combine find fst].
  - injection C as ->. injection X as ->. now rewrite cell_eqb_refl.
  - rewrite cell_eqb_neq; [now apply IH with i|]. intros ->. apply N1. now apply nth_error_In in C.
Qed.

(** ** one cell *)
Lemma month_length param days (pr l : list fl) : List.length pr = List.length days ->
  convert_monthly_param param days pr = Ok l -> List.length l = List.length pr.
Proof.
  intros L0 H. unfold convert_monthly_param in H. apply monthly_fold in H as [L _]; [exact L| |now rewrite map_length].
  apply FinFun.Injective_map_NoDup; [|apply seq_NoDup]. intros a b. apply Nat2Z.inj.
Qed.

Lemma cell_loaded_on prm start stop days n r c0 c : run_dates start stop days -> List.length days = n -> raw_shaped n r ->
  load_cell start stop days r = Ok c0 -> monthly_cell prm days r c0 = Ok c ->
  loaded_on prm days n r c.
Proof.
  intros Rd Ln (p & a & b & Hp & Ha & Hb & Sh) L M. unfold load_cell, load_cell_over in L. rewrite Hp, Ha, Hb in L. cbn [bind] in L.
  change (aggregate_over (record_dates (start - 90) (start - 1)) start) with (aggregate_state start) in L.
  inv_bind L. rename v into ag. apply Ok_inj in L.
  destruct (row_predictors _ _ _ _ _ _ _ _ _ _ _ Rd Ln Sh E) as (Ls & Lm & W).
  assert (D : ag_dtr ag = map2 fsub b a).
  { rewrite (aggregate_rows _ _ _ _ _ _ _ _ _ _ Rd Ln Sh) in E. destruct (dtr_negative a b); [discriminate|]. apply Ok_inj in E. now subst ag. }
  destruct Sh as (S1 & S2 & S3 & S4 & S5 & S6).
  set (base := dict_set (dict_set (dict_set (rc_cols r) "seasonal_prec" (ag_seasonal ag)) "dtr" (ag_dtr ag)) "smoothed_dtr" (ag_smoothed ag)) in *.
  assert (B : forall k, dict_get base k = if k =? "smoothed_dtr" then Some (ag_smoothed ag) else if k =? "dtr" then Some (ag_dtr ag)
                 else if k =? "seasonal_prec" then Some (ag_seasonal ag) else dict_get (rc_cols r) k).
  { intros k. unfold base. now rewrite !dict_get_set. }
  assert (Ld : List.length (map (fun d => Z.to_nat (dayofyear d)) days) = n).
  { now rewrite map_length. }
  assert (Ldr : List.length (ag_dtr ag) = n). { rewrite D. unfold fl in *. rewrite map2_len. lia. }
  assert (Main : exists extra, extra = (if str_in (upper (p_prec_type prm)) ["TRIANGLE"; "MIX"] then ["dur"; "t_pk"] else []) /\
    (cd_lat c = rc_lat r /\ cd_lon c = rc_lon r /\ cd_elev c = rc_elev r) /\
    (cd_state_tmin c = rc_st_tmin r /\ cd_state_tmax c = rc_st_tmax r) /\
    dl_doy (cd_daily c) = map (fun d => Z.to_nat (dayofyear d)) days /\
    (forall k, ~ In k extra -> dict_get (dl_cols (cd_daily c)) k = dict_get base k) /\
    (In (upper (p_prec_type prm)) ["TRIANGLE"; "MIX"] ->
      exists dur tpk, convert_monthly_param (rc_dur r) days p = Ok dur /\ convert_monthly_param (rc_tpk r) days p = Ok tpk /\
        dict_get (dl_cols (cd_daily c)) "dur" = Some dur /\ dict_get (dl_cols (cd_daily c)) "t_pk" = Some tpk)).
  { eexists. split; [reflexivity|]. unfold monthly_cell in M. destruct (str_in (upper (p_prec_type prm)) ["TRIANGLE"; "MIX"]) eqn:T.
    - rewrite Hp in M. cbn [bind] in M. inv_bind M. inv_bind M. apply Ok_inj in M. subst c c0. cbn [cd_lat cd_lon cd_elev cd_state_tmin cd_state_tmax cd_daily dl_doy set_col].
      do 3 (split; [auto|]). split.
      + intros k N. rewrite !get_set_col. destruct (String.eqb_spec k "t_pk"); [subst; exfalso; apply N; cbn; auto|].
        destruct (String.eqb_spec k "dur"); [subst; exfalso; apply N; cbn; auto|]. reflexivity.
      + intros _. exists v, v0. rewrite !get_set_col. cbn [String.eqb Ascii.eqb Bool.eqb]. auto.
    - apply Ok_inj in M. subst c c0. cbn [cd_lat cd_lon cd_elev cd_state_tmin cd_state_tmax cd_daily dl_doy dl_cols].
      do 3 (split; [auto|]). split; [reflexivity|]. intros I. exfalso. apply str_in_spec in I. congruence. }
  clear L M c0 E. destruct Main as (extra & Ex & Pl & St & Dy & Kp & Mo).
  assert (Nx : forall k, k <> "dur" -> k <> "t_pk" -> ~ In k extra).
  { intros k N1 N2 I. rewrite Ex in I. destruct (str_in _ _); [|easy]. cbn in I. destruct I as [<-|[<-|[]]]; congruence. }
  constructor; auto.
  - intros k N. unfold added_columns in N. rewrite <- Ex in N. rewrite Kp by (intros I; apply N, in_or_app; now right). rewrite B.
    destruct (String.eqb_spec k "smoothed_dtr"); [subst; exfalso; apply N; cbn; auto|].
    destruct (String.eqb_spec k "dtr"); [subst; exfalso; apply N; cbn; auto|].
    destruct (String.eqb_spec k "seasonal_prec"); [subst; exfalso; apply N; cbn; auto|]. reflexivity.
  - intros a' b' Ha' Hb'. assert (a' = a) by (apply Ok_inj; congruence). assert (b' = b) by (apply Ok_inj; congruence). subst.
    exists (ag_dtr ag). split; [split; [rewrite Kp by (apply Nx; discriminate); now rewrite B|rewrite Dy; unfold fl in *; congruence]|].
    intros i x y X Y. rewrite D. now apply ShortwaveProofs.nth_map2.
  - intros p' Hp'. assert (p' = p) by (apply Ok_inj; congruence). subst.
    exists (ag_seasonal ag). split; [split; [rewrite Kp by (apply Nx; discriminate); now rewrite B|rewrite Dy; unfold fl in *; congruence]|].
    intros i I. apply (W i I).
  - intros a' b' Ha' Hb'. assert (a' = a) by (apply Ok_inj; congruence). assert (b' = b) by (apply Ok_inj; congruence). subst.
    exists (ag_smoothed ag). split; [split; [rewrite Kp by (apply Nx; discriminate); now rewrite B|rewrite Dy; unfold fl in *; congruence]|].
    intros i I. apply (W i I).
  - intros I name table T. destruct (Mo I) as (dur & tpk & H1 & H2 & H3 & H4).
    assert (Ldt : List.length p = List.length days) by (unfold fl in *; congruence).
    assert (X : forall param v, convert_monthly_param param days p = Ok v ->
      List.length v = List.length (dl_doy (cd_daily c)) /\
      forall i d x, nth_error days i = Some d -> month_of d <> 12%Z -> zlookup param (month_of d) = Ok x -> nth_error v i = Some x).
    { intros param v C. split; [rewrite Dy, Ld; apply month_length in C; auto; unfold fl in *; congruence|].
      intros i d x Hd Nm Z. destruct (monthly_param _ _ _ _ _ _ Ldt C Hd) as [Q _]. destruct (Q Nm) as (v' & Z' & N').
      assert (v' = x) by (apply Ok_inj; congruence). now subst. }
    cbn in T. destruct T as [T|[T|[]]]; injection T as <- <-.
    + exists dur. destruct (X _ _ H1). split; [split; auto|auto].
    + exists tpk. destruct (X _ _ H2). split; [split; auto|auto].
Qed.

Lemma cell_loaded prm start n r c0 c : raw_shaped n r ->
  load_cell start (start + Z.of_nat n - 1) (dates_from start n) r = Ok c0 -> monthly_cell prm (dates_from start n) r c0 = Ok c ->
  loaded prm start n r c.
Proof. apply cell_loaded_on; [apply dates_from_run|apply dates_from_length]. Qed.

(** ** the worker *)
Theorem rows_cells fuel prm w n out :
  run_dates (wk_start w) (wk_stop w) (wk_days w) -> List.length (wk_days w) = n ->
  (forall r, In r (wk_cells w) -> raw_shaped n r) ->
  run_worker_rows fuel prm w = Some (Ok out) ->
  forall i c r, nth_error (indices (wk_shape w)) i = Some c -> nth_error (wk_cells w) i = Some r ->
    (active (wk_mask w c) -> exists cd vs, loaded_on prm (wk_days w) n r cd /\ cell_alone fuel (wk_out_vars w) prm cd vs /\ out c = Some vs) /\
    (~ active (wk_mask w c) -> out c = None).
Proof.
  intros Hd Hs Sh H i c r C Rr. rewrite run_rows in H. cbv zeta in H.
  destruct (load_slice _ _ _ _) as [data0|] eqn:Ld; cbn [bind] in H; [|discriminate].
  destruct (validate_setup (wk_setup w)); cbn [bind] in H; [|discriminate].
  match type of H with match ?p with _ => _ end = _ => destruct p as [data|] eqn:Mo end; [|discriminate].
  destruct (run_slice _ _ _ _ _ _) as [[res prm']|] eqn:Rs; [|discriminate]. apply f_equal with (f := fun o => match o with Some x => x | None => Err KeyError end) in H. subst res.
  destruct (run_slice_spec fuel _ _ _ _ prm prm out prm' eq_refl Rs) as (_ & Act & Ina).
  split; [|apply Ina]. intros A.
  unfold load_slice in Ld. inv_bind Ld. inv_bind Ld. apply mapM_inv in Ld, Mo.
  destruct (Forall2_nth _ _ _ Ld _ _ Rr) as (c0 & N0 & P0).
  assert (Cm : nth_error (combine (wk_cells w) data0) i = Some (r, c0)).
  { clear - Rr N0. revert i Rr data0 N0. generalize (wk_cells w) as l. induction l as [|x l IH]; intros [|i] X [|y m] Y; try discriminate; cbn in *; [congruence|auto]. }
  destruct (Forall2_nth _ _ _ Mo _ _ Cm) as (cd & N1 & P1). cbn [fst snd] in P1.
  destruct (Act c (nth_error_In _ _ C) A) as (vs & Al & O). rewrite (nth_cell_at _ _ _ _ _ _ (indices_nodup _) C N1) in Al.
  exists cd, vs. split; [|auto]. eapply cell_loaded_on; eauto. apply Sh. now apply nth_error_In in Rr.
Qed.

Theorem worker_cells fuel prm w n out :
  wk_days w = dates_from (wk_start w) n -> wk_stop w = (wk_start w + Z.of_nat n - 1)%Z ->
  (forall r, In r (wk_cells w) -> raw_shaped n r) ->
  run_worker fuel prm w = Some (Ok out) ->
  forall i c r, nth_error (indices (wk_shape w)) i = Some c -> nth_error (wk_cells w) i = Some r ->
    (active (wk_mask w c) -> exists cd vs, loaded prm (wk_start w) n r cd /\ cell_alone fuel (wk_out_vars w) prm cd vs /\ out c = Some vs) /\
    (~ active (wk_mask w c) -> out c = None).
Proof.
  intros Hd Hs Sh H. rewrite run_worker_is_rows in H by (rewrite Hd, span_dates, dates_from_length; reflexivity).
  unfold loaded. rewrite <- Hd. apply rows_cells; auto.
  - rewrite Hd, Hs. apply dates_from_run.
  - rewrite Hd. apply dates_from_length.
Qed.
