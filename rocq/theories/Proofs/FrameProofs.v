(** C73: the disaggregation is defined on every acceptable frame. *)
From Coq Require Import ZArith Reals String List Bool Arith Lia Lra.
From Verif Require Import Model.Py Model.Fl Model.Np Model.Constants Model.Physics Model.Interp Model.Params Model.Disagg
  Spec.TimeSpec Spec.SeriesSpec Spec.ShortSpec Spec.TempSpec Spec.FrameSpec
  Proofs.Base Proofs.ArrayProofs Proofs.PrecProofs Proofs.WindProofs Proofs.LongwaveProofs Proofs.ShortwaveProofs
  Proofs.DisaggProofs Proofs.PchipProofs Proofs.TempProofs.
Import ListNotations.
Local Open Scope string_scope.
Local Open Scope list_scope.

Lemma str_in_spec s l : str_in s l = true <-> In s l.
Proof.
  unfold str_in. rewrite existsb_exists. split.
  - intros (x & I & E). apply String.eqb_eq in E. now subst.
  - intros I. exists s. split; auto. apply String.eqb_refl.
Qed.

Lemma finite_some v : finite (map Some v) = Ok v.
Proof. induction v as [|x v IH]; cbn [map finite]; auto. rewrite IH. reflexivity. Qed.
Lemma finite_inv l v : finite l = Ok v -> l = map Some v.
Proof.
  revert v. induction l as [|[x|] l IH]; cbn [finite]; intros v H; try discriminate; [apply Ok_inj in H; subst; reflexivity|].
  destruct (finite l) as [w|]; [|discriminate]. cbn [bind] in H. apply Ok_inj in H. subst v. cbn. now rewrite (IH w eq_refl).
Qed.

Lemma dict_get_set {A} (d : dict A) k k' v : dict_get (dict_set d k v) k' = if k' =? k then Some v else dict_get d k'.
Proof.
  induction d as [|[a x] d IH]; cbn [dict_set dict_get]; [reflexivity|].
  destruct (String.eqb_spec k a) as [->|N]; cbn [dict_get].
  - destruct (k' =? a); reflexivity.
  - rewrite IH. destruct (String.eqb_spec k' a) as [->|]; auto. destruct (String.eqb_spec a k) as [->|]; [congruence|reflexivity].
Qed.

Lemma has_da_df df prm name v : has_col df name v -> name <> "daylength" -> has_col (da_df df prm) name v.
Proof.
  intros [H L] N. unfold da_df. destruct (_ && _)%bool; split; auto. cbn [dl_cols set_col]. rewrite dict_get_set.
  destruct (String.eqb_spec name "daylength"); congruence.
Qed.
Lemma complete_daylength df prm : complete df "daylength" -> complete (da_df df prm) "daylength".
Proof.
  intros [v [H L]]. unfold da_df. destruct (_ && _)%bool; [|exists v; split; auto].
  eexists. split; [cbn [dl_cols set_col]; rewrite dict_get_set, String.eqb_refl; reflexivity|]. cbn [dl_doy set_col]. apply repeat_length.
Qed.
Lemma get_da_df df prm name : name <> "daylength" -> dict_get (dl_cols (da_df df prm)) name = dict_get (dl_cols df) name.
Proof.
  intros N. unfold da_df. destruct (_ && _)%bool; auto. cbn [dl_cols set_col]. rewrite dict_get_set.
  destruct (String.eqb_spec name "daylength"); congruence.
Qed.
Lemma col_of df name v : has_col df name v -> col df name = Ok v.
Proof. intros [H _]. unfold col, dict_getitem. now rewrite H. Qed.

Lemma interp1d_ok xs ys : List.length xs = List.length ys -> xs <> [] -> exists f, interp1d xs ys = Ok f.
Proof.
  intros L N. unfold interp1d. rewrite L, Nat.eqb_refl. destruct (Nat.leb_spec 1 (List.length ys)); [cbn; eauto|].
  destruct xs; [congruence|cbn in L; lia].
Qed.

Lemma prec_total (P tmin : list fl) ts prm pk dur : legal_time_step ts ->
  (In (upper (p_prec_type prm)) ["TRIANGLE"; "MIX"] -> exists a b, pk = Some a /\ dur = Some b /\
     List.length a = List.length P /\ List.length b = List.length P) ->
  exists out, prec P tmin ts prm pk dur = Ok out /\ List.length out = (List.length P * steps ts)%nat.
Proof.
  intros Lt H. destruct (steps_mul ts Lt) as (Em & Sp & Tp). rewrite prec_eq.
  assert (M : exists L, prec_minutes P tmin prm pk dur = Ok L).
  { unfold prec_minutes. destruct (str_in _ _) eqn:S; [|eauto]. apply str_in_spec in S. destruct (H S) as (a & b & -> & -> & La & Lb).
    apply prec_TRIANGLE_ok. intros d D. right. cbn [opt_nth].
    destruct (nth_error a d) eqn:A; [|apply nth_error_None in A; lia]. destruct (nth_error b d) eqn:B; [|apply nth_error_None in B; lia]. eauto. }
  destruct M as [L M]. rewrite M. cbn [bind]. pose proof (prec_minutes_days _ _ _ _ _ _ M) as LM.
  rewrite (reshape_ok _ ts (List.length P * steps ts)); [|lia|].
  - cbn [bind]. eexists. split; [reflexivity|]. now rewrite map_length, rows_length.
  - rewrite <- Nat.mul_assoc, Em. destruct (p_utc_offset prm); rewrite ?np_roll_length; auto.
Qed.

Lemma daily_constant_total (x : list fl) ts prm : legal_time_step ts ->
  exists out, daily_constant x ts prm = Ok out /\ List.length out = (List.length x * steps ts)%nat.
Proof.
  intros L. destruct (p_utc_offset prm) eqn:U.
  - destruct (daily_constant_utc x ts prm L U) as (out & E & Lo & _). eauto.
  - unfold daily_constant. rewrite U. destruct (steps_mul ts L) as (Em & Sp & Tp).
    rewrite (reshape_ok _ ts (List.length x * steps ts)); [|lia|rewrite np_repeat_length, <- Em; lia].
    cbn [bind]. eexists. split; [reflexivity|]. now rewrite map_length, rows_length.
Qed.

Lemma emissivity_total name : In name ["DEFAULT"; "TVA"; "ANDERSON"; "BRUTSAERT"; "SATTERLUND"; "IDSO"; "PRATA"] ->
  exists e, emissivity_calc name = Ok e.
Proof. intros H. cbn in H. repeat (destruct H as [<-|H]; [eexists; reflexivity|]). destruct H. Qed.
Lemma cloud_total name : In name ["DEFAULT"; "TVA"; "CLOUD_DEARDORFF"] -> exists e, cloud_calc name = Ok e.
Proof. intros H. cbn in H. repeat (destruct H as [<-|H]; [eexists; reflexivity|]). destruct H. Qed.

Lemma longwave_total (Ts vps cs : list fl) prm d n : good_options prm ->
  List.length Ts = (n * steps (p_time_step prm))%nat -> List.length vps = (n * steps (p_time_step prm))%nat ->
  List.length cs = (n * steps (p_time_step prm))%nat -> (forall v, d = Some v -> List.length v = n) ->
  exists out, longwave Ts vps cs prm d = Ok out /\ List.length out = (n * steps (p_time_step prm))%nat.
Proof.
  intros G L1 L2 L3 D. destruct (emissivity_total _ (go_lw _ G)) as [e E]. destruct (cloud_total _ (go_cloud _ G)) as [c C].
  assert (B : longwave Ts vps cs prm None = Ok (map3 (longwave1 e c) Ts vps cs)) by (unfold longwave; rewrite E, C; reflexivity).
  assert (LB : List.length (map3 (longwave1 e c) Ts vps cs) = (n * steps (p_time_step prm))%nat) by now apply map3_length.
  destruct d as [v|]; [|eauto].
  destruct (longwave_supplied Ts vps cs prm _ v n (go_ts _ G) B LB (D v eq_refl)) as (out & E2 & L & _). exists out. split; auto. congruence.
Qed.

Lemma shortwave_total sw dl doy tiny prm : legal_time_step (p_time_step prm) ->
  List.length sw = List.length dl -> List.length doy = List.length sw -> full_rows tiny -> rows_exist doy tiny ->
  exists out, shortwave sw dl doy tiny prm = Ok out /\ List.length out = (List.length sw * steps (p_time_step prm))%nat.
Proof.
  intros. destruct (p_utc_offset prm) eqn:U.
  - destruct (shortwave_utc sw dl doy tiny prm) as (o & E & L & _); eauto.
  - destruct (shortwave_day sw dl doy tiny prm) as (o & E & L & _); eauto.
Qed.

Theorem disaggregate_total df prm tiny tb te : good_frame df prm -> good_options prm -> good_table (dl_doy df) tiny ->
  exists out, disaggregate df prm tiny (pair_list tb) (pair_list te) = Ok out.
Proof.
  intros F G T. pose proof (go_ts _ G) as L.
  assert (G' : good_options (da_prm prm)) by (destruct G; constructor; assumption).
  destruct F as [Fd [sw Fsw] Fdl [tmin Ftn] [tmax Ftx] [vp Fvp] [ck Fck] [pr Fpr] Fw Flw Fsh].
  apply (complete_daylength _ prm) in Fdl as [dl Fdl].
  apply has_da_df with (prm := prm) in Fsw; [|discriminate]. unfold numbers in *. apply has_da_df with (prm := prm) in Ftn; [|discriminate].
  apply has_da_df with (prm := prm) in Ftx; [|discriminate]. apply has_da_df with (prm := prm) in Fvp; [|discriminate].
  apply has_da_df with (prm := prm) in Fck; [|discriminate]. apply has_da_df with (prm := prm) in Fpr; [|discriminate].
  assert (Doy : dl_doy (da_df df prm) = dl_doy df) by (unfold da_df; destruct (_ && _)%bool; reflexivity).
  unfold disaggregate, disaggregate_over. cbv zeta.
  change (set_lon prm (remainder360 (p_lon prm))) with (da_prm prm).
  change (p_time_step (da_prm prm)) with (p_time_step prm). change (p_method (da_prm prm)) with (p_method prm).
  change (p_sw_averaging (da_prm prm)) with (p_sw_averaging prm). change (p_elev (da_prm prm)) with (p_elev prm).
  change (p_lapse_rate (da_prm prm)) with (p_lapse_rate prm). fold (da_df df prm). rewrite Doy.
  set (n := List.length (dl_doy df)). set (ts := p_time_step prm) in *.
  assert (LN : forall name v, has_col (da_df df prm) name v -> List.length v = n) by (intros name v [_ H]; now rewrite Doy in H).
  destruct (steps_mul ts L) as (Em & Sp & Tp). rewrite ts_per_day_steps by lia. cbn [bind].
  rewrite (col_of _ _ _ Fsw), (col_of _ _ _ Fdl). cbn [bind].
  destruct (shortwave_total sw dl (dl_doy df) tiny (da_prm prm)) as (o1 & E1 & L1).
  { apply L. } { now rewrite (LN _ _ Fsw), (LN _ _ Fdl). } { now rewrite (LN _ _ Fsw). } { apply T. } { apply T. }
  change (p_time_step (da_prm prm)) with ts in L1. rewrite (LN _ _ Fsw) in L1. rewrite E1. cbn [bind]. rewrite L1, Nat.eqb_refl. cbn [bind].
  destruct (extreme_times_of tiny (dl_doy df) ts (da_prm prm)) as (a & b & E2 & La & Al & _).
  { apply T. } { apply T. } { apply G. }
  fold n in E2, La. rewrite E2. cbn [bind]. rewrite (col_of _ _ _ Ftn), (col_of _ _ _ Ftx). cbn [bind]. rewrite !finite_some. cbn [bind].
  assert (Ntn : List.length tmin = n) by (rewrite <- (LN _ _ Ftn), map_length; reflexivity).
  assert (Ntx : List.length tmax = n) by (rewrite <- (LN _ _ Ftx), map_length; reflexivity).
  assert (Na : a <> []) by (intros ->; cbn in La; unfold n in La; destruct (dl_doy df); [congruence|discriminate]).
  destruct (temp_ok a b tmin tmax (n * steps ts) ts tb te Al Na) as (f & _ & E3 & _); [congruence|congruence|].
  rewrite E3. cbn [bind]. set (tmp := map _ (seq 0 (n * steps ts))).
  assert (Lt : @List.length fl (map Some tmp) = (n * steps ts)%nat) by (unfold tmp; now rewrite !map_length, seq_length).
  rewrite Lt, Nat.eqb_refl. cbn [bind]. rewrite (col_of _ _ _ Fvp). cbn [bind].
  assert (E4 : exists v, vapor_pressure vp (map Some tmp) a (n * steps ts) ts = Ok v /\ List.length v = (n * steps ts)%nat).
  { unfold vapor_pressure. destruct (interp1d_ok a (map (fun v => fdiv v (Some MBAR_PER_BAR)) vp)) as [h Eh].
    - rewrite map_length, (LN _ _ Fvp). auto.
    - exact Na.
    - rewrite Eh. cbn [bind]. rewrite zipw_ok.
      + eexists. split; [reflexivity|]. rewrite LongwaveProofs.map2_length; unfold svp; rewrite !map_length in *; rewrite ?seq_length; lia.
      + unfold svp. rewrite !map_length in *. rewrite seq_length. lia. }
  destruct E4 as (v0 & E4 & L4). rewrite E4. cbn [bind]. rewrite fill_gaps_length, L4, Nat.eqb_refl. cbn [bind].
  rewrite LongwaveProofs.map2_length by (rewrite fill_gaps_length; congruence). rewrite fill_gaps_length, L4, Nat.eqb_refl. cbn [bind].
  rewrite (map_length (fun t => pressure1 t _ _)), Lt, Nat.eqb_refl. cbn [bind].
  rewrite LongwaveProofs.map2_length by (rewrite fill_gaps_length, map_length; congruence). rewrite fill_gaps_length, L4, Nat.eqb_refl. cbn [bind].
  rewrite (col_of _ _ _ Fck). cbn [bind]. destruct (daily_constant_total ck ts (da_prm prm) L) as (o5 & E5 & L5). unfold tskc. rewrite E5. cbn [bind].
  rewrite (LN _ _ Fck) in L5. rewrite L5, Nat.eqb_refl. cbn [bind].
  destruct (longwave_total (map Some tmp) (fill_gaps v0) o5 (da_prm prm) (dict_get (dl_cols (da_df df prm)) "longwave") n G') as (o6 & E6 & L6).
  { exact Lt. } { now rewrite fill_gaps_length. } { exact L5. } { intros v Hv. rewrite get_da_df in Hv by discriminate. now apply Flw. }
  rewrite E6. cbn [bind]. change (p_time_step (da_prm prm)) with ts in L6. rewrite L6, Nat.eqb_refl. cbn [bind].
  rewrite (col_of _ _ _ Fpr). cbn [bind].
  destruct (prec_total pr (map Some tmin) ts (da_prm prm) (dict_get (dl_cols (da_df df prm)) "t_pk") (dict_get (dl_cols (da_df df prm)) "dur") L) as (o7 & E7 & L7).
  { intros I. destruct (Fsh I) as [[u [Hu Lu]] [w [Hw Lw]]]. exists u, w. rewrite !get_da_df by discriminate. rewrite (LN _ _ Fpr). auto. }
  rewrite E7. cbn [bind]. rewrite (LN _ _ Fpr) in L7. rewrite L7, Nat.eqb_refl. cbn [bind].
  rewrite get_da_df by discriminate. destruct (dict_get (dl_cols df) "wind") as [w|] eqn:W; [|cbn [bind]; eauto].
  destruct (daily_constant_total w ts (da_prm prm) L) as (o8 & E8 & L8). unfold wind. rewrite E8. cbn [bind].
  rewrite (Fw w W) in L8. fold n in L8. rewrite L8, Nat.eqb_refl. cbn [bind]. eauto.
Qed.

(** shape of the result *)
Theorem disaggregate_shape df prm tiny tb te out : disaggregate df prm tiny tb te = Ok out -> legal_time_step (p_time_step prm) ->
  map fst out = sub_daily_names (match dict_get (dl_cols df) "wind" with Some _ => true | None => false end) /\
  forall name v, In (name, v) out -> List.length v = (List.length (dl_doy df) * steps (p_time_step prm))%nat.
Proof.
  intros H L. destruct (disaggregate_inv df prm tiny tb te out H) as
    (tpd & sw0 & dayl & sw & tTmin & tTmax & tmin & tmax & tminR & tmaxR & tmp & vpd & vp0 & ck0 & ck & lw & pr0 & pr & Q).
  cbv zeta in Q. destruct Q as (Tp & _ & _ & _ & _ & _ & _ & _ & (L1 & L2 & L3 & L4 & L5 & L6) & B).
  rewrite ts_per_day_steps in Tp by apply L. apply Ok_inj in Tp. subst tpd. set (n := (List.length (dl_doy df) * steps (p_time_step prm))%nat) in *.
  assert (X : forall name v l, In (name, v) (map (fun nv => (fst nv, fill_gaps (snd nv))) l) ->
    (forall nv : string * list fl, In nv l -> List.length (snd nv) = n) -> List.length v = n).
  { intros name v l I A. apply in_map_iff in I as ([k w] & E & I). injection E as <- <-. rewrite fill_gaps_length. now apply (A (k, w)). }
  assert (Base : forall nv : string * list fl, In nv [("shortwave", sw); ("temp", map Some tmp); ("vapor_pressure", fill_gaps vp0);
        ("rel_humid", map2 relative_humidity1 (fill_gaps vp0) (map Some tmp));
        ("air_pressure", map (fun t => pressure1 t (Some (p_elev prm)) (Some (p_lapse_rate prm))) (map Some tmp));
        ("spec_humid", map2 specific_humidity1 (fill_gaps vp0) (map (fun t => pressure1 t (Some (p_elev prm)) (Some (p_lapse_rate prm))) (map Some tmp)));
        ("tskc", ck); ("longwave", lw); ("prec", pr)] -> List.length (snd nv) = n).
  { intros nv I. cbn [In] in I. repeat (destruct I as [<-|I]; [cbn [snd]|]); try destruct I; auto;
      rewrite ?LongwaveProofs.map2_length; rewrite ?fill_gaps_length, ?map_length; congruence. }
  rewrite get_da_df in B by discriminate. destruct (dict_get (dl_cols df) "wind") as [w0|].
  - destruct B as (w & _ & Lw & ->). split; [reflexivity|]. intros name v I. apply (X _ _ _ I). intros nv J. apply in_app_or in J as [J|[<-|[]]]; auto.
  - subst out. split; [reflexivity|]. intros name v I. apply (X _ _ _ I). auto.
Qed.
