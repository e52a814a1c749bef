(** C122: disaggregation and passthrough runs of records that agree at first. *)
From Coq Require Import ZArith Reals String List Bool Arith Lia Lra Psatz.
From Verif Require Import Model.Py Model.Fl Model.Np Model.Constants Model.Params Model.Physics Model.Interp Model.Disagg Model.Mtclim Model.Cell
  Spec.TimeSpec Spec.SeriesSpec Spec.ShortSpec Spec.TempSpec Spec.FrameSpec Spec.CellSpec Spec.EarlierSpec
  Proofs.Base Proofs.RBase Proofs.ArrayProofs Proofs.PrecProofs Proofs.DisaggProofs Proofs.ShortwaveProofs Proofs.PchipProofs Proofs.StateProofs Proofs.LongwaveProofs Proofs.UtcProofs
  Proofs.TempProofs Proofs.FrameProofs Proofs.CellProofs Proofs.CellTotal Proofs.CellOutputs Proofs.UtcDayProofs Proofs.SolarExamples Proofs.EarlierProofs.
Import ListNotations.
Local Open Scope string_scope.
Local Open Scope list_scope.
Local Open Scope R_scope.

(** ** times of the extremes *)
Definition used_usable (tiny : list (list R)) (doy : list nat) : Prop :=
  forall d row, In d doy -> nth_error tiny (d - 1) = Some row -> usable row.

Lemma times_inv tiny doy ts prm a b : set_min_max_hour tiny (map (fun d => d - 1)%nat doy) (List.length doy) ts prm = Ok (a, b) ->
  p_utc_offset prm = false -> used_usable tiny doy ->
  exists rows, mapM (getitem tiny) (map (fun d => d - 1)%nat doy) = Ok rows /\
    List.length a = List.length doy /\ List.length b = List.length doy /\ List.length rows = List.length doy /\
    forall d row, nth_error rows d = Some row -> usable row /\
      nth d a 0 = rise_time row + 1440 * INR d - IZR ts /\
      nth d b 0 = rise_time row + p_tmax_frac prm * (set_time row - rise_time row) + 1440 * INR d - IZR ts.
Proof.
  intros H U Us. assert (exists rows, mapM (getitem tiny) (map (fun d => d - 1)%nat doy) = Ok rows) as (rows & M).
  { unfold set_min_max_hour in H. cbv zeta in H. rewrite mapM_getitem_map in H. destruct (mapM (getitem tiny) _) as [r|]; [eauto|discriminate]. }
  exists rows. split; [exact M|]. destruct (times_of tiny _ ts prm rows M) as (a' & b' & Q & La & Lb & F). rewrite !map_length in *.
  rewrite H in Q. apply Ok_inj in Q. injection Q as <- <-. split; [exact La|]. split; [exact Lb|].
  split; [apply mapM_inv, Forall2_len in M; now rewrite map_length in M|].
  intros d row D. destruct (F d row D) as [A B]. unfold shift_of in A, B. rewrite U in A, B. split; [|split; [rewrite A|rewrite B]; ring].
  assert (Dn : (d < List.length doy)%nat).
  { apply mapM_inv, Forall2_len in M. rewrite map_length in M. rewrite M. apply nth_error_Some. congruence. }
  destruct (nth_error doy d) as [y|] eqn:Y; [|apply nth_error_None in Y; lia].
  assert (Y' : nth_error (map (fun d => d - 1)%nat doy) d = Some (y - 1)%nat) by now rewrite nth_error_map, Y.
  destruct (mapM_nth _ _ _ _ _ M Y') as (row' & G & R'). assert (row' = row) by congruence. subst row'.
  unfold getitem in G. destruct (nth_error tiny (y - 1)) as [q|] eqn:T; [|discriminate]. apply Ok_inj in G. subst q.
  eapply Us; [eapply nth_error_In; exact Y|exact T].
Qed.

Lemma times_rise tiny doy ts prm a b : set_min_max_hour tiny (map (fun d => d - 1)%nat doy) (List.length doy) ts prm = Ok (a, b) ->
  p_utc_offset prm = false -> used_usable tiny doy ->
  List.length a = List.length doy /\ List.length b = List.length doy /\
  forall d, (d < List.length doy)%nat -> 1440 * INR d - IZR ts < nth d a 0 < 1440 * INR d - IZR ts + 720.
Proof.
  intros H U Us. destruct (times_inv _ _ _ _ _ _ H U Us) as (rows & M & La & Lb & Lr & F). split; [exact La|]. split; [exact Lb|].
  intros d D. destruct (nth_error rows d) as [row|] eqn:E; [|apply nth_error_None in E; lia].
  destruct (F d row E) as (Ur & A & _). pose proof (rise_set row Ur) as (X & _ & Y & _). lra.
Qed.

Lemma times_same m tiny doy doy' ts prm a b a' b' :
  set_min_max_hour tiny (map (fun d => d - 1)%nat doy) (List.length doy) ts prm = Ok (a, b) ->
  set_min_max_hour tiny (map (fun d => d - 1)%nat doy') (List.length doy') ts prm = Ok (a', b') ->
  p_utc_offset prm = false -> used_usable tiny doy -> used_usable tiny doy' -> same_to m doy doy' ->
  (m <= List.length doy)%nat -> (m <= List.length doy')%nat ->
  forall d, (d < m)%nat -> nth d a 0 = nth d a' 0 /\ nth d b 0 = nth d b' 0.
Proof.
  intros H H' U Us Us' S L L' d D.
  destruct (times_inv _ _ _ _ _ _ H U Us) as (rows & M & _ & _ & Lr & F). destruct (times_inv _ _ _ _ _ _ H' U Us') as (rows' & M' & _ & _ & Lr' & F').
  assert (Sr : same_to m rows rows') by (eapply same_mapM; [exact M|exact M'|now apply same_map|reflexivity]).
  destruct (nth_error rows d) as [row|] eqn:E; [|apply nth_error_None in E; lia].
  pose proof E as E'. rewrite (Sr d D) in E'. destruct (F d row E) as (_ & -> & ->). destruct (F' d row E') as (_ & -> & ->). auto.
Qed.

Lemma step_before ts m k : legal_time_step ts -> (k < m * steps ts)%nat -> IZR ts * INR k <= 1440 * INR m - IZR ts.
Proof.
  intros L K. destruct (steps_mul _ L) as (_ & _ & Tp). pose proof (steps_mul_R ts L) as Q. assert (Tr : 0 < IZR ts) by (apply IZR_lt; lia).
  assert (Kb : (S k <= m * steps ts)%nat) by lia. apply le_INR in Kb. rewrite S_INR, mult_INR in Kb.
  apply (Rmult_le_compat_l (IZR ts)) in Kb; [|lra]. replace (IZR ts * (INR m * INR (steps ts))) with (INR m * (INR (steps ts) * IZR ts)) in Kb by ring.
  rewrite Q in Kb. lra.
Qed.

(** ** temperature *)
Lemma interleave_same p a b a' b' : List.length a = List.length b -> List.length a' = List.length b' ->
  (forall d, (d < p)%nat -> nth d a 0 = nth d a' 0 /\ nth d b 0 = nth d b' 0) ->
  forall i, (i < 2 * p)%nat -> nth i (interleave a b) 0 = nth i (interleave a' b') 0.
Proof.
  intros L L' H i I. destruct (Nat.Even_or_Odd i) as [[q ->]|[q ->]].
  - destruct (interleave_nth a b q L) as [-> _]. destruct (interleave_nth a' b' q L') as [-> _]. apply H. lia.
  - destruct (interleave_nth a b q L) as [_ ->]. destruct (interleave_nth a' b' q L') as [_ ->]. apply H. lia.
Qed.

Lemma ext_same p a a' : a <> [] -> a' <> [] -> (p <= List.length a)%nat -> (p <= List.length a')%nat -> (1 <= p)%nat -> (forall d, (d < p)%nat -> nth d a 0 = nth d a' 0) ->
  forall d, (d < S p)%nat -> nth d (ext_times a) 0 = nth d (ext_times a') 0.
Proof.
  intros N N' L L' P H d D. unfold ext_times. destruct d as [|d]; cbn [nth].
  - pose proof (H 0%nat ltac:(lia)) as Q. destruct a, a'; cbn in *; try lra; congruence.
  - rewrite !app_nth1 by lia. apply H. lia.
Qed.

Lemma temp_same m tmin tmin' tmax tmax' N N' a b a' b' ts tb te te' r r' : legal_time_step ts -> (2 <= m)%nat ->
  temp tmin tmax (N * steps ts) a b ts (pair_list tb) (pair_list te) = Ok r -> temp tmin' tmax' (N' * steps ts) a' b' ts (pair_list tb) (pair_list te') = Ok r' ->
  (m <= N)%nat -> (m <= N')%nat -> List.length a = N -> List.length b = N -> List.length a' = N' -> List.length b' = N' ->
  List.length tmin = N -> List.length tmax = N -> List.length tmin' = N' -> List.length tmax' = N' ->
  same_to m tmin tmin' -> same_to m tmax tmax' -> (forall d, (d < m)%nat -> nth d a 0 = nth d a' 0 /\ nth d b 0 = nth d b' 0) ->
  1440 * INR (m - 1) - IZR ts < nth (m - 1) a 0 -> same_to ((m - 1) * steps ts) r r'.
Proof.
  intros L M2 H H' Mn Mn' La Lb La' Lb' L1 L2 L1' L2' S1 S2 St Late. unfold temp in *. inv_bind H. inv_bind H'. apply Ok_inj in H, H'. subst r r'.
  destruct (steps_mul _ L) as (_ & Sp & Tp).
  assert (Na : a <> []) by (intros ->; cbn in La; lia). assert (Na' : a' <> []) by (intros ->; cbn in La'; lia).
  assert (Nb : b <> []) by (intros ->; cbn in Lb; lia). assert (Nb' : b' <> []) by (intros ->; cbn in Lb'; lia).
  assert (Nt : tmin <> []) by (intros ->; cbn in L1; lia). assert (Nt' : tmin' <> []) by (intros ->; cbn in L1'; lia).
  rewrite times_interleave, values_interleave in E by (congruence || lia). rewrite times_interleave, values_interleave in E0 by (congruence || lia).
  set (X := interleave (ext_times a) (ext_times b)) in *. set (X' := interleave (ext_times a') (ext_times b')) in *.
  assert (LX : List.length X = (2 * (N + 2))%nat) by (unfold X; rewrite interleave_length, ext_length; [lia|rewrite !ext_length; lia]).
  assert (LX' : List.length X' = (2 * (N' + 2))%nat) by (unfold X'; rewrite interleave_length, ext_length; [lia|rewrite !ext_length; lia]).
  destruct (pchip_made _ _ _ E) as (_ & _ & Inc & _ & _). destruct (pchip_made _ _ _ E0) as (_ & _ & Inc' & _ & _).
  unfold PchipInterpolator in E, E0. destruct (_ && _)%bool; [|discriminate]. destruct (_ && _)%bool in E0; [|discriminate]. apply Ok_inj in E, E0. subst v v0.
  apply same_seq; [apply Nat.mul_le_mono_r; lia|apply Nat.mul_le_mono_r; lia|]. intros k K. cbv beta.
  assert (XS : forall i, (i < 2 * S m)%nat -> nth i X 0 = nth i X' 0).
  { apply interleave_same; [rewrite !ext_length; lia|rewrite !ext_length; lia|]. intros d D. split; apply (ext_same m); auto; try lia; intros e Q; now apply St. }
  apply (pchip_same _ _ _ _ _ _ _ (2 * m)); try lia; auto.
  - intros j J. apply XS. lia.
  - intros j J. apply (interleave_same (S m)); [rewrite !extv_length; lia|rewrite !extv_length; lia| |lia]. intros d D. unfold ext_values.
    assert (Bf : day_before tb tmin tmax = day_before tb tmin' tmax').
    { unfold day_before. destruct tb; [reflexivity|]. pose proof (same_nth m _ _ 0%nat 0 S1 ltac:(lia)) as Q1. pose proof (same_nth m _ _ 0%nat 0 S2 ltac:(lia)) as Q2.
      destruct tmin, tmin', tmax, tmax'; cbn in *; try lia; congruence. }
    rewrite Bf. destruct d as [|d]; cbn [nth]; [auto|]. rewrite !app_nth1 by lia. split; [apply (same_nth m)|apply (same_nth m)]; auto; lia.
  - apply Rle_lt_trans with (1440 * INR (m - 1) - IZR ts).
    + now apply step_before.
    + unfold X. destruct (interleave_nth (ext_times a) (ext_times b) m) as [-> _]; [rewrite !ext_length; lia|].
      destruct m as [|m]; [lia|]. unfold ext_times. cbn [nth]. rewrite app_nth1 by lia. replace (S m - 1)%nat with m in * by lia. exact Late.
Qed.

(** ** vapor pressure *)
Lemma vapor_same m vpd vpd' N N' t t' a a' ts r r' : legal_time_step ts -> (2 <= m)%nat ->
  vapor_pressure vpd t a (N * steps ts) ts = Ok r -> vapor_pressure vpd' t' a' (N' * steps ts) ts = Ok r' ->
  (m <= N)%nat -> (m <= N')%nat -> List.length a = N -> List.length a' = N' -> same_to m vpd vpd' -> same_to ((m - 1) * steps ts) t t' ->
  (forall d, (d < N)%nat -> 1440 * INR d - IZR ts < nth d a 0 < 1440 * INR d - IZR ts + 720) ->
  (forall d, (d < N')%nat -> 1440 * INR d - IZR ts < nth d a' 0 < 1440 * INR d - IZR ts + 720) ->
  (forall d, (d < m)%nat -> nth d a 0 = nth d a' 0) ->
  same_to ((m - 1) * steps ts) r r' /\
  ((exists e0 e1, nth_error vpd 0 = Some (Some e0) /\ nth_error vpd 1 = Some (Some e1)) -> exists x, nth_error r (steps ts - 1) = Some (Some x)).
Proof.
  intros L M2 H H' Mn Mn' La La' Sv St A A' E. unfold vapor_pressure in *. cbv zeta in *. inv_bind H. inv_bind H'.
  destruct (steps_mul _ L) as (_ & Sp & Tp). pose proof (steps_mul_R ts L) as Q. assert (Tr : 0 < IZR ts) by (apply IZR_lt; lia).
  unfold interp1d in *. destruct (_ && _)%bool eqn:C in E0; [|discriminate]. destruct (_ && _)%bool in E1; [|discriminate]. apply Ok_inj in E0, E1. subst v v0.
  assert (Inc : forall N a, (forall d, (d < N)%nat -> 1440 * INR d - IZR ts < nth d a 0 < 1440 * INR d - IZR ts + 720) -> forall j, (S j < N)%nat -> nth j a 0 < nth (S j) a 0).
  { clear. intros N a A j J. pose proof (A j ltac:(lia)). pose proof (A (S j) J) as B. rewrite S_INR in B. lra. }
  rewrite La in *. rewrite La' in *. split.
  - eapply same_zipw; [exact H|exact H'| |].
    + apply same_map. unfold svp. now apply same_map.
    + apply same_seq; [apply Nat.mul_le_mono_r; lia|apply Nat.mul_le_mono_r; lia|]. intros k K. cbv beta. apply (interp_same _ _ _ _ _ _ _ (m - 1)); try lia.
      * apply (Inc N a A).
      * apply (Inc N' a' A').
      * intros j J. apply E. lia.
      * intros j J. apply (same_nth m); [now apply same_map|lia].
      * apply Rle_lt_trans with (1440 * INR (m - 1) - IZR ts); [now apply step_before|apply A; lia].
  - intros (e0 & e1 & V0 & V1).
    assert (G : exists x, nth_error (map (fun k => interp1d_eval N (fun k => nth k a 0) (fun k => nth k (map (fun v => fdiv v (Some MBAR_PER_BAR)) vpd) None) (IZR ts * INR k)) (seq 0 (N * steps ts))) (steps ts - 1) = Some (Some x)).
    { rewrite nth_error_map, nth_error_seq0 by nia. cbn [option_map]. unfold interp1d_eval.
      assert (T : IZR ts * INR (steps ts - 1) = 1440 - IZR ts) by (rewrite minus_INR by lia; cbn [INR]; lra). rewrite T.
      pose proof (A 0%nat ltac:(lia)) as A0. pose proof (A 1%nat ltac:(lia)) as A1. cbn [INR] in A0, A1.
      assert (Ll : nth 1 a 0 <= nth (N - 1) a 0).
      { destruct (Nat.eq_dec 1 (N - 1)) as [<-|Z]; [lra|]. pose proof (incr_lt N (fun k => nth k a 0) (Inc N a A) 1 (N - 1) ltac:(lia)) as W. cbv beta in W. lra. }
      assert (F1 : Rltb (1440 - IZR ts) (nth 0 a 0) = false) by (apply Rltb_false; lra).
      assert (F2 : Rltb (nth (N - 1) a 0) (1440 - IZR ts) = false) by (apply Rltb_false; lra). rewrite F1, F2. cbn [orb].
      destruct (Nat.eqb_spec N 1); [lia|].
      destruct (find_same N N (fun k => nth k a 0) (fun k => nth k a 0) (1440 - IZR ts) 1) as [K0 _]; auto; try lia; [apply (Inc N a A)|apply (Inc N a A)|lra|].
      assert (K1 : find_interval (fun k => nth k a 0) (1440 - IZR ts) (N - 2) = 0%nat) by lia. rewrite K1. cbv zeta.
      assert (Y0 : nth 0 (map (fun v => fdiv v (Some MBAR_PER_BAR)) vpd) None = Some (e0 / MBAR_PER_BAR)).
      { apply nth_error_nth. rewrite nth_error_map, V0. cbn [option_map]. f_equal. apply fdiv_some. unfold MBAR_PER_BAR. lra. }
      assert (Y1 : nth 1 (map (fun v => fdiv v (Some MBAR_PER_BAR)) vpd) None = Some (e1 / MBAR_PER_BAR)).
      { apply nth_error_nth. rewrite nth_error_map, V1. cbn [option_map]. f_equal. apply fdiv_some. unfold MBAR_PER_BAR. lra. }
      rewrite Y0, Y1. unfold fsub. cbn [flift2]. rewrite fdiv_some by lra. unfold fmul, fadd. cbn [flift2]. eexists. reflexivity. }
    destruct G as (x & G). unfold zipw in H. destruct (Nat.eqb_spec (List.length (map (fun s => fdiv s (Some MBAR_PER_BAR)) (svp t))) (List.length (map (fun k => interp1d_eval N (fun k => nth k a 0) (fun k => nth k (map (fun v => fdiv v (Some MBAR_PER_BAR)) vpd) None) (IZR ts * INR k)) (seq 0 (N * steps ts))))) as [Lz|]; [|discriminate].
    apply Ok_inj in H. subst r. destruct (nth_error (map (fun s => fdiv s (Some MBAR_PER_BAR)) (svp t)) (steps ts - 1)) as [s|] eqn:Es.
    + erewrite LongwaveProofs.map2_nth; [|exact Es|exact G]. destruct s as [s|]; [|eexists; reflexivity]. destruct (flt (Some s) (Some x)); eexists; reflexivity.
    + apply nth_error_None in Es. rewrite Lz in Es. assert (nth_error (map (fun k => interp1d_eval N (fun k => nth k a 0) (fun k => nth k (map (fun v => fdiv v (Some MBAR_PER_BAR)) vpd) None) (IZR ts * INR k)) (seq 0 (N * steps ts))) (steps ts - 1) = None) by now apply nth_error_None. congruence.
Qed.

(** ** the whole disaggregation *)
Lemma da_same m df df' prm : same_days m df df' -> same_days m (da_df df prm) (da_df df' prm).
Proof.
  intros S. unfold da_df. destruct (_ && _)%bool; [|exact S]. destruct S as [A B D C]. constructor; auto. intros name. cbn [set_col dl_cols].
  rewrite !dict_get_set. destruct (name =? "daylength")%string; [|apply C]. now apply same_const.
Qed.
Lemma da_doy df prm : dl_doy (da_df df prm) = dl_doy df.
Proof. unfold da_df. destruct (_ && _)%bool; reflexivity. Qed.

Lemma col_same m df df' k v v' : same_days m df df' -> col df k = Ok v -> col df' k = Ok v' -> same_to m v v'.
Proof. intros S A B. apply col_get in A, B. pose proof (sd_cols _ _ _ S k) as Q. rewrite A, B in Q. exact Q. Qed.
Lemma opt_same m df df' k : same_days m df df' -> same_opt m (dict_get (dl_cols df) k) (dict_get (dl_cols df') k).
Proof. intros S. exact (sd_cols _ _ _ S k). Qed.

Lemma opt_less m n c c' : (n <= m)%nat -> same_opt m c c' -> same_opt n c c'.
Proof. intros L. destruct c, c'; cbn; auto. intros H. now apply (same_less m). Qed.

Lemma finite_same m l l' v v' : finite l = Ok v -> finite l' = Ok v' -> same_to m l l' -> same_to m v v'.
Proof.
  intros A B S. apply finite_inv in A, B. subst l l'. intros i I. specialize (S i I). rewrite !nth_error_map in S.
  destruct (nth_error v i), (nth_error v' i); cbn in S; congruence.
Qed.

Lemma fills_same p (d d' : dict (list fl)) strict :
  Forall2 (fun x y => fst x = fst y /\ (p <= List.length (snd x))%nat /\ (p <= List.length (snd y))%nat /\ same_to p (snd x) (snd y) /\
                      (In (fst x) strict -> exists i v, (i < p)%nat /\ nth_error (snd x) i = Some (Some v))) d d' ->
  forall name, match dict_get (map (fun nv => (fst nv, fill_gaps (snd nv))) d) name, dict_get (map (fun nv => (fst nv, fill_gaps (snd nv))) d') name with
    | Some v, Some v' => same_to p v v' \/ ~ In name strict /\ level_to p v /\ level_to p v'
    | None, None => True
    | _, _ => False
    end.
Proof.
  intros F name. rewrite !dict_get_map. induction F as [|[k v] [k' v'] d d' (E & L & L' & S & N) F IH]; [exact I|]. cbn [fst snd] in *. subst k'.
  cbn [dict_get]. destruct (String.eqb_spec name k) as [->|Q]; [|exact IH]. cbn [option_map].
  destruct (in_dec string_dec k strict) as [Y|Y].
  - left. apply same_fill; auto.
  - destruct (fill_same_or_level p v v' L L' S); auto.
Qed.

Theorem earlier_steps m df df' prm tiny tb te te' out out' :
  legal_time_step (p_time_step prm) -> p_utc_offset prm = false -> (2 <= m)%nat -> (forall row, In row tiny -> usable row) ->
  (forall k, In k ["t_min"; "t_max"] -> if_present df k /\ if_present df' k) ->
  (exists v e0 e1, dict_get (dl_cols df) "vapor_pressure" = Some v /\ nth_error v 0 = Some (Some e0) /\ nth_error v 1 = Some (Some e1)) ->
  same_days m df df' ->
  disaggregate df prm tiny (pair_list tb) (pair_list te) = Ok out -> disaggregate df' prm tiny (pair_list tb) (pair_list te') = Ok out' ->
  same_outputs ((m - 1) * steps (p_time_step prm)) ["temp"; "vapor_pressure"] out out'.
Proof.
  intros L U M2 Uall Pr (vq & e0 & e1 & V & V0 & V1) S X X' name. set (p := ((m - 1) * steps (p_time_step prm))%nat).
  assert (Us : used_usable tiny (dl_doy df)) by (intros d row _ T; apply Uall; eapply nth_error_In; exact T).
  assert (Us' : used_usable tiny (dl_doy df')) by (intros d row _ T; apply Uall; eapply nth_error_In; exact T). clear Uall.
  apply disaggregate_inv in X. apply disaggregate_inv in X'. cbv zeta in X, X'.
  destruct X as (tpd & sw0 & dayl & sw & a & b & tmn & tmx & tminR & tmaxR & tmp & vpd & vp0 & ck0 & ck & lw & pr0 & pr & Hd & (Cs & Cd & Hs) & Hm & (C1 & C2 & F1 & F2 & Te) & (Cv & Hv) & (Cc & Hc) & Hl & (Cp & Hp) & (Ls & Lt & Lv & Lc & Ll & Lp) & O).
  destruct X' as (tpd' & sw0' & dayl' & sw' & a' & b' & tmn' & tmx' & tminR' & tmaxR' & tmp' & vpd' & vp0' & ck0' & ck' & lw' & pr0' & pr' & Hd' & (Cs' & Cd' & Hs') & Hm' & (C1' & C2' & F1' & F2' & Te') & (Cv' & Hv') & (Cc' & Hc') & Hl' & (Cp' & Hp') & (Ls' & Lt' & Lv' & Lc' & Ll' & Lp') & O').
  rewrite ts_per_day_steps in Hd, Hd' by apply L. apply Ok_inj in Hd, Hd'. subst tpd tpd'.
  set (ts := p_time_step prm) in *. set (q := da_prm prm) in *.
  assert (Lq : legal_time_step (p_time_step q)) by exact L. assert (Uq : p_utc_offset q = false) by exact U.
  pose proof (da_same m df df' prm S) as Sd. pose proof (sd_here _ _ _ S) as Mh. pose proof (sd_there _ _ _ S) as Mt. pose proof (sd_doy _ _ _ S) as Sy.
  destruct (steps_mul _ L) as (_ & Sp & _). fold ts in Sp.
  assert (Pm : (p <= m * steps ts)%nat) by (unfold p; apply Nat.mul_le_mono_r; lia).
  assert (Pn : (p <= List.length (dl_doy df) * steps ts)%nat) by (unfold p; apply Nat.mul_le_mono_r; lia).
  assert (Pn' : (p <= List.length (dl_doy df') * steps ts)%nat) by (unfold p; apply Nat.mul_le_mono_r; lia).
  assert (P0 : (steps ts - 1 < p)%nat) by (unfold p; nia).
  (* times *)
  destruct (times_rise _ _ _ _ _ _ Hm Uq Us) as (La & Lb & Ra). destruct (times_rise _ _ _ _ _ _ Hm' Uq Us') as (La' & Lb' & Ra').
  pose proof (times_same m _ _ _ _ _ _ _ _ _ Hm Hm' Uq Us Us' Sy Mh Mt) as Stm.
  (* lengths of the temperatures *)
  assert (Len : forall k df, if_present df k -> In k ["t_min"; "t_max"] -> forall v w, col (da_df df prm) k = Ok v -> finite v = Ok w -> List.length w = List.length (dl_doy df)).
  { clear. intros k df Q I v w C F. apply col_get in C. apply finite_inv in F. subst v. rewrite <- (map_length (@Some R) w). apply Q. rewrite <- C. symmetry.
    unfold da_df. destruct (_ && _)%bool; [|reflexivity]. cbn [set_col dl_cols]. rewrite dict_get_set. destruct I as [<- | [<- | []]]; reflexivity. }
  destruct (Pr "t_min" (or_introl eq_refl)) as [Pa Pa']. destruct (Pr "t_max" (or_intror (or_introl eq_refl))) as [Pb Pb'].
  pose proof (Len "t_min" df Pa (or_introl eq_refl) _ _ C1 F1) as L1. pose proof (Len "t_max" df Pb (or_intror (or_introl eq_refl)) _ _ C2 F2) as L2.
  pose proof (Len "t_min" df' Pa' (or_introl eq_refl) _ _ C1' F1') as L1'. pose proof (Len "t_max" df' Pb' (or_intror (or_introl eq_refl)) _ _ C2' F2') as L2'.
  pose proof (col_same m _ _ _ _ _ Sd C1 C1') as S1. pose proof (col_same m _ _ _ _ _ Sd C2 C2') as S2.
  (* the columns *)
  assert (Stp : same_to p (map Some tmp) (map Some tmp')).
  { apply same_map. refine (temp_same m tminR tminR' tmaxR tmaxR' _ _ a b a' b' ts tb te te' _ _ L M2 Te Te' Mh Mt La Lb La' Lb' L1 L2 L1' L2' _ _ Stm _).
    - exact (finite_same _ _ _ _ _ F1 F1' S1).
    - exact (finite_same _ _ _ _ _ F2 F2' S2).
    - apply Ra. lia. }
  assert (Vd : vpd = vq). { apply col_get in Cv. unfold da_df in Cv. destruct (_ && _)%bool; cbn [set_col dl_cols] in Cv; [rewrite dict_get_set in Cv; cbn [String.eqb Ascii.eqb Bool.eqb] in Cv|]; congruence. }
  subst vq.
  destruct (vapor_same m vpd vpd' _ _ (map Some tmp) (map Some tmp') a a' ts vp0 vp0' L M2 Hv Hv' Mh Mt La La' (col_same m _ _ _ _ _ Sd Cv Cv') Stp Ra Ra' (fun d D => proj1 (Stm d D))) as [Sv0 Nv].
  destruct (Nv (ex_intro _ e0 (ex_intro _ e1 (conj V0 V1)))) as (x & Nx).
  assert (Sv : same_to p (fill_gaps vp0) (fill_gaps vp0')). { apply same_fill; [rewrite Lv; exact Pn|rewrite Lv'; exact Pn'|exact Sv0|]. exists (steps ts - 1)%nat, x. auto. }
  assert (Sc : same_to (m * steps ts) ck ck') by (apply (constant_same m ck0 ck0' ts q); auto; exact (col_same m _ _ _ _ _ Sd Cc Cc')).
  assert (Ss : same_to (m * steps ts) sw sw').
  { apply (shortwave_same m sw0 sw0' dayl dayl' (dl_doy df) (dl_doy df') tiny q sw sw' Lq Uq Hs Hs'); auto; eapply col_same; eauto. }
  assert (Sl : same_to p lw lw').
  { apply (longwave_same (m - 1) (map Some tmp) (map Some tmp') (fill_gaps vp0) (fill_gaps vp0') ck ck' _ _ q lw lw' Lq Hl Hl'); auto.
    - apply (same_less (m * steps ts)); auto.
    - apply (opt_less m); [lia|]. apply opt_same. exact Sd. }
  assert (Spr : same_to (m * steps ts) pr pr').
  { apply (prec_same m pr0 pr0' tmn tmn' _ _ _ _ ts q pr pr' L Uq Hp Hp'); auto; [eapply col_same; eauto|apply opt_same; exact Sd|apply opt_same; exact Sd]. }
  assert (Lvg : List.length (fill_gaps vp0) = (List.length (dl_doy df) * steps ts)%nat) by (now rewrite fill_gaps_length).
  assert (Lvg' : List.length (fill_gaps vp0') = (List.length (dl_doy df') * steps ts)%nat) by (now rewrite fill_gaps_length).
  set (vp := fill_gaps vp0) in *. set (vp' := fill_gaps vp0') in *.
  assert (Nvp : nth_error vp (steps ts - 1) = Some (Some x)) by (now apply HumidProofs.fill_keeps). clearbody vp vp'.
  set (F := fun (x y : string * list fl) => fst x = fst y /\ (p <= List.length (snd x))%nat /\ (p <= List.length (snd y))%nat /\ same_to p (snd x) (snd y) /\
                      (In (fst x) ["temp"; "vapor_pressure"] -> exists i v, (i < p)%nat /\ nth_error (snd x) i = Some (Some v))).
  assert (One : forall k (u u' : list fl), List.length u = (List.length (dl_doy df) * steps ts)%nat -> List.length u' = (List.length (dl_doy df') * steps ts)%nat -> same_to p u u' ->
     (In k ["temp"; "vapor_pressure"] -> exists i v, (i < p)%nat /\ nth_error u i = Some (Some v)) -> F (k, u) (k, u')).
  { intros k u u' A B C D. unfold F. cbn [fst snd]. rewrite A, B. auto. }
  assert (No : forall k (u : list fl), str_in k ["temp"; "vapor_pressure"] = false -> In k ["temp"; "vapor_pressure"] -> exists i v, (i < p)%nat /\ nth_error u i = Some (Some v)).
  { intros k u A B. apply str_in_spec in B. congruence. }
  assert (Base : Forall2 F
    [("shortwave", sw); ("temp", map Some tmp); ("vapor_pressure", vp); ("rel_humid", map2 relative_humidity1 vp (map Some tmp));
     ("air_pressure", map (fun t => pressure1 t (Some (p_elev prm)) (Some (p_lapse_rate prm))) (map Some tmp));
     ("spec_humid", map2 specific_humidity1 vp (map (fun t => pressure1 t (Some (p_elev prm)) (Some (p_lapse_rate prm))) (map Some tmp))); ("tskc", ck); ("longwave", lw); ("prec", pr)]
    [("shortwave", sw'); ("temp", map Some tmp'); ("vapor_pressure", vp'); ("rel_humid", map2 relative_humidity1 vp' (map Some tmp'));
     ("air_pressure", map (fun t => pressure1 t (Some (p_elev prm)) (Some (p_lapse_rate prm))) (map Some tmp'));
     ("spec_humid", map2 specific_humidity1 vp' (map (fun t => pressure1 t (Some (p_elev prm)) (Some (p_lapse_rate prm))) (map Some tmp'))); ("tskc", ck'); ("longwave", lw'); ("prec", pr')]).
  { assert (Sap : same_to p (map (fun t => pressure1 t (Some (p_elev prm)) (Some (p_lapse_rate prm))) (map Some tmp)) (map (fun t => pressure1 t (Some (p_elev prm)) (Some (p_lapse_rate prm))) (map Some tmp'))) by now apply same_map.
    repeat apply Forall2_cons; try apply Forall2_nil; apply One; try (apply No; reflexivity); try (rewrite ?map2_length, ?map_length by (rewrite ?map_length; lia); rewrite ?map_length; assumption); auto.
    - now apply (same_less (m * steps ts)).
    - intros _. destruct (nth_error tmp (steps ts - 1)) as [t|] eqn:Et; [|apply nth_error_None in Et; unfold fl in *; lia]. exists (steps ts - 1)%nat, t. split; [exact P0|]. now rewrite nth_error_map, Et.
    - intros _. eauto.
    - now apply same_map2.
    - now apply same_map2.
    - now apply (same_less (m * steps ts)).
    - now apply (same_less (m * steps ts)). }
  pose proof (opt_same m _ _ "wind" Sd) as Sw. unfold same_opt in Sw.
  destruct (dict_get (dl_cols (da_df df prm)) "wind") as [w|]; destruct (dict_get (dl_cols (da_df df' prm)) "wind") as [w'|]; try contradiction.
  - destruct O as (wo & W & Lw & ->). destruct O' as (wo' & W' & Lw' & ->). apply fills_same. apply Forall2_app; [exact Base|]. constructor; [|constructor].
    apply One; auto; [|apply No; reflexivity]. apply (same_less (m * steps ts)); auto. apply (constant_same m w w' ts q); auto.
  - subst out out'. apply fills_same. exact Base.
Qed.

(** ** passthrough runs *)
Lemma set_same m df df' k v v' : same_days m df df' -> same_to m v v' -> same_days m (set_col df k v) (set_col df' k v').
Proof.
  intros [A B D C] S. constructor; auto. intros name. cbn [set_col dl_cols]. rewrite !dict_get_set. destruct (name =? k)%string; [exact S|apply C].
Qed.
Lemma mem_same m df df' k : same_days m df df' -> dict_mem (dl_cols df) k = dict_mem (dl_cols df') k.
Proof. intros S. pose proof (sd_cols _ _ _ S k) as Q. unfold dict_mem. destruct (dict_get (dl_cols df) k), (dict_get (dl_cols df') k); auto; contradiction. Qed.

Lemma add_same m df df' k f f' o o' : same_days m df df' -> add_missing k f df = Ok o -> add_missing k f' df' = Ok o' ->
  (forall v v', f df = Ok v -> f' df' = Ok v' -> same_to m v v') -> same_days m o o'.
Proof.
  intros S A B F. unfold add_missing in *. rewrite (mem_same m df df' k S) in A. destruct (dict_mem _ _); [apply Ok_inj in A, B; now subst|].
  inv_bind A. inv_bind B. apply Ok_inj in A, B. subst o o'. apply set_same; auto.
Qed.

Ltac cols := repeat match goal with
  | H : (do _ <- col ?d ?k; _) = Ok _ |- _ => let E := fresh "C" in let a := fresh "c" in destruct (col d k) as [a|] eqn:E; [cbn [bind] in H|discriminate H]
  | H : Ok _ = Ok _ |- _ => apply Ok_inj in H; subst
  end.

Lemma pass_same m df df' prm o o' : same_days m df df' -> passthrough_run df prm = Ok o -> passthrough_run df' prm = Ok o' -> same_days m o o'.
Proof.
  intros S A B. unfold passthrough_run in *. destruct (negb _); [discriminate|]. destruct (negb _) in B; [discriminate|].
  do 5 (inv_bind A). do 5 (inv_bind B).
  assert (S0 : same_days m v v4) by (eapply add_same; [exact S|eassumption|eassumption|]; intros ? ? Q1 Q2; cbv beta in Q1, Q2; cols; apply same_map2; eapply col_same; eauto).
  assert (S1 : same_days m v0 v5) by (eapply add_same; [exact S0|eassumption|eassumption|]; intros ? ? Q1 Q2; cbv beta in Q1, Q2; cols; apply same_map3; eapply col_same; eauto).
  assert (S2 : same_days m v1 v6) by (eapply add_same; [exact S1|eassumption|eassumption|]; intros ? ? Q1 Q2; cbv beta in Q1, Q2; cols; apply same_map; eapply col_same; eauto).
  assert (S3 : same_days m v2 v7) by (eapply add_same; [exact S2|eassumption|eassumption|]; intros ? ? Q1 Q2; cbv beta in Q1, Q2; cols; apply same_map3; eapply col_same; eauto).
  assert (S4 : same_days m v3 v8) by (eapply add_same; [exact S3|eassumption|eassumption|]; intros ? ? Q1 Q2; cbv beta in Q1, Q2; cols; apply same_map2; [apply same_map3|]; eapply col_same; eauto).
  eapply add_same; [exact S4|exact A|exact B|]. intros ? ? Q1 Q2; cbv beta in Q1, Q2; cols; apply same_map; eapply col_same; eauto.
Qed.

Lemma add_keeps k f df o j v : add_missing k f df = Ok o -> dict_get (dl_cols df) j = Some v -> dict_get (dl_cols o) j = Some v.
Proof.
  intros A G. unfold add_missing in A. unfold dict_mem in A. destruct (dict_get (dl_cols df) k) eqn:E; [apply Ok_inj in A; now subst|].
  inv_bind A. apply Ok_inj in A. subst o. cbn [set_col dl_cols]. rewrite dict_get_set. destruct (String.eqb_spec j k) as [->|]; [congruence|auto].
Qed.
Lemma pass_keeps df prm o j v : passthrough_run df prm = Ok o -> dict_get (dl_cols df) j = Some v -> dict_get (dl_cols o) j = Some v.
Proof.
  intros A G. unfold passthrough_run in A. destruct (negb _); [discriminate|]. do 5 (inv_bind A).
  repeat (eapply add_keeps; [eassumption|]). exact G.
Qed.

Theorem earlier_cell fuel fuel' m prm c c' out out' q q' :
  p_method prm = "passthrough" -> legal_time_step (p_time_step prm) -> (p_time_step prm < 1440)%Z -> p_utc_offset prm = false -> (2 <= m)%nat ->
  -90 <= cd_lat c <= 90 -> (forall k, In k ["t_min"; "t_max"] -> if_present (cd_daily c) k /\ if_present (cd_daily c') k) ->
  (exists v e0 e1, dict_get (dl_cols (cd_daily c)) "vapor_pressure" = Some v /\ nth_error v 0 = Some (Some e0) /\ nth_error v 1 = Some (Some e1)) ->
  same_cell m c c' -> run_cell fuel prm c = Some (Ok out, q) -> run_cell fuel' prm c' = Some (Ok out', q') ->
  same_outputs ((m - 1) * steps (p_time_step prm)) ["temp"; "vapor_pressure"] out out'.
Proof.
  intros Pm L Lt U M2 Hl Pr (vq & e0 & e1 & V & V0 & V1) [S1 S2 S3 S4 S5 S] X X'.
  destruct (run_cell_inv _ _ _ _ _ X) as (g & dl & po & tt_ & df & G & D & P & T & M & Sub & _).
  destruct (run_cell_inv _ _ _ _ _ X') as (g' & dl' & po' & tt' & df' & G' & D' & P' & T' & M' & Sub' & _).
  destruct (Sub Lt) as (a & b & A & B & Y). destruct (Sub' Lt) as (a' & b' & A' & B' & Y').
  assert (g' = g) by (apply Ok_inj; congruence). subst g'.
  assert (Lc : located prm c' = located prm c) by (unfold located; congruence). rewrite Lc in *.
  assert (a' = a) by (apply Some_inj, Ok_inj; congruence). assert (b' = b) by (apply Some_inj, Ok_inj; congruence). subst a' b'.
  pose proof (sd_doy _ _ _ S) as Sy.
  assert (By : forall t u u', by_yday t (dl_doy (cd_daily c)) = Ok u -> by_yday t (dl_doy (cd_daily c')) = Ok u' -> same_to m u u').
  { intros t u u' Q Q'. unfold by_yday in *. eapply same_mapM; [exact Q|exact Q'|exact Sy|reflexivity]. }
  assert (Sw : same_days m (with_sun (cd_daily c) dl po tt_) (with_sun (cd_daily c') dl' po' tt')) by (unfold with_sun; repeat apply set_same; eauto).
  assert (Rp : forall f d o, run_method f d (located prm c) = Some (Ok o) -> passthrough_run d (located prm c) = Ok o).
  { intros f d o Q. unfold run_method in Q. change (p_method (located prm c)) with (p_method prm) in Q. rewrite Pm in Q. cbn in Q. now injection Q. }
  pose proof (Rp _ _ _ M) as R1. pose proof (Rp _ _ _ M') as R2.
  pose proof (pass_same m _ _ _ _ _ Sw R1 R2) as So.
  destruct (geom_rows _ _ _ _ Hl G) as (_ & _ & Us).
  destruct (method_keeps _ _ _ _ M) as (Doy & _). destruct (method_keeps _ _ _ _ M') as (Doy' & _).
  assert (Ip : forall f d sx sy sz o, run_method f (with_sun d sx sy sz) (located prm c) = Some (Ok o) -> dl_doy o = dl_doy d -> forall k, In k ["t_min"; "t_max"] -> if_present d k -> if_present o k).
  { clear. intros f d sx sy sz o Q Do k I Ih v Gv. rewrite Do. apply Ih. rewrite <- Gv. symmetry. rewrite (method_forcing _ _ _ _ Q).
    - rewrite sun_get. destruct I as [<- | [<- | []]]; reflexivity.
    - destruct I as [<- | [<- | []]]; cbn; intuition discriminate. }
  apply (earlier_steps m df df' (located prm c) (tiny_rad_fract g) (Some (a, b)) None None out out' L U M2 Us); auto.
  - intros k I. destruct (Pr k I) as [I1 I2]. split; [exact (Ip _ _ _ _ _ _ M Doy k I I1)|exact (Ip _ _ _ _ _ _ M' Doy' k I I2)].
  - exists vq, e0, e1. split; [|auto]. apply (pass_keeps _ _ _ _ _ R1). rewrite sun_get. exact V.
Qed.

(** ** with the UTC shift *)
Lemma last_fl (x : list fl) : x <> [] -> nth (List.length x - 1) x None = last x None.
Proof.
  induction x as [|y x _] using rev_ind; [congruence|]. intros _. rewrite last_last, app_length. cbn [List.length].
  rewrite app_nth2 by lia. now replace (List.length x + 1 - 1 - List.length x)%nat with 0%nat by lia.
Qed.

Theorem wind_wraps x ts prm : legal_time_step ts -> p_utc_offset prm = true -> x <> [] -> (-1440 <= utc_minutes (p_lon prm) <= - ts)%Z ->
  exists out, wind x ts prm = Ok out /\ nth_error out 0 = Some (last x None).
Proof.
  intros L U N B. destruct (PrecExamples.wind_tskc_utc x ts prm L U) as (out & W & _ & Lo & F & _). exists out. split; [exact W|].
  destruct (steps_mul _ L) as (_ & Sp & Tp). assert (Lx : (0 < List.length x)%nat) by (destruct x; [congruence|cbn; lia]).
  rewrite F by (rewrite Lo; nia). f_equal.
  transitivity (fmean (repeat (last x None) (Z.to_nat ts))); [|apply WindProofs.fmean_repeat; lia]. f_equal.
  assert (C : forall j, (j < Z.to_nat ts)%nat -> nth (Z.to_nat ((Z.of_nat (0 * Z.to_nat ts + j) + utc_minutes (p_lon prm)) mod (Z.of_nat (List.length x) * 1440) / 1440)) x None = last x None).
  { intros j J. assert (Q : ((Z.of_nat (0 * Z.to_nat ts + j) + utc_minutes (p_lon prm)) mod (Z.of_nat (List.length x) * 1440)
      = Z.of_nat (List.length x) * 1440 + (Z.of_nat j + utc_minutes (p_lon prm)))%Z).
    { symmetry. apply (Z.mod_unique _ _ (-1)); [left|]; lia. }
    rewrite Q. assert (Q2 : ((Z.of_nat (List.length x) * 1440 + (Z.of_nat j + utc_minutes (p_lon prm))) / 1440 = Z.of_nat (List.length x) - 1)%Z).
    { symmetry. apply (Z.div_unique _ _ _ (1440 + (Z.of_nat j + utc_minutes (p_lon prm)))%Z); [left|]; lia. }
    rewrite Q2. replace (Z.to_nat (Z.of_nat (List.length x) - 1)) with (List.length x - 1)%nat by lia.
    now apply last_fl. }
  clear - C. revert C. generalize (Z.to_nat ts). intros n C. apply (nth_ext _ _ (last x None) (last x None)); [now rewrite map_length, seq_length, repeat_length|].
  intros i I. rewrite map_length, seq_length in I. rewrite nth_repeat. erewrite nth_error_nth; [|rewrite nth_error_map, nth_error_seq0 by exact I; reflexivity]. apply C.
  exact I.
Qed.

(** ** examples *)
Lemma windy_forcing w p : p_prec_type p = "uniform" -> good_forcing (cd_daily (windy_cell w)) p.
Proof.
  intros Pt. constructor.
  - discriminate.
  - intros k [<-|[<-|[<-|[]]]]; lia.
  - exists [10; 12; 11]. split; reflexivity.
  - exists [20; 25; 22]. split; reflexivity.
  - intros k [<-|[<-|[<-|[<-|[]]]]]; eexists; split; reflexivity.
  - intros k I v V. cbn [In] in I. repeat (destruct I as [<-|I]; [cbn in V; try discriminate V; injection V as <-; reflexivity|]). destruct I.
  - intros I. exfalso. rewrite Pt in I. cbn in I. destruct I as [I|[I|[]]]; discriminate I.
Qed.

Lemma windy_runs fuel u w : exists out q, run_cell fuel (with_utc u (demo_method "passthrough" 60)) (windy_cell w) = Some (Ok out, q).
Proof.
  destruct (equator_ok 0 0.0065) as [g G].
  refine (pass_cell_total fuel (with_utc u (demo_method "passthrough" 60)) (windy_cell w) g 9 22 eq_refl _ _ _ _ G _ _).
  - destruct (demo_options "passthrough" 60 legal_60). constructor; assumption.
  - apply windy_forcing. reflexivity.
  - eexists. split; reflexivity.
  - cbn [cd_lat windy_cell]. lra.
  - reflexivity.
  - reflexivity.
Qed.

Lemma windy_same w w' : same_cell 2 (windy_cell w) (windy_cell w').
Proof.
  constructor; try reflexivity. constructor; try (cbn; lia).
  - intros i I. reflexivity.
  - intros name. cbn [windy_cell cd_daily dl_cols dict_get].
    repeat (destruct (String.eqb name _); [intros [|[|i]] I; [reflexivity|reflexivity|lia]|]). exact I.
Qed.

Lemma windy_present w : forall k, In k ["t_min"; "t_max"] -> if_present (cd_daily (windy_cell w)) k.
Proof. intros k [<-|[<-|[]]] v V; cbn in V; injection V as <-; reflexivity. Qed.

Lemma west_minutes : utc_minutes (remainder360 (Ropp 90)) = (-360)%Z.
Proof.
  rewrite (UtcDayProofs.remainder_is (Ropp 90) 0) by lra. unfold utc_minutes, DEG_PER_REV.
  etransitivity; [|apply (Rtrunc_IZR (-360))]. f_equal.
  rewrite INR_IZR_INZ. change (Z.of_nat MIN_PER_DAY) with 1440%Z. lra.
Qed.

Lemma windy_wraps fuel w out q : run_cell fuel (with_utc true (demo_method "passthrough" 60)) (windy_cell w) = Some (Ok out, q) ->
  exists v, dict_get out "wind" = Some v /\ nth_error v 0 = Some (Some w) /\ nth_error v 6 = Some (Some 3).
Proof.
  intros H. destruct (cell_forcing fuel (with_utc true (demo_method "passthrough" 60)) (windy_cell w) out q eq_refl H) as (g & df & s1 & s2 & G & Doy & Keep & A & B & X).
  apply disaggregate_inv in X. cbv zeta in X.
  destruct X as (tpd & ? & ? & sw & tTmin & tTmax & tmn & tmx & tminR & tmaxR & tmp & ? & vp0 & ? & ck & lw & P & pr & Hd & _ & _ & _ & _ & _ & _ & _ & _ & O).
  rewrite Keep in O by unt. cbn [windy_cell cd_daily dl_cols dict_get String.eqb Ascii.eqb Bool.eqb] in O. destruct O as (wo & W & _ & ->).
  set (p := da_prm (located (with_utc true (demo_method "passthrough" 60)) (windy_cell w))) in *.
  change (wind (map Some [3; 3; w]) 60 p = Ok wo) in W.
  assert (Lg : legal_time_step 60) by exact legal_60. assert (M : utc_minutes (p_lon p) = (-360)%Z) by exact west_minutes.
  destruct (PrecExamples.wind_tskc_utc (map Some [3; 3; w]) 60 p Lg eq_refl) as (wo' & W' & _ & Lo & F & _).
  assert (wo' = wo) by (apply Ok_inj; congruence). subst wo'. rewrite M in F. change (steps 60) with 24%nat in Lo. cbn [List.length map Nat.mul] in Lo.
  exists (fill_gaps wo). split; [reflexivity|]. split; apply HumidProofs.fill_keeps.
  - destruct (wind_wraps (map Some [3; 3; w]) 60 p Lg eq_refl ltac:(discriminate) ltac:(rewrite M; lia)) as (o & Wo & N0).
    assert (o = wo) by (apply Ok_inj; congruence). subst o. exact N0.
  - rewrite F by (rewrite Lo; cbn; lia). f_equal.
    transitivity (fmean (repeat (Some 3) 60)); [reflexivity|]. apply WindProofs.fmean_repeat. lia.
Qed.

Theorem later_refuted : ~ forall fuel fuel' m prm c c' out out' q q',
  p_method prm = "passthrough" -> legal_time_step (p_time_step prm) -> (p_time_step prm < 1440)%Z -> (2 <= m)%nat ->
  -90 <= cd_lat c <= 90 -> (forall k, In k ["t_min"; "t_max"] -> if_present (cd_daily c) k /\ if_present (cd_daily c') k) ->
  (exists v e0 e1, dict_get (dl_cols (cd_daily c)) "vapor_pressure" = Some v /\ nth_error v 0 = Some (Some e0) /\ nth_error v 1 = Some (Some e1)) ->
  same_cell m c c' -> run_cell fuel prm c = Some (Ok out, q) -> run_cell fuel' prm c' = Some (Ok out', q') ->
  same_outputs ((m - 1) * steps (p_time_step prm)) ["temp"; "vapor_pressure"] out out'.
Proof.
  intros H. destruct (windy_runs 0 true 4) as (o & q & R). destruct (windy_runs 0 true 5) as (o' & q' & R').
  pose proof (H 0%nat 0%nat 2%nat (with_utc true (demo_method "passthrough" 60)) (windy_cell 4) (windy_cell 5) o o' q q' eq_refl legal_60 eq_refl (le_n 2) ltac:(cbn [cd_lat windy_cell]; lra)
    (fun k I => conj (windy_present 4 k I) (windy_present 5 k I))
    (ex_intro _ _ (ex_intro _ 900 (ex_intro _ 950 (conj eq_refl (conj eq_refl eq_refl))))) (windy_same 4 5) R R' "wind") as Q. cbv beta in Q.
  destruct (windy_wraps _ _ _ _ R) as (v & V & V0 & V6). destruct (windy_wraps _ _ _ _ R') as (v' & V' & V0' & V6').
  rewrite V, V' in Q. change ((2 - 1) * steps (p_time_step (with_utc true (demo_method "passthrough" 60))))%nat with 24%nat in Q.
  destruct Q as [Q|(_ & (x & Q) & _)].
  - specialize (Q 0%nat ltac:(lia)). assert (E : Some (Some 4) = Some (Some 5)) by congruence. injection E as E. lra.
  - pose proof (Q 0%nat ltac:(lia)) as Q0. pose proof (Q 6%nat ltac:(lia)) as Q6. assert (E : Some (Some 4) = Some (Some 3)) by congruence. injection E as E. lra.
Qed.

Theorem windy_case w w' : (exists out q, run_cell 0 (with_utc false (demo_method "passthrough" 60)) (windy_cell w) = Some (Ok out, q)) /\
  same_cell 2 (windy_cell w) (windy_cell w') /\ nth_error (map Some [3; 3; w]) 2 = Some (Some w) /\
  dict_get (dl_cols (cd_daily (windy_cell w))) "wind" = Some (map Some [3; 3; w]).
Proof. split; [exact (windy_runs 0 false w)|]. split; [apply windy_same|]. split; reflexivity. Qed.
