(** C125: disaggregation and passthrough runs of records that agree from a day on. *)
From Coq Require Import ZArith Reals String List Bool Arith Lia Lra Psatz.
From Verif Require Import Model.Py Model.Fl Model.Np Model.Constants Model.Params Model.Physics Model.Interp Model.Disagg Model.Mtclim Model.Cell
  Spec.TimeSpec Spec.SeriesSpec Spec.ShortSpec Spec.TempSpec Spec.FrameSpec Spec.CellSpec Spec.EarlierSpec Spec.LaterSpec
  Proofs.Base Proofs.RBase Proofs.ArrayProofs Proofs.PrecProofs Proofs.DisaggProofs Proofs.ShortwaveProofs Proofs.PchipProofs Proofs.StateProofs Proofs.LongwaveProofs Proofs.UtcProofs
  Proofs.TempProofs Proofs.FrameProofs Proofs.CellProofs Proofs.CellTotal Proofs.CellOutputs Proofs.UtcDayProofs Proofs.SolarExamples Proofs.EarlierProofs Proofs.EarlierRuns
  Proofs.LaterProofs.
Import ListNotations.
Local Open Scope string_scope.
Local Open Scope list_scope.
Local Open Scope R_scope.

(** ** times of the extremes *)
Lemma times_peak tiny doy ts prm a b : set_min_max_hour tiny (map (fun d => d - 1)%nat doy) (List.length doy) ts prm = Ok (a, b) ->
  p_utc_offset prm = false -> p_tmax_frac prm <= 1 -> used_usable tiny doy ->
  forall d, (d < List.length doy)%nat -> nth d b 0 < 1440 * INR (S d) - IZR ts.
Proof.
  intros H U Fr Us. destruct (times_inv _ _ _ _ _ _ H U Us) as (rows & M & La & Lb & Lr & F).
  intros d D. destruct (nth_error rows d) as [row|] eqn:E; [|apply nth_error_None in E; lia].
  destruct (F d row E) as (Ur & _ & B). pose proof (rise_set row Ur) as (X & X' & Y & _). rewrite B, S_INR.
  assert (p_tmax_frac prm * (set_time row - rise_time row) <= 1 * (set_time row - rise_time row)) by (apply Rmult_le_compat_r; lra). lra.
Qed.

Lemma times_from m tiny doy doy' ts prm a b a' b' :
  set_min_max_hour tiny (map (fun d => d - 1)%nat doy) (List.length doy) ts prm = Ok (a, b) ->
  set_min_max_hour tiny (map (fun d => d - 1)%nat doy') (List.length doy') ts prm = Ok (a', b') ->
  p_utc_offset prm = false -> used_usable tiny doy -> used_usable tiny doy' -> same_from m doy doy' ->
  forall d, (m <= d < List.length doy)%nat -> nth d a 0 = nth d a' 0 /\ nth d b 0 = nth d b' 0.
Proof.
  intros H H' U Us Us' S d D.
  destruct (times_inv _ _ _ _ _ _ H U Us) as (rows & M & _ & _ & Lr & F). destruct (times_inv _ _ _ _ _ _ H' U Us') as (rows' & M' & _ & _ & Lr' & F').
  assert (Sr : same_from m rows rows') by (eapply from_mapM; [exact M|exact M'|now apply from_map|reflexivity]).
  destruct (nth_error rows d) as [row|] eqn:E; [|apply nth_error_None in E; lia].
  pose proof E as E'. rewrite (proj2 Sr d (proj1 D)) in E'. destruct (F d row E) as (_ & -> & ->). destruct (F' d row E') as (_ & -> & ->). auto.
Qed.

Lemma step_after ts m k : legal_time_step ts -> (S m * steps ts - 1 <= k)%nat -> 1440 * INR (S m) - IZR ts <= IZR ts * INR k.
Proof.
  intros L K. destruct (steps_mul _ L) as (_ & _ & Tp). pose proof (steps_mul_R ts L) as Q. assert (Tr : 0 < IZR ts) by (apply IZR_lt; lia).
  assert (Kb : (S m * steps ts <= S k)%nat) by lia. apply le_INR in Kb. rewrite (S_INR k), mult_INR in Kb.
  apply (Rmult_le_compat_l (IZR ts)) in Kb; [|lra]. replace (IZR ts * (INR (S m) * INR (steps ts))) with (INR (S m) * (INR (steps ts) * IZR ts)) in Kb by ring.
  rewrite Q in Kb. lra.
Qed.

(** ** temperature *)
Lemma interleave_from p a b a' b' : List.length a = List.length b -> List.length a' = List.length b' ->
  (forall d, (p <= d)%nat -> nth d a 0 = nth d a' 0 /\ nth d b 0 = nth d b' 0) ->
  forall i, (2 * p <= i)%nat -> nth i (interleave a b) 0 = nth i (interleave a' b') 0.
Proof.
  intros L L' H i I. destruct (Nat.Even_or_Odd i) as [[q ->]|[q ->]].
  - destruct (interleave_nth a b q L) as [-> _]. destruct (interleave_nth a' b' q L') as [-> _]. apply H. lia.
  - destruct (interleave_nth a b q L) as [_ ->]. destruct (interleave_nth a' b' q L') as [_ ->]. apply H. lia.
Qed.

Lemma wrap_from m N (a a' : list R) x x' y y' : List.length a = N -> List.length a' = N -> y = y' -> (forall d, (m <= d < N)%nat -> nth d a 0 = nth d a' 0) ->
  forall d, (S m <= d)%nat -> nth d (x :: a ++ [y]) 0 = nth d (x' :: a' ++ [y']) 0.
Proof.
  intros L L' <- H [|d] D; [lia|]. cbn [nth]. destruct (Nat.lt_ge_cases d N) as [Q|Q].
  - rewrite !app_nth1 by lia. apply H. lia.
  - rewrite !app_nth2 by lia. now rewrite L, L'.
Qed.

Lemma last_from m N (a a' : list R) : List.length a = N -> List.length a' = N -> (m < N)%nat -> (forall d, (m <= d < N)%nat -> nth d a 0 = nth d a' 0) -> last a 0 = last a' 0.
Proof.
  intros L L' M H. rewrite !last_is_nth by (intros ->; cbn in *; lia). rewrite L, L'. apply H. lia.
Qed.

Lemma temp_from m tmin tmin' tmax tmax' N a b a' b' ts tb tb' te r r' : legal_time_step ts -> (S m < N)%nat ->
  temp tmin tmax (N * steps ts) a b ts (pair_list tb) (pair_list te) = Ok r -> temp tmin' tmax' (N * steps ts) a' b' ts (pair_list tb') (pair_list te) = Ok r' ->
  List.length a = N -> List.length b = N -> List.length a' = N -> List.length b' = N ->
  List.length tmin = N -> List.length tmax = N -> List.length tmin' = N -> List.length tmax' = N ->
  same_from m tmin tmin' -> same_from m tmax tmax' -> (forall d, (m <= d < N)%nat -> nth d a 0 = nth d a' 0 /\ nth d b 0 = nth d b' 0) ->
  nth m b 0 < 1440 * INR (S m) - IZR ts -> same_from (S m * steps ts - 1) r r'.
Proof.
  intros L M2 H H' La Lb La' Lb' L1 L2 L1' L2' S1 S2 St Late. unfold temp in *. inv_bind H. inv_bind H'. apply Ok_inj in H, H'. subst r r'.
  assert (Na : a <> []) by (intros ->; cbn in La; lia). assert (Na' : a' <> []) by (intros ->; cbn in La'; lia).
  assert (Nt : tmin <> []) by (intros ->; cbn in L1; lia). assert (Nt' : tmin' <> []) by (intros ->; cbn in L1'; lia).
  rewrite times_interleave, values_interleave in E by (congruence || lia). rewrite times_interleave, values_interleave in E0 by (congruence || lia).
  set (X := interleave (ext_times a) (ext_times b)) in *. set (X' := interleave (ext_times a') (ext_times b')) in *.
  assert (LX : List.length X = (2 * (N + 2))%nat) by (unfold X; rewrite interleave_length, ext_length; [lia|rewrite !ext_length; lia]).
  assert (LX' : List.length X' = (2 * (N + 2))%nat) by (unfold X'; rewrite interleave_length, ext_length; [lia|rewrite !ext_length; lia]).
  unfold PchipInterpolator in E, E0. destruct (_ && _)%bool; [|discriminate]. destruct (_ && _)%bool in E0; [|discriminate]. apply Ok_inj in E, E0. subst v v0.
  apply from_seq. intros k [K _]. cbv beta. rewrite LX, LX'.
  assert (Va : forall d, (m <= d < N)%nat -> nth d tmin 0 = nth d tmin' 0) by (intros d D; now apply (from_nth m)).
  assert (Vb : forall d, (m <= d < N)%nat -> nth d tmax 0 = nth d tmax' 0) by (intros d D; now apply (from_nth m)).
  apply (pchip_from _ _ _ _ _ _ (2 * S m)); [lia| | |].
  - intros j [J _]. unfold X, X'. apply (interleave_from (S m)); [rewrite !ext_length; lia|rewrite !ext_length; lia| |lia].
    intros d D. unfold ext_times. split; apply (wrap_from m N); auto; try (intros e Q; now apply St); f_equal; apply (last_from m N); auto; try lia; intros e Q; now apply St.
  - intros j [J _]. apply (interleave_from (S m)); [rewrite !extv_length; lia|rewrite !extv_length; lia| |lia].
    intros d D. unfold ext_values, day_after. split; apply (wrap_from m N); auto; destruct te as [[u w]|]; cbn [fst snd]; auto; apply (last_from m N); auto; lia.
  - unfold X. replace (S (2 * S m)) with (2 * S m + 1)%nat by lia. destruct (interleave_nth (ext_times a) (ext_times b) (S m)) as [_ ->]; [rewrite !ext_length; lia|].
    unfold ext_times. cbn [nth]. rewrite app_nth1 by lia. pose proof (step_after ts m k L K). lra.
Qed.

(** ** vapor pressure *)
Lemma vapor_from m vpd vpd' N t t' a a' ts r r' : legal_time_step ts -> (S m < N)%nat ->
  vapor_pressure vpd t a (N * steps ts) ts = Ok r -> vapor_pressure vpd' t' a' (N * steps ts) ts = Ok r' ->
  List.length a = N -> List.length a' = N -> same_from m vpd vpd' -> same_from (S m * steps ts - 1) t t' ->
  (forall d, (d < N)%nat -> 1440 * INR d - IZR ts < nth d a 0 < 1440 * INR d - IZR ts + 720) ->
  (forall d, (d < N)%nat -> 1440 * INR d - IZR ts < nth d a' 0 < 1440 * INR d - IZR ts + 720) ->
  (forall d, (m <= d < N)%nat -> nth d a 0 = nth d a' 0) ->
  same_from (S m * steps ts - 1) r r' /\
  ((exists e0 e1, nth_error vpd m = Some (Some e0) /\ nth_error vpd (S m) = Some (Some e1)) -> exists x, nth_error r (S m * steps ts - 1) = Some (Some x)).
Proof.
  intros L M2 H H' La La' Sv St A A' E. unfold vapor_pressure in *. cbv zeta in *. inv_bind H. inv_bind H'.
  destruct (steps_mul _ L) as (_ & Sp & Tp). pose proof (steps_mul_R ts L) as Q. assert (Tr : 0 < IZR ts) by (apply IZR_lt; lia).
  unfold interp1d in *. destruct (_ && _)%bool eqn:C in E0; [|discriminate]. destruct (_ && _)%bool in E1; [|discriminate]. apply Ok_inj in E0, E1. subst v v0.
  assert (Inc : forall a, (forall d, (d < N)%nat -> 1440 * INR d - IZR ts < nth d a 0 < 1440 * INR d - IZR ts + 720) -> forall j, (S j < N)%nat -> nth j a 0 < nth (S j) a 0).
  { clear. intros a A j J. pose proof (A j ltac:(lia)). pose proof (A (S j) J) as B. rewrite S_INR in B. lra. }
  rewrite La in *. rewrite La' in *. split.
  - eapply from_zipw; [exact H|exact H'| |].
    + apply from_map. unfold svp. now apply from_map.
    + apply from_seq. intros k [K _]. cbv beta. apply (interp_from _ _ _ _ _ _ m); try lia.
      * apply (Inc a A).
      * apply (Inc a' A').
      * intros j J. now apply E.
      * intros j J. apply (from_nth m); [now apply from_map|lia].
      * pose proof (step_after ts m k L K) as W. rewrite S_INR in W. pose proof (A m ltac:(lia)). lra.
  - intros (e0 & e1 & V0 & V1). set (p := (S m * steps ts - 1)%nat).
    assert (Sm : (1 <= S m * steps ts <= N * steps ts)%nat) by nia.
    assert (T : IZR ts * INR p = 1440 * INR (S m) - IZR ts).
    { unfold p. rewrite minus_INR by lia. rewrite mult_INR. change (INR 1) with 1. rewrite <- Q. ring. }
    assert (G : exists x, nth_error (map (fun k => interp1d_eval N (fun k => nth k a 0) (fun k => nth k (map (fun v => fdiv v (Some MBAR_PER_BAR)) vpd) None) (IZR ts * INR k)) (seq 0 (N * steps ts))) p = Some (Some x)).
    { rewrite nth_error_map, nth_error_seq0 by (unfold p; lia). cbn [option_map]. unfold interp1d_eval. rewrite T.
      pose proof (A m ltac:(lia)) as A0. pose proof (A (S m) ltac:(lia)) as A1. pose proof (S_INR m) as Si.
      assert (Ll : nth (S m) a 0 <= nth (N - 1) a 0).
      { destruct (Nat.eq_dec (S m) (N - 1)) as [<-|Z]; [lra|]. pose proof (incr_lt N (fun k => nth k a 0) (Inc a A) (S m) (N - 1) ltac:(lia)) as W. cbv beta in W. lra. }
      assert (Lf : nth 0 a 0 <= nth m a 0).
      { destruct (Nat.eq_dec m 0) as [->|Z]; [lra|]. pose proof (incr_lt N (fun k => nth k a 0) (Inc a A) 0 m ltac:(lia)) as W. cbv beta in W. lra. }
      assert (F1 : Rltb (1440 * INR (S m) - IZR ts) (nth 0 a 0) = false) by (apply Rltb_false; lra).
      assert (F2 : Rltb (nth (N - 1) a 0) (1440 * INR (S m) - IZR ts) = false) by (apply Rltb_false; lra). rewrite F1, F2. cbn [orb].
      destruct (Nat.eqb_spec N 1); [lia|].
      destruct (find_same N N (fun k => nth k a 0) (fun k => nth k a 0) (1440 * INR (S m) - IZR ts) (S m)) as [K0 _]; auto; try lia; try apply (Inc a A); try lra.
      destruct (find_from (fun k => nth k a 0) (fun k => nth k a 0) (1440 * INR (S m) - IZR ts) m (N - 2)) as [K2 _]; auto; try lia; try lra.
      assert (K1 : find_interval (fun k => nth k a 0) (1440 * INR (S m) - IZR ts) (N - 2) = m) by lia. rewrite K1. cbv zeta.
      assert (Y0 : nth m (map (fun v => fdiv v (Some MBAR_PER_BAR)) vpd) None = Some (e0 / MBAR_PER_BAR)).
      { apply nth_error_nth. rewrite nth_error_map, V0. cbn [option_map]. f_equal. apply fdiv_some. unfold MBAR_PER_BAR. lra. }
      assert (Y1 : nth (S m) (map (fun v => fdiv v (Some MBAR_PER_BAR)) vpd) None = Some (e1 / MBAR_PER_BAR)).
      { apply nth_error_nth. rewrite nth_error_map, V1. cbn [option_map]. f_equal. apply fdiv_some. unfold MBAR_PER_BAR. lra. }
      rewrite Y0, Y1. unfold fsub. cbn [flift2]. rewrite fdiv_some by lra. unfold fmul, fadd. cbn [flift2]. eexists. reflexivity. }
    destruct G as (x & G). unfold zipw in H. destruct (Nat.eqb_spec (List.length (map (fun s => fdiv s (Some MBAR_PER_BAR)) (svp t))) (List.length (map (fun k => interp1d_eval N (fun k => nth k a 0) (fun k => nth k (map (fun v => fdiv v (Some MBAR_PER_BAR)) vpd) None) (IZR ts * INR k)) (seq 0 (N * steps ts))))) as [Lz|]; [|discriminate].
    apply Ok_inj in H. subst r. destruct (nth_error (map (fun s => fdiv s (Some MBAR_PER_BAR)) (svp t)) p) as [s|] eqn:Es.
    + erewrite LongwaveProofs.map2_nth; [|exact Es|exact G]. destruct s as [s|]; [|eexists; reflexivity]. destruct (flt (Some s) (Some x)); eexists; reflexivity.
    + apply nth_error_None in Es. rewrite Lz in Es. assert (nth_error (map (fun k => interp1d_eval N (fun k => nth k a 0) (fun k => nth k (map (fun v => fdiv v (Some MBAR_PER_BAR)) vpd) None) (IZR ts * INR k)) (seq 0 (N * steps ts))) p = None) by now apply nth_error_None. congruence.
Qed.

(** ** the whole disaggregation *)
Lemma da_from m df df' prm : late_days m df df' -> late_days m (da_df df prm) (da_df df' prm).
Proof.
  intros S. unfold da_df. destruct (_ && _)%bool; [|exact S]. destruct S as [D C]. constructor; auto. intros name. cbn [set_col dl_cols].
  rewrite !dict_get_set. destruct (name =? "daylength")%string; [|apply C]. rewrite (proj1 D). apply from_refl.
Qed.

Lemma col_from m df df' k v v' : late_days m df df' -> col df k = Ok v -> col df' k = Ok v' -> same_from m v v'.
Proof. intros S A B. apply col_get in A, B. pose proof (ld_cols _ _ _ S k) as Q. rewrite A, B in Q. exact Q. Qed.
Lemma opt_from m df df' k : late_days m df df' -> late_opt m (dict_get (dl_cols df) k) (dict_get (dl_cols df') k).
Proof. intros S. exact (ld_cols _ _ _ S k). Qed.
Lemma opt_more m n c c' : (m <= n)%nat -> late_opt m c c' -> late_opt n c c'.
Proof. intros L. destruct c, c'; cbn; auto. intros H. now apply (from_less m). Qed.

Lemma finite_from m l l' v v' : finite l = Ok v -> finite l' = Ok v' -> same_from m l l' -> same_from m v v'.
Proof.
  intros A B [E S]. apply finite_inv in A, B. subst l l'. rewrite !map_length in E. split; [exact E|]. intros i I. specialize (S i I). rewrite !nth_error_map in S.
  destruct (nth_error v i), (nth_error v' i); cbn in S; congruence.
Qed.

Lemma fills_from p (d d' : dict (list fl)) strict :
  Forall2 (fun x y => fst x = fst y /\ same_from p (snd x) (snd y) /\ (In (fst x) strict -> exists v, nth_error (snd x) p = Some (Some v))) d d' ->
  late_outputs p strict (map (fun nv => (fst nv, fill_gaps (snd nv))) d) (map (fun nv => (fst nv, fill_gaps (snd nv))) d').
Proof.
  intros F name. rewrite !dict_get_map. induction F as [|[k v] [k' v'] d d' (E & S & N) F IH]; [exact I|]. cbn [fst snd] in *. subst k'.
  cbn [dict_get]. destruct (String.eqb_spec name k) as [->|Q]; [|exact IH]. cbn [option_map].
  destruct (fill_from p v v' S) as (q & Lq & V & V' & Sq & Now). exists q. repeat (split; [assumption|]).
  intros I. destruct (N I) as (x & X). eapply Now. exact X.
Qed.

Theorem later_steps m df df' prm tiny tb tb' te out out' :
  legal_time_step (p_time_step prm) -> p_utc_offset prm = false -> p_tmax_frac prm <= 1 -> (S m < List.length (dl_doy df))%nat -> (forall row, In row tiny -> usable row) ->
  (forall k, In k ["t_min"; "t_max"] -> if_present df k) ->
  (exists v e0 e1, dict_get (dl_cols df) "vapor_pressure" = Some v /\ nth_error v m = Some (Some e0) /\ nth_error v (S m) = Some (Some e1)) ->
  late_days m df df' ->
  disaggregate df prm tiny (pair_list tb) (pair_list te) = Ok out -> disaggregate df' prm tiny (pair_list tb') (pair_list te) = Ok out' ->
  late_outputs (S m * steps (p_time_step prm)) ["temp"; "vapor_pressure"] out out'.
Proof.
  intros L U Fr M2 Uall Pr (vq & e0 & e1 & V & V0 & V1) Sm X X'. set (p := (S m * steps (p_time_step prm))%nat).
  assert (Us : used_usable tiny (dl_doy df)) by (intros d row _ T; apply Uall; eapply nth_error_In; exact T).
  assert (Us' : used_usable tiny (dl_doy df')) by (intros d row _ T; apply Uall; eapply nth_error_In; exact T). clear Uall.
  apply disaggregate_inv in X. apply disaggregate_inv in X'. cbv zeta in X, X'.
  destruct X as (tpd & sw0 & dayl & sw & a & b & tmn & tmx & tminR & tmaxR & tmp & vpd & vp0 & ck0 & ck & lw & pr0 & pr & Hd & (Cs & Cd & Hs) & Hm & (C1 & C2 & F1 & F2 & Te) & (Cv & Hv) & (Cc & Hc) & Hl & (Cp & Hp) & (Ls & Lt & Lv & Lc & Ll & Lp) & O).
  destruct X' as (tpd' & sw0' & dayl' & sw' & a' & b' & tmn' & tmx' & tminR' & tmaxR' & tmp' & vpd' & vp0' & ck0' & ck' & lw' & pr0' & pr' & Hd' & (Cs' & Cd' & Hs') & Hm' & (C1' & C2' & F1' & F2' & Te') & (Cv' & Hv') & (Cc' & Hc') & Hl' & (Cp' & Hp') & (Ls' & Lt' & Lv' & Lc' & Ll' & Lp') & O').
  rewrite ts_per_day_steps in Hd, Hd' by apply L. apply Ok_inj in Hd, Hd'. subst tpd tpd'.
  set (ts := p_time_step prm) in *. set (q := da_prm prm) in *.
  assert (Lq : legal_time_step (p_time_step q)) by exact L. assert (Uq : p_utc_offset q = false) by exact U. assert (Fq : p_tmax_frac q <= 1) by exact Fr.
  pose proof (da_from m df df' prm Sm) as Sd. pose proof (ld_doy _ _ _ Sm) as Sy. pose proof (proj1 Sy) as En.
  destruct (steps_mul _ L) as (_ & Sp & _). fold ts in Sp.
  assert (Pm : (m * steps ts <= p)%nat) by (unfold p; apply Nat.mul_le_mono_r; lia).
  assert (Pl : (p < List.length (dl_doy df) * steps ts)%nat) by (unfold p; apply Nat.mul_lt_mono_pos_r; lia).
  assert (P1 : (p - 1 <= p)%nat) by lia.
  (* times *)
  destruct (times_rise _ _ _ _ _ _ Hm Uq Us) as (La & Lb & Ra). destruct (times_rise _ _ _ _ _ _ Hm' Uq Us') as (La' & Lb' & Ra').
  pose proof (times_from m _ _ _ _ _ _ _ _ _ Hm Hm' Uq Us Us' Sy) as Stm.
  pose proof (times_peak _ _ _ _ _ _ Hm Uq Fq Us m ltac:(lia)) as Pk.
  rewrite <- En in *.
  (* lengths of the temperatures *)
  assert (Len : forall k df, if_present df k -> In k ["t_min"; "t_max"] -> forall v w, col (da_df df prm) k = Ok v -> finite v = Ok w -> List.length w = List.length (dl_doy df)).
  { clear. intros k df Q I v w C F. apply col_get in C. apply finite_inv in F. subst v. rewrite <- (map_length (@Some R) w). apply Q. rewrite <- C. symmetry.
    unfold da_df. destruct (_ && _)%bool; [|reflexivity]. cbn [set_col dl_cols]. rewrite dict_get_set. destruct I as [<- | [<- | []]]; reflexivity. }
  pose proof (Len "t_min" df (Pr "t_min" (or_introl eq_refl)) (or_introl eq_refl) _ _ C1 F1) as L1.
  pose proof (Len "t_max" df (Pr "t_max" (or_intror (or_introl eq_refl))) (or_intror (or_introl eq_refl)) _ _ C2 F2) as L2.
  pose proof (finite_from _ _ _ _ _ F1 F1' (col_from m _ _ _ _ _ Sd C1 C1')) as S1. pose proof (finite_from _ _ _ _ _ F2 F2' (col_from m _ _ _ _ _ Sd C2 C2')) as S2.
  (* the columns *)
  assert (Stp : same_from (p - 1) (map Some tmp) (map Some tmp')).
  { apply from_map. refine (temp_from m tminR tminR' tmaxR tmaxR' _ a b a' b' ts tb tb' te _ _ L M2 Te Te' La Lb La' Lb' L1 L2 _ _ S1 S2 Stm Pk).
    - rewrite <- (proj1 S1). exact L1.
    - rewrite <- (proj1 S2). exact L2. }
  assert (Vd : vpd = vq). { apply col_get in Cv. unfold da_df in Cv. destruct (_ && _)%bool; cbn [set_col dl_cols] in Cv; [rewrite dict_get_set in Cv; cbn [String.eqb Ascii.eqb Bool.eqb] in Cv|]; congruence. }
  subst vq.
  destruct (vapor_from m vpd vpd' _ (map Some tmp) (map Some tmp') a a' ts vp0 vp0' L M2 Hv Hv' La La' (col_from m _ _ _ _ _ Sd Cv Cv') Stp Ra Ra' (fun d D => proj1 (Stm d D))) as [Sv0 Nv].
  destruct (Nv (ex_intro _ e0 (ex_intro _ e1 (conj V0 V1)))) as (x & Nx).
  assert (Sv : same_from (p - 1) (fill_gaps vp0) (fill_gaps vp0')) by (apply (present_from _ _ _ x); [exact Sv0|exact Nx]).
  assert (Sc : same_from (m * steps ts) ck ck') by (apply (constant_from m ck0 ck0' ts q); auto; exact (col_from m _ _ _ _ _ Sd Cc Cc')).
  assert (Ss : same_from (m * steps ts) sw sw').
  { apply (shortwave_from m sw0 sw0' dayl dayl' (dl_doy df) (dl_doy df') tiny q sw sw' Lq Uq Hs Hs'); auto; eapply col_from; eauto. }
  apply (from_less _ p) in Stp; [|exact P1]. apply (from_less _ p) in Sv; [|exact P1]. apply (from_less _ p) in Sc; [|exact Pm]. apply (from_less _ p) in Ss; [|exact Pm].
  assert (Sl : same_from p lw lw').
  { apply (longwave_from (S m) (map Some tmp) (map Some tmp') (fill_gaps vp0) (fill_gaps vp0') ck ck' _ _ q lw lw' Lq Hl Hl'); auto.
    apply (opt_more m); [lia|]. apply opt_from. exact Sd. }
  assert (Spr : same_from p pr pr').
  { apply (from_less (m * steps ts)); [exact Pm|]. apply (prec_from m pr0 pr0' tmn tmn' _ _ _ _ ts q pr pr' L Uq Hp Hp'); auto; [eapply col_from; eauto|eapply col_from; eauto|apply opt_from; exact Sd|apply opt_from; exact Sd]. }
  assert (Lvg : List.length (fill_gaps vp0) = (List.length (dl_doy df) * steps ts)%nat) by (now rewrite fill_gaps_length).
  assert (Nvp : exists y, nth_error (fill_gaps vp0) p = Some (Some y)).
  { destruct (nth_error (fill_gaps vp0) p) as [[y|]|] eqn:Ey; [eauto| |apply nth_error_None in Ey; unfold fl in *; lia].
    exfalso. apply (HumidProofs.fill_complete vp0); [exists (p - 1)%nat, x; exact Nx|]. eapply nth_error_In. exact Ey. }
  set (vp := fill_gaps vp0) in *. set (vp' := fill_gaps vp0') in *. clearbody vp vp'.
  set (F := fun (x y : string * list fl) => fst x = fst y /\ same_from p (snd x) (snd y) /\ (In (fst x) ["temp"; "vapor_pressure"] -> exists v, nth_error (snd x) p = Some (Some v))).
  assert (One : forall k (u u' : list fl), same_from p u u' -> (In k ["temp"; "vapor_pressure"] -> exists v, nth_error u p = Some (Some v)) -> F (k, u) (k, u')).
  { intros k u u' A B. unfold F. cbn [fst snd]. auto. }
  assert (No : forall k (u : list fl), str_in k ["temp"; "vapor_pressure"] = false -> In k ["temp"; "vapor_pressure"] -> exists v, nth_error u p = Some (Some v)).
  { intros k u A B. apply str_in_spec in B. congruence. }
  assert (Base : Forall2 F
    [("shortwave", sw); ("temp", map Some tmp); ("vapor_pressure", vp); ("rel_humid", map2 relative_humidity1 vp (map Some tmp));
     ("air_pressure", map (fun t => pressure1 t (Some (p_elev prm)) (Some (p_lapse_rate prm))) (map Some tmp));
     ("spec_humid", map2 specific_humidity1 vp (map (fun t => pressure1 t (Some (p_elev prm)) (Some (p_lapse_rate prm))) (map Some tmp))); ("tskc", ck); ("longwave", lw); ("prec", pr)]
    [("shortwave", sw'); ("temp", map Some tmp'); ("vapor_pressure", vp'); ("rel_humid", map2 relative_humidity1 vp' (map Some tmp'));
     ("air_pressure", map (fun t => pressure1 t (Some (p_elev prm)) (Some (p_lapse_rate prm))) (map Some tmp'));
     ("spec_humid", map2 specific_humidity1 vp' (map (fun t => pressure1 t (Some (p_elev prm)) (Some (p_lapse_rate prm))) (map Some tmp'))); ("tskc", ck'); ("longwave", lw'); ("prec", pr')]).
  { assert (Sap : same_from p (map (fun t => pressure1 t (Some (p_elev prm)) (Some (p_lapse_rate prm))) (map Some tmp)) (map (fun t => pressure1 t (Some (p_elev prm)) (Some (p_lapse_rate prm))) (map Some tmp'))) by now apply from_map.
    repeat apply Forall2_cons; try apply Forall2_nil; apply One; try (apply No; reflexivity); auto.
    - intros _. destruct (nth_error tmp p) as [t|] eqn:Et; [|apply nth_error_None in Et; unfold fl in *; lia]. exists t. now rewrite nth_error_map, Et.
    - now apply from_map2.
    - now apply from_map2. }
  pose proof (opt_from m _ _ "wind" Sd) as Sw. unfold late_opt in Sw.
  destruct (dict_get (dl_cols (da_df df prm)) "wind") as [w|]; destruct (dict_get (dl_cols (da_df df' prm)) "wind") as [w'|]; try contradiction.
  - destruct O as (wo & W & Lw & ->). destruct O' as (wo' & W' & Lw' & ->). apply fills_from. apply Forall2_app; [exact Base|]. constructor; [|constructor].
    apply One; [|apply No; reflexivity]. apply (from_less (m * steps ts)); auto. apply (constant_from m w w' ts q); auto.
  - subst out out'. apply fills_from. exact Base.
Qed.

(** ** passthrough runs *)
Lemma set_from m df df' k v v' : late_days m df df' -> same_from m v v' -> late_days m (set_col df k v) (set_col df' k v').
Proof.
  intros [D C] Sv. constructor; auto. intros name. cbn [set_col dl_cols]. rewrite !dict_get_set. destruct (name =? k)%string; [exact Sv|apply C].
Qed.
Lemma mem_from m df df' k : late_days m df df' -> dict_mem (dl_cols df) k = dict_mem (dl_cols df') k.
Proof. intros Sm. pose proof (ld_cols _ _ _ Sm k) as Q. unfold dict_mem. destruct (dict_get (dl_cols df) k), (dict_get (dl_cols df') k); auto; contradiction. Qed.

Lemma add_from m df df' k f f' o o' : late_days m df df' -> add_missing k f df = Ok o -> add_missing k f' df' = Ok o' ->
  (forall v v', f df = Ok v -> f' df' = Ok v' -> same_from m v v') -> late_days m o o'.
Proof.
  intros Sm A B F. unfold add_missing in *. rewrite (mem_from m df df' k Sm) in A. destruct (dict_mem _ _); [apply Ok_inj in A, B; now subst|].
  inv_bind A. inv_bind B. apply Ok_inj in A, B. subst o o'. apply set_from; auto.
Qed.

Lemma pass_from m df df' prm o o' : late_days m df df' -> passthrough_run df prm = Ok o -> passthrough_run df' prm = Ok o' -> late_days m o o'.
Proof.
  intros Sm A B. unfold passthrough_run in *. destruct (negb _); [discriminate|]. destruct (negb _) in B; [discriminate|].
  do 5 (inv_bind A). do 5 (inv_bind B).
  assert (S0 : late_days m v v4) by (eapply add_from; [exact Sm|eassumption|eassumption|]; intros ? ? Q1 Q2; cbv beta in Q1, Q2; cols; apply from_map2; eapply col_from; eauto).
  assert (S1 : late_days m v0 v5) by (eapply add_from; [exact S0|eassumption|eassumption|]; intros ? ? Q1 Q2; cbv beta in Q1, Q2; cols; apply from_map3; eapply col_from; eauto).
  assert (S2 : late_days m v1 v6) by (eapply add_from; [exact S1|eassumption|eassumption|]; intros ? ? Q1 Q2; cbv beta in Q1, Q2; cols; apply from_map; eapply col_from; eauto).
  assert (S3 : late_days m v2 v7) by (eapply add_from; [exact S2|eassumption|eassumption|]; intros ? ? Q1 Q2; cbv beta in Q1, Q2; cols; apply from_map3; eapply col_from; eauto).
  assert (S4 : late_days m v3 v8) by (eapply add_from; [exact S3|eassumption|eassumption|]; intros ? ? Q1 Q2; cbv beta in Q1, Q2; cols; apply from_map2; [apply from_map3|]; eapply col_from; eauto).
  eapply add_from; [exact S4|exact A|exact B|]. intros ? ? Q1 Q2; cbv beta in Q1, Q2; cols; apply from_map; eapply col_from; eauto.
Qed.

Theorem later_cell fuel fuel' m prm c c' out out' q q' :
  p_method prm = "passthrough" -> legal_time_step (p_time_step prm) -> (p_time_step prm < 1440)%Z -> p_utc_offset prm = false -> p_tmax_frac prm <= 1 ->
  (S m < List.length (dl_doy (cd_daily c)))%nat ->
  -90 <= cd_lat c <= 90 -> (forall k, In k ["t_min"; "t_max"] -> if_present (cd_daily c) k) ->
  (exists v e0 e1, dict_get (dl_cols (cd_daily c)) "vapor_pressure" = Some v /\ nth_error v m = Some (Some e0) /\ nth_error v (S m) = Some (Some e1)) ->
  late_cell m c c' -> run_cell fuel prm c = Some (Ok out, q) -> run_cell fuel' prm c' = Some (Ok out', q') ->
  late_outputs (S m * steps (p_time_step prm)) ["temp"; "vapor_pressure"] out out'.
Proof.
  intros Pm L Lt U Fr M2 Hl Pr (vq & e0 & e1 & V & V0 & V1) [S1 S2 S3 Sm] X X'.
  destruct (run_cell_inv _ _ _ _ _ X) as (g & dl & po & tt_ & df & G & D & P & T & M & Sub & _).
  destruct (run_cell_inv _ _ _ _ _ X') as (g' & dl' & po' & tt' & df' & G' & D' & P' & T' & M' & Sub' & _).
  destruct (Sub Lt) as (a & b & A & B & Y). destruct (Sub' Lt) as (a' & b' & A' & B' & Y').
  assert (g' = g) by (apply Ok_inj; congruence). subst g'.
  assert (Lc : located prm c' = located prm c) by (unfold located; congruence). rewrite Lc in *.
  pose proof (ld_doy _ _ _ Sm) as Sy.
  assert (By : forall t u u', by_yday t (dl_doy (cd_daily c)) = Ok u -> by_yday t (dl_doy (cd_daily c')) = Ok u' -> same_from m u u').
  { intros t u u' Q Q'. unfold by_yday in *. eapply from_mapM; [exact Q|exact Q'|exact Sy|reflexivity]. }
  assert (Sw : late_days m (with_sun (cd_daily c) dl po tt_) (with_sun (cd_daily c') dl' po' tt')) by (unfold with_sun; repeat apply set_from; eauto).
  assert (Rp : forall f d o, run_method f d (located prm c) = Some (Ok o) -> passthrough_run d (located prm c) = Ok o).
  { intros f d o Q. unfold run_method in Q. change (p_method (located prm c)) with (p_method prm) in Q. rewrite Pm in Q. cbn in Q. now injection Q. }
  pose proof (Rp _ _ _ M) as R1. pose proof (Rp _ _ _ M') as R2.
  pose proof (pass_from m _ _ _ _ _ Sw R1 R2) as So.
  destruct (geom_rows _ _ _ _ Hl G) as (_ & _ & Us).
  destruct (method_keeps _ _ _ _ M) as (Doy & _).
  assert (Ip : forall f d sx sy sz o, run_method f (with_sun d sx sy sz) (located prm c) = Some (Ok o) -> dl_doy o = dl_doy d -> forall k, In k ["t_min"; "t_max"] -> if_present d k -> if_present o k).
  { clear. intros f d sx sy sz o Q Do k I Ih v Gv. rewrite Do. apply Ih. rewrite <- Gv. symmetry. rewrite (method_forcing _ _ _ _ Q).
    - rewrite sun_get. destruct I as [<- | [<- | []]]; reflexivity.
    - destruct I as [<- | [<- | []]]; cbn; intuition discriminate. }
  apply (later_steps m df df' (located prm c) (tiny_rad_fract g) (Some (a, b)) (Some (a', b')) None out out' L U Fr); auto.
  - rewrite Doy. exact M2.
  - intros k I. exact (Ip _ _ _ _ _ _ M Doy k I (Pr k I)).
  - exists vq, e0, e1. split; [|auto]. apply (pass_keeps _ _ _ _ _ R1). rewrite sun_get. exact V.
Qed.

(** ** with the UTC shift *)
Theorem wind_wraps_east x ts prm : legal_time_step ts -> p_utc_offset prm = true -> x <> [] -> (ts <= utc_minutes (p_lon prm) <= 1440)%Z ->
  exists out, wind x ts prm = Ok out /\ nth_error out (List.length x * steps ts - 1) = Some (hd None x).
Proof.
  intros L U N B. destruct (PrecExamples.wind_tskc_utc x ts prm L U) as (out & W & _ & Lo & F & _). exists out. split; [exact W|].
  destruct (steps_mul _ L) as (Em & Sp & Tp). assert (Lx : (0 < List.length x)%nat) by (destruct x; [congruence|cbn; lia]).
  assert (Pos : (1 <= List.length x * steps ts)%nat) by nia.
  rewrite F by (rewrite Lo; lia). f_equal.
  transitivity (fmean (repeat (hd None x) (Z.to_nat ts))); [|apply WindProofs.fmean_repeat; lia]. f_equal.
  assert (Tot : ((Z.of_nat (List.length x * steps ts - 1) + 1) * ts = Z.of_nat (List.length x) * 1440)%Z).
  { rewrite Nat2Z.inj_sub, Nat2Z.inj_mul by lia. assert (Q : (Z.of_nat (steps ts) * ts = 1440)%Z).
    { rewrite <- (Z2Nat.id ts) at 2 by lia. rewrite <- Nat2Z.inj_mul, Em. reflexivity. }
    rewrite <- Q. ring. }
  assert (C : forall j, (j < Z.to_nat ts)%nat -> nth (Z.to_nat ((Z.of_nat ((List.length x * steps ts - 1) * Z.to_nat ts + j) + utc_minutes (p_lon prm)) mod (Z.of_nat (List.length x) * 1440) / 1440)) x None = hd None x).
  { intros j J. set (k := (List.length x * steps ts - 1)%nat) in *.
    assert (Q : ((Z.of_nat (k * Z.to_nat ts + j) + utc_minutes (p_lon prm)) mod (Z.of_nat (List.length x) * 1440)
      = Z.of_nat j - ts + utc_minutes (p_lon prm))%Z).
    { symmetry. apply (Z.mod_unique _ _ 1); [left|]; [lia|]. rewrite Nat2Z.inj_add, Nat2Z.inj_mul, Z2Nat.id by lia. lia. }
    rewrite Q. assert (Q2 : ((Z.of_nat j - ts + utc_minutes (p_lon prm)) / 1440 = 0)%Z) by (apply Z.div_small; lia).
    rewrite Q2. destruct x; reflexivity. }
  clear - C. revert C. generalize (Z.to_nat ts). intros n C. apply (nth_ext _ _ (hd None x) (hd None x)); [now rewrite map_length, seq_length, repeat_length|].
  intros i I. rewrite map_length, seq_length in I. rewrite nth_repeat. erewrite nth_error_nth; [|rewrite nth_error_map, nth_error_seq0 by exact I; reflexivity]. apply C.
  exact I.
Qed.

(** ** examples *)
Lemma gusty_forcing w p : p_prec_type p = "uniform" -> good_forcing (cd_daily (gusty_cell w)) p.
Proof.
  intros Pt. constructor.
  - discriminate.
  - intros k [<-|[<-|[<-|[<-|[]]]]]; lia.
  - exists [10; 12; 11; 9]. split; reflexivity.
  - exists [20; 25; 22; 20]. split; reflexivity.
  - intros k [<-|[<-|[<-|[<-|[]]]]]; eexists; split; reflexivity.
  - intros k I v V. cbn [In] in I. repeat (destruct I as [<-|I]; [cbn in V; try discriminate V; injection V as <-; reflexivity|]). destruct I.
  - intros I. exfalso. rewrite Pt in I. cbn in I. destruct I as [I|[I|[]]]; discriminate I.
Qed.

Lemma gusty_runs fuel u w : exists out q, run_cell fuel (with_utc u (demo_method "passthrough" 60)) (gusty_cell w) = Some (Ok out, q).
Proof.
  destruct (equator_ok 0 0.0065) as [g G].
  refine (pass_cell_total fuel (with_utc u (demo_method "passthrough" 60)) (gusty_cell w) g 9 22 eq_refl _ _ _ _ G _ _).
  - destruct (demo_options "passthrough" 60 legal_60). constructor; assumption.
  - apply gusty_forcing. reflexivity.
  - eexists. split; reflexivity.
  - cbn [cd_lat gusty_cell]. lra.
  - reflexivity.
  - reflexivity.
Qed.

Lemma gusty_same w w' : late_cell 1 (gusty_cell w) (gusty_cell w').
Proof.
  constructor; try reflexivity. constructor.
  - apply from_refl.
  - intros name. cbn [gusty_cell cd_daily dl_cols dict_get].
    repeat (destruct (String.eqb name _); [split; [reflexivity|]; intros [|i] I; [lia|reflexivity]|]). exact I.
Qed.

Lemma gusty_present w : forall k, In k ["t_min"; "t_max"] -> if_present (cd_daily (gusty_cell w)) k.
Proof. intros k [<-|[<-|[]]] v V; cbn in V; injection V as <-; reflexivity. Qed.

Lemma east_minutes : utc_minutes (remainder360 90) = 360%Z.
Proof.
  rewrite (UtcDayProofs.remainder_is 90 0) by lra. unfold utc_minutes, DEG_PER_REV.
  etransitivity; [|apply (Rtrunc_IZR 360)]. f_equal.
  rewrite INR_IZR_INZ. change (Z.of_nat MIN_PER_DAY) with 1440%Z. lra.
Qed.

Lemma gusty_wraps fuel w out q : run_cell fuel (with_utc true (demo_method "passthrough" 60)) (gusty_cell w) = Some (Ok out, q) ->
  exists v, dict_get out "wind" = Some v /\ nth_error v 95 = Some (Some w) /\ nth_error v 48 = Some (Some 3).
Proof.
  intros H. destruct (cell_forcing fuel (with_utc true (demo_method "passthrough" 60)) (gusty_cell w) out q eq_refl H) as (g & df & s1 & s2 & G & Doy & Keep & A & B & X).
  apply disaggregate_inv in X. cbv zeta in X.
  destruct X as (tpd & ? & ? & sw & tTmin & tTmax & tmn & tmx & tminR & tmaxR & tmp & ? & vp0 & ? & ck & lw & P & pr & Hd & _ & _ & _ & _ & _ & _ & _ & _ & O).
  rewrite Keep in O by unt. cbn [gusty_cell cd_daily dl_cols dict_get String.eqb Ascii.eqb Bool.eqb] in O. destruct O as (wo & W & _ & ->).
  set (p := da_prm (located (with_utc true (demo_method "passthrough" 60)) (gusty_cell w))) in *.
  change (wind [Some w; Some 3; Some 3; Some 3] 60 p = Ok wo) in W.
  assert (Lg : legal_time_step 60) by exact legal_60. assert (M : utc_minutes (p_lon p) = 360%Z) by exact east_minutes.
  destruct (PrecExamples.wind_tskc_utc [Some w; Some 3; Some 3; Some 3] 60 p Lg eq_refl) as (wo' & W' & _ & Lo & F & _).
  assert (wo' = wo) by (apply Ok_inj; congruence). subst wo'. rewrite M in F. change (steps 60) with 24%nat in Lo. cbn [List.length map Nat.mul] in Lo.
  exists (fill_gaps wo). split; [reflexivity|]. split; apply HumidProofs.fill_keeps.
  - destruct (wind_wraps_east [Some w; Some 3; Some 3; Some 3] 60 p Lg eq_refl ltac:(discriminate) ltac:(rewrite M; lia)) as (o & Wo & N0).
    assert (o = wo) by (apply Ok_inj; congruence). subst o. exact N0.
  - rewrite F by (rewrite Lo; cbn; lia). f_equal.
    transitivity (fmean (repeat (Some 3) 60)); [reflexivity|]. apply WindProofs.fmean_repeat. lia.
Qed.

Theorem earlier_refuted : ~ forall fuel fuel' m prm c c' out out' q q',
  p_method prm = "passthrough" -> legal_time_step (p_time_step prm) -> (p_time_step prm < 1440)%Z -> p_tmax_frac prm <= 1 ->
  (S m < List.length (dl_doy (cd_daily c)))%nat ->
  -90 <= cd_lat c <= 90 -> (forall k, In k ["t_min"; "t_max"] -> if_present (cd_daily c) k) ->
  (exists v e0 e1, dict_get (dl_cols (cd_daily c)) "vapor_pressure" = Some v /\ nth_error v m = Some (Some e0) /\ nth_error v (S m) = Some (Some e1)) ->
  late_cell m c c' -> run_cell fuel prm c = Some (Ok out, q) -> run_cell fuel' prm c' = Some (Ok out', q') ->
  late_outputs (S m * steps (p_time_step prm)) ["temp"; "vapor_pressure"] out out'.
Proof.
  intros H. destruct (gusty_runs 0 true 4) as (o & q & R1). destruct (gusty_runs 0 true 5) as (o' & q' & R2).
  assert (Fr : p_tmax_frac (with_utc true (demo_method "passthrough" 60)) <= 1) by (cbn; lra).
  pose proof (H 0%nat 0%nat 1%nat (with_utc true (demo_method "passthrough" 60)) (gusty_cell 4) (gusty_cell 5) o o' q q' eq_refl legal_60 eq_refl Fr ltac:(cbn; lia) ltac:(cbn [cd_lat gusty_cell]; lra)
    (gusty_present 4)
    (ex_intro _ _ (ex_intro _ 950 (ex_intro _ 920 (conj eq_refl (conj eq_refl eq_refl))))) (gusty_same 4 5) R1 R2 "wind") as Q. cbv beta in Q.
  destruct (gusty_wraps _ _ _ _ R1) as (v & V & V0 & V6). destruct (gusty_wraps _ _ _ _ R2) as (v' & V' & V0' & V6').
  rewrite V, V' in Q. change (2 * steps (p_time_step (with_utc true (demo_method "passthrough" 60))))%nat with 48%nat in Q.
  destruct Q as (n & Ln & (x & Lv) & _ & (_ & Sf) & _). destruct (Nat.le_gt_cases n 95) as [G|G].
  - specialize (Sf 95%nat G). assert (E : Some (Some 4) = Some (Some 5)) by congruence. injection E as E. lra.
  - pose proof (Lv 95%nat ltac:(lia)) as Q0. pose proof (Lv 48%nat ltac:(lia)) as Q6. assert (E : Some (Some 4) = Some (Some 3)) by congruence. injection E as E. lra.
Qed.

Theorem gusty_case w w' : (exists out q, run_cell 0 (with_utc false (demo_method "passthrough" 60)) (gusty_cell w) = Some (Ok out, q)) /\
  late_cell 1 (gusty_cell w) (gusty_cell w') /\ (2 < List.length (dl_doy (cd_daily (gusty_cell w))))%nat /\
  dict_get (dl_cols (cd_daily (gusty_cell w))) "wind" = Some [Some w; Some 3; Some 3; Some 3].
Proof. split; [exact (gusty_runs 0 false w)|]. split; [apply gusty_same|]. split; [cbn; lia|reflexivity]. Qed.
