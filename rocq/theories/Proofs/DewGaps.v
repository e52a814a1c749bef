(** C76: the dewpoint iteration of records with and without gaps. *)
From Coq Require Import ZArith Reals String List Bool Arith Lia Lra Psatz.
From Verif Require Import Model.Py Model.Fl Model.Np Model.Constants Model.Params Model.Physics Model.Disagg Model.Mtclim
  Spec.SeriesSpec Spec.FrameSpec Spec.DailySpec Spec.DewSpec
  Proofs.Base Proofs.RBase Proofs.ArrayProofs Proofs.PrecProofs Proofs.DisaggProofs Proofs.ShortwaveProofs Proofs.GlobalsProofs Proofs.UtcProofs Proofs.SvpProofs Proofs.MtclimProofs
  Proofs.CellProofs Proofs.CellTotal Proofs.DewMap Proofs.DewProofs Proofs.DewCell.
Import ListNotations.
Local Open Scope string_scope.
Local Open Scope list_scope.
Local Open Scope R_scope.

(** ** columns of a complete frame *)
Lemma reads_inv df : (forall k, In k mtclim_reads -> complete df k) -> exists tmin tmax dtr sm pr ttm pot dayl sp,
  has_col df "t_min" tmin /\ has_col df "t_max" tmax /\ has_col df "dtr" dtr /\ has_col df "smoothed_dtr" sm /\ has_col df "prec" pr /\
  has_col df "tt_max" ttm /\ has_col df "potrad" pot /\ has_col df "daylength" dayl /\ has_col df "seasonal_prec" sp.
Proof.
  intros H. destruct (H "t_min" ltac:(mem)) as [a A]. destruct (H "t_max" ltac:(mem)) as [b B]. destruct (H "dtr" ltac:(mem)) as [c C].
  destruct (H "smoothed_dtr" ltac:(mem)) as [d D]. destruct (H "prec" ltac:(mem)) as [e E]. destruct (H "tt_max" ltac:(mem)) as [f F].
  destruct (H "potrad" ltac:(mem)) as [g G]. destruct (H "daylength" ltac:(mem)) as [h I]. destruct (H "seasonal_prec" ltac:(mem)) as [j J].
  exists a, b, c, d, e, f, g, h, j. exact (conj A (conj B (conj C (conj D (conj E (conj F (conj G (conj I J)))))))).
Qed.

Lemma dew_out_get prm df tmin tmax dtr sm pr ttm pot dayl td k : ~ In k ["t_day"; "tfmax"; "tskc"; "tdew"; "vapor_pressure"; "shortwave"; "pet"] ->
  dict_get (dl_cols (dew_out prm (dew_frame prm df tmin tmax dtr sm pr) (map3 (tfmax1 prm) dtr sm pr) ttm pot (map2 (t_day1 prm) tmin tmax) dayl td)) k = dict_get (dl_cols df) k.
Proof.
  intros N. unfold dew_out, dew_frame. cbv zeta. rewrite !get_set_col.
  destruct (String.eqb_spec k "pet") as [->|_]; [exfalso; apply N; mem|]. destruct (String.eqb_spec k "shortwave") as [->|_]; [exfalso; apply N; mem|].
  destruct (String.eqb_spec k "vapor_pressure") as [->|_]; [exfalso; apply N; mem|]. destruct (String.eqb_spec k "tdew") as [->|_]; [exfalso; apply N; mem|].
  destruct (String.eqb_spec k "tskc") as [->|_]; [exfalso; apply N; mem|]. destruct (String.eqb_spec k "tfmax") as [->|_]; [exfalso; apply N; mem|].
  destruct (String.eqb_spec k "t_day") as [->|_]; [exfalso; apply N; mem|]. reflexivity.
Qed.

(** ** NaN is absorbing *)
Lemma nan_r f x : flift2 f x None = None.
Proof. destruct x; reflexivity. Qed.
Lemma nan_l f x : flift2 f None x = None.
Proof. reflexivity. Qed.
Lemma ndiv_r x : fdiv x None = None.
Proof. destruct x; reflexivity. Qed.
Lemma ndiv_l x : fdiv None x = None.
Proof. reflexivity. Qed.
Lemma npow n : fpow None n = None.
Proof. reflexivity. Qed.
Ltac nan := unfold fadd, fsub, fmul, fmax; repeat (rewrite ?nan_r, ?nan_l, ?ndiv_r, ?ndiv_l, ?npow); reflexivity.

Lemma pet_strict prm a b : pet1 prm None a b = None.
Proof. unfold pet1, calc_pet1. cbv zeta. nan. Qed.
Lemma short_strict f t p : mt_shortwave1 f None t p = None.
Proof. unfold mt_shortwave1. cbv zeta. nan. Qed.
Lemma tdew_strict_pet a b c : tdew1 None a b c = None.
Proof. unfold tdew1. cbv zeta. nan. Qed.
Lemma tdew_strict_tmin p b c : tdew1 p None b c = None.
Proof. unfold tdew1. cbv zeta. nan. Qed.
Lemma update_strict prm d : tdew_update1 prm d None = None.
Proof. unfold tdew_update1, mt_vapor_pressure1. cbv zeta. change (svp1 None) with (@None R). rewrite short_strict, pet_strict. apply tdew_strict_pet. Qed.

Lemma fsum_nan l d : nth_error l d = Some None -> fsum l = None.
Proof.
  revert d. induction l as [|x l IH]; intros [|d]; cbn [nth_error]; try discriminate; unfold fsum in *; cbn [fold_right].
  - intros E. apply Some_inj in E. subst x. reflexivity.
  - intros E. rewrite (IH d E). apply nan_r.
Qed.

Lemma rms_nan a b d x : nth_error a d = Some None -> nth_error b d = Some x -> rms_diff a b = None.
Proof.
  intros A B. unfold rms_diff, fmean. rewrite (fsum_nan _ d); [reflexivity|]. rewrite (nth_map2 _ _ _ _ _ _ A B). reflexivity.
Qed.

(** ** a record with a gap *)
Theorem dew_gap df prm tmin d : (forall k, In k mtclim_reads -> complete df k) ->
  dict_get (dl_cols df) "t_min" = Some tmin -> nth_error tmin d = Some None ->
  exists df' new, (forall fuel, mtclim_run fuel df prm = Some (Ok df')) /\
    dict_get (dl_cols df') "tdew" = Some new /\ List.length new = List.length tmin /\ one_pass prm df' tmin new.
Proof.
  intros H T N. destruct (reads_inv df H) as (tn & tx & dtr & sm & pr & ttm & pot & dayl & sp & [H1 L1] & [H2 L2] & [H3 L3] & [H4 L4] & [H5 L5] & [H6 L6] & [H7 L7] & [H8 L8] & [H9 L9]).
  rewrite H1 in T. apply Some_inj in T. subst tn. set (n := List.length (dl_doy df)) in *.
  set (days := dew_days prm tmin tx dtr sm pr ttm pot dayl sp).
  assert (Lf : List.length (map3 (tfmax1 prm) dtr sm pr) = n) by (apply map3_length; assumption).
  assert (Lt : List.length (map2 (t_day1 prm) tmin tx) = n) by (apply map2_len; assumption).
  assert (Ldays : List.length days = n) by (apply mk_days_length; assumption).
  assert (Lu : List.length (tdew_update prm days tmin) = n) by (apply map2_len; assumption).
  assert (Dn : (d < n)%nat) by (rewrite <- L1; apply nth_error_Some; congruence).
  assert (U : nth_error (tdew_update prm days tmin) d = Some None).
  { destruct (nth_error days d) as [dd|] eqn:Ed; [|apply nth_error_None in Ed; lia].
    unfold tdew_update. rewrite (nth_map2 _ _ _ _ _ _ Ed N). now rewrite update_strict. }
  exists (dew_out prm (dew_frame prm df tmin tx dtr sm pr) (map3 (tfmax1 prm) dtr sm pr) ttm pot (map2 (t_day1 prm) tmin tx) dayl (tdew_update prm days tmin)).
  exists (tdew_update prm days tmin). split; [|split; [|split]].
  - intros fuel. rewrite (mtclim_eq fuel df prm _ _ _ _ _ _ _ _ _ H1 H2 H3 H4 H5 H6 H7 H8 H9). cbv zeta. fold days.
    assert (E : tdew_loop fuel prm days tmin (tdew_update prm days tmin) = Some (tdew_update prm days tmin)).
    { destruct fuel; cbn [tdew_loop]; rewrite (rms_nan _ _ d None U N); reflexivity. }
    rewrite E. reflexivity.
  - unfold dew_out. cbv zeta. rewrite !get_set_col. reflexivity.
  - unfold fl in *. congruence.
  - unfold days, dew_days. apply pass_of_update; unfold dew_out, dew_frame; cbv zeta; rewrite !get_set_col; cbn [String.eqb Ascii.eqb Bool.eqb]; assumption || reflexivity.
Qed.

(** ** a record without *)
Lemma map2_reals (f : mt_day -> fl -> fl) : (forall d, f d None = None) -> forall days old new, List.length days = List.length old ->
  map2 f days old = map Some new -> exists o, old = map Some o /\ List.length o = List.length new.
Proof.
  intros S. induction days as [|d days IH]; intros [|x old] new L E; try discriminate L.
  - exists []. destruct new; [split; reflexivity|discriminate E].
  - rewrite map2_cons in E. destruct new as [|y new]; [discriminate E|]. cbn [map] in E. injection E as E1 E2.
    destruct (IH old new ltac:(cbn in L; lia) E2) as (o & -> & Lo). destruct x as [x|]; [|rewrite S in E1; discriminate].
    exists (x :: o). split; [reflexivity|cbn; lia].
Qed.

Lemma rms_each a b e : a <> [] -> List.length a = List.length b -> rms a b <= e ->
  forall d x y, nth_error a d = Some x -> nth_error b d = Some y -> Rabs (x - y) <= sqrt (INR (List.length a)) * e.
Proof.
  intros N L H d x y X Y. unfold rms in H.
  assert (T : (x - y) ^ 2 <= total (map2 (fun x y => (x - y) ^ 2) a b)).
  { clear N L H. revert b d X Y. induction a as [|u a IH]; intros [|v b] [|d]; cbn [nth_error]; try discriminate; rewrite map2_cons, total_cons.
    - intros X Y. apply Some_inj in X, Y. subst. pose proof (sq_sum_nonneg a b). lra.
    - intros X Y. pose proof (IH b d X Y). pose proof (pow2_ge_0 (u - v)). lra. }
  set (t := total _) in *. assert (P : 0 < INR (List.length a)) by (apply lt_0_INR; destruct a; [congruence|cbn; lia]). set (n := INR (List.length a)) in *.
  assert (E : sqrt (t / n) = sqrt t / sqrt n) by (apply sqrt_div_alt; exact P). rewrite E in H.
  assert (Sn : 0 < sqrt n) by (now apply sqrt_lt_R0).
  assert (sqrt t <= sqrt n * e).
  { apply Rmult_le_compat_l with (r := sqrt n) in H; [|lra]. replace (sqrt n * (sqrt t / sqrt n)) with (sqrt t) in H by (field; lra). exact H. }
  apply Rle_trans with (sqrt t); [|assumption]. rewrite <- (sqrt_Rsqr_abs (x - y)). apply sqrt_le_1_alt. rewrite Rsqr_pow2. exact T.
Qed.

Theorem dew_converged fuel df prm df' new : (forall k, In k mtclim_reads -> complete df k) ->
  mtclim_run fuel df prm = Some (Ok df') -> dict_get (dl_cols df') "tdew" = Some (map Some new) ->
  converged prm df df' (sqrt (INR (List.length (dl_doy df))) * p_tdew_tol prm).
Proof.
  intros H R W. destruct (reads_inv df H) as (tn & tx & dtr & sm & pr & ttm & pot & dayl & sp & [H1 L1] & [H2 L2] & [H3 L3] & [H4 L4] & [H5 L5] & [H6 L6] & [H7 L7] & [H8 L8] & [H9 L9]).
  set (n := List.length (dl_doy df)) in *.
  rewrite (mtclim_eq fuel df prm _ _ _ _ _ _ _ _ _ H1 H2 H3 H4 H5 H6 H7 H8 H9) in R. cbv zeta in R.
  set (days := dew_days prm tn tx dtr sm pr ttm pot dayl sp) in *.
  destruct (tdew_loop _ _ _ _ _) as [td|] eqn:Lp; [|discriminate]. apply Some_inj in R. apply Ok_inj in R.
  destruct (loop_inv prm days tn fuel 0 td Lp) as (k & _ & Td & Mv & _).
  assert (Lf : List.length (map3 (tfmax1 prm) dtr sm pr) = n) by (apply map3_length; assumption).
  assert (Lt : List.length (map2 (t_day1 prm) tn tx) = n) by (apply map2_len; assumption).
  assert (Ldays : List.length days = n) by (apply mk_days_length; assumption).
  assert (Li : forall i, List.length (iterate prm days i tn) = n) by (now apply iterate_length).
  assert (G : forall j, dict_get (dl_cols df') j = dict_get (dl_cols (dew_out prm (dew_frame prm df tn tx dtr sm pr) (map3 (tfmax1 prm) dtr sm pr) ttm pot (map2 (t_day1 prm) tn tx) dayl td)) j) by (intros; now rewrite R).
  assert (W' : td = map Some new).
  { rewrite G in W. unfold dew_out in W. cbv zeta in W. rewrite !get_set_col in W. cbn [String.eqb Ascii.eqb Bool.eqb] in W. now apply Some_inj in W. }
  exists (fun i => iterate prm days i tn), k. split; [exact H1|]. split; [|split].
  - intros i. change (iterate prm days (S i) tn) with (tdew_update prm days (iterate prm days i tn)).
    apply pass_of_update; rewrite G; unfold dew_out, dew_frame; cbv zeta; rewrite !get_set_col; cbn [String.eqb Ascii.eqb Bool.eqb]; assumption || reflexivity.
  - rewrite G. unfold dew_out. cbv zeta. rewrite !get_set_col. cbn [String.eqb Ascii.eqb Bool.eqb]. now rewrite Td.
  - assert (E2 : iterate prm days (S k) tn = map Some new) by congruence.
    destruct (map2_reals (tdew_update1 prm) (update_strict prm) days (iterate prm days k tn) new) as (o & Eo & Lo); [rewrite Li; exact Ldays|exact E2|].
    pose proof (Li (S k)) as Ln. rewrite E2, map_length in Ln.
    intros d x y X Y. rewrite Eo in X. rewrite E2 in Y. rewrite nth_error_map in X, Y.
    destruct (nth_error o d) as [x'|] eqn:Xo; [|discriminate X]. destruct (nth_error new d) as [y'|] eqn:Yn; [|discriminate Y]. cbn [option_map] in X, Y.
    apply Some_inj in X, Y. apply Some_inj in X, Y. subst x' y'.
    assert (Nn : new <> []) by (intros ->; destruct d; discriminate Yn).
    rewrite Eo, E2 in Mv. unfold moving in Mv. rewrite rms_diff_some in Mv by congruence.
    unfold fgt, flt, Rltb in Mv. destruct (Rlt_dec _ _) as [|Le]; [discriminate|].
    rewrite <- Ln. apply (rms_each new o (p_tdew_tol prm) Nn ltac:(congruence) ltac:(lra) d); assumption.
Qed.

(** ** the gap keeps the first pass *)
Lemma kp_strict a b : 0 <= a -> a < b -> b <= 0.05 -> kp b < kp a.
Proof.
  intros A AB B. unfold kp.
  assert (Q : -1.444 + 12.312 * (a + b) - 32.766 * (a * a + a * b + b * b) < 0) by nra.
  replace (1.003 - 1.444 * b + 12.312 * b ^ 2 - 32.766 * b ^ 3)
    with (1.003 - 1.444 * a + 12.312 * a ^ 2 - 32.766 * a ^ 3 + (-1.444 + 12.312 * (a + b) - 32.766 * (a * a + a * b + b * b)) * (b - a)) by (simpl; lra).
  nra.
Qed.

Lemma svp_zero : svp_R 0 = 610.78.
Proof.
  unfold svp_R, svp_E. destruct (Rlt_dec 0 0); [lra|]. replace (17.269 * 0 / (237.3 + 0)) with 0 by (unfold Rdiv; lra). rewrite exp_0. lra.
Qed.

(** the pass of the first day of [gap_frame] *)
Lemma first_day : exists kap, 0 < kap <= 0.018 /\
  forall t, -125 <= t <= 59 ->
    next_dew (demo_step 60) (Some 0) (tfmax1 (demo_step 60) (Some 0) (Some 10) (Some 0)) (Some 0.6) (Some 300) (t_day1 (demo_step 60) (Some 0) (Some 0)) (Some 43200) (Some 400) (Some 0) (Some t)
    = Some (pass 0 0.1 0.6 300 kap 400 0 t).
Proof.
  assert (Tf : tfmax1 (demo_step 60) (Some 0) (Some 10) (Some 0) = Some 0.1).
  { rewrite tfmax_eq by lra. cbn [p_sw_prec_thresh demo_step]. destruct (Rlt_dec 0 0); [lra|]. f_equal. unfold tf_dry. rewrite dtr15_0, Rmult_0_r, exp_0. lra. }
  destruct (t_day_some (demo_step 60) 0 0) as (ta & Ta & Tr). specialize (Tr ltac:(lra) ltac:(cbn [p_tday_coef demo_step]; lra)).
  assert (ta = 0) by lra. subst ta.
  destruct (pet_linear (demo_step 60) 0 43200 ltac:(lra) ltac:(lra)) as (kap & K0 & Lin); [cbn [p_lapse_rate demo_step]; lra|cbn [p_lapse_rate p_elev demo_step]; unfold T_STD; lra|].
  exists kap. split.
  - pose proof (pet_top (demo_step 60) 100 1 0 43200 (kap * 1) ltac:(lra) ltac:(lra) ltac:(lra) ltac:(lra)
      ltac:(cbn [p_lapse_rate demo_step]; lra) ltac:(cbn [p_lapse_rate p_elev demo_step]; unfold T_STD; lra) (Lin 1)) as B. unfold lhv in B.
    split; [|lra]. pose proof (Lin 1) as E. unfold pet1 in E.
    destruct (atm_pres_pos (p_elev (demo_step 60)) (p_lapse_rate (demo_step 60))) as (pa & Ea & Pa); [cbn [p_lapse_rate demo_step]; lra|cbn [p_lapse_rate p_elev demo_step]; unfold T_STD; lra|].
    rewrite Ea in E. destruct (calc_pet_spec 1 0 43200 pa ltac:(lra) ltac:(lra) ltac:(lra) Pa) as (q & Eq & _ & Pq & _). rewrite Eq in E. cbn [fmul flift2] in E.
    apply Some_inj in E. unfold MM_PER_CM in E. assert (0 < q) by (apply Pq; lra). lra.
  - intros t Ht. unfold next_dew. rewrite Tf, Ta, svp1_some by lra. unfold mt_shortwave1. cbn [fmul fadd fmax flift2].
    rewrite Lin. unfold tdew1. cbn [flt]. unfold Rltb. destruct (Rlt_dec 400 80.0); [lra|].
    rewrite fdiv_some by lra. cbn [fmul fadd fsub flift2 fpow option_map]. reflexivity.
Qed.

Lemma first_pass_once kap : 0 < kap <= 0.018 -> forall t, -125 <= t <= 59 ->
  pass 0 0.1 0.6 300 kap 400 0 t = pass 0 0.1 0.6 300 kap 400 0 0 -> t = 0.
Proof.
  intros K t Ht E. unfold pass, KELVIN in E.
  assert (Rr : forall u, 0 <= ratio 0.1 0.6 300 kap 400 u <= 0.05).
  { intros u. unfold ratio. pose proof (trans_range 0.6 ltac:(lra) u) as [A B]. assert (0 <= 300 * trans 0.6 u * 0.1 <= 30) by lra.
    assert (0 <= kap * (300 * trans 0.6 u * 0.1) <= 0.54) by nra. lra. }
  assert (Ek : kp (ratio 0.1 0.6 300 kap 400 t) = kp (ratio 0.1 0.6 300 kap 400 0)) by lra.
  assert (Er : ratio 0.1 0.6 300 kap 400 t = ratio 0.1 0.6 300 kap 400 0).
  { pose proof (Rr t). pose proof (Rr 0). destruct (Rtotal_order (ratio 0.1 0.6 300 kap 400 t) (ratio 0.1 0.6 300 kap 400 0)) as [L|[L|L]]; [|exact L|].
    - pose proof (kp_strict _ _ (proj1 (Rr t)) L ltac:(lra)). lra.
    - pose proof (kp_strict _ _ (proj1 (Rr 0)) L ltac:(lra)). lra. }
  unfold ratio in Er. assert (Et : trans 0.6 t = trans 0.6 0) by (apply Rmult_eq_reg_l with kap; lra).
  assert (Es : svp_R t = svp_R 0).
  { unfold trans, ABASE in Et. rewrite svp_zero in *. unfold Rmax in Et. destruct (Rle_dec (0.6 + -6.1e-5 * 610.78) 0.0001); [lra|]. destruct (Rle_dec _ _); lra. }
  destruct (Rtotal_order t 0) as [L|[L|L]]; [|exact L|].
  - pose proof (svp_R_incr t 0 ltac:(lra) L). lra.
  - pose proof (svp_R_incr 0 t ltac:(lra) L). lra.
Qed.

Lemma gap_complete : forall k, In k mtclim_reads -> complete gap_frame k.
Proof. intros k I. unfold mtclim_reads in I. repeat (destruct I as [<-|I]; [eexists; split; reflexivity|]). destruct I. Qed.

Theorem dew_gap_refuted : ~ (forall fuel df prm df', (forall k, In k mtclim_reads -> complete df k) -> physical_place prm -> 0 < p_tdew_tol prm ->
  mtclim_run fuel df prm = Some (Ok df') -> converged prm df df' (sqrt (INR (List.length (dl_doy df))) * p_tdew_tol prm)).
Proof.
  intros H.
  destruct (dew_gap gap_frame (demo_step 60) [Some 0; None] 1 gap_complete eq_refl eq_refl) as (df' & new & Rn & W & Ln & P).
  assert (PP : physical_place (demo_step 60)) by (constructor; cbn [p_rain_scalar p_tday_coef p_lapse_rate p_elev demo_step]; unfold T_STD; lra).
  destruct (H 0%nat gap_frame (demo_step 60) df' gap_complete PP ltac:(cbn [p_tdew_tol demo_step]; lra) (Rn 0%nat)) as (series & k & S0 & Sp & Sw & Ch). clear H.
  change (dict_get (dl_cols gap_frame) "t_min") with (Some [Some 0; @None R]) in S0. apply Some_inj in S0.
  rewrite W in Sw. apply Some_inj in Sw.
  destruct (mtclim_inv _ _ _ _ (Rn 0%nat)) as (tmin & tmax & dtr & sm & pr & ttm & pot & dayl & sp & td & Cols & _ & E). clear Rn.
  destruct Cols as (C1 & C2 & C3 & C4 & C5 & C6 & C7 & C8 & C9).
  apply Some_inj in C1, C2, C3, C4, C5, C6, C7, C8, C9. subst tmin tmax dtr sm pr ttm pot dayl sp.
  destruct first_day as (kap & K & Fd). pose proof (first_pass_once kap K) as Inj. set (f := pass 0 0.1 0.6 300 kap 400 0) in *.
  assert (Rg : forall t, -125 <= f t <= 59) by (intros t; unfold f; apply pass_range; lra).
  assert (Step : forall old nw t, one_pass (demo_step 60) df' old nw -> nth_error old 0 = Some (Some t) -> -125 <= t <= 59 -> nth_error nw 0 = Some (Some (f t))).
  { intros old nw t Op N Ht. rewrite <- (Fd t Ht).
    apply (Op 0%nat); try exact N; rewrite E; unfold dew_out, dew_frame; cbv zeta; rewrite !get_set_col; cbn [String.eqb Ascii.eqb Bool.eqb];
      eexists; (split; [reflexivity|reflexivity]). }
  assert (It : forall i, exists t, nth_error (series i) 0 = Some (Some t) /\ -125 <= t <= 59).
  { induction i as [|i (t & N & Ht)]; [exists 0; rewrite <- S0; split; [reflexivity|lra]|]. exists (f t). split; [now apply (Step (series i))|apply Rg]. }
  destruct (It k) as (t & N & Ht).
  pose proof (Step _ _ t (Sp k) N Ht) as N1. pose proof (Step _ _ 0 P eq_refl ltac:(lra)) as N2. rewrite Sw in N2. rewrite N1 in N2.
  apply Some_inj in N2. apply Some_inj in N2. specialize (Inj t Ht N2). subst t.
  specialize (Ch 0%nat 0 (f 0) N N1). cbn [dl_doy gap_frame List.length p_tdew_tol demo_step] in Ch.
  assert (F0 : f 0 <= -0.7).
  { unfold f, pass, KELVIN. assert (0 <= ratio 0.1 0.6 300 kap 400 0) by (apply (ratio_range 0.1 0.6 300 kap 400); lra).
    pose proof (kp_high (ratio 0.1 0.6 300 kap 400 0) H). lra. }
  assert (S2 : sqrt (INR 2) <= 2).
  { replace (INR 2) with 2 by (simpl; lra). rewrite <- (sqrt_square 2) at 2 by lra. apply sqrt_le_1_alt. lra. }
  rewrite Rabs_left in Ch by lra. nra.
Qed.

(** ** cases *)
Lemma demo_place ts : physical_place (demo_step ts).
Proof. constructor; cbn [p_rain_scalar p_tday_coef p_lapse_rate p_elev demo_step]; unfold T_STD; lra. Qed.

Lemma full_physical ts : physical (demo_step ts) full_frame 2.
Proof.
  split; [apply demo_place|]. split; [reflexivity|]. split; [eexists; split; reflexivity|].
  exists [0; 1], [0; 9], [0; 8], [10; 10], [0.6; 0.6], [300; 300], [43200; 43200], [400; 400].
  split; [split; reflexivity|]. split; [split; reflexivity|]. split; [split; reflexivity|]. split; [split; reflexivity|].
  split; [split; reflexivity|]. split; [split; reflexivity|]. split; [split; reflexivity|]. split; [split; reflexivity|].
  assert (D : forall tn tx dtr, -100 <= tn <= 50 -> tn <= tx <= 100 -> 0 <= dtr <= 50 -> physical_day (demo_step ts) tn tx dtr 0.6 300 43200 400).
  { intros tn tx dtr H1 H2 H3. constructor; auto; try lra. intros tday p Td Pt.
    destruct (t_day_some (demo_step ts) tn tx) as (ta & Ta & Tr). specialize (Tr ltac:(lra) (pp_coef _ (demo_place ts))).
    rewrite Ta in Td. apply Some_inj in Td. subst ta.
    pose proof (pet_top (demo_step ts) 100 300 tday 43200 p ltac:(lra) ltac:(lra) ltac:(lra) ltac:(split; lra) (pp_lapse _ (demo_place ts)) (pp_elev _ (demo_place ts)) Pt) as B. unfold lhv in B.
    rewrite Rmax_right by lra. lra. }
  intros [|[|d]] Hd; [apply D; cbn; lra|apply D; cbn; lra|lia].
Qed.

Lemma full_complete : forall k, In k mtclim_reads -> complete full_frame k.
Proof. intros k I. unfold mtclim_reads in I. repeat (destruct I as [<-|I]; [eexists; split; reflexivity|]). destruct I. Qed.

Lemma full_runs ts : exists fuel df', mtclim_run fuel full_frame (demo_step ts) = Some (Ok df').
Proof.
  destruct (dew_terminates _ _ _ (full_physical ts)) as [N H]; [cbn [p_tdew_tol demo_step]; lra|]. exists N. exact (H N (le_n N)).
Qed.
