(** C41, C42: the dewpoint iteration. *)
From Coq Require Import ZArith Reals String List Bool Arith Lia Lra Psatz.
From Verif Require Import Model.Py Model.Fl Model.Np Model.Constants Model.Physics Model.Params Model.Disagg Model.Mtclim
  Spec.SeriesSpec Spec.FrameSpec Spec.DailySpec Spec.DewSpec
  Proofs.Base Proofs.RBase Proofs.ArrayProofs Proofs.PrecProofs Proofs.DisaggProofs Proofs.UtcProofs Proofs.ShortwaveProofs Proofs.GlobalsProofs Proofs.SvpProofs Proofs.MtclimProofs Proofs.CellProofs Proofs.OrbitProofs Proofs.DewMap.
Import ListNotations.
Local Open Scope string_scope.
Local Open Scope list_scope.
Local Open Scope R_scope.

(** ** the loop *)
Definition iterate (prm : params) (days : list mt_day) (k : nat) (t0 : list fl) : list fl := Nat.iter k (tdew_update prm days) t0.
Definition moving (prm : params) (new old : list fl) : bool := fgt (rms_diff new old) (Some (p_tdew_tol prm)).

Lemma loop_inv prm days t0 : forall fuel k td, tdew_loop fuel prm days (iterate prm days k t0) (iterate prm days (S k) t0) = Some td ->
  exists j, (k <= j <= k + fuel)%nat /\ td = iterate prm days (S j) t0 /\
    moving prm (iterate prm days (S j) t0) (iterate prm days j t0) = false /\
    forall i, (k <= i < j)%nat -> moving prm (iterate prm days (S i) t0) (iterate prm days i t0) = true.
Proof.
  induction fuel as [|f IH]; intros k td; cbn [tdew_loop]; fold (moving prm (iterate prm days (S k) t0) (iterate prm days k t0));
    destruct (moving _ _ _) eqn:M; intros H.
  - discriminate.
  - apply Some_inj in H. subst td. exists k. split; [lia|]. split; [reflexivity|]. split; [exact M|]. intros i Hi. lia.
  - change (tdew_update prm days (iterate prm days (S k) t0)) with (iterate prm days (S (S k)) t0) in H.
    destruct (IH _ _ H) as (j & J & E & S1 & S2). exists j. split; [lia|]. split; [exact E|]. split; [exact S1|].
    intros i Hi. destruct (Nat.eq_dec i k) as [->|]; [exact M|]. apply S2. lia.
  - apply Some_inj in H. subst td. exists k. split; [lia|]. split; [reflexivity|]. split; [exact M|]. intros i Hi. lia.
Qed.

Lemma loop_stops prm days t0 : forall fuel k j, (k <= j <= k + fuel)%nat ->
  moving prm (iterate prm days (S j) t0) (iterate prm days j t0) = false ->
  exists td, tdew_loop fuel prm days (iterate prm days k t0) (iterate prm days (S k) t0) = Some td.
Proof.
  induction fuel as [|f IH]; intros k j J M; cbn [tdew_loop]; fold (moving prm (iterate prm days (S k) t0) (iterate prm days k t0)).
  - assert (j = k) by lia. subst j. rewrite M. eauto.
  - destruct (moving prm (iterate prm days (S k) t0) (iterate prm days k t0)) eqn:M'; [|eauto]. change (tdew_update prm days (iterate prm days (S k) t0)) with (iterate prm days (S (S k)) t0).
    apply (IH (S k) j); [|exact M]. assert (j <> k) by congruence. lia.
Qed.

Lemma loop_forever prm days t0 : (forall j, moving prm (iterate prm days (S j) t0) (iterate prm days j t0) = true) ->
  forall fuel, tdew_loop fuel prm days t0 (tdew_update prm days t0) = None.
Proof.
  intros M fuel. destruct (tdew_loop _ _ _ _ _) as [td|] eqn:E; [|reflexivity].
  destruct (loop_inv prm days t0 fuel 0 td E) as (j & _ & _ & N & _). congruence.
Qed.

(** ** root mean square *)
Lemma map2_cons {A B C} (f : A -> B -> C) x a y b : map2 f (x :: a) (y :: b) = f x y :: map2 f a b.
Proof. reflexivity. Qed.
Lemma map2_nil {A B C} (f : A -> B -> C) a : map2 f a [] = [].
Proof. unfold map2. now rewrite combine_nil. Qed.
Lemma sq_sum_nonneg : forall a b, 0 <= total (map2 (fun x y => (x - y) ^ 2) a b).
Proof.
  induction a as [|x a IH]; intros [|y b]; rewrite ?map2_nil; try apply Rle_refl. rewrite map2_cons, total_cons. pose proof (IH b). pose proof (pow2_ge_0 (x - y)). lra.
Qed.
Lemma rms_diff_some a b : a <> [] -> List.length a = List.length b -> rms_diff (map Some a) (map Some b) = Some (rms a b).
Proof.
  intros N L. unfold rms_diff.
  assert (E : map2 (fun x y => fpow (fsub x y) 2) (map Some a) (map Some b) = map Some (map2 (fun x y => (x - y) ^ 2) a b)).
  { clear. revert b. induction a as [|x a IH]; intros [|y b]; [reflexivity..|]. cbn [map]. rewrite !map2_cons, IH. reflexivity. }
  rewrite E. assert (La : List.length (map2 (fun x y => (x - y) ^ 2) a b) = List.length a) by (now apply ShortwaveProofs.map2_length).
  rewrite fmean_some by (intros Q; rewrite Q in La; destruct a; [congruence|discriminate La]). rewrite La. unfold fsqrt.
  assert (0 < INR (List.length a)) by (apply lt_0_INR; destruct a; [congruence|cbn; lia]).
  destruct (Rlt_dec _ 0) as [Lt|Lt]; [|reflexivity]. exfalso.
  assert (0 <= total (map2 (fun x y => (x - y) ^ 2) a b) / INR (List.length a)); [|lra].
  apply Rmult_le_pos; [apply sq_sum_nonneg|left; now apply Rinv_0_lt_compat].
Qed.
Lemma rms_bound a b e : 0 <= e -> a <> [] -> Forall2 (fun x y => Rabs (x - y) <= e) a b -> rms a b <= e.
Proof.
  intros E N H. unfold rms. assert (T : total (map2 (fun x y => (x - y) ^ 2) a b) <= INR (List.length a) * (e * e)).
  { clear N. induction H as [|x y a b P Q IH]; [unfold total, map2; simpl; lra|]. cbn [List.length]. rewrite map2_cons, total_cons, S_INR.
    assert ((x - y) ^ 2 <= e * e). { rewrite <- Rsqr_pow2. apply Rsqr_le_abs_1. rewrite (Rabs_pos_eq e) by auto. exact P. } lra. }
  assert (P : 0 < INR (List.length a)) by (apply lt_0_INR; destruct a; [congruence|cbn; lia]).
  rewrite <- (sqrt_square e) by auto. apply sqrt_le_1_alt. apply div_le; auto. lra.
Qed.
Lemma rms_nonneg a b : 0 <= rms a b.
Proof. apply sqrt_pos. Qed.

(** ** inversion of the daily method *)
Definition dew_frame (prm : params) (df : daily) (tmin tmax dtr sm pr : list fl) : daily :=
  set_col (set_col (set_col df "t_day" (map2 (t_day1 prm) tmin tmax)) "tfmax" (map3 (tfmax1 prm) dtr sm pr))
    "tskc" (map (mt_tskc1 prm) (map3 (tfmax1 prm) dtr sm pr)).
Definition dew_days (prm : params) (tmin tmax dtr sm pr ttm pot dayl sp : list fl) : list mt_day :=
  mk_days tmin (map3 (tfmax1 prm) dtr sm pr) ttm pot (map2 (t_day1 prm) tmin tmax) dayl sp dtr.
Definition dew_out (prm : params) (d : daily) (tfm ttm pot tday dayl td : list fl) : daily :=
  let vp := map mt_vapor_pressure1 td in
  let sw := map2 (fun f p => f p) (map3 mt_shortwave1 tfm vp ttm) pot in
  set_col (set_col (set_col (set_col d "tdew" td) "vapor_pressure" vp) "shortwave" sw) "pet" (map3 (pet1 prm) sw tday dayl).

Lemma mtclim_eq fuel df prm tmin tmax dtr sm pr ttm pot dayl sp :
  dict_get (dl_cols df) "t_min" = Some tmin -> dict_get (dl_cols df) "t_max" = Some tmax -> dict_get (dl_cols df) "dtr" = Some dtr ->
  dict_get (dl_cols df) "smoothed_dtr" = Some sm -> dict_get (dl_cols df) "prec" = Some pr -> dict_get (dl_cols df) "tt_max" = Some ttm ->
  dict_get (dl_cols df) "potrad" = Some pot -> dict_get (dl_cols df) "daylength" = Some dayl -> dict_get (dl_cols df) "seasonal_prec" = Some sp ->
  mtclim_run fuel df prm =
    let days := dew_days prm tmin tmax dtr sm pr ttm pot dayl sp in
    match tdew_loop fuel prm days tmin (tdew_update prm days tmin) with
    | None => None
    | Some td => Some (Ok (dew_out prm (dew_frame prm df tmin tmax dtr sm pr) (map3 (tfmax1 prm) dtr sm pr) ttm pot (map2 (t_day1 prm) tmin tmax) dayl td))
    end.
Proof.
  intros H1 H2 H3 H4 H5 H6 H7 H8 H9. unfold mtclim_run. cbv zeta.
  assert (C : forall d k v, dict_get (dl_cols d) k = Some v -> col d k = Ok v) by (intros; now apply col_get).
  rewrite (C _ _ _ H1). cbn [bind]. rewrite (C _ _ _ H2). cbn [bind].
  set (d1 := set_col df "t_day" (map2 (t_day1 prm) tmin tmax)).
  assert (G1 : forall k, k <> "t_day" -> dict_get (dl_cols d1) k = dict_get (dl_cols df) k).
  { intros k N. unfold d1. rewrite get_set_col. destruct (String.eqb_spec k "t_day"); [contradiction|reflexivity]. }
  rewrite (C d1 "dtr" dtr) by (rewrite G1; [auto|discriminate]). cbn [bind].
  rewrite (C d1 "smoothed_dtr" sm) by (rewrite G1; [auto|discriminate]). cbn [bind].
  rewrite (C d1 "prec" pr) by (rewrite G1; [auto|discriminate]). cbn [bind].
  set (d2 := set_col d1 "tfmax" (map3 (tfmax1 prm) dtr sm pr)).
  rewrite (C d2 "tfmax" (map3 (tfmax1 prm) dtr sm pr)) by (unfold d2; rewrite get_set_col; reflexivity). cbn [bind].
  set (d3 := set_col d2 "tskc" (map (mt_tskc1 prm) (map3 (tfmax1 prm) dtr sm pr))).
  assert (G3 : forall k, k <> "t_day" -> k <> "tfmax" -> k <> "tskc" -> dict_get (dl_cols d3) k = dict_get (dl_cols df) k).
  { intros k N1 N2 N3. unfold d3, d2. rewrite !get_set_col. destruct (String.eqb_spec k "tskc"); [contradiction|].
    destruct (String.eqb_spec k "tfmax"); [contradiction|]. now apply G1. }
  rewrite (C d3 "tt_max" ttm) by (rewrite G3; [auto|discriminate..]). cbn [bind].
  rewrite (C d3 "potrad" pot) by (rewrite G3; [auto|discriminate..]). cbn [bind].
  rewrite (C d3 "daylength" dayl) by (rewrite G3; [auto|discriminate..]). cbn [bind].
  rewrite (C d3 "seasonal_prec" sp) by (rewrite G3; [auto|discriminate..]). cbn [bind].
  rewrite (C d3 "t_day" (map2 (t_day1 prm) tmin tmax)) by (unfold d3, d2, d1; rewrite !get_set_col; reflexivity). cbn [bind].
  reflexivity.
Qed.

Lemma mtclim_inv fuel df prm df' : mtclim_run fuel df prm = Some (Ok df') ->
  exists tmin tmax dtr sm pr ttm pot dayl sp td, let days := dew_days prm tmin tmax dtr sm pr ttm pot dayl sp in
    (dict_get (dl_cols df) "t_min" = Some tmin /\ dict_get (dl_cols df) "t_max" = Some tmax /\ dict_get (dl_cols df) "dtr" = Some dtr /\
     dict_get (dl_cols df) "smoothed_dtr" = Some sm /\ dict_get (dl_cols df) "prec" = Some pr /\ dict_get (dl_cols df) "tt_max" = Some ttm /\
     dict_get (dl_cols df) "potrad" = Some pot /\ dict_get (dl_cols df) "daylength" = Some dayl /\ dict_get (dl_cols df) "seasonal_prec" = Some sp) /\
    tdew_loop fuel prm days tmin (tdew_update prm days tmin) = Some td /\
    df' = dew_out prm (dew_frame prm df tmin tmax dtr sm pr) (map3 (tfmax1 prm) dtr sm pr) ttm pot (map2 (t_day1 prm) tmin tmax) dayl td.
Proof.
  intros H. assert (Col : exists tmin tmax dtr sm pr ttm pot dayl sp,
     dict_get (dl_cols df) "t_min" = Some tmin /\ dict_get (dl_cols df) "t_max" = Some tmax /\ dict_get (dl_cols df) "dtr" = Some dtr /\
     dict_get (dl_cols df) "smoothed_dtr" = Some sm /\ dict_get (dl_cols df) "prec" = Some pr /\ dict_get (dl_cols df) "tt_max" = Some ttm /\
     dict_get (dl_cols df) "potrad" = Some pot /\ dict_get (dl_cols df) "daylength" = Some dayl /\ dict_get (dl_cols df) "seasonal_prec" = Some sp).
  { unfold mtclim_run in H. cbv zeta in H.
    match type of H with match ?p with _ => _ end = _ => destruct p as [pp|] eqn:E; [clear H|discriminate H] end.
    do 11 inv_bind E. clear E. rename v into w0, v0 into w1, v1 into w2, v2 into w3, v3 into w4, v4 into w5, v5 into w6, v6 into w7, v7 into w8, v8 into w9, v9 into w10.
    rewrite !col_get in *. rewrite ?get_set_col in *. cbn [String.eqb Ascii.eqb Bool.eqb] in *.
    exists w0, w1, w2, w3, w4, w6, w7, w8, w9. tauto. }
  destruct Col as (tmin & tmax & dtr & sm & pr & ttm & pot & dayl & sp & H1 & H2 & H3 & H4 & H5 & H6 & H7 & H8 & H9).
  rewrite (mtclim_eq fuel df prm _ _ _ _ _ _ _ _ _ H1 H2 H3 H4 H5 H6 H7 H8 H9) in H. cbv zeta in H.
  destruct (tdew_loop _ _ _ _ _) as [td|] eqn:E; [|discriminate].
  exists tmin, tmax, dtr, sm, pr, ttm, pot, dayl, sp, td. cbv zeta. split; [tauto|]. split; [exact E|]. congruence.
Qed.

(** ** C41 *)
Lemma mk_days_nth : forall tn tf tt po td dl sp dt d a b c e f g h i,
  nth_error tn d = Some a -> nth_error tf d = Some b -> nth_error tt d = Some c -> nth_error po d = Some e ->
  nth_error td d = Some f -> nth_error dl d = Some g -> nth_error sp d = Some h -> nth_error dt d = Some i ->
  nth_error (mk_days tn tf tt po td dl sp dt) d = Some (mk_mt_day a b c e f g h i).
Proof.
  induction tn as [|x1 tn IH]; intros [|x2 tf] [|x3 tt] [|x4 po] [|x5 td] [|x6 dl] [|x7 sp] [|x8 dt] [|d] a b c e f g h i;
    cbn [nth_error mk_days]; try discriminate.
  - intros. congruence.
  - apply IH.
Qed.

Lemma pass_of_update prm df' tn tf tt po td dl sp dt old :
  dict_get (dl_cols df') "t_min" = Some tn -> dict_get (dl_cols df') "tfmax" = Some tf -> dict_get (dl_cols df') "tt_max" = Some tt ->
  dict_get (dl_cols df') "potrad" = Some po -> dict_get (dl_cols df') "t_day" = Some td -> dict_get (dl_cols df') "daylength" = Some dl ->
  dict_get (dl_cols df') "seasonal_prec" = Some sp -> dict_get (dl_cols df') "dtr" = Some dt ->
  one_pass prm df' old (tdew_update prm (mk_days tn tf tt po td dl sp dt) old).
Proof.
  intros G1 G2 G3 G4 G5 G6 G7 G8 d o a b c e f g h i O (v1 & V1 & N1) (v2 & V2 & N2) (v3 & V3 & N3) (v4 & V4 & N4) (v5 & V5 & N5) (v6 & V6 & N6) (v7 & V7 & N7) (v8 & V8 & N8).
  rewrite G1 in V1. rewrite G2 in V2. rewrite G3 in V3. rewrite G4 in V4. rewrite G5 in V5. rewrite G6 in V6. rewrite G7 in V7. rewrite G8 in V8.
  apply Some_inj in V1, V2, V3, V4, V5, V6, V7, V8. subst.
  unfold tdew_update. rewrite (nth_map2 _ _ _ _ _ _ (mk_days_nth _ _ _ _ _ _ _ _ _ _ _ _ _ _ _ _ _ N1 N2 N3 N4 N5 N6 N7 N8) O). reflexivity.
Qed.

Lemma not_moving prm a b : moving prm b a = false -> settled (p_tdew_tol prm) a b.
Proof.
  intros M x y -> -> L N. unfold moving in M. rewrite rms_diff_some in M; [|destruct y; [destruct x; [congruence|discriminate L]|discriminate]|auto].
  unfold fgt, flt, Rltb in M. destruct (Rlt_dec _ _); [discriminate|]. lra.
Qed.
Theorem dew_consistent fuel df prm df' : mtclim_run fuel df prm = Some (Ok df') ->
  exists (series : nat -> list fl) k,
    dict_get (dl_cols df) "t_min" = Some (series 0%nat) /\
    (forall i, one_pass prm df' (series i) (series (S i))) /\
    (k <= fuel)%nat /\ settled (p_tdew_tol prm) (series k) (series (S k)) /\
    dict_get (dl_cols df') "tdew" = Some (series (S k)) /\
    row1 df' "vapor_pressure" "tdew" svp1 /\
    row4 df' "shortwave" "tfmax" "vapor_pressure" "tt_max" "potrad" mt_shortwave1 /\
    row3 df' "pet" "shortwave" "t_day" "daylength" (pet1 prm).
Proof.
  intros H. destruct (mtclim_inv _ _ _ _ H) as (tmin & tmax & dtr & sm & pr & ttm & pot & dayl & sp & td & (H1 & H2 & H3 & H4 & H5 & H6 & H7 & H8 & H9) & Lp & E).
  set (days := dew_days prm tmin tmax dtr sm pr ttm pot dayl sp) in *.
  destruct (loop_inv prm days tmin fuel 0 td Lp) as (k & K & Td & St & _).
  assert (G : forall n, dict_get (dl_cols df') n =
    if n =? "pet" then Some (map3 (pet1 prm) (map2 (fun f p => f p) (map3 mt_shortwave1 (map3 (tfmax1 prm) dtr sm pr) (map mt_vapor_pressure1 td) ttm) pot) (map2 (t_day1 prm) tmin tmax) dayl)
    else if n =? "shortwave" then Some (map2 (fun f p => f p) (map3 mt_shortwave1 (map3 (tfmax1 prm) dtr sm pr) (map mt_vapor_pressure1 td) ttm) pot)
    else if n =? "vapor_pressure" then Some (map mt_vapor_pressure1 td)
    else if n =? "tdew" then Some td
    else if n =? "tskc" then Some (map (mt_tskc1 prm) (map3 (tfmax1 prm) dtr sm pr))
    else if n =? "tfmax" then Some (map3 (tfmax1 prm) dtr sm pr)
    else if n =? "t_day" then Some (map2 (t_day1 prm) tmin tmax) else dict_get (dl_cols df) n).
  { intros n. rewrite E. unfold dew_out, dew_frame. cbv zeta. rewrite !get_set_col. reflexivity. }
  clear E. exists (fun i => iterate prm days i tmin), k. split; [exact H1|]. split.
  { intros i. change (iterate prm days (S i) tmin) with (tdew_update prm days (iterate prm days i tmin)).
    apply pass_of_update; rewrite G; cbn [String.eqb Ascii.eqb Bool.eqb]; auto. }
  split; [lia|]. split; [now apply not_moving|]. split; [rewrite G, Td; reflexivity|]. split; [|split].
  - exists td. rewrite !G. split; reflexivity.
  - eexists _, _, _, _. rewrite !G. cbn [String.eqb Ascii.eqb Bool.eqb]. split; [reflexivity|]. split; [reflexivity|]. split; [exact H6|]. split; [exact H7|reflexivity].
  - eexists _, _, _. rewrite !G. cbn [String.eqb Ascii.eqb Bool.eqb]. split; [reflexivity|]. split; [reflexivity|]. split; [exact H8|reflexivity].
Qed.

(** ** C42: one physical day *)
Lemma pet_linear prm ta dayl : 0 <= dayl -> -237.1 < ta < 1029 -> p_lapse_rate prm <> 0 -> p_lapse_rate prm * p_elev prm < T_STD ->
  exists kap, 0 <= kap /\ forall rad, pet1 prm (Some rad) (Some ta) (Some dayl) = Some (kap * rad).
Proof.
  intros D0 T L H. unfold pet1. destruct (atm_pres_pos _ _ L H) as (pa & -> & P0). unfold calc_pet1. cbn [fmul fsub fadd flift2].
  rewrite !svp1_some by lra. cbn [fsub flift2].
  assert (S0 : 0 < svp_R (ta + 0.2) - svp_R (ta - 0.2)) by (pose proof (svp_R_incr (ta - 0.2) (ta + 0.2) ltac:(lra) ltac:(lra)); lra).
  assert (L0 : 0 < 2502300 - 2430.54 * ta) by lra.
  rewrite fdiv_some by (unfold EPS; lra). rewrite fdiv_some by (unfold EPS; lra).
  set (s := (svp_R (ta + 0.2) - svp_R (ta - 0.2)) / _). assert (Ps : 0 < s) by (apply div_pos; lra).
  set (g := CP * pa / _). assert (Pg : 0 < g) by (apply div_pos; [unfold CP|unfold EPS]; lra).
  cbn [fadd flift2]. rewrite fdiv_some by lra. cbn [fmul flift2].
  assert (Pc : 0 < s / (s + g) < 1) by (split; [apply div_pos|apply div_lt]; lra).
  set (c := s / (s + g)) in *. set (v := 2502300 - 2430.54 * ta) in *.
  exists (1.26 * c * 0.72 * dayl / v). split.
  - apply Rmult_le_pos; [|left; now apply Rinv_0_lt_compat]. apply Rmult_le_pos; lra.
  - intros rad. rewrite fdiv_some by lra. rewrite fdiv_some by lra. cbn [fmul flift2]. unfold MM_PER_CM. f_equal. unfold Rdiv. lra.
Qed.

(** a day whose pass is a real function on [-125, 59] *)
Definition tame (prm : params) (day : mt_day) (f : R -> R) : Prop :=
  (forall t, -125 <= t <= 59 -> tdew_update1 prm day (Some t) = Some (f t)) /\
  (forall t, -125 <= f t <= 59) /\
  forall x y, -125 <= x -> x <= y -> y <= 59 -> f y >= f x - 0.84 * (y - x).

Lemma t_day_some prm a b : exists tday, t_day1 prm (Some a) (Some b) = Some tday /\
  (a <= b -> 0 <= p_tday_coef prm <= 1 -> a <= tday <= b).
Proof.
  unfold t_day1. cbn [fadd fsub fmul flift2]. rewrite fdiv_some by lra. cbn [fadd fsub fmul flift2]. eexists. split; [reflexivity|].
  intros H C. nra.
Qed.

Lemma physical_tame prm tn tx dtr sm pr tt pot dl sp : physical_place prm -> physical_day prm tn tx dtr tt pot dl sp ->
  exists f, tame prm (mk_mt_day (Some tn) (tfmax1 prm (Some dtr) (Some sm) pr) (Some tt) (Some pot) (t_day1 prm (Some tn) (Some tx)) (Some dl) (Some sp) (Some dtr)) f.
Proof.
  intros [Rn Cf Lr El] [Tn Tx Dt Tt Po Dl Pt].
  destruct (t_day_some prm tn tx) as (ta & Ta & Tr). specialize (Tr ltac:(lra) Cf).
  destruct (pet_linear prm ta dl Dl ltac:(lra) Lr El) as (kap & K0 & Lin).
  assert (F : exists tf, tfmax1 prm (Some dtr) (Some sm) pr = Some tf /\ 0 <= tf <= 1).
  { destruct pr as [p|].
    - destruct (tfmax_spec prm dtr sm p ltac:(lra) Rn) as (dry & tf & _ & E & B & _). exists tf. split; [exact E|]. lra.
    - exists (tf_dry dtr sm). split; [apply tfmax_nan_prec; lra|]. pose proof (tf_dry_bounds dtr sm). lra. }
  destruct F as (tf & -> & Tf). rewrite Ta. pose proof (Pt ta (kap * pot) Ta (Lin pot)) as Q.
  assert (S0 : 0 < Rmax 80 sp) by (pose proof (Rmax_l 80 sp); lra).
  exists (pass tn tf tt pot kap (Rmax 80 sp) dtr). split; [|split].
  - intros t Ht. unfold tdew_update1. cbn [md_tmin md_tfmax md_ttmax md_potrad md_tday md_daylength md_sprec md_dtr].
    unfold mt_vapor_pressure1. rewrite svp1_some by lra. unfold mt_shortwave1. cbn [fmul fadd fmax flift2].
    rewrite Lin. unfold tdew1. cbn [flt].
    assert (E : (if Rltb sp 80.0 then Some 80.0 else Some sp) = Some (Rmax 80 sp)).
    { unfold Rltb. destruct (Rlt_dec sp 80.0); f_equal; [rewrite Rmax_left; lra|rewrite Rmax_right; lra]. }
    rewrite E. rewrite fdiv_some by lra. cbn [fmul fadd fsub flift2 fpow option_map]. reflexivity.
  - intros t. apply pass_range; auto.
  - intros x y X XY Y. now apply pass_slow.
Qed.

(** ** the whole record *)
Definition apply_all (fs : list (R -> R)) (ts : list R) : list R := map2 (fun f t => f t) fs ts.
Definition inside (t : R) : Prop := -125 <= t <= 59.

Lemma update_reals prm days fs : Forall2 (tame prm) days fs -> forall ts, Forall inside ts ->
  tdew_update prm days (map Some ts) = map Some (apply_all fs ts) /\ Forall inside (apply_all fs ts).
Proof.
  unfold tdew_update, apply_all. induction 1 as [|d f days fs P Q IH]; intros ts I; [split; [reflexivity|constructor]|].
  destruct I as [|t ts It Is]; [rewrite !map2_nil; split; [reflexivity|constructor]|]. cbn [map]. rewrite !map2_cons.
  destruct (IH ts Is) as [E F]. destruct P as (P1 & P2 & _). rewrite E, P1 by exact It. split; [reflexivity|]. constructor; [apply P2|exact F].
Qed.

Lemma iterate_reals prm days fs ts k : Forall2 (tame prm) days fs -> Forall inside ts ->
  iterate prm days k (map Some ts) = map Some (Nat.iter k (apply_all fs) ts) /\ Forall inside (Nat.iter k (apply_all fs) ts).
Proof.
  intros T I. induction k as [|k [E F]]; [split; [reflexivity|exact I]|].
  cbn [iterate Nat.iter nat_rect] in *. unfold iterate in *. cbn [Nat.iter nat_rect]. fold (Nat.iter k (tdew_update prm days) (map Some ts)).
  rewrite E. now apply update_reals.
Qed.

Lemma iter_cons f fs t ts : forall k, Nat.iter k (apply_all (f :: fs)) (t :: ts) = Nat.iter k f t :: Nat.iter k (apply_all fs) ts.
Proof. induction k as [|k IH]; [reflexivity|]. cbn [Nat.iter nat_rect]. unfold Nat.iter in IH. rewrite IH. reflexivity. Qed.

Lemma iter_length fs ts k : List.length fs = List.length ts -> List.length (Nat.iter k (apply_all fs) ts) = List.length ts.
Proof.
  intros L. induction k as [|k IH]; [reflexivity|]. cbn [Nat.iter nat_rect]. unfold Nat.iter in IH. unfold apply_all at 1.
  rewrite ShortwaveProofs.map2_length; congruence.
Qed.

Lemma all_settle prm days fs : Forall2 (tame prm) days fs -> forall ts eps, 0 < eps -> Forall inside ts -> List.length fs = List.length ts ->
  exists N, forall n, (n >= N)%nat -> Forall2 (fun x y => Rabs (x - y) <= eps) (Nat.iter (S n) (apply_all fs) ts) (Nat.iter n (apply_all fs) ts).
Proof.
  induction 1 as [|d f days fs P Q IH]; intros [|t ts] eps E I L; try discriminate L.
  - exists 0%nat. intros n _. assert (Z : forall k, Nat.iter k (apply_all []) [] = ([] : list R)) by (induction k; reflexivity). rewrite !Z. constructor.
  - inversion I as [|? ? It Is]. subst. cbn [List.length] in L. destruct (IH ts eps E Is ltac:(lia)) as [N1 H1].
    destruct P as (_ & P2 & P3).
    assert (Rg : forall n, -125 <= Nat.iter n f t <= 59) by (intros [|n]; [exact It|cbn [Nat.iter nat_rect]; apply P2]).
    destruct (orbit_settles f (-125) 59 0.84 (fun n => Nat.iter n f t) ltac:(lra) P3 (fun n => eq_refl) Rg eps E) as [N2 H2].
    exists (N1 + N2)%nat. intros n Hn. rewrite !iter_cons. constructor; [left; apply (H2 n); lia|apply H1; lia].
Qed.

Theorem loop_terminates prm days fs ts : Forall2 (tame prm) days fs -> Forall inside ts -> List.length fs = List.length ts -> 0 < p_tdew_tol prm ->
  exists N, forall fuel, (fuel >= N)%nat -> exists td, tdew_loop fuel prm days (map Some ts) (tdew_update prm days (map Some ts)) = Some td.
Proof.
  intros T I L P. destruct (all_settle prm days fs T ts (p_tdew_tol prm) P I L) as [N H]. exists N. intros fuel F.
  apply (loop_stops prm days (map Some ts) fuel 0 N); [lia|].
  destruct (iterate_reals prm days fs ts N T I) as [E1 _]. destruct (iterate_reals prm days fs ts (S N) T I) as [E2 _]. rewrite E1, E2.
  specialize (H N ltac:(lia)). pose proof (iter_length fs ts N L) as L1. pose proof (iter_length fs ts (S N) L) as L2.
  set (a := Nat.iter (S N) (apply_all fs) ts) in *. set (b := Nat.iter N (apply_all fs) ts) in *.
  unfold moving. destruct a as [|x a]; [destruct b; [|cbn in L1, L2; lia]|].
  - unfold rms_diff. cbn [map]. unfold map2. cbn [combine map]. unfold fmean, fsum. cbn [fold_right List.length INR]. rewrite fdiv_0. reflexivity.
  - rewrite rms_diff_some by (discriminate || congruence). unfold fgt, flt, Rltb.
    destruct (Rlt_dec _ _) as [Lt|]; [|reflexivity]. exfalso.
    pose proof (rms_bound (x :: a) b (p_tdew_tol prm) ltac:(lra) ltac:(discriminate) H). lra.
Qed.

Theorem loop_never prm days fs ts : Forall2 (tame prm) days fs -> Forall inside ts -> List.length fs = List.length ts -> ts <> [] ->
  p_tdew_tol prm < 0 -> forall fuel, tdew_loop fuel prm days (map Some ts) (tdew_update prm days (map Some ts)) = None.
Proof.
  intros T I L N P. apply loop_forever. intros j.
  destruct (iterate_reals prm days fs ts j T I) as [E1 _]. destruct (iterate_reals prm days fs ts (S j) T I) as [E2 _]. rewrite E1, E2.
  pose proof (iter_length fs ts j L) as L1. pose proof (iter_length fs ts (S j) L) as L2.
  unfold moving. rewrite rms_diff_some; [|intros Q; rewrite Q in L2; destruct ts; [congruence|discriminate L2]|congruence].
  unfold fgt, flt, Rltb. destruct (Rlt_dec _ _) as [|G]; [reflexivity|]. exfalso. apply G. pose proof (rms_nonneg (Nat.iter (S j) (apply_all fs) ts) (Nat.iter j (apply_all fs) ts)). lra.
Qed.

(** ** frames *)
Lemma mk_days_tame prm : physical_place prm -> forall tn tx dtr sm pr tt pot dl sp n,
  List.length tn = n -> List.length tx = n -> List.length dtr = n -> List.length sm = n -> List.length pr = n -> List.length tt = n ->
  List.length pot = n -> List.length dl = n -> List.length sp = n ->
  (forall d, (d < n)%nat -> physical_day prm (nth d tn 0) (nth d tx 0) (nth d dtr 0) (nth d tt 0) (nth d pot 0) (nth d dl 0) (nth d sp 0)) ->
  exists fs, List.length fs = n /\ Forall2 (tame prm) (dew_days prm (map Some tn) (map Some tx) (map Some dtr) (map Some sm) pr (map Some tt) (map Some pot) (map Some dl) (map Some sp)) fs.
Proof.
  intros PP. unfold dew_days, map3.
  induction tn as [|x1 tn IH]; intros [|x2 tx] [|x3 dtr] [|x4 sm] [|x5 pr] [|x6 tt] [|x7 pot] [|x8 dl] [|x9 sp] [|n]; cbn [List.length];
    intros L1 L2 L3 L4 L5 L6 L7 L8 L9 H; try discriminate.
  - exists []. split; [reflexivity|constructor].
  - destruct (IH tx dtr sm pr tt pot dl sp n) as (fs & Lf & Fs); try lia; [intros d D; apply (H (S d)); lia|].
    destruct (physical_tame prm x1 x2 x3 x4 x5 x6 x7 x8 x9 PP (H 0%nat ltac:(lia))) as [f Hf].
    exists (f :: fs). split; [cbn; lia|]. cbn [map]. rewrite !map2_cons. cbn [mk_days]. constructor; [exact Hf|exact Fs].
Qed.

Lemma physical_loop prm df n : physical prm df n -> exists days fs ts tmin tmax dtr sm pr ttm pot dayl,
  Forall2 (tame prm) days fs /\ Forall inside ts /\ List.length fs = List.length ts /\ List.length ts = n /\
  forall fuel, mtclim_run fuel df prm = match tdew_loop fuel prm days (map Some ts) (tdew_update prm days (map Some ts)) with
    | None => None
    | Some td => Some (Ok (dew_out prm (dew_frame prm df tmin tmax dtr sm pr) (map3 (tfmax1 prm) dtr sm pr) ttm pot (map2 (t_day1 prm) tmin tmax) dayl td))
    end.
Proof.
  intros (PP & Ln & (pr & Pr & Lp) & tn & tx & dtr & sm & tt & pot & dl & sp & [H1 L1] & [H2 L2] & [H3 L3] & [H4 L4] & [H6 L6] & [H7 L7] & [H8 L8] & [H9 L9] & Ph).
  rewrite map_length in *. rewrite Ln in *.
  destruct (mk_days_tame prm PP tn tx dtr sm pr tt pot dl sp n L1 L2 L3 L4 Lp L6 L7 L8 L9 Ph) as (fs & Lf & Fs).
  eexists _, fs, tn, (map Some tn), (map Some tx), (map Some dtr), (map Some sm), pr, (map Some tt), (map Some pot), (map Some dl).
  split; [exact Fs|]. split; [|split; [congruence|split; [exact L1|]]].
  - apply Forall_forall. intros t It. destruct (In_nth tn t 0 It) as (d & D & <-). rewrite L1 in D. pose proof (ph_tmin _ _ _ _ _ _ _ _ (Ph d D)). unfold inside. lra.
  - intros fuel. exact (mtclim_eq fuel df prm _ _ _ _ _ _ _ _ _ H1 H2 H3 H4 Pr H6 H7 H8 H9).
Qed.

Theorem dew_terminates prm df n : physical prm df n -> 0 < p_tdew_tol prm ->
  exists N, forall fuel, (fuel >= N)%nat -> exists df', mtclim_run fuel df prm = Some (Ok df').
Proof.
  intros P T. destruct (physical_loop prm df n P) as (days & fs & ts & tmin & tmax & dtr & sm & pr & ttm & pot & dayl & Ta & I & L & _ & E).
  destruct (loop_terminates prm days fs ts Ta I L T) as [N H]. exists N. intros fuel F. destruct (H fuel F) as [td Q].
  rewrite (E fuel). rewrite Q. eauto.
Qed.

Theorem dew_diverges prm df n : physical prm df n -> (0 < n)%nat -> p_tdew_tol prm < 0 -> forall fuel, mtclim_run fuel df prm = None.
Proof.
  intros P N T fuel. destruct (physical_loop prm df n P) as (days & fs & ts & tmin & tmax & dtr & sm & pr & ttm & pot & dayl & Ta & I & L & Ln & E).
  rewrite (E fuel). rewrite (loop_never prm days fs ts Ta I L); [reflexivity| |exact T]. intros ->. cbn in Ln. lia.
Qed.

Theorem dew_physical prm df n : physical prm df n ->
  (0 < p_tdew_tol prm -> exists N, forall fuel, (fuel >= N)%nat -> exists df', mtclim_run fuel df prm = Some (Ok df')) /\
  ((0 < n)%nat -> p_tdew_tol prm < 0 -> forall fuel, mtclim_run fuel df prm = None).
Proof. intros P. split; [now apply dew_terminates with n|intros; now apply (dew_diverges prm df n)]. Qed.
