(** The daily formulas of mtclim. *)
From Coq Require Import ZArith Reals String List Bool Arith Lia Lra.
From Verif Require Import Model.Py Model.Fl Model.Np Model.Constants Model.Physics Model.Params Model.Disagg
  Model.Mtclim Spec.SeriesSpec Proofs.Base Proofs.RBase Proofs.ArrayProofs Proofs.PrecProofs
  Proofs.SvpProofs Proofs.LongwaveProofs.
Import ListNotations.
Local Open Scope list_scope.
Local Open Scope R_scope.

Theorem t_day_between prm a b : a <= b -> 0 <= p_tday_coef prm <= 1 ->
  exists t, t_day1 prm (Some a) (Some b) = Some t /\ (a + b) / 2 <= t <= b.
Proof.
  intros H C. unfold t_day1. cbn [fadd flift2]. rewrite fdiv_some by lra. cbn [fsub fmul fadd flift2].
  eexists. split; [reflexivity|]. nra.
Qed.

(** ** cloudy-sky transmittance *)
Definition tf_b (sm : R) : R := B0 + B1 * exp (- B2 * sm).
Lemma tf_b_pos sm : 0 < tf_b sm.
Proof. unfold tf_b, B0, B1. pose proof (exp_pos (- B2 * sm)). lra. Qed.
Definition dtr15 (d : R) : R := if Rlt_dec 0 d then Rpower d 1.5 else 0.
Definition tf_dry (dtr sm : R) : R := 1 - 0.9 * exp (- tf_b sm * dtr15 dtr).
Lemma tfmax_eq prm dtr sm p : 0 <= dtr ->
  tfmax1 prm (Some dtr) (Some sm) (Some p) =
  Some (if Rlt_dec (p_sw_prec_thresh prm) p then tf_dry dtr sm * p_rain_scalar prm else tf_dry dtr sm).
Proof.
  intros H. unfold tfmax1, tf_dry, tf_b, dtr15, C_RAD.
  cbn [fneg flift1 option_map fmul fadd flift2 fexp].
  assert (P : fpower (Some dtr) (Some 1.5) = Some (if Rlt_dec 0 dtr then Rpower dtr 1.5 else 0)).
  { unfold fpower. destruct (Rlt_dec 0 dtr); auto. destruct (Req_EM_T dtr 0); [|lra].
    destruct (Req_EM_T 1.5 0); [lra|]. destruct (Rlt_dec 0 1.5); [auto|lra]. }
  rewrite P. cbn [fneg flift1 option_map fmul fadd fsub flift2 fexp fgt flt]. unfold Rltb.
  set (X := exp _).
  replace (1.0 - 0.9 * X) with (1 - 0.9 * X) by lra.
  destruct (Rlt_dec (p_sw_prec_thresh prm) p); reflexivity.
Qed.

Lemma dtr15_incr a b : 0 <= a < b -> dtr15 a < dtr15 b.
Proof.
  intros H. unfold dtr15. destruct (Rlt_dec 0 b); [|lra]. destruct (Rlt_dec 0 a); [|apply exp_pos].
  unfold Rpower. apply exp_increasing. apply Rmult_lt_compat_l; [lra|]. apply ln_increasing; lra.
Qed.
Lemma dtr15_0 : dtr15 0 = 0.
Proof. unfold dtr15. destruct (Rlt_dec 0 0); [lra|auto]. Qed.
Lemma dtr15_nonneg a : 0 <= dtr15 a.
Proof. unfold dtr15. destruct (Rlt_dec 0 a); [apply Rlt_le, exp_pos|lra]. Qed.

Lemma tf_dry_bounds dtr sm : 0.1 <= tf_dry dtr sm < 1.
Proof.
  unfold tf_dry. pose proof (tf_b_pos sm). pose proof (dtr15_nonneg dtr).
  pose proof (exp_pos (- tf_b sm * dtr15 dtr)).
  assert (exp (- tf_b sm * dtr15 dtr) <= 1).
  { rewrite <- exp_0. destruct (Req_dec (tf_b sm * dtr15 dtr) 0) as [E|E].
    - replace (- tf_b sm * dtr15 dtr) with 0 by lra. lra.
    - apply Rlt_le, exp_increasing. assert (0 <= tf_b sm * dtr15 dtr) by nra. lra. }
  lra.
Qed.
Lemma tf_dry_incr a b sm : 0 <= a < b -> tf_dry a sm < tf_dry b sm.
Proof.
  intros H. unfold tf_dry. pose proof (tf_b_pos sm). pose proof (dtr15_incr a b H).
  assert (exp (- tf_b sm * dtr15 b) < exp (- tf_b sm * dtr15 a)) by (apply exp_increasing; nra). lra.
Qed.

Theorem tfmax_spec prm dtr sm p : 0 <= dtr -> 0 <= p_rain_scalar prm <= 1 ->
  exists dry t, 0.1 <= dry < 1 /\
    tfmax1 prm (Some dtr) (Some sm) (Some p) = Some t /\ 0 <= t < 1 /\
    (p <= p_sw_prec_thresh prm -> t = dry) /\
    (p_sw_prec_thresh prm < p -> t = dry * p_rain_scalar prm /\ 0.1 * p_rain_scalar prm <= t) /\
    (forall p', p' <= p_sw_prec_thresh prm -> tfmax1 prm (Some dtr) (Some sm) (Some p') = Some dry) /\
    forall dtr', dtr < dtr' -> exists t', tfmax1 prm (Some dtr') (Some sm) (Some p) = Some t' /\
      t <= t' /\ (0 < p_rain_scalar prm -> t < t').
Proof.
  intros H R01. pose proof (tf_dry_bounds dtr sm) as Bd.
  exists (tf_dry dtr sm). eexists. split; auto. split; [now apply tfmax_eq|].
  split; [|split; [|split; [|split]]].
  - destruct (Rlt_dec (p_sw_prec_thresh prm) p); nra.
  - intros D. destruct (Rlt_dec (p_sw_prec_thresh prm) p); [lra|auto].
  - intros D. destruct (Rlt_dec (p_sw_prec_thresh prm) p); [|lra]. split; auto. nra.
  - intros p' D. rewrite tfmax_eq by auto. destruct (Rlt_dec (p_sw_prec_thresh prm) p'); [lra|auto].
  - intros dtr' H'. rewrite tfmax_eq by lra. eexists. split; [reflexivity|].
    pose proof (tf_dry_incr dtr dtr' sm ltac:(lra)). destruct (Rlt_dec (p_sw_prec_thresh prm) p); split; nra.
Qed.

(** a range counts for less where ranges are usually large *)
Theorem tfmax_climate prm dtr sm sm' p : 0 < dtr -> sm < sm' -> 0 <= p_rain_scalar prm ->
  exists t t', tfmax1 prm (Some dtr) (Some sm) (Some p) = Some t /\ tfmax1 prm (Some dtr) (Some sm') (Some p) = Some t' /\
    t' <= t /\ (p <= p_sw_prec_thresh prm \/ 0 < p_rain_scalar prm -> t' < t).
Proof.
  intros D S R0. rewrite !tfmax_eq by lra. eexists. eexists. split; [reflexivity|]. split; [reflexivity|].
  assert (B : tf_b sm' < tf_b sm).
  { unfold tf_b, B1, B2. assert (X : exp (Ropp 0.185 * sm') < exp (Ropp 0.185 * sm)) by (apply exp_increasing; lra). lra. }
  assert (P : 0 < dtr15 dtr) by (rewrite <- dtr15_0; apply dtr15_incr; lra).
  assert (T : tf_dry dtr sm' < tf_dry dtr sm).
  { unfold tf_dry. assert (exp (- tf_b sm * dtr15 dtr) < exp (- tf_b sm' * dtr15 dtr)) by (apply exp_increasing; nra). lra. }
  destruct (Rlt_dec (p_sw_prec_thresh prm) p); split; try nra.
Qed.

(** missing precipitation counts as dry *)
Lemma tfmax_nan_prec prm dtr sm : 0 <= dtr -> tfmax1 prm (Some dtr) (Some sm) None = Some (tf_dry dtr sm).
Proof.
  intros H. transitivity (tfmax1 prm (Some dtr) (Some sm) (Some (p_sw_prec_thresh prm))).
  - unfold tfmax1. cbn [fgt flt]. unfold Rltb. destruct (Rlt_dec _ _); [lra|]. reflexivity.
  - rewrite tfmax_eq by auto. destruct (Rlt_dec _ _); [lra|auto].
Qed.

(** ** cloud cover *)
Theorem tskc_deardorff prm t : upper (p_lw_cloud prm) = "CLOUD_DEARDORFF"%string -> 0 <= t <= 1 ->
  exists c, mt_tskc1 prm (Some t) = Some c /\ 0 <= c <= 1.
Proof.
  intros N H. unfold mt_tskc1. rewrite N. cbn [String.eqb]. simpl. eexists. split; [reflexivity|]. lra.
Qed.
Theorem tskc_default prm t : upper (p_lw_cloud prm) <> "CLOUD_DEARDORFF"%string -> 0 <= t <= 1 ->
  exists c, mt_tskc1 prm (Some t) = Some c /\ 0 <= c /\ (c <= 1 <-> 0.35 <= t).
Proof.
  intros N H. unfold mt_tskc1. destruct (String.eqb_spec (upper (p_lw_cloud prm)) "CLOUD_DEARDORFF"); [contradiction|].
  cbn [fsub flift2]. rewrite fdiv_some by lra. unfold fsqrt.
  assert (0 <= (1 - t) / 0.65) by (apply div_nonneg; lra).
  destruct (Rlt_dec _ 0); [lra|]. eexists. split; [reflexivity|]. split; [apply sqrt_pos|].
  assert (E : (1 - t) / 0.65 <= 1 <-> 0.35 <= t) by (unfold Rdiv; split; intros; lra).
  rewrite <- E. split; intros Q.
  - destruct (Rle_dec ((1 - t) / 0.65) 1); auto. exfalso.
    assert (sqrt 1 < sqrt ((1 - t) / 0.65)) by (apply sqrt_lt_1; lra). rewrite sqrt_1 in *. lra.
  - assert (S1 : sqrt ((1 - t) / 0.65) <= sqrt 1) by (apply sqrt_le_1; lra). rewrite sqrt_1 in S1. exact S1.
Qed.

(** a dry day without temperature range: cloud cover above 1 *)
Theorem tskc_above_one : exists prm t c, upper (p_lw_cloud prm) = "DEFAULT"%string /\ 
  0 <= p_rain_scalar prm <= 1 /\
  tfmax1 prm (Some 0) (Some 10) (Some 0) = Some t /\ mt_tskc1 prm (Some t) = Some c /\ 1 < c.
Proof.
  exists (mkparams 60 false false "mtclim" "" "uniform" "prata" "default" 0 0.75 1e-6 0.45 0.67 0.0065 0 100 47 (-121)).
  assert (E : tf_dry 0 10 = 0.1).
  { unfold tf_dry. rewrite dtr15_0, Rmult_0_r, exp_0. lra. }
  destruct (tskc_default (mkparams 60 false false "mtclim" "" "uniform" "prata" "default" 0 0.75 1e-6 0.45 0.67 0.0065 0 100 47 (-121)) 0.1)
    as (c & Ec & _ & Hc); [discriminate|lra|].
  exists 0.1, c. split; [reflexivity|]. split; [simpl; lra|]. split.
  - rewrite tfmax_eq by lra. simpl. destruct (Rlt_dec 0 0); [lra|]. f_equal. auto.
  - split; auto. apply Rnot_le_lt. rewrite Hc. lra.
Qed.

Theorem tskc_decreasing prm t t' : 0 <= t < t' -> t' <= 1 ->
  mt_tskc1 prm (Some 1) = Some 0 /\
  exists c c', mt_tskc1 prm (Some t) = Some c /\ mt_tskc1 prm (Some t') = Some c' /\ c' < c.
Proof.
  intros H H'. unfold mt_tskc1. destruct (String.eqb _ _); cbn [fsub flift2].
  - split; [f_equal; lra|]. do 2 eexists. split; [reflexivity|]. split; [reflexivity|lra].
  - rewrite !fdiv_some by lra. unfold fsqrt.
    assert (A : 0 <= (1 - t') / 0.65) by (apply div_nonneg; lra).
    assert (B : (1 - t') / 0.65 < (1 - t) / 0.65) by (unfold Rdiv; lra).
    assert (Z0 : (1 - 1) / 0.65 = 0) by (unfold Rdiv; lra). rewrite Z0.
    split; [destruct (Rlt_dec 0 0); [lra|]; now rewrite sqrt_0|].
    destruct (Rlt_dec ((1 - t) / 0.65) 0); [lra|]. destruct (Rlt_dec ((1 - t') / 0.65) 0); [lra|].
    do 2 eexists. split; [reflexivity|]. split; [reflexivity|]. apply sqrt_lt_1; lra.
Qed.

(** ** daily shortwave *)
Theorem shortwave_spec tf vp tt pot : 0 <= tf -> 0 <= pot -> 0 <= vp ->
  exists s, mt_shortwave1 (Some tf) (Some vp) (Some tt) (Some pot) = Some s /\
    0 <= s <= pot * Rmax tt 0.0001 * tf /\
    (0 < tf -> 0 < pot -> 0 < s) /\
    forall vp', vp <= vp' -> exists s', mt_shortwave1 (Some tf) (Some vp') (Some tt) (Some pot) = Some s' /\ s' <= s.
Proof.
  intros T P V. unfold mt_shortwave1. cbn [fmul fadd flift2 fmax].
  assert (A : forall e, 0.0001 <= Rmax (tt + ABASE * e) 0.0001) by (intros; apply Rmax_r).
  assert (M : forall e e', e <= e' -> Rmax (tt + ABASE * e') 0.0001 <= Rmax (tt + ABASE * e) 0.0001).
  { intros e e' H. apply Rle_max_compat_r. unfold ABASE. lra. }
  pose proof (A vp) as A0. pose proof (M 0 vp V) as M0. replace (tt + ABASE * 0) with tt in M0 by lra.
  eexists. split; [reflexivity|]. split; [split|split].
  - repeat apply Rmult_le_pos; lra.
  - apply Rmult_le_compat_r; auto. apply Rmult_le_compat_l; auto.
  - intros. repeat apply Rmult_lt_0_compat; lra.
  - intros vp' H. eexists. split; [reflexivity|]. apply Rmult_le_compat_r; auto. apply Rmult_le_compat_l; auto.
Qed.

(** ** PET *)
Lemma atm_pres_pos elev lr : lr <> 0 -> lr * elev < T_STD ->
  exists p, atm_pres (Some elev) (Some lr) = Some p /\ 0 < p.
Proof.
  intros L H. unfold atm_pres. cbn [fmul flift2]. unfold T_STD in *. rewrite fdiv_some by lra.
  unfold MA, R_GAS. rewrite fdiv_some by lra. cbn [fmul fsub flift2].
  assert (R0 : 0 < 8.3143 / 0.0289644) by (apply div_pos; lra).
  rewrite fdiv_some by nra. rewrite fpower_pos.
  2:{ assert (lr * elev / 288.15 < 1) by (apply div_lt; lra). lra. }
  cbn [fmul flift2]. eexists. split; [reflexivity|]. unfold P_STD. apply Rmult_lt_0_compat; [lra|apply Rpower_pos].
Qed.

Definition lhv (ta : R) : R := 2502300 - 2430.54 * ta.

Theorem calc_pet_spec rad ta dayl pa : 0 <= rad -> 0 <= dayl -> -237.1 < ta < 1029 -> 0 < pa ->
  exists p, calc_pet1 (Some rad) (Some ta) (Some dayl) (Some pa) = Some p /\
    0 <= p /\ (0 < p <-> 0 < rad /\ 0 < dayl) /\
    exists c, 0 < c < 1 /\ p = 1.26 * c * (rad * 0.72) * dayl / lhv ta / 10.
Proof.
  intros R0 D0 T P0. unfold calc_pet1. cbn [fmul fsub fadd flift2].
  rewrite !svp1_some by lra. cbn [fsub flift2].
  assert (S0 : 0 < svp_R (ta + 0.2) - svp_R (ta - 0.2)) by (pose proof (svp_R_incr (ta - 0.2) (ta + 0.2) ltac:(lra) ltac:(lra)); lra).
  assert (L0 : 0 < 2502300 - 2430.54 * ta) by lra.
  rewrite fdiv_some by (unfold EPS; lra). rewrite fdiv_some by (unfold EPS; lra).
  set (s := (svp_R (ta + 0.2) - svp_R (ta - 0.2)) / _). assert (Ps : 0 < s) by (apply div_pos; lra).
  set (g := CP * pa / _). assert (Pg : 0 < g) by (apply div_pos; [unfold CP|unfold EPS]; lra).
  cbn [fadd flift2]. rewrite fdiv_some by lra. cbn [fmul flift2]. rewrite fdiv_some by lra. rewrite fdiv_some by lra.
  assert (Pc : 0 < s / (s + g) < 1) by (split; [apply div_pos|apply div_lt]; lra).
  set (c := s / (s + g)) in *. fold (lhv ta). fold (lhv ta) in L0.
  eexists. split; [reflexivity|].
  assert (X : 1.26 * c * (rad * 0.72) * dayl / lhv ta / 10 = (rad * dayl) * (1.26 * 0.72 * c / lhv ta / 10)) by (unfold Rdiv; lra).
  assert (K : 0 < 1.26 * 0.72 * c / lhv ta / 10) by (apply div_pos; [apply div_pos|]; lra).
  split; [rewrite X; apply Rmult_le_pos; [apply Rmult_le_pos|]; lra|].
  split; [|exists c; split; [exact Pc|unfold Rdiv; lra]].
  rewrite X. split.
  - intros H. assert (Q : 0 < rad * dayl) by (apply Rmult_lt_reg_r with (1.26 * 0.72 * c / lhv ta / 10); lra).
    split; nra.
  - intros [A B]. apply Rmult_lt_0_compat; [apply Rmult_lt_0_compat|]; auto.
Qed.

Theorem pet_spec prm rad ta dayl : 0 <= rad -> 0 <= dayl -> -237.1 < ta < 1029 ->
  p_lapse_rate prm <> 0 -> p_lapse_rate prm * p_elev prm < T_STD ->
  exists p, pet1 prm (Some rad) (Some ta) (Some dayl) = Some p /\ 0 <= p /\ (0 < p <-> 0 < rad /\ 0 < dayl).
Proof.
  intros R0 D0 T L H. unfold pet1. destruct (atm_pres_pos _ _ L H) as (pa & -> & Ppa).
  destruct (calc_pet_spec rad ta dayl pa R0 D0 T Ppa) as (p & -> & Pp & Iff & _). cbn [fmul flift2]. unfold MM_PER_CM.
  eexists. split; [reflexivity|]. split; [lra|]. rewrite <- Iff. split; lra.
Qed.
