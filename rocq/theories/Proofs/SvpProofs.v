(** Saturation vapor pressure and its slope. *)
From Coq Require Import ZArith Reals List Bool Arith Lia Lra Ranalysis.
From Verif Require Import Model.Py Model.Fl Model.Np Model.Constants Model.Physics
  Proofs.Base Proofs.RBase Proofs.ArrayProofs.
Local Open Scope R_scope.

Definition svp_E (T : R) : R := exp (17.269 * T / (237.3 + T)).
Definition svp_q (T : R) : R := 1.0 + 0.00972 * T + 0.000042 * T ^ 2.
Definition svp_R (T : R) : R :=
  if Rlt_dec T 0 then 0.61078 * svp_E T * svp_q T * 1000 else 0.61078 * svp_E T * 1000.

Lemma svp1_some T : -237.3 < T -> svp1 (Some T) = Some (svp_R T).
Proof.
  intros H. unfold svp1, svp_R, svp_E, svp_q.
  cbn [fmul fadd flift2]. rewrite fdiv_some by lra. cbn [fexp flift1 option_map fmul flift2 flt fadd fpow].
  unfold Rltb. destruct (Rlt_dec T 0); reflexivity.
Qed.

Lemma svp_E_pos T : 0 < svp_E T.
Proof. apply exp_pos. Qed.
Lemma svp_q_pos T : 0.4376 <= svp_q T.
Proof. unfold svp_q. pose proof (pow2_ge_0 (T + 810/7)). simpl in *. nra. Qed.
Lemma svp_R_pos T : 0 < svp_R T.
Proof.
  unfold svp_R. pose proof (svp_E_pos T). pose proof (svp_q_pos T).
  destruct (Rlt_dec T 0); repeat (apply Rmult_lt_0_compat; try lra).
Qed.

Lemma svp_arg_diff a b : -237.3 < a -> -237.3 < b ->
  17.269 * b / (237.3 + b) - 17.269 * a / (237.3 + a) = 17.269 * 237.3 * (b - a) / ((237.3 + a) * (237.3 + b)).
Proof. intros. field. lra. Qed.

Lemma svp_E_incr a b : -237.3 < a -> a < b -> svp_E a < svp_E b.
Proof.
  intros Ha Hb. apply exp_increasing. apply Rminus_gt_0_lt.
  rewrite svp_arg_diff by lra. apply Rmult_lt_0_compat; [nra|]. apply Rinv_0_lt_compat. nra.
Qed.

Lemma svp_E_ratio a b : -237.3 < a -> a < b -> b <= 0 -> svp_E a * (1 + 0.07277 * (b - a)) <= svp_E b.
Proof.
  intros Ha Hb B0. 
  assert (E : svp_E b = svp_E a * exp (17.269 * 237.3 * (b - a) / ((237.3 + a) * (237.3 + b)))).
  { unfold svp_E. rewrite <- exp_plus. f_equal. rewrite <- svp_arg_diff by lra. lra. }
  rewrite E. apply Rmult_le_compat_l; [apply Rlt_le, svp_E_pos|].
  eapply Rle_trans; [|apply exp_ineq1_le]. apply Rplus_le_compat_l.
  assert (D : (237.3 + a) * (237.3 + b) <= 237.3 * 237.3) by nra.
  assert (P : 0 < (237.3 + a) * (237.3 + b)) by nra.
  apply le_div; auto.
  apply Rle_trans with (0.07277 * (b - a) * (237.3 * 237.3)); [|nra].
  apply Rmult_le_compat_l; [nra|auto].
Qed.

Lemma svp_neg_incr a b : -237.3 < a -> a < b -> b <= 0 -> svp_E a * svp_q a < svp_E b * svp_q b.
Proof.
  intros Ha Hb B0. pose proof (svp_E_ratio a b Ha Hb B0) as R. pose proof (svp_q_pos b) as Q.
  apply Rlt_le_trans with (svp_E a * (1 + 0.07277 * (b - a)) * svp_q b).
  2:{ apply Rmult_le_compat_r; [lra|auto]. }
  rewrite Rmult_assoc. apply Rmult_lt_compat_l; [apply svp_E_pos|].
  assert (D : svp_q a - svp_q b <= 0.01022 * (b - a)).
  { unfold svp_q. simpl. nra. }
  nra.
Qed.

Theorem svp_R_incr a b : -237.3 < a -> a < b -> svp_R a < svp_R b.
Proof.
  intros Ha Hb. unfold svp_R.
  destruct (Rlt_dec a 0), (Rlt_dec b 0); try lra.
  - pose proof (svp_neg_incr a b Ha Hb ltac:(lra)). nra.
  - pose proof (svp_neg_incr a 0 Ha ltac:(lra) ltac:(lra)) as H.
    replace (svp_q 0) with 1 in H by (unfold svp_q; simpl; lra).
    destruct (Req_dec b 0) as [->|]; [nra|]. pose proof (svp_E_incr 0 b ltac:(lra) ltac:(lra)). nra.
  - pose proof (svp_E_incr a b Ha Hb). nra.
Qed.

Theorem svp_increasing a b : -237.3 < a -> a < b ->
  exists x y, svp1 (Some a) = Some x /\ svp1 (Some b) = Some y /\ 0 < x < y.
Proof.
  intros Ha Hb. exists (svp_R a), (svp_R b). rewrite !svp1_some by lra.
  repeat split; auto using svp_R_pos, svp_R_incr.
Qed.

(** ** slope *)
Definition slope_R (T : R) : R := 17.269 * 237.3 / ((237.3 + T) * (237.3 + T)) * svp_R T.
Lemma svp_slope1_some T : -237.3 < T -> svp_slope1 (Some T) = Some (slope_R T).
Proof.
  intros H. unfold svp_slope1, slope_R. rewrite svp1_some by auto. cbn [fadd fmul flift2].
  rewrite fdiv_some by nra. reflexivity.
Qed.

Lemma svp_E_derive T : -237.3 < T ->
  derivable_pt_lim svp_E T (17.269 * 237.3 / ((237.3 + T) * (237.3 + T)) * svp_E T).
Proof.
  intros H. unfold svp_E.
  replace (17.269 * 237.3 / ((237.3 + T) * (237.3 + T)) * exp (17.269 * T / (237.3 + T)))
    with (exp (17.269 * T / (237.3 + T)) *
          ((17.269 * 1 * (237.3 + T) - (0 + 1) * (17.269 * T)) / (237.3 + T)²)) by (unfold Rsqr; field; lra).
  change (fun T => exp (17.269 * T / (237.3 + T))) with (comp exp ((mult_real_fct 17.269 id) / (fct_cte 237.3 + id))%F).
  apply derivable_pt_lim_comp; [|apply derivable_pt_lim_exp].
  apply derivable_pt_lim_div.
  - apply derivable_pt_lim_scal. apply derivable_pt_lim_id.
  - apply derivable_pt_lim_plus; [apply derivable_pt_lim_const|apply derivable_pt_lim_id].
  - unfold plus_fct, fct_cte, id. lra.
Qed.

Lemma svp_q_derive T : derivable_pt_lim svp_q T (0.00972 + 0.000084 * T).
Proof.
  unfold svp_q.
  replace (0.00972 + 0.000084 * T) with (0 + 0.00972 * 1 + 0.000042 * (INR 2 * T ^ Nat.pred 2)) by (simpl; lra).
  change (fun T => 1.0 + 0.00972 * T + 0.000042 * T ^ 2)
    with (fct_cte 1.0 + mult_real_fct 0.00972 id + mult_real_fct 0.000042 (fun x => x ^ 2))%F.
  repeat apply derivable_pt_lim_plus.
  - apply derivable_pt_lim_const.
  - apply derivable_pt_lim_scal, derivable_pt_lim_id.
  - apply derivable_pt_lim_scal, derivable_pt_lim_pow.
Qed.

Lemma derive_near f g x l a b : a < x < b -> (forall z, a < z < b -> f z = g z) ->
  derivable_pt_lim f x l -> derivable_pt_lim g x l.
Proof.
  intros Hx E D eps He. destruct (D eps He) as [d Hd].
  assert (Pd : 0 < Rmin d (Rmin (x - a) (b - x))) by (repeat apply Rmin_pos; try lra; apply cond_pos).
  exists (mkposreal _ Pd). simpl. intros h Hh Hl.
  assert (Rabs h < d) by (eapply Rlt_le_trans; [exact Hl|apply Rmin_l]).
  assert (Rabs h < x - a) by (eapply Rlt_le_trans; [exact Hl|eapply Rle_trans; [apply Rmin_r|apply Rmin_l]]).
  assert (Rabs h < b - x) by (eapply Rlt_le_trans; [exact Hl|eapply Rle_trans; [apply Rmin_r|apply Rmin_r]]).
  apply Rabs_def2 in H0, H1. rewrite <- !E by lra. now apply Hd.
Qed.

Section Slope.
  Context (f : R -> R) (Hf : forall t, -237.3 < t -> svp1 (Some t) = Some (f t)).

  Lemma f_is t : -237.3 < t -> svp_R t = f t.
  Proof. intros H. pose proof (Hf t H) as E. rewrite svp1_some in E by auto. congruence. Qed.

  Lemma slope_above T : 0 < T -> derivable_pt_lim f T (slope_R T).
  Proof.
    intros H. apply derive_near with (f := (mult_real_fct (0.61078 * 1000) svp_E)) (a := 0) (b := T + 1); [lra| |].
    - intros z Hz. rewrite <- f_is by lra. unfold svp_R, mult_real_fct. destruct (Rlt_dec z 0); lra.
    - unfold slope_R, svp_R. destruct (Rlt_dec T 0); [lra|].
      replace (17.269 * 237.3 / ((237.3 + T) * (237.3 + T)) * (0.61078 * svp_E T * 1000))
        with (0.61078 * 1000 * (17.269 * 237.3 / ((237.3 + T) * (237.3 + T)) * svp_E T))
        by (generalize (17.269 * 237.3 / ((237.3 + T) * (237.3 + T))); intros; lra).
      apply derivable_pt_lim_scal, svp_E_derive. lra.
  Qed.

  Lemma slope_below T : -237.3 < T < 0 ->
    derivable_pt_lim f T (slope_R T + 610.78 * svp_E T * (0.00972 + 0.000084 * T)).
  Proof.
    intros H. apply derive_near with (f := (mult_real_fct (0.61078 * 1000) (svp_E * svp_q)%F)) (a := -237.3) (b := 0); [lra| |].
    - intros z Hz. rewrite <- f_is by lra. unfold svp_R, mult_real_fct, mult_fct. destruct (Rlt_dec z 0); lra.
    - unfold slope_R, svp_R. destruct (Rlt_dec T 0); [|lra].
      replace (17.269 * 237.3 / ((237.3 + T) * (237.3 + T)) * (0.61078 * svp_E T * svp_q T * 1000) +
               610.78 * svp_E T * (0.00972 + 0.000084 * T))
        with (0.61078 * 1000 * ((17.269 * 237.3 / ((237.3 + T) * (237.3 + T)) * svp_E T) * svp_q T
                + svp_E T * (0.00972 + 0.000084 * T)))
        by (generalize (17.269 * 237.3 / ((237.3 + T) * (237.3 + T))); intros; lra).
      apply derivable_pt_lim_scal, derivable_pt_lim_mult; [apply svp_E_derive; lra|apply svp_q_derive].
  Qed.

  Lemma slope_below_iff T : -237.3 < T < 0 -> (derivable_pt_lim f T (slope_R T) <-> T = - (810 / 7)).
  Proof.
    intros H. pose proof (slope_below T H) as D. pose proof (svp_E_pos T) as E. split.
    - intros D'. pose proof (uniqueness_limite _ _ _ _ D D') as U.
      assert (Z : svp_E T * (0.00972 + 0.000084 * T) = 0) by lra.
      apply Rmult_integral in Z as [Z|Z]; lra.
    - intros Et. replace (slope_R T) with (slope_R T + 610.78 * svp_E T * (0.00972 + 0.000084 * T)); auto.
      replace (0.00972 + 0.000084 * T) with 0 by lra. lra.
  Qed.

  (** at 0 the two one-sided derivatives differ *)
  Lemma no_slope_at_0 l : ~ derivable_pt_lim f 0 l.
  Proof.
    intros D.
    pose (fr := mult_real_fct (0.61078 * 1000) svp_E).
    pose (fl_ := mult_real_fct (0.61078 * 1000) (svp_E * svp_q)%F).
    pose (s := 17.269 * 237.3 / ((237.3 + 0) * (237.3 + 0)) * svp_E 0).
    assert (Dr : derivable_pt_lim fr 0 (0.61078 * 1000 * s)).
    { apply derivable_pt_lim_scal, svp_E_derive. lra. }
    assert (Dl : derivable_pt_lim fl_ 0 (0.61078 * 1000 * (s * svp_q 0 + svp_E 0 * (0.00972 + 0.000084 * 0)))).
    { apply derivable_pt_lim_scal, derivable_pt_lim_mult; [apply svp_E_derive; lra|apply svp_q_derive]. }
    assert (E0 : svp_E 0 = 1) by (unfold svp_E; rewrite Rmult_0_r; unfold Rdiv; rewrite Rmult_0_l; apply exp_0).
    assert (Q0 : svp_q 0 = 1) by (unfold svp_q; simpl; lra).
    rewrite E0, Q0 in Dl.
    set (lr := 0.61078 * 1000 * s) in *.
    assert (Ll : 0.61078 * 1000 * (s * 1 + 1 * (0.00972 + 0.000084 * 0)) = lr + 5.9367816) by (unfold lr; lra).
    rewrite Ll in Dl.
    destruct (D 1 ltac:(lra)) as [d Hd]. destruct (Dr 1 ltac:(lra)) as [dr Hr]. destruct (Dl 1 ltac:(lra)) as [dl Hl].
    set (h := Rmin d (Rmin dr (Rmin dl 1)) / 2).
    assert (Ph : 0 < Rmin d (Rmin dr (Rmin dl 1))) by (repeat apply Rmin_pos; try apply cond_pos; lra).
    assert (Hm : h < d /\ h < dr /\ h < dl /\ h < 1).
    { pose proof (Rmin_l d (Rmin dr (Rmin dl 1))). pose proof (Rmin_r d (Rmin dr (Rmin dl 1))).
      pose proof (Rmin_l dr (Rmin dl 1)). pose proof (Rmin_r dr (Rmin dl 1)).
      pose proof (Rmin_l dl 1). pose proof (Rmin_r dl 1). unfold h. lra. }
    assert (Hp : 0 < h) by (unfold h; lra).
    assert (Ab : Rabs h = h) by (apply Rabs_right; lra).
    assert (Ab' : Rabs (- h) = h) by (rewrite Rabs_Ropp; auto).
    pose proof (Hd h ltac:(lra) ltac:(lra)) as A1. pose proof (Hd (-h) ltac:(lra) ltac:(lra)) as A2.
    pose proof (Hr h ltac:(lra) ltac:(lra)) as A3. pose proof (Hl (-h) ltac:(lra) ltac:(lra)) as A4.
    assert (F1 : f (0 + h) = fr (0 + h)).
    { rewrite <- f_is by lra. unfold svp_R, fr, mult_real_fct. destruct (Rlt_dec (0 + h) 0); lra. }
    assert (F0 : f 0 = fr 0 /\ f 0 = fl_ 0).
    { rewrite <- f_is by lra. unfold svp_R, fr, fl_, mult_real_fct, mult_fct. rewrite E0, Q0.
      destruct (Rlt_dec 0 0); split; lra. }
    assert (F2 : f (0 + - h) = fl_ (0 + - h)).
    { rewrite <- f_is by lra. unfold svp_R, fl_, mult_real_fct, mult_fct. destruct (Rlt_dec (0 + - h) 0); lra. }
    destruct F0 as [F0 F0']. rewrite F1, F0 in A1. rewrite F2, F0' in A2.
    apply Rabs_def2 in A1, A2, A3, A4. lra.
  Qed.
End Slope.

Theorem slope_above_freezing f T : (forall t, -237.3 < t -> svp1 (Some t) = Some (f t)) -> 0 < T ->
  exists s, svp_slope1 (Some T) = Some s /\ derivable_pt_lim f T s.
Proof. intros Hf H. exists (slope_R T). rewrite svp_slope1_some by lra. split; auto. now apply slope_above. Qed.

Theorem slope_wrong_below f T : (forall t, -237.3 < t -> svp1 (Some t) = Some (f t)) -> -237.3 < T <= 0 ->
  exists s, svp_slope1 (Some T) = Some s /\ (derivable_pt_lim f T s <-> T = - (810 / 7)).
Proof.
  intros Hf H. exists (slope_R T). rewrite svp_slope1_some by lra. split; auto.
  destruct (Req_dec T 0) as [->|N].
  - split; [|lra]. intros D. elim (no_slope_at_0 f Hf _ D).
  - apply slope_below_iff; auto; lra.
Qed.

Lemma svp_function : exists f, forall t, -237.3 < t -> svp1 (Some t) = Some (f t).
Proof. exists svp_R. intros. now apply svp1_some. Qed.
