(** Concrete cases for Properties/Physics.v. *)
From Coq Require Import ZArith Reals String List Bool Arith Lia Lra.
From Verif Require Import Model.Py Model.Fl Model.Np Model.Constants Model.Physics Model.Params Model.Disagg
  Model.Mtclim Spec.TimeSpec Spec.SeriesSpec Proofs.Base Proofs.RBase Proofs.ArrayProofs Proofs.PrecProofs
  Proofs.SvpProofs Proofs.HumidProofs Proofs.LongwaveProofs Proofs.MtclimProofs Proofs.PrecExamples.
Import ListNotations.
Local Open Scope list_scope.
Local Open Scope R_scope.

Lemma svp_0 : svp1 (Some 0) = Some 610.78.
Proof.
  rewrite svp1_some by lra. f_equal. unfold svp_R, svp_E. destruct (Rlt_dec 0 0); [lra|].
  rewrite Rmult_0_r. unfold Rdiv. rewrite Rmult_0_l, exp_0. lra.
Qed.
Lemma rh_example : relative_humidity1 (Some 0.30539) (Some 0) = Some 50 /\
  relative_humidity1 (Some 2) (Some 0) = Some 100.
Proof.
  split; unfold relative_humidity1; rewrite svp_0, fdiv_some by lra; cbn [fmul flift2 fgt flt];
    unfold Rltb, MAX_PERCENT, MBAR_PER_BAR; destruct (Rlt_dec _ _); f_equal; lra.
Qed.
Lemma sh_example : exists q, specific_humidity1 (Some 1) (Some 100) = Some q /\ 0.006 < q < 0.0063.
Proof.
  rewrite sh_eq by lra. eexists. split; [reflexivity|]. unfold sh, EPS. split; [apply lt_div|apply div_lt]; lra.
Qed.
Lemma pressure_example : pressure1 (Some 15) (Some 0) (Some 0.0065) = Some 101.325.
Proof.
  rewrite pressure_eq by lra. f_equal. unfold pres, Rdiv.
  rewrite Rmult_0_l, Ropp_0, Rmult_0_l, exp_0. lra.
Qed.
Lemma longwave_example : exists L,
  longwave [Some 10] [Some 1] [Some 0.5] demo_params None = Ok [Some L] /\ 0 < L.
Proof.
  assert (E : exists x, longwave [Some 10] [Some 1] [Some 0.5] demo_params None = Ok [x]) by (eexists; reflexivity).
  destruct E as (x & E).
  destruct (longwave_positive [Some 10] [Some 1] [Some 0.5] demo_params [x] 0 10 1 0.5 E eq_refl eq_refl eq_refl) as (L & H & P); try lra.
  simpl in H. injection H as ->. eauto.
Qed.
Lemma supplied_example : exists base out,
  longwave (repeat (Some 10) 4) (repeat (Some 1) 4) (repeat (Some 0.5) 4)
    (mkparams 360 false false "mtclim" "" "uniform" "prata" "cloud_deardorff" 0 0.75 1e-6 0.45 0.67 0.0065 0 100 47 (-121)) None = Ok base /\
  longwave (repeat (Some 10) 4) (repeat (Some 1) 4) (repeat (Some 0.5) 4)
    (mkparams 360 false false "mtclim" "" "uniform" "prata" "cloud_deardorff" 0 0.75 1e-6 0.45 0.67 0.0065 0 100 47 (-121)) (Some [Some 300]) = Ok out /\
  fmean out = Some 300.
Proof.
  set (prm := mkparams _ _ _ _ _ _ _ _ _ _ _ _ _ _ _ _ _ _).
  assert (E : exists base, longwave (repeat (Some 10) 4) (repeat (Some 1) 4) (repeat (Some 0.5) 4) prm None = Ok base
                           /\ List.length base = 4%nat) by (eexists; split; reflexivity).
  destruct E as (base & E & Ln). exists base.
  assert (L : legal_time_step (p_time_step prm)) by (unfold legal_time_step, prm; simpl; repeat split; lia).
  destruct (longwave_supplied _ _ _ prm base [Some 300] 1 L E Ln eq_refl) as (out & Eo & Lo & D).
  exists out. split; auto. split; auto.
  assert (P : forall k, (k < 4)%nat -> exists x, nth_error base k = Some (Some x) /\ 0 < x).
  { intros k Hk. apply (longwave_positive _ _ _ prm base k 10 1 0.5 E); try lra;
    destruct k as [|[|[|[|k]]]]; try lia; reflexivity. }
  destruct (P 0%nat ltac:(lia)) as (x0 & E0 & P0). destruct (P 1%nat ltac:(lia)) as (x1 & E1 & P1).
  destruct (P 2%nat ltac:(lia)) as (x2 & E2 & P2). destruct (P 3%nat ltac:(lia)) as (x3 & E3 & P3).
  assert (B : base = map Some [x0; x1; x2; x3]).
  { do 4 (destruct base as [|? base]; [discriminate|]). destruct base; [|discriminate].
    cbn [nth_error] in E0, E1, E2, E3. injection E0 as ->. injection E1 as ->. injection E2 as ->. injection E3 as ->. reflexivity. }
  change (steps (p_time_step prm)) with 4%nat in D.
  assert (F : fmean (day_part 4 0 base) = Some ((x0 + (x1 + (x2 + (x3 + 0)))) / INR 4)).
  { rewrite B. unfold day_part. cbn [Nat.mul skipn firstn map]. apply (fmean_some [x0; x1; x2; x3]). discriminate. }
  destruct (D 0%nat 300 _ eq_refl F) as [_ R].
  { apply Rgt_not_eq. apply div_pos; [|simpl]; lra. }
  unfold day_part in R. cbn [Nat.mul skipn] in R. rewrite firstn_all2 in R; auto. rewrite Lo, Ln. auto.
Qed.
Lemma fill_example : fill_gaps [None; Some 1; None; None; Some 2; None] = [Some 1; Some 1; Some 1; Some 1; Some 2; Some 2].
Proof. reflexivity. Qed.
Lemma t_day_example : t_day1 demo_params (Some 0) (Some 10) = Some 7.25.
Proof. unfold t_day1. cbn [fadd flift2]. rewrite fdiv_some by lra. simpl. f_equal. lra. Qed.
Lemma tfmax_example : tfmax1 demo_params (Some 0) (Some 10) (Some 5) = Some 0.075.
Proof.
  rewrite tfmax_eq by lra. cbn [demo_params p_sw_prec_thresh p_rain_scalar]. destruct (Rlt_dec 0 5); [|lra].
  unfold tf_dry. rewrite dtr15_0, Rmult_0_r, exp_0. f_equal. lra.
Qed.
Lemma tskc_example : mt_tskc1 demo_params (Some 0.4) = Some 0.6.
Proof. unfold mt_tskc1. simpl. f_equal. lra. Qed.
Lemma shortwave_example : mt_shortwave1 (Some 0.5) (Some 1000) (Some 0.7) (Some 400) = Some 127.8.
Proof.
  unfold mt_shortwave1, ABASE. cbn [fmul fadd flift2 fmax]. rewrite Rmax_left by lra. f_equal. lra.
Qed.
Lemma pet_example : exists p, pet1 demo_params (Some 200) (Some 15) (Some 40000) = Some p /\ 0 < p.
Proof.
  destruct (pet_spec demo_params 200 15 40000) as (p & E & _ & H); try lra; try (simpl; unfold T_STD; lra).
  exists p. split; auto. apply H. lra.
Qed.
Lemma svp_example : exists x y, svp1 (Some (-10)) = Some x /\ svp1 (Some 20) = Some y /\ 0 < x < y.
Proof. apply svp_increasing; lra. Qed.
