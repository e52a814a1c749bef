(** Solar geometry: one row of the tables. *)
From Coq Require Import ZArith Reals String List Bool Arith Lia Lra Ratan.
From Verif Require Import Model.Py Model.Fl Model.Np Model.Constants Model.Physics
  Proofs.Base Proofs.StateProofs Proofs.ArrayProofs Proofs.PrecProofs Proofs.RBase Proofs.PiBounds Spec.SeriesSpec Spec.SolarSpec.
Import ListNotations.
Local Open Scope R_scope.

Definition S_RAD : R := SEC_PER_RAD.

Lemma dh_S : sg_dh * SEC_PER_RAD = 30.
Proof. unfold sg_dh, SEC_PER_RAD, SW_RAD_DT. field_simplify; lra. Qed.
Lemma dh_pos : 0 < sg_dh.
Proof. unfold sg_dh, SEC_PER_RAD, SW_RAD_DT. apply div_pos; lra. Qed.

(** ** Int_part *)
Lemma Int_part_spec r z : IZR z <= r < IZR z + 1 -> Int_part r = z.
Proof.
  intros H. unfold Int_part. rewrite <- (tech_up r (z + 1)); [lia| |]; rewrite plus_IZR; lra.
Qed.
Lemma Int_part_bounds r : IZR (Int_part r) <= r < IZR (Int_part r) + 1.
Proof. destruct (base_Int_part r). lra. Qed.
Lemma Rtrunc_nonneg r : 0 <= r -> Rtrunc r = Int_part r.
Proof. unfold Rtrunc. destruct (Rle_dec 0 r); auto. contradiction. Qed.
Lemma Int_part_mono a b : a <= b -> (Int_part a <= Int_part b)%Z.
Proof.
  intros H. pose proof (Int_part_bounds a). pose proof (Int_part_bounds b).
  assert (IZR (Int_part a) < IZR (Int_part b + 1)) by (rewrite plus_IZR; lra). apply lt_IZR in H2. lia.
Qed.
Lemma Rceil_bounds r : r <= IZR (Rceil r) < r + 1.
Proof. unfold Rceil. rewrite opp_IZR. pose proof (Int_part_bounds (- r)). lra. Qed.

Section Day.
Variables (lat : R) (i : nat).
Hypothesis Hlat : -90 <= lat <= 90.

Lemma lat_bounds : - 1.5707962 < sg_lat lat < 1.5707962.
Proof.
  unfold sg_lat, RAD_PER_DEG. pose proof PI_lower. unfold Rmin, Rmax.
  destruct (Rle_dec (lat * 0.01745329) (- PI / 2)); destruct (Rle_dec _ (PI / 2)); lra.
Qed.
Lemma lat_value : sg_lat lat = lat * RAD_PER_DEG.
Proof.
  unfold sg_lat, RAD_PER_DEG. pose proof PI_lower. unfold Rmin, Rmax.
  destruct (Rle_dec (lat * 0.01745329) (- PI / 2)); destruct (Rle_dec _ (PI / 2)); lra.
Qed.
Lemma cos_lat_pos : 0 < cos (sg_lat lat).
Proof. pose proof lat_bounds. pose proof PI_lower. apply cos_gt_0; lra. Qed.
Lemma decl_bounds : - 0.41 < sg_decl i < 0.41.
Proof.
  unfold sg_decl, MIN_DECL. pose proof (COS_bound ((INR i + DAYS_OFF) * RAD_PER_DAY)). lra.
Qed.
Lemma cos_decl_pos : 0 < cos (sg_decl i).
Proof. pose proof decl_bounds. pose proof PI_lower. apply cos_gt_0; lra. Qed.
Lemma coseg_pos : 0 < sg_cosegeom lat i.
Proof. unfold sg_cosegeom. apply Rmult_lt_0_compat; [apply cos_lat_pos|apply cos_decl_pos]. Qed.

Notation co := (sg_cosegeom lat i).
Notation si := (sg_sinegeom lat i).
Notation hss := (sg_hss lat i).

Lemma coshss_range : -1 <= sg_coshss lat i <= 1.
Proof. unfold sg_coshss, Rmin, Rmax. repeat destruct (Rle_dec _ _); lra. Qed.
Lemma hss_range : 0 <= hss <= PI.
Proof. apply acos_bound. Qed.
Lemma cos_hss : cos hss = sg_coshss lat i.
Proof. unfold sg_hss. apply cos_acos, coshss_range. Qed.

Lemma ratio_mul : co * (- si / co) = - si.
Proof. field. pose proof coseg_pos. lra. Qed.

(** the sun is up strictly inside (-hss, hss) *)
Lemma up_inside h : - hss < h < hss -> 0 < sg_cza lat i h.
Proof.
  intros H. pose proof hss_range as Hr. assert (C : sg_coshss lat i < cos h).
  { rewrite <- cos_hss. destruct (Rle_dec 0 h).
    - apply cos_decreasing_1; lra.
    - rewrite <- (cos_neg h). apply cos_decreasing_1; lra. }
  assert (- si / co < cos h).
  { pose proof (COS_bound h). revert C. unfold sg_coshss, Rmin, Rmax. repeat destruct (Rle_dec _ _); lra. }
  unfold sg_cza. pose proof coseg_pos. pose proof ratio_mul.
  assert (co * (- si / co) < co * cos h) by (apply Rmult_lt_compat_l; auto). lra.
Qed.

(** and not below the horizon at sunrise *)
Lemma up_sunrise : 0 < hss -> 0 <= sg_cza lat i (- hss).
Proof.
  intros H. unfold sg_cza. rewrite cos_neg, cos_hss.
  assert (- si / co <= sg_coshss lat i).
  { unfold sg_coshss, Rmin, Rmax. repeat destruct (Rle_dec _ _); try lra.
    exfalso. assert (E : hss = 0); [|lra]. unfold sg_hss, sg_coshss, Rmin, Rmax.
    repeat destruct (Rle_dec _ _); try lra; apply acos_1. }
  pose proof coseg_pos. pose proof ratio_mul.
  assert (co * (- si / co) <= co * sg_coshss lat i) by (apply Rmult_le_compat_l; lra). lra.
Qed.

Lemma hss_zero : hss = 0 <-> forall h, sg_cza lat i h <= 0.
Proof.
  pose proof coseg_pos. split.
  - intros E h. assert (C : sg_coshss lat i = 1) by (rewrite <- cos_hss, E; apply cos_0).
    assert (1 <= - si / co) by (revert C; unfold sg_coshss, Rmin, Rmax; repeat destruct (Rle_dec _ _); lra).
    assert (co * 1 <= co * (- si / co)) by (apply Rmult_le_compat_l; lra).
    rewrite ratio_mul in H1. unfold sg_cza. pose proof (COS_bound h).
    assert (co * cos h <= co * 1) by (apply Rmult_le_compat_l; lra). lra.
  - intros A. destruct (Rle_lt_or_eq_dec 0 hss) as [L|L]; [apply hss_range| |auto].
    specialize (A 0). pose proof (up_inside 0 ltac:(lra)). lra.
Qed.

Lemma hss_pi : (forall h, 0 < sg_cza lat i h) -> hss = PI.
Proof.
  intros A. specialize (A PI). unfold sg_cza in A. rewrite cos_PI in A.
  assert (- si / co <= -1).
  { pose proof coseg_pos. pose proof ratio_mul. apply Rnot_lt_le. intros C.
    assert (co * (-1) < co * (- si / co)) by (apply Rmult_lt_compat_l; lra). lra. }
  unfold sg_hss, sg_coshss. rewrite Rmax_right by auto. rewrite Rmin_left by lra.
  replace (-1) with (- (1)) by lra. rewrite acos_opp, acos_1. lra.
Qed.

(** ** daylength *)
Lemma daylength_range : 0 <= sg_daylength lat i <= 86400.
Proof.
  unfold sg_daylength, SEC_PER_DAY, SEC_PER_RAD. pose proof hss_range. unfold Rmin. destruct (Rle_dec _ _); lra.
Qed.
Lemma daylength_zero : sg_daylength lat i = 0 <-> hss = 0.
Proof.
  unfold sg_daylength, SEC_PER_DAY, SEC_PER_RAD. pose proof hss_range. unfold Rmin. destruct (Rle_dec _ _); split; intros; try lra.
Qed.

(** ** the sum over the hour angles *)
Definition hours : list R := arange_R (- hss) hss sg_dh.
Definition n_hours : nat := Z.to_nat (Rceil ((hss - - hss) / sg_dh)).
(** radiation received in the step at h *)
Definition beam_at (h : R) : R := if Rltb 0 (sg_cza lat i h) then sg_beam i * sg_cza lat i h else 0.

Lemma beam_pos : 0 < sg_beam i.
Proof.
  unfold sg_beam, SW_RAD_DT. pose proof (SIN_bound (2.0 * PI * INR i / DAYS_PER_YEAR + 1.7)).
  apply Rmult_lt_0_compat; lra.
Qed.
Lemma beam_at_nonneg h : 0 <= beam_at h.
Proof.
  unfold beam_at. destruct (Rltb 0 (sg_cza lat i h)) eqn:E; [|lra]. apply Rltb_true in E.
  apply Rlt_le, Rmult_lt_0_compat; [apply beam_pos|auto].
Qed.
Lemma beam_at_pos h : 0 < beam_at h <-> 0 < sg_cza lat i h.
Proof.
  unfold beam_at. destruct (Rltb 0 (sg_cza lat i h)) eqn:E; [apply Rltb_true in E|apply Rltb_false in E]; split; intros; try lra.
  apply Rmult_lt_0_compat; [apply beam_pos|auto].
Qed.

Lemma am_ok c : 0 < c -> exists a, sg_am c = Ok a /\ 0 < a.
Proof.
  intros H. unfold sg_am. destruct (Rltb 2.9 (1.0 / (c + 0.0000001))) eqn:E.
  - assert (B : (0 <= sg_ami c <= 20)%Z) by (unfold sg_ami; lia).
    set (k := Z.to_nat (sg_ami c)). assert (K : (k < 21)%nat) by (unfold k; lia).
    unfold getitem. destruct (nth_error OPTAM k) as [a|] eqn:N.
    + exists a. split; auto. apply nth_error_In in N. unfold OPTAM in N. cbn [In] in N.
      repeat (destruct N as [<-|N]; [lra|]). destruct N.
    + exfalso. apply nth_error_None in N. cbn [OPTAM List.length] in N. lia.
  - exists (1.0 / (c + 0.0000001)). split; auto. apply div_pos; lra.
Qed.

Section Loop.
Variable trans : R.
Hypothesis Htrans : 0 < trans < 1.

Lemma power_fraction a : 0 < a -> 0 < Rpower trans a < 1.
Proof.
  intros H. split; [apply exp_pos|]. unfold Rpower. rewrite <- exp_0. apply exp_increasing.
  assert (ln trans < 0) by (rewrite <- ln_1; apply ln_increasing; lra).
  replace (a * ln trans) with (- (a * - ln trans)) by ring. assert (0 < a * - ln trans) by (apply Rmult_lt_0_compat; lra). lra.
Qed.

(** the accumulators after the loop over hs *)
Lemma loop_spec hs : forall a, exists b,
  fold_left (sg_step trans lat i) hs (Ok a) = Ok b /\
  acc_flat b = acc_flat a + total (map beam_at hs) /\
  acc_row b = fold_left (fun row h => upd (sg_tinystep h) (beam_at h) row) hs (acc_row a) /\
  acc_trans a <= acc_trans b <= acc_trans a + total (map beam_at hs) /\
  (0 < total (map beam_at hs) -> acc_trans a < acc_trans b < acc_trans a + total (map beam_at hs)).
Proof.
  induction hs as [|h hs IH]; intros a.
  - exists a. cbn [fold_left map]. rewrite total_nil. repeat split; try reflexivity; lra.
  - cbn [fold_left map]. rewrite total_cons.
    assert (N : 0 <= total (map beam_at hs)).
    { apply total_nonneg. intros x Hx. apply in_map_iff in Hx as (y & <- & _). apply beam_at_nonneg. }
    assert (St : exists a', sg_step trans lat i (Ok a) h = Ok a' /\ acc_flat a' = acc_flat a + beam_at h /\
              acc_row a' = upd (sg_tinystep h) (beam_at h) (acc_row a) /\ 
              ((beam_at h = 0 /\ acc_trans a' = acc_trans a) \/ (0 < beam_at h /\ acc_trans a < acc_trans a' < acc_trans a + beam_at h))).
    { unfold sg_step, beam_at. cbn [bind]. destruct (Rltb 0 (sg_cza lat i h)) eqn:E.
      - apply Rltb_true in E. destruct (am_ok _ E) as (am & -> & Ham). cbn [bind].
        eexists. split; [reflexivity|]. cbn. split; [auto|]. split; [auto|]. right.
        pose proof (power_fraction am Ham) as [P1 P2]. set (w := sg_beam i * sg_cza lat i h).
        assert (W : 0 < w) by (apply Rmult_lt_0_compat; [apply beam_pos|auto]).
        assert (0 < Rpower trans am * w) by (apply Rmult_lt_0_compat; auto).
        assert (Rpower trans am * w < 1 * w) by (apply Rmult_lt_compat_r; auto). lra.
      - eexists. split; [reflexivity|]. cbn. split; [lra|]. split; [auto|]. left. auto. }
    destruct St as (a' & -> & F & Rw & T). destruct (IH a') as (b & E & F' & R' & T1 & T2). exists b.
    split; [auto|]. split; [lra|]. split; [rewrite R', Rw; reflexivity|].
    split.
    + destruct T as [[? ?]|[? ?]]; lra.
    + intros P. destruct (Rle_lt_or_eq_dec _ _ N) as [P'|P'].
      * specialize (T2 P'). destruct T as [[? ?]|[? ?]]; lra.
      * destruct T as [[? ?]|[? ?]]; lra.
Qed.
End Loop.

Lemma cza_sun h : sg_cza lat i h = sun lat i h.
Proof. unfold sg_cza, sun, sg_cosegeom, sg_sinegeom. now rewrite lat_value. Qed.

Lemma hours_length : List.length hours = n_hours.
Proof. unfold hours, arange_R. now rewrite map_length, seq_length. Qed.
Definition hour (k : nat) : R := - hss + INR k * sg_dh.
Lemma hours_eq : hours = map hour (seq 0 n_hours).
Proof. reflexivity. Qed.

Definition x0 : R := (43200 - hss * SEC_PER_RAD) / 30.

Lemma steps_count : (hss - - hss) / sg_dh = 2880 - 2 * x0.
Proof.
  unfold x0. pose proof dh_S as D. pose proof dh_pos as P. apply (Rmult_eq_reg_r sg_dh); [|lra].
  unfold Rdiv at 1. rewrite Rmult_assoc, Rinv_l, Rmult_1_r by lra.
  replace ((2880 - 2 * ((43200 - hss * SEC_PER_RAD) / 30)) * sg_dh) with (hss / 15 * (sg_dh * SEC_PER_RAD)) by field.
  rewrite D. field.
Qed.

Lemma n_hours_bounds : 0 < hss -> 2880 - 2 * x0 <= INR n_hours < 2881 - 2 * x0.
Proof.
  intros H. unfold n_hours. rewrite steps_count. pose proof (Rceil_bounds (2880 - 2 * x0)) as B.
  assert (P : 0 < 2880 - 2 * x0).
  { rewrite <- steps_count. apply div_pos; [lra|apply dh_pos]. }
  assert (0 <= Rceil (2880 - 2 * x0))%Z by (apply le_IZR; lra).
  rewrite INR_IZR_INZ, Z2Nat.id by auto. lra.
Qed.

Lemma tiny_arg k : (12 * SEC_PER_HOUR + hour k * SEC_PER_RAD) / SW_RAD_DT = x0 + INR k.
Proof.
  unfold hour, x0, SW_RAD_DT, SEC_PER_HOUR.
  replace (12 * 3600 + (- hss + INR k * sg_dh) * SEC_PER_RAD) with (43200 - hss * SEC_PER_RAD + INR k * (sg_dh * SEC_PER_RAD)) by ring.
  rewrite dh_S. lra.
Qed.

Lemma x0_low : - 0.01 < x0.
Proof.
  unfold x0. pose proof hss_range. pose proof PI_upper. apply lt_div; [lra|].
  assert (hss * SEC_PER_RAD <= 3.1415926600 * SEC_PER_RAD) by (apply Rmult_le_compat_r; unfold SEC_PER_RAD; lra).
  unfold SEC_PER_RAD in *. lra.
Qed.

Lemma rad_top : INR (RAD_STEPS - 1) = 2879.
Proof. rewrite INR_IZR_INZ. replace (Z.of_nat (RAD_STEPS - 1)) with 2879%Z by reflexivity. reflexivity. Qed.

Lemma tinystep_low base k : 0 <= x0 -> base = Z.to_nat (Int_part x0) -> (k < n_hours)%nat -> 0 < hss ->
  sg_tinystep (hour k) = (base + k)%nat.
Proof.
  intros X Hb Hk Hp. unfold sg_tinystep. rewrite tiny_arg, rad_top. pose proof (n_hours_bounds Hp) as NB.
  pose proof (Int_part_bounds x0) as IB. pose proof (pos_INR k) as Pk.
  assert (I0 : (0 <= Int_part x0)%Z) by (assert (IZR (-1) < IZR (Int_part x0)) by lra; apply lt_IZR in H; lia).
  assert (Kk : INR k + 1 <= INR n_hours) by (rewrite <- S_INR; apply le_INR; lia).
  assert (E : IZR (Z.of_nat (base + k)) = IZR (Int_part x0) + INR k).
  { subst base. rewrite Nat2Z.inj_add, Z2Nat.id, plus_IZR, <- INR_IZR_INZ by auto. reflexivity. }
  assert (L : (base + k <= 2879)%nat).
  { assert (IZR (Z.of_nat (base + k)) < IZR 2880) by (rewrite E; change (IZR 2880) with 2880; lra). apply lt_IZR in H. lia. }
  apply Nat2Z.inj_le in L. apply IZR_le in L. change (IZR (Z.of_nat 2879)) with 2879 in L.
  rewrite Rmax_left by lra. rewrite Rtrunc_nonneg by (unfold Rmin; destruct (Rle_dec _ _); lra).
  rewrite (Int_part_spec _ (Z.of_nat (base + k))); [lia|].
  unfold Rmin. destruct (Rle_dec _ _); lra.
Qed.

Lemma n_hours_polar : x0 < 0 -> 0 < hss -> n_hours = S RAD_STEPS.
Proof.
  intros X Hp. pose proof (n_hours_bounds Hp) as NB. pose proof x0_low.
  assert (IZR (Z.of_nat n_hours) < IZR 2882) by (rewrite <- INR_IZR_INZ; change (IZR 2882) with 2882; lra).
  assert (IZR 2880 < IZR (Z.of_nat n_hours)) by (rewrite <- INR_IZR_INZ; change (IZR 2880) with 2880; lra).
  apply lt_IZR in H0, H1. unfold RAD_STEPS. lia.
Qed.

Lemma tinystep_first : x0 < 0 -> sg_tinystep (hour 0) = 0%nat.
Proof.
  intros X. unfold sg_tinystep. rewrite tiny_arg, rad_top. cbn [INR]. rewrite Rmax_right by lra. rewrite Rmin_left by lra.
  rewrite Rtrunc_nonneg by lra. rewrite (Int_part_spec 0 0); [reflexivity|]. lra.
Qed.

Lemma tinystep_polar k : x0 < 0 -> (k < RAD_STEPS)%nat -> sg_tinystep (hour (S k)) = k.
Proof.
  intros X Hk. unfold sg_tinystep. rewrite tiny_arg, rad_top. pose proof x0_low. rewrite S_INR.
  pose proof (pos_INR k). rewrite Rmax_left by lra.
  assert (INR k <= 2879). { rewrite <- rad_top. apply le_INR. lia. }
  rewrite Rtrunc_nonneg by (unfold Rmin; destruct (Rle_dec _ _); lra).
  rewrite (Int_part_spec _ (Z.of_nat k)); [lia|]. rewrite <- INR_IZR_INZ. unfold Rmin. destruct (Rle_dec _ _); lra.
Qed.

Lemma fold_upd {A B} (f : A -> nat) (g : A -> B) hs : forall row,
  fold_left (fun row h => upd (f h) (g h) row) hs row = np_put row (map f hs) (map g hs).
Proof. unfold np_put. induction hs as [|h hs IH]; intros row; cbn; auto. Qed.

Lemma cza_first_zero : 0 <= x0 -> 0 < hss -> sg_cza lat i (- hss) = 0.
Proof.
  intros X Hp. assert (Hpi : hss < PI).
  { pose proof PI_lower. unfold x0 in X. apply Rmult_le_compat_r with (r := 30) in X; [|lra].
    replace ((43200 - hss * SEC_PER_RAD) / 30 * 30) with (43200 - hss * SEC_PER_RAD) in X by field. unfold SEC_PER_RAD in X. lra. }
  assert (C : -1 < sg_coshss lat i < 1).
  { rewrite <- cos_hss. pose proof hss_range. split.
    - rewrite <- cos_PI. apply cos_decreasing_1; lra.
    - rewrite <- cos_0. apply cos_decreasing_1; lra. }
  assert (E : sg_coshss lat i = - si / co) by (revert C; unfold sg_coshss, Rmin, Rmax; repeat destruct (Rle_dec _ _); lra).
  unfold sg_cza. rewrite cos_neg, cos_hss, E, ratio_mul. lra.
Qed.

Lemma hour_inside k : (0 < k < n_hours)%nat -> 0 < hss -> - hss < hour k < hss.
Proof.
  intros Hk Hp. unfold hour. pose proof dh_pos. assert (0 < INR k) by (apply lt_0_INR; lia).
  assert (0 < INR k * sg_dh) by (apply Rmult_lt_0_compat; auto). split; [lra|].
  pose proof (n_hours_bounds Hp) as NB. rewrite <- steps_count in NB at 1.
  assert (INR k + 1 <= INR n_hours) by (rewrite <- S_INR; apply le_INR; lia).
  assert (INR k < 2880 - 2 * x0) by lra. rewrite <- steps_count in H3.
  apply Rmult_lt_compat_r with (r := sg_dh) in H3; auto.
  replace ((hss - - hss) / sg_dh * sg_dh) with (hss + hss) in H3 by (field; lra). lra.
Qed.

Lemma seq_shift_map s n : seq s n = map (fun k => (s + k)%nat) (seq 0 n).
Proof. apply seq_from. Qed.

(** the unnormalised row *)
Definition raw_row : list R := np_put (repeat 0 RAD_STEPS) (map sg_tinystep hours) (map beam_at hours).
Definition flat : R := total (map beam_at hours).

Lemma total_nth (l : list R) l' : (forall j, nth_error l j = nth_error l' j) -> total l = total l'.
Proof. intros H. f_equal. revert l' H. induction l as [|x l IH]; intros [|y l'] H; auto; try (specialize (H 0%nat); discriminate).
  f_equal; [specialize (H 0%nat); now injection H|apply IH; intros j; apply (H (S j))]. Qed.

Lemma list_ext {A} (l l' : list A) : (forall j, nth_error l j = nth_error l' j) -> l = l'.
Proof.
  revert l'. induction l as [|x l IH]; intros [|y l'] H; auto; try (specialize (H 0%nat); discriminate).
  f_equal; [specialize (H 0%nat); now injection H|apply IH; intros j; apply (H (S j))].
Qed.

Lemma put_block (vs : list R) base n : (base + List.length vs <= n)%nat ->
  np_put (repeat 0 n) (seq base (List.length vs)) vs = repeat 0 base ++ vs ++ repeat 0 (n - base - List.length vs).
Proof.
  intros H. apply list_ext. intros j. destruct (np_put_seq vs (repeat 0 n) base) as [L N]; [now rewrite repeat_length|].
  rewrite N. destruct (Nat.leb_spec base j); cbn [andb].
  - rewrite nth_error_app2 by now rewrite repeat_length. rewrite repeat_length.
    destruct (Nat.ltb_spec j (base + List.length vs)).
    + rewrite nth_error_app1 by lia. reflexivity.
    + rewrite nth_error_app2 by lia.
      destruct (Nat.lt_ge_cases j n).
      * rewrite !nth_error_repeat by lia. reflexivity.
      * rewrite (proj2 (nth_error_None _ _)), (proj2 (nth_error_None _ _)) by (rewrite repeat_length; lia). reflexivity.
  - rewrite nth_error_app1 by now rewrite repeat_length. rewrite !nth_error_repeat by lia. reflexivity.
Qed.

Lemma raw_low base : 0 <= x0 -> 0 < hss -> base = Z.to_nat (Int_part x0) ->
  (base + n_hours <= RAD_STEPS)%nat /\
  raw_row = repeat 0 base ++ map beam_at hours ++ repeat 0 (RAD_STEPS - base - n_hours).
Proof.
  intros X Hp Hb.
  assert (L : (base + n_hours <= RAD_STEPS)%nat).
  { destruct n_hours as [|m] eqn:E.
    - pose proof (Int_part_bounds x0). assert (IZR (Int_part x0) < IZR 1441).
      { pose proof hss_range. unfold x0, SEC_PER_RAD in *. change (IZR 1441) with 1441. lra. }
      apply lt_IZR in H0. unfold RAD_STEPS. lia.
    - assert (T := tinystep_low base m X Hb ltac:(lia) Hp).
      pose proof (n_hours_bounds Hp) as NB. rewrite E in NB. rewrite S_INR in NB. pose proof (Int_part_bounds x0).
      assert (I0 : (0 <= Int_part x0)%Z) by (assert (IZR (-1) < IZR (Int_part x0)) by lra; apply lt_IZR in H0; lia).
      assert (IZR (Z.of_nat (base + m)) < IZR 2880).
      { subst base. rewrite Nat2Z.inj_add, Z2Nat.id, plus_IZR, <- INR_IZR_INZ by auto. change (IZR 2880) with 2880. lra. }
      apply lt_IZR in H0. unfold RAD_STEPS. lia. }
  split; [auto|]. unfold raw_row. replace (map sg_tinystep hours) with (seq base (List.length (map beam_at hours))).
  - rewrite put_block; rewrite map_length, hours_length; auto.
  - rewrite map_length, hours_length, seq_shift_map, hours_eq, map_map. apply map_ext_in. intros k Hk. apply in_seq in Hk.
    symmetry. apply tinystep_low; auto; lia.
Qed.

Lemma raw_polar : x0 < 0 -> 0 < hss -> raw_row = map beam_at (map hour (seq 1 RAD_STEPS)) /\
  flat = beam_at (- hss) + total raw_row.
Proof.
  intros X Hp. assert (E : hours = hour 0 :: map hour (seq 1 RAD_STEPS)) by (rewrite hours_eq, n_hours_polar by auto; reflexivity).
  assert (R : raw_row = map beam_at (map hour (seq 1 RAD_STEPS))).
  { unfold raw_row. rewrite E. cbn [map]. rewrite tinystep_first by auto. unfold np_put. cbn [combine fold_left fst snd].
    fold (np_put (upd 0 (beam_at (hour 0)) (repeat 0 RAD_STEPS)) (map sg_tinystep (map hour (seq 1 RAD_STEPS))) (map beam_at (map hour (seq 1 RAD_STEPS)))).
    replace (map sg_tinystep (map hour (seq 1 RAD_STEPS))) with (seq 0 RAD_STEPS).
    2:{ rewrite (seq_shift_map 1), !map_map. rewrite <- (map_id (seq 0 RAD_STEPS)) at 1. apply map_ext_in. intros k Hk. apply in_seq in Hk.
        symmetry. apply tinystep_polar; auto; lia. }
    assert (Lv : List.length (map beam_at (map hour (seq 1 RAD_STEPS))) = RAD_STEPS) by now rewrite !map_length, seq_length.
    rewrite <- Lv at 2.
    assert (Lu : List.length (upd 0 (beam_at (hour 0)) (repeat 0 RAD_STEPS)) = RAD_STEPS) by now rewrite upd_length, repeat_length.
    destruct (np_put_seq (map beam_at (map hour (seq 1 RAD_STEPS))) (upd 0 (beam_at (hour 0)) (repeat 0 RAD_STEPS)) 0) as [_ N];
      [rewrite Lv, Lu; lia|].
    apply list_ext. intros j. rewrite N. cbn [Nat.leb andb]. rewrite Nat.sub_0_r, Nat.add_0_l.
    destruct (Nat.ltb_spec j (List.length (map beam_at (map hour (seq 1 RAD_STEPS))))) as [H|H]; [reflexivity|].
    rewrite Lv in H. rewrite (proj2 (nth_error_None _ _)), (proj2 (nth_error_None _ _)) by lia. reflexivity. }
  split; [auto|]. rewrite R. unfold flat. rewrite E. cbn [map]. rewrite total_cons. f_equal. f_equal. unfold hour. cbn [INR]. ring.
Qed.

Lemma total_repeat0 n : total (repeat 0 n) = 0.
Proof. rewrite total_repeat. lra. Qed.

Lemma flat_pos : 0 < hss -> (2 <= n_hours)%nat -> 0 < flat.
Proof.
  intros Hp H2. unfold flat. rewrite hours_eq. destruct n_hours as [|[|m]] eqn:E; try lia.
  cbn [seq map]. rewrite !total_cons. pose proof (beam_at_nonneg (hour 0)).
  assert (0 < beam_at (hour 1)) by (apply beam_at_pos, up_inside, hour_inside; auto; lia).
  assert (0 <= total (map beam_at (map hour (seq 2 m)))).
  { apply total_nonneg. intros x Hx. apply in_map_iff in Hx as (y & <- & _). apply beam_at_nonneg. }
  lra.
Qed.

Lemma day_long : 30 < sg_daylength lat i -> 0 < hss /\ (2 <= n_hours)%nat.
Proof.
  intros H. unfold sg_daylength in H. assert (D : 30 < 2 * hss * SEC_PER_RAD).
  { unfold Rmin in H. destruct (Rle_dec _ _); unfold SEC_PER_DAY in *; lra. }
  assert (Hp : 0 < hss) by (unfold SEC_PER_RAD in D; lra). split; [auto|].
  pose proof (n_hours_bounds Hp) as NB. unfold x0 in NB.
  assert (IZR 1 < IZR (Z.of_nat n_hours)) by (rewrite <- INR_IZR_INZ; change (IZR 1) with 1; lra). apply lt_IZR in H0. lia.
Qed.

Lemma nth_hours k : (k < n_hours)%nat -> nth k (map beam_at hours) 0 = beam_at (hour k).
Proof.
  intros Hk. rewrite (nth_indep _ _ (beam_at (hour 0))) by (rewrite map_length, hours_length; auto).
  rewrite hours_eq, map_map. now rewrite (map_nth (fun k => beam_at (hour k))), seq_nth.
Qed.

Lemma raw_length : List.length raw_row = RAD_STEPS.
Proof.
  unfold raw_row. rewrite <- fold_upd. rewrite <- (repeat_length 0 RAD_STEPS) at 2. generalize (repeat 0 RAD_STEPS).
  induction hours as [|h hs IH]; intros l; cbn [fold_left]; auto. now rewrite IH, upd_length.
Qed.

Lemma raw_block : 0 < hss -> (2 <= n_hours)%nat -> exists a b, daylight_block raw_row a b.
Proof.
  intros Hp H2. destruct (Rle_lt_dec 0 x0) as [X|X].
  - set (base := Z.to_nat (Int_part x0)). destruct (raw_low base X Hp eq_refl) as [L E].
    exists (base + 1)%nat, (base + n_hours - 1)%nat. pose proof (n_hours_bounds Hp) as NB. pose proof (Int_part_bounds x0) as IB.
    assert (I0 : (0 <= Int_part x0)%Z) by (assert (IZR (-1) < IZR (Int_part x0)) by lra; apply lt_IZR in H; lia).
    assert (Eb : INR base = IZR (Int_part x0)) by (unfold base; now rewrite INR_IZR_INZ, Z2Nat.id).
    split; [unfold base in *; lia|]. split; [|split; [apply raw_length|]].
    + assert (S : INR (base + 1 + (base + n_hours - 1)) = 2 * INR base + INR n_hours).
      { replace (base + 1 + (base + n_hours - 1))%nat with (base + base + n_hours)%nat by lia. rewrite !plus_INR. lra. }
      assert (IZR 2878 < IZR (Z.of_nat (base + 1 + (base + n_hours - 1))) < IZR 2881).
      { rewrite <- INR_IZR_INZ, S. change (IZR 2878) with 2878. change (IZR 2881) with 2881. lra. }
      destruct H as [H H']. apply lt_IZR in H, H'. unfold RAD_STEPS. lia.
    + intros j Hj. rewrite E. destruct (Nat.lt_ge_cases j base) as [J|J].
      * rewrite app_nth1 by now rewrite repeat_length. rewrite nth_repeat. split; [lra|lia].
      * rewrite app_nth2 by now rewrite repeat_length. rewrite repeat_length.
        destruct (Nat.lt_ge_cases (j - base) n_hours) as [K|K].
        -- rewrite app_nth1 by (rewrite map_length, hours_length; lia). rewrite nth_hours by auto.
           rewrite beam_at_pos. destruct (Nat.eq_dec j base) as [->|Nj].
           ++ replace (base - base)%nat with 0%nat by lia. replace (hour 0) with (- hss) by (unfold hour; cbn [INR]; ring).
              rewrite cza_first_zero by auto. split; [lra|lia].
           ++ split; [lia|]. intros _. apply up_inside, hour_inside; auto. lia.
        -- rewrite app_nth2 by (rewrite map_length, hours_length; lia). rewrite nth_repeat. split; [lra|lia].
  - destruct (raw_polar X Hp) as [E _]. exists 0%nat, (RAD_STEPS - 1)%nat.
    split; [unfold RAD_STEPS; lia|]. split; [lia|]. split; [apply raw_length|]. intros j Hj. split; [lia|]. intros _.
    rewrite E, map_map, (seq_shift_map 1), map_map.
    rewrite (nth_indep _ _ (beam_at (hour (1 + 0)))) by now rewrite map_length, seq_length.
    rewrite (map_nth (fun k => beam_at (hour (1 + k)))), seq_nth by auto.
    apply beam_at_pos, up_inside, hour_inside; auto. rewrite n_hours_polar by auto. lia.
Qed.

Lemma raw_nonneg x : In x raw_row -> 0 <= x.
Proof.
  unfold raw_row. rewrite <- fold_upd.
  assert (G : forall hs l, (forall y, In y l -> 0 <= y) ->
            forall y, In y (fold_left (fun row h => upd (sg_tinystep h) (beam_at h) row) hs l) -> 0 <= y).
  { induction hs as [|h hs IH]; intros l Hl y; cbn [fold_left]; [apply Hl|]. apply IH.
    intros z Hz. apply In_nth_error in Hz as [n Hn]. revert n Hn. generalize (sg_tinystep h). clear -Hl Hlat.
    induction l as [|w l IHl]; intros [|k] [|n] Hn; cbn in Hn; try discriminate.
    - injection Hn as <-. apply beam_at_nonneg.
    - apply Hl. right. eapply nth_error_In; eauto.
    - injection Hn as <-. apply Hl. now left.
    - eapply IHl; eauto. intros y Hy. apply Hl. now right. }
  intros H. eapply G; [|exact H]. intros y Hy. apply repeat_spec in Hy. lra.
Qed.

Lemma sun_midnight : sun lat i PI = si - co.
Proof. rewrite <- cza_sun. unfold sg_cza. rewrite cos_PI. ring. Qed.

Lemma midnight_beam : 0 < hss -> x0 < 0 -> (0 < beam_at (- hss) <-> midnight_sun lat i).
Proof.
  intros Hp X. rewrite beam_at_pos. unfold midnight_sun. rewrite sun_midnight. unfold sg_cza. rewrite cos_neg, cos_hss.
  pose proof ratio_mul as RM. pose proof coseg_pos as CP.
  unfold sg_coshss. set (c := - si / co) in *. assert (C : c < 1).
  { destruct (Rlt_le_dec c 1); auto. exfalso. assert (sg_coshss lat i = 1).
    { unfold sg_coshss. fold c. unfold Rmin, Rmax. repeat destruct (Rle_dec _ _); lra. }
    assert (hss = 0) by (unfold sg_hss; rewrite H; apply acos_1). lra. }
  unfold Rmin, Rmax. destruct (Rle_dec c (-1)).
  - destruct (Rle_dec (-1) 1); [|lra]. split; intros; lra.
  - destruct (Rle_dec c 1); [|lra]. split; intros H; [rewrite RM in H; lra|].
    exfalso. assert (co * c > co * -1) by (apply Rmult_lt_compat_l; lra). lra.
Qed.

Lemma midnight_low : 0 < hss -> 0 <= x0 -> ~ midnight_sun lat i.
Proof.
  intros Hp X M. unfold midnight_sun in M. pose proof (cza_first_zero X Hp) as Z. unfold sg_cza in Z. rewrite sun_midnight in M.
  rewrite cos_neg in Z. pose proof (COS_bound hss). pose proof coseg_pos. nra.
Qed.

Lemma raw_total : 0 < hss -> (2 <= n_hours)%nat ->
  0 < total raw_row <= flat /\ (midnight_sun lat i -> total raw_row < flat) /\ (~ midnight_sun lat i -> total raw_row = flat).
Proof.
  intros Hp H2. assert (P : 0 < total raw_row).
  { destruct (raw_block Hp H2) as (a & b & B1 & _ & _ & B3). assert (0 < nth a raw_row 0) by (apply B3; lia).
    assert (nth a raw_row 0 <= total raw_row); [|lra].
    assert (I : In (nth a raw_row 0) raw_row) by (apply nth_In; rewrite raw_length; lia).
    revert I. generalize (nth a raw_row 0). assert (N := raw_nonneg). revert N. clear. induction raw_row as [|x l IH]; intros N y; [intros []|].
    rewrite total_cons. intros [<-|I].
    - assert (0 <= total l) by (apply total_nonneg; intros; apply N; now right). lra.
    - assert (y <= total l) by (apply IH; auto; intros; apply N; now right). assert (0 <= x) by (apply N; now left). lra. }
  destruct (Rle_lt_dec 0 x0) as [X|X].
  - destruct (raw_low _ X Hp eq_refl) as [L E]. assert (T : total raw_row = flat).
    { rewrite E, !total_app, !total_repeat0. unfold flat. lra. }
    split; [lra|]. split; [|auto]. intros M. exfalso. revert M. now apply midnight_low.
  - destruct (raw_polar X Hp) as [_ E]. pose proof (beam_at_nonneg (- hss)). split; [lra|].
    pose proof (midnight_beam Hp X) as MB. split; intros M; [apply MB in M; lra|].
    assert (~ 0 < beam_at (- hss)) by (intros Q; apply M, MB, Q). lra.
Qed.

End Day.
