(** Potential radiation of a day. *)
From Coq Require Import ZArith Reals List Bool Arith Lia Lra Psatz.
From Verif Require Import Model.Py Model.Fl Model.Np Model.Constants Model.Physics Spec.SeriesSpec Spec.SolarSpec
  Proofs.Base Proofs.RBase Proofs.ArrayProofs Proofs.PrecProofs Proofs.PiBounds Proofs.SolarProofs Proofs.SolarTables.
Import ListNotations.
Local Open Scope R_scope.

(** ** sums of cosines *)
Definition grid (h0 d : R) (k : nat) : R := h0 + INR k * d.

Lemma seq_total_S (f : nat -> R) n : total (map f (seq 0 (S n))) = total (map f (seq 0 n)) + f n.
Proof.
  rewrite seq_S, map_app. cbn [map]. rewrite Nat.add_0_l. induction (map f (seq 0 n)) as [|x l IH]; cbn [app]; rewrite ?total_cons; [unfold total; cbn; lra|].
  rewrite IH. lra.
Qed.

Lemma cos_sum h0 d n : 2 * sin (d / 2) * total (map (fun k => cos (grid h0 d k)) (seq 0 n)) = sin (grid h0 d n - d / 2) - sin (h0 - d / 2).
Proof.
  induction n as [|n IH]; [unfold grid, total; cbn [seq map fold_right INR]; replace (h0 + 0 * d - d / 2) with (h0 - d / 2) by lra; lra|].
  rewrite seq_total_S, Rmult_plus_distr_l, IH. unfold grid. rewrite S_INR.
  replace (h0 + (INR n + 1) * d - d / 2) with (h0 + INR n * d + d / 2) by lra. rewrite sin_plus, sin_minus. lra.
Qed.

Lemma sin_mult y n : Rabs (sin (INR n * y)) <= INR n * Rabs (sin y).
Proof.
  induction n as [|n IH]; [rewrite Rmult_0_l, sin_0, Rabs_R0; simpl; lra|]. rewrite S_INR.
  replace ((INR n + 1) * y) with (INR n * y + y) by lra. rewrite sin_plus. eapply Rle_trans; [apply Rabs_triang|]. rewrite !Rabs_mult.
  assert (C : forall u, Rabs (cos u) <= 1) by (intros u; apply Rabs_le; apply COS_bound).
  pose proof (C y). pose proof (C (INR n * y)). pose proof (Rabs_pos (sin (INR n * y))). pose proof (Rabs_pos (sin y)).
  pose proof (Rabs_pos (cos y)). pose proof (Rabs_pos (cos (INR n * y))). nra.
Qed.

Lemma sin_half_step n y : INR n * y = 21600 / SEC_PER_RAD -> 0 < y -> y <= 1 -> (0 < n)%nat -> 1 / 2 <= INR n * sin y.
Proof.
  intros E P1 P2 N. pose proof PI_lower. pose proof PI_upper. pose proof (sin_mult y n) as M.
  assert (0 < sin y) by (apply sin_gt_0; lra). rewrite (Rabs_pos_eq (sin y)) in M by lra. rewrite E in M.
  assert (B : 1.5 < 21600 / SEC_PER_RAD < 1.570796325) by (unfold SEC_PER_RAD; split; [apply lt_div|apply div_lt]; lra).
  assert (1 / 2 <= sin (21600 / SEC_PER_RAD)).
  { rewrite <- sin_PI6. left. apply sin_increasing_1; lra. }
  rewrite Rabs_pos_eq in M by lra. lra.
Qed.

Lemma sin_close x y : Rabs (sin x - sin y) <= Rabs (x - y).
Proof.
  rewrite form4. assert (E : Rabs (x - y) = 2 * Rabs ((x - y) / 2)) by (rewrite <- (Rabs_pos_eq 2) at 1 by lra; rewrite <- Rabs_mult; f_equal; lra).
  rewrite E, !Rabs_mult, (Rabs_pos_eq 2) by lra.
  assert (C : Rabs (cos ((x + y) / 2)) <= 1) by (apply Rabs_le; apply COS_bound).
  assert (S : Rabs (sin ((x - y) / 2)) <= Rabs ((x - y) / 2)).
  { generalize ((x - y) / 2). intros u.
    assert (Pos : forall v, 0 <= v -> Rabs (sin v) <= v).
    { intros v V. apply Rabs_le. destruct (Req_dec v 0) as [->|]; [rewrite sin_0; lra|]. pose proof (sin_lt_x v ltac:(lra)). split; [|lra].
      destruct (Rle_dec v 1); [|pose proof (SIN_bound v); lra]. pose proof PI_lower. pose proof (sin_gt_0 v ltac:(lra) ltac:(lra)). lra. }
    destruct (Rle_dec 0 u); [rewrite (Rabs_pos_eq u) by auto; auto|]. rewrite <- (Rabs_Ropp u), <- (Rabs_Ropp (sin u)), <- sin_neg, (Rabs_pos_eq (- u)) by lra. apply Pos. lra. }
  pose proof (Rabs_pos (sin ((x - y) / 2))). pose proof (Rabs_pos (cos ((x + y) / 2))). nra.
Qed.

Lemma Rabs_le_inv x e : Rabs x <= e -> - e <= x <= e.
Proof. intros H. pose proof (Rle_abs x). pose proof (Rle_abs (- x)) as N. rewrite Rabs_Ropp in N. lra. Qed.

(** a full turn: n steps of d make m turns, up to 1e-7 *)
Lemma turn_sum h0 d n m : Rabs (INR n * d - 2 * INR m * PI) <= 1e-7 -> 1 / 5760 <= sin (d / 2) ->
  Rabs (total (map (fun k => cos (grid h0 d k)) (seq 0 n))) <= 0.001.
Proof.
  intros T S. pose proof (cos_sum h0 d n) as E. set (s := total _) in *.
  assert (B : Rabs (sin (grid h0 d n - d / 2) - sin (h0 - d / 2)) <= 1e-7).
  { rewrite <- (sin_period (h0 - d / 2) m). eapply Rle_trans; [apply sin_close|]. unfold grid.
    replace (h0 + INR n * d - d / 2 - (h0 - d / 2 + 2 * INR m * PI)) with (INR n * d - 2 * INR m * PI) by lra. exact T. }
  rewrite <- E, Rabs_mult in B. rewrite (Rabs_pos_eq (2 * sin (d / 2))) in B by lra. pose proof (Rabs_pos s). nra.
Qed.

Lemma steps_2880 : INR 2880 = 2880.
Proof. rewrite INR_IZR_INZ. reflexivity. Qed.

Lemma cos_day h0 : Rabs (total (map (fun k => cos (grid h0 sg_dh k)) (seq 0 RAD_STEPS))) <= 0.001.
Proof.
  apply (turn_sum h0 sg_dh RAD_STEPS 1).
  - change (INR RAD_STEPS) with (INR 2880). rewrite steps_2880. pose proof PI_lower. pose proof PI_upper. simpl (INR 1). unfold sg_dh, SW_RAD_DT, SEC_PER_RAD. apply Rabs_le. lra.
  - pose proof dh_pos. assert (sg_dh <= 1) by (unfold sg_dh, SW_RAD_DT, SEC_PER_RAD; apply div_le; lra).
    assert (X : 1 / 2 <= INR 1440 * sin (sg_dh / 2)).
    { apply sin_half_step; try lra; [|lia]. replace (INR 1440) with 1440 by (rewrite INR_IZR_INZ; reflexivity). unfold sg_dh, SW_RAD_DT, SEC_PER_RAD. lra. }
    replace (INR 1440) with 1440 in X by (rewrite INR_IZR_INZ; reflexivity). lra.
Qed.

Lemma cos2_day h0 : Rabs (total (map (fun k => cos (2 * grid h0 sg_dh k)) (seq 0 RAD_STEPS))) <= 0.001.
Proof.
  rewrite (map_ext _ (fun k => cos (grid (2 * h0) (2 * sg_dh) k))) by (intros k; f_equal; unfold grid; lra).
  apply (turn_sum (2 * h0) (2 * sg_dh) RAD_STEPS 2).
  - change (INR RAD_STEPS) with (INR 2880). rewrite steps_2880. pose proof PI_lower. pose proof PI_upper. simpl (INR 2). unfold sg_dh, SW_RAD_DT, SEC_PER_RAD. apply Rabs_le. lra.
  - pose proof dh_pos. assert (sg_dh <= 1) by (unfold sg_dh, SW_RAD_DT, SEC_PER_RAD; apply div_le; lra).
    replace (2 * sg_dh / 2) with sg_dh by lra.
    assert (X : 1 / 2 <= INR 720 * sin sg_dh).
    { apply sin_half_step; try lra; [|lia]. replace (INR 720) with 720 by (rewrite INR_IZR_INZ; reflexivity). unfold sg_dh, SW_RAD_DT, SEC_PER_RAD. lra. }
    replace (INR 720) with 720 in X by (rewrite INR_IZR_INZ; reflexivity). lra.
Qed.

(** ** the positive part of the sun's height *)
Definition sq_over (x : R) : R := (x + 0.512) ^ 2 / 2.048.
Lemma sq_over_pos x : 0 <= sq_over x.
Proof. unfold sq_over. pose proof (pow2_ge_0 (x + 0.512)). lra. Qed.
Lemma sq_over_above x : x <= sq_over x.
Proof. unfold sq_over. pose proof (pow2_ge_0 (x - 0.512)) as H. simpl in *. lra. Qed.

Lemma total_lin (f g h : nat -> R) a b c l : (forall k, f k = a + b * g k + c * h k) ->
  total (map f l) = a * INR (List.length l) + b * total (map g l) + c * total (map h l).
Proof.
  intros H. induction l as [|k l IH]; [unfold total; cbn; lra|]. cbn [map]. rewrite !total_cons, IH, H. cbn [List.length]. rewrite S_INR. lra.
Qed.
Lemma total_mono (f g : nat -> R) l : (forall k, f k <= g k) -> total (map f l) <= total (map g l).
Proof. intros H. induction l as [|k l IH]; [unfold total; cbn; lra|]. cbn [map]. rewrite !total_cons. pose proof (H k). lra. Qed.
Lemma total_more (f : nat -> R) n m : (n <= m)%nat -> (forall k, 0 <= f k) -> total (map f (seq 0 n)) <= total (map f (seq 0 m)).
Proof. intros L H. induction L as [|m L IH]; [lra|]. rewrite seq_total_S. pose proof (H m). lra. Qed.

Lemma day_sum a b h0 : -1 <= a <= 1 -> 0 <= b <= 1 ->
  total (map (fun k => sq_over (a + b * cos (grid h0 sg_dh k))) (seq 0 RAD_STEPS)) <= 2880 * ((a + 0.512) ^ 2 + b ^ 2 / 2) / 2.048 + 0.01.
Proof.
  intros A B.
  rewrite (total_lin _ (fun k => cos (grid h0 sg_dh k)) (fun k => cos (2 * grid h0 sg_dh k)) (((a + 0.512) ^ 2 + b ^ 2 / 2) / 2.048) (2 * (a + 0.512) * b / 2.048) (b ^ 2 / 2 / 2.048)).
  - rewrite seq_length. change (INR RAD_STEPS) with (INR 2880). rewrite steps_2880.
    pose proof (cos_day h0) as X. pose proof (cos2_day h0) as Y. set (x := total (map (fun k => cos (grid h0 sg_dh k)) (seq 0 RAD_STEPS))) in *. set (y := total (map (fun k => cos (2 * grid h0 sg_dh k)) (seq 0 RAD_STEPS))) in *.
    apply Rabs_le_inv in X, Y.
    assert (P : Rabs (2 * (a + 0.512) * b / 2.048) <= 1.5).
    { apply Rabs_le. assert (-0.488 <= (a + 0.512) * b <= 1.512) by (split; nra). lra. }
    apply Rabs_le_inv in P. set (p := 2 * (a + 0.512) * b / 2.048) in *. assert (0 <= b ^ 2 / 2 / 2.048 <= 0.25) by (simpl; split; nra).
    set (q := b ^ 2 / 2 / 2.048) in *. assert (p * x <= 0.002) by nra. assert (q * y <= q * 0.001) by (apply Rmult_le_compat_l; lra). lra.
  - intros k. unfold sq_over. rewrite cos_2a_cos. set (c := cos (grid h0 sg_dh k)). simpl. lra.
Qed.

Lemma height_mean p q : -0.41 <= q <= 0.41 -> -1 <= p <= 1 ->
  ((p * q + 0.512) ^ 2 + (1 - p ^ 2) * (1 - q ^ 2) / 2) / 2.048 <= 0.4191.
Proof.
  intros Q P. assert (Q2 : q * q <= 0.1681) by nra. assert (U : (p * q) * (p * q) <= 0.1681 * (p * p)) by nra.
  pose proof (Rle_0_sqr (p - 2.1 * q)) as S. unfold Rsqr in S. simpl. nra.
Qed.

(** ** energy of a day, J/m2 *)
Lemma beam_top i : sg_beam i <= 42405.
Proof. unfold sg_beam, SW_RAD_DT. pose proof (SIN_bound (2.0 * PI * INR i / DAYS_PER_YEAR + 1.7)). lra. Qed.

Lemma flat_top lat i : -90 <= lat <= 90 -> 0 < sg_hss lat i -> flat lat i <= 5.14e7.
Proof.
  intros Hl Hp. unfold flat. pose proof (beam_pos i) as Bp. pose proof (beam_top i) as Bt.
  assert (Nh : (n_hours lat i <= S RAD_STEPS)%nat).
  { destruct (n_hours_bounds lat i Hp) as [_ U]. pose proof (x0_low lat i). assert (X : INR (n_hours lat i) < INR (S (S RAD_STEPS))).
    { rewrite !S_INR. change (INR RAD_STEPS) with (INR 2880). rewrite steps_2880. lra. }
    apply INR_lt in X. lia. }
  set (a := sin (lat * RAD_PER_DEG) * sin (sg_decl i)). set (b := cos (lat * RAD_PER_DEG) * cos (sg_decl i)).
  assert (Each : forall k, beam_at lat i (hour lat i k) <= sg_beam i * sq_over (a + b * cos (grid (- sg_hss lat i) sg_dh k))).
  { intros k. unfold beam_at. rewrite (cza_sun lat i Hl). unfold sun, hour, grid. fold a b.
    pose proof (sq_over_above (b * cos (- sg_hss lat i + INR k * sg_dh) + a)). pose proof (sq_over_pos (a + b * cos (- sg_hss lat i + INR k * sg_dh))).
    replace (a + b * cos (- sg_hss lat i + INR k * sg_dh)) with (b * cos (- sg_hss lat i + INR k * sg_dh) + a) in * by lra.
    destruct (Rltb _ _); [apply Rmult_le_compat_l; lra|apply Rmult_le_pos; lra]. }
  rewrite hours_eq, map_map.
  eapply Rle_trans; [apply (total_mono _ _ _ Each)|].
  eapply Rle_trans; [apply (total_more _ _ _ Nh); intros k; apply Rmult_le_pos; [lra|apply sq_over_pos]|].
  rewrite seq_total_S.
  assert (Sc : forall l, total (map (fun k => sg_beam i * sq_over (a + b * cos (grid (- sg_hss lat i) sg_dh k))) l)
      = sg_beam i * total (map (fun k => sq_over (a + b * cos (grid (- sg_hss lat i) sg_dh k))) l)).
  { induction l as [|k l IH]; [unfold total; cbn; lra|]. cbn [map]. rewrite !total_cons, IH. lra. }
  rewrite Sc.
  assert (A : -1 <= a <= 1). { unfold a. pose proof (SIN_bound (lat * RAD_PER_DEG)). pose proof (SIN_bound (sg_decl i)). split; nra. }
  assert (B : 0 <= b <= 1).
  { unfold b. pose proof (cos_lat_pos lat Hl) as C1. rewrite (lat_value lat Hl) in C1. pose proof (cos_decl_pos i) as C2.
    pose proof (COS_bound (lat * RAD_PER_DEG)). pose proof (COS_bound (sg_decl i)). split; nra. }
  pose proof (day_sum a b (- sg_hss lat i) A B) as D.
  assert (M : ((a + 0.512) ^ 2 + b ^ 2 / 2) / 2.048 <= 0.4191).
  { assert (Eb : b ^ 2 = (1 - sin (lat * RAD_PER_DEG) ^ 2) * (1 - sin (sg_decl i) ^ 2)).
    { unfold b. pose proof (sin2_cos2 (lat * RAD_PER_DEG)) as X. pose proof (sin2_cos2 (sg_decl i)) as Y. unfold Rsqr in *.
      replace (1 - sin (lat * RAD_PER_DEG) ^ 2) with (cos (lat * RAD_PER_DEG) ^ 2) by (simpl; lra). replace (1 - sin (sg_decl i) ^ 2) with (cos (sg_decl i) ^ 2) by (simpl; lra). simpl. lra. }
    rewrite Eb. unfold a. apply height_mean; [|apply SIN_bound].
    pose proof (decl_bounds i). pose proof (sin_close (sg_decl i) 0) as X. rewrite sin_0, !Rminus_0_r in X.
    assert (Y : Rabs (sg_decl i) <= 0.41) by (apply Rabs_le; lra). assert (Z : Rabs (sin (sg_decl i)) <= 0.41) by lra. apply Rabs_le_inv in Z. lra. }
  assert (One : sq_over (a + b * cos (grid (- sg_hss lat i) sg_dh RAD_STEPS)) <= 3.1).
  { pose proof (COS_bound (grid (- sg_hss lat i) sg_dh RAD_STEPS)). generalize dependent (cos (grid (- sg_hss lat i) sg_dh RAD_STEPS)). intros c Hc. clearbody a b. assert (-2 <= a + b * c <= 2) by (split; nra). unfold sq_over. set (z := a + b * c) in *. simpl. nra. }
  set (t := total (map _ (seq 0 RAD_STEPS))) in *. set (o := sq_over (a + b * cos (grid (- sg_hss lat i) sg_dh RAD_STEPS))) in *.
  assert (T : t + o <= 1210.2) by lra. assert (0 <= o) by apply sq_over_pos.
  assert (0 <= t). { unfold t. clear. induction (seq 0 RAD_STEPS) as [|k l IH]; [unfold total; cbn; lra|]. cbn [map]. rewrite total_cons. pose proof (sq_over_pos (a + b * cos (grid (- sg_hss lat i) sg_dh k))). lra. }
  replace (sg_beam i * t + sg_beam i * o) with (sg_beam i * (t + o)) by lra. nra.
Qed.
