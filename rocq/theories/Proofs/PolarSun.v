(** The sun at the pole: on every day of the year it is either up at midnight
    or down at noon. *)
From Coq Require Import ZArith Reals String List Bool Arith Lia Lra Ratan.
From Verif Require Import Model.Py Model.Fl Model.Np Model.Constants Model.Physics
  Proofs.Base Proofs.RBase Proofs.PiBounds Proofs.SolarProofs Proofs.SolarTables Proofs.SolarExamples Proofs.CellProofs
  Spec.SeriesSpec Spec.SolarSpec.
Import ListNotations.
Local Open Scope R_scope.

Lemma sin_small x : 0 <= x <= 1 -> x - x * x * x / 6 <= sin x.
Proof.
  intros H. pose proof PI_lower. assert (L := proj1 (pre_sin_bound x 0 ltac:(lra) ltac:(lra))). unfold sin_approx, sin_term in L. cbn in L. lra.
Qed.
Lemma sin_half x : 0 <= x <= 1 -> x / 2 <= sin x.
Proof. intros H. pose proof (sin_small x H). assert (x * x <= 1) by nra. nra. Qed.

(** the angle of the year *)
Definition year_angle (i : nat) : R := (INR i + 11.25) * 0.017214.
Lemma decl_angle i : sg_decl i = Ropp 0.4092797 * cos (year_angle i).
Proof. unfold sg_decl, MIN_DECL, DAYS_OFF, RAD_PER_DAY, year_angle. set (x := cos _). lra. Qed.

Lemma angle_le i j : (i <= j)%nat -> year_angle i <= year_angle j.
Proof. intros H. apply le_INR in H. unfold year_angle. lra. Qed.

Lemma angle_0 : 0 < year_angle 0. Proof. unfold year_angle. cbn [INR]. lra. Qed.
Ltac angle := unfold year_angle; rewrite INR_IZR_INZ; cbn [Z.of_nat]; simpl IZR; lra.
Lemma angle_80 : year_angle 80 < 1.570778. Proof. angle. Qed.
Lemma angle_81 : 1.587 < year_angle 81. Proof. angle. Qed.
Lemma angle_262 : year_angle 262 < 4.704. Proof. angle. Qed.
Lemma angle_263 : 4.72 < year_angle 263. Proof. angle. Qed.
Lemma angle_364 : year_angle 364 < 6.46. Proof. angle. Qed.

Lemma sin_mono_small e y : 0 <= e <= 1 -> e <= y <= PI - e -> sin e <= sin y.
Proof.
  intros He Hy. pose proof PI_lower. destruct (Rle_dec y (PI / 2)) as [L|L].
  - apply sin_incr_1; lra.
  - rewrite <- (sin_PI_x y). apply sin_incr_1; lra.
Qed.

Lemma cos_winter x e : 0 <= e <= 1 -> 0 <= x <= PI / 2 - e -> e / 2 <= cos x.
Proof.
  intros He Hx. pose proof PI_lower. pose proof PI_upper. rewrite cos_sin. apply Rle_trans with (sin e); [now apply sin_half|].
  destruct (Rle_dec e (PI / 2 - x)); [|lra]. replace (sin (PI / 2 + x)) with (sin (PI / 2 - x)) by (rewrite <- (sin_PI_x (PI / 2 + x)); f_equal; lra).
  apply sin_mono_small; lra.
Qed.
Lemma cos_summer x e : 0 <= e <= 1 -> PI / 2 + e <= x <= 3 * (PI / 2) - e -> cos x <= - (e / 2).
Proof.
  intros He Hx. pose proof PI_lower. pose proof PI_upper. assert (E : cos x = - sin (x - PI / 2)).
  { rewrite <- (sin_PI_x (x - PI / 2)). replace (PI - (x - PI / 2)) with (PI / 2 + (PI - x)) by lra. rewrite <- cos_sin.
    replace (PI - x) with (- (x - PI)) by ring. rewrite cos_neg. replace x with (x - PI + PI) at 1 by ring. rewrite neg_cos. reflexivity. }
  rewrite E. pose proof (sin_half e He). pose proof (sin_mono_small e (x - PI / 2) He ltac:(lra)). lra.
Qed.
Lemma cos_autumn x e : 0 <= e <= 1 -> 3 * (PI / 2) + e <= x <= 2 * PI + 1 -> e / 2 <= cos x.
Proof.
  intros He Hx. pose proof PI_lower. pose proof PI_upper. replace x with (x - 2 * PI + 2 * PI) by ring.
  rewrite cos_plus, cos_2PI, sin_2PI, Rmult_1_r, Rmult_0_r, Rminus_0_r.
  destruct (Rle_dec 0 (x - 2 * PI)) as [L|L].
  - assert (M : e / 2 <= 1/2) by lra. apply Rle_trans with (1/2); [exact M|]. rewrite <- cos_PI3. apply cos_decr_1; lra.
  - rewrite <- cos_neg. apply cos_winter; lra.
Qed.

Lemma pole_lat : 1.570796 < 90 * RAD_PER_DEG < 1.5707962.
Proof. unfold RAD_PER_DEG. lra. Qed.

Lemma pole_dark i : -0.41 <= sg_decl i <= -0.000002 -> polar_night 90 i.
Proof.
  intros D h. unfold sun. pose proof PI_lower. pose proof PI_upper. pose proof pole_lat. set (L := 90 * RAD_PER_DEG) in *. set (d := sg_decl i) in *.
  assert (P : 0 < cos L * cos d) by (apply Rmult_lt_0_compat; apply cos_gt_0; lra).
  assert (cos L * cos d * cos h <= cos L * cos d * 1) by (apply Rmult_le_compat_l; [lra|apply COS_bound]).
  assert (C : cos (L - d) <= 0) by (apply cos_le_0; lra). rewrite cos_minus in C. lra.
Qed.
Lemma pole_light i : 0.000002 <= sg_decl i <= 0.41 -> midnight_sun 90 i.
Proof.
  intros D. unfold midnight_sun, sun. pose proof PI_lower. pose proof PI_upper. pose proof pole_lat. set (L := 90 * RAD_PER_DEG) in *. set (d := sg_decl i) in *.
  rewrite cos_PI. assert (C : cos (L + d) < 0) by (apply cos_lt_0; lra). rewrite cos_plus in C. lra.
Qed.

Theorem pole_days i : (i < 365)%nat -> ((81 <= i <= 262)%nat -> midnight_sun 90 i) /\ (~ (81 <= i <= 262)%nat -> polar_night 90 i).
Proof.
  intros Hi. pose proof PI_lower. pose proof PI_upper. pose proof (decl_bounds i) as B. rewrite decl_angle in B.
  pose proof angle_0. pose proof angle_80. pose proof angle_81. pose proof angle_262. pose proof angle_263. pose proof angle_364.
  split; intros Q.
  - apply pole_light. rewrite decl_angle. pose proof (angle_le 81 i ltac:(lia)). pose proof (angle_le i 262 ltac:(lia)).
    pose proof (cos_summer (year_angle i) 0.005 ltac:(lra) ltac:(lra)). lra.
  - apply pole_dark. rewrite decl_angle. destruct (Nat.le_gt_cases i 80) as [S|S].
    + pose proof (angle_le i 80 S). pose proof (angle_le 0 i ltac:(lia)). pose proof (cos_winter (year_angle i) 0.000018 ltac:(lra) ltac:(lra)). lra.
    + pose proof (angle_le 263 i ltac:(lia)). pose proof (angle_le i 364 ltac:(lia)). pose proof (cos_autumn (year_angle i) 0.005 ltac:(lra) ltac:(lra)). lra.
Qed.

(** the whole day is daylight *)
Lemma midnight_daylength lat i : -90 <= lat <= 90 -> midnight_sun lat i -> 86399 < sg_daylength lat i.
Proof.
  intros Hl N. assert (hs : sg_hss lat i = PI).
  { apply hss_pi; [exact Hl|]. intros h. rewrite cza_sun by exact Hl. unfold midnight_sun in N.
    unfold sun in *. rewrite cos_PI in N. pose proof (COS_bound h). pose proof (coseg_pos lat i Hl) as P.
    unfold sg_cosegeom in P. rewrite lat_value in P by exact Hl. nra. }
  unfold sg_daylength. rewrite hs. pose proof PI_lower. unfold SEC_PER_RAD, SEC_PER_DAY, Rmin. destruct (Rle_dec _ _); lra.
Qed.

Theorem pole_ok elev lr : exists g, solar_geom elev 90 lr = Ok g.
Proof.
  apply geom_ok; [lra|]. intros i Hi D. destruct (pole_days i Hi) as [A B].
  destruct (le_dec 81 i) as [L|L]; [destruct (le_dec i 262) as [M|M]|].
  - pose proof (midnight_daylength 90 i ltac:(lra) (A (conj L M))). lra.
  - pose proof (B ltac:(lia)) as N. apply polar_night_zero in N; lra.
  - pose proof (B ltac:(lia)) as N. apply polar_night_zero in N; lra.
Qed.
