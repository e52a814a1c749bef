(** One pass of the dewpoint iteration for one day, as a function on reals. *)
From Coq Require Import ZArith Reals List Bool Arith Lia Lra Psatz.
From Verif Require Import Model.Py Model.Fl Model.Np Model.Constants Model.Physics Model.Params Model.Disagg Model.Mtclim
  Proofs.Base Proofs.RBase Proofs.ArrayProofs Proofs.SvpProofs Proofs.MtclimProofs.
Local Open Scope R_scope.

(** ** slope of the saturation vapor pressure *)
Definition svp_u (T : R) : R := 17.269 * T / (237.3 + T).

Lemma exp_chord x y : exp y - exp x <= exp y * (y - x).
Proof.
  pose proof (exp_ineq1_le (x - y)) as H. assert (E : exp x = exp y * exp (x - y)) by (rewrite <- exp_plus; f_equal; ring).
  pose proof (exp_pos y). rewrite E. nra.
Qed.

Lemma exp_344 : exp 3.44 <= 34.5.
Proof.
  pose proof (exp_ineq1_le (-0.05375)) as H. assert (P : forall x, exp (x + x) = exp x * exp x) by (intros; apply exp_plus).
  assert (S1 : 0.8953 <= exp (-0.1075)) by (replace (-0.1075) with (-0.05375 + -0.05375) by lra; rewrite P; nra).
  assert (S2 : 0.8015 <= exp (-0.215)) by (replace (-0.215) with (-0.1075 + -0.1075) by lra; rewrite P; nra).
  assert (S3 : 0.6424 <= exp (-0.43)) by (replace (-0.43) with (-0.215 + -0.215) by lra; rewrite P; nra).
  assert (S4 : 0.41267 <= exp (-0.86)) by (replace (-0.86) with (-0.43 + -0.43) by lra; rewrite P; nra).
  assert (S5 : 0.17029 <= exp (-1.72)) by (replace (-1.72) with (-0.86 + -0.86) by lra; rewrite P; nra).
  assert (S6 : 0.02899 <= exp (-3.44)) by (replace (-3.44) with (-1.72 + -1.72) by lra; rewrite P; nra).
  assert (Q : exp 3.44 * exp (-3.44) = 1) by (rewrite <- exp_plus; replace (3.44 + -3.44) with 0 by lra; apply exp_0).
  pose proof (exp_pos 3.44). nra.
Qed.

Lemma svp_E_high y : 0 <= y <= 59 -> svp_E y <= 34.5.
Proof.
  intros H. apply Rle_trans with (exp 3.44); [|apply exp_344]. unfold svp_E. destruct (Rle_lt_or_eq_dec (17.269 * y / (237.3 + y)) 3.44) as [L|L]; [|left; now apply exp_increasing|rewrite L; apply Rle_refl].
  apply div_le; lra.
Qed.

Lemma E_step x y : -237.3 < x -> x <= y -> svp_E y - svp_E x <= svp_E y * (17.269 * 237.3 * (y - x) / ((237.3 + x) * (237.3 + y))).
Proof.
  intros X Y. unfold svp_E. rewrite <- svp_arg_diff by lra. apply exp_chord.
Qed.

Lemma E_low y : -237.3 < y <= 0 -> svp_E y <= 1.
Proof.
  intros H. replace 1 with (svp_E 0).
  - destruct (Req_dec y 0) as [->|N]; [lra|]. left. apply svp_E_incr; lra.
  - unfold svp_E. replace (17.269 * 0 / (237.3 + 0)) with 0 by (unfold Rdiv; lra). apply exp_0.
Qed.

Lemma lip_above x y : 0 <= x -> x <= y -> y <= 59 -> svp_R y - svp_R x <= 1535 * (y - x).
Proof.
  intros X XY Y. unfold svp_R. destruct (Rlt_dec x 0), (Rlt_dec y 0); try lra.
  pose proof (E_step x y ltac:(lra) XY) as H. pose proof (svp_E_high y ltac:(lra)) as U. pose proof (svp_E_pos y) as P.
  assert (D : 17.269 * 237.3 * (y - x) / ((237.3 + x) * (237.3 + y)) <= 0.072774 * (y - x)).
  { apply div_le; [nra|]. assert (237.3 * 237.3 <= (237.3 + x) * (237.3 + y)) by nra. 
    apply Rle_trans with (0.072774 * (y - x) * (237.3 * 237.3)); [nra|]. apply Rmult_le_compat_l; nra. }
  set (q := 17.269 * 237.3 * (y - x) / ((237.3 + x) * (237.3 + y))) in *.
  assert (svp_E y * q <= svp_E y * (0.072774 * (y - x))) by (apply Rmult_le_compat_l; lra).
  assert (svp_E y * (0.072774 * (y - x)) <= 34.5 * (0.072774 * (y - x))) by (apply Rmult_le_compat_r; lra). lra.
Qed.

Lemma lip_below x y : -125 <= x -> x <= y -> y <= 0 -> 
  0.61078 * svp_E y * svp_q y * 1000 - 0.61078 * svp_E x * svp_q x * 1000 <= 1535 * (y - x).
Proof.
  intros X XY Y.
  pose proof (E_step x y ltac:(lra) XY) as H. pose proof (E_low y ltac:(lra)) as U. pose proof (E_low x ltac:(lra)) as V.
  pose proof (svp_E_pos y) as P. pose proof (svp_E_pos x) as Px. pose proof (svp_q_pos y) as Q.
  assert (Q1 : svp_q y <= 1) by (unfold svp_q; simpl; nra).
  assert (Dq : svp_q y - svp_q x <= 0.00972 * (y - x)) by (unfold svp_q; simpl; nra).
  assert (D : 17.269 * 237.3 * (y - x) / ((237.3 + x) * (237.3 + y)) <= 0.33 * (y - x)).
  { assert (112.3 * 112.3 <= (237.3 + x) * (237.3 + y)) by nra. apply div_le; [nra|].
    apply Rle_trans with (0.33 * (y - x) * (112.3 * 112.3)); [nra|]. apply Rmult_le_compat_l; nra. }
  set (q := 17.269 * 237.3 * (y - x) / ((237.3 + x) * (237.3 + y))) in *.
  assert (A : svp_E y - svp_E x <= 0.33 * (y - x)).
  { assert (svp_E y * q <= svp_E y * (0.33 * (y - x))) by (apply Rmult_le_compat_l; lra).
    assert (svp_E y * (0.33 * (y - x)) <= 1 * (0.33 * (y - x))) by (apply Rmult_le_compat_r; lra). lra. }
  assert (B : (svp_E y - svp_E x) * svp_q y <= 0.33 * (y - x)).
  { apply Rle_trans with (0.33 * (y - x) * svp_q y); [apply Rmult_le_compat_r; lra|]. nra. }
  assert (C : svp_E x * (svp_q y - svp_q x) <= 0.00972 * (y - x)).
  { apply Rle_trans with (svp_E x * (0.00972 * (y - x))); [apply Rmult_le_compat_l; lra|]. nra. }
  replace (svp_E y * svp_q y) with (svp_E y * svp_q y) by reflexivity.
  assert (svp_E y * svp_q y - svp_E x * svp_q x <= 0.33972 * (y - x)) by lra. lra.
Qed.

Theorem svp_lip x y : -125 <= x -> x <= y -> y <= 59 -> svp_R y - svp_R x <= 1535 * (y - x).
Proof.
  intros X XY Y. destruct (Rlt_dec x 0) as [N|N]; [|apply lip_above; lra].
  assert (E0 : svp_R 0 = 0.61078 * svp_E 0 * svp_q 0 * 1000).
  { unfold svp_R. destruct (Rlt_dec 0 0); [lra|]. unfold svp_q. lra. }
  assert (Ex : svp_R x = 0.61078 * svp_E x * svp_q x * 1000) by (unfold svp_R; destruct (Rlt_dec x 0); lra).
  destruct (Rlt_dec y 0) as [M|M].
  - rewrite Ex. replace (svp_R y) with (0.61078 * svp_E y * svp_q y * 1000) by (unfold svp_R; destruct (Rlt_dec y 0); lra). apply lip_below; lra.
  - pose proof (lip_above 0 y ltac:(lra) ltac:(lra) Y). pose proof (lip_below x 0 X ltac:(lra) ltac:(lra)). lra.
Qed.

(** ** the regression polynomial *)
Definition kp (r : R) : R := 1.003 - 1.444 * r + 12.312 * r ^ 2 - 32.766 * r ^ 3.

Lemma kp_rise r1 r2 : r2 <= r1 -> kp r1 - kp r2 <= 0.0982 * (r1 - r2).
Proof.
  intros H. unfold kp.
  assert (Q : -1.444 + 12.312 * (r1 + r2) - 32.766 * (r1 * r1 + r1 * r2 + r2 * r2) <= 0.0982).
  { assert (3 / 4 * ((r1 + r2) * (r1 + r2)) <= r1 * r1 + r1 * r2 + r2 * r2) by nra.
    pose proof (Rle_0_sqr (r1 + r2 - 0.2505)) as Sq. unfold Rsqr in Sq. nra. }
  replace (1.003 - 1.444 * r1 + 12.312 * r1 ^ 2 - 32.766 * r1 ^ 3 - (1.003 - 1.444 * r2 + 12.312 * r2 ^ 2 - 32.766 * r2 ^ 3))
    with ((-1.444 + 12.312 * (r1 + r2) - 32.766 * (r1 * r1 + r1 * r2 + r2 * r2)) * (r1 - r2)) by (simpl; lra).
  apply Rmult_le_compat_r; lra.
Qed.
Lemma kp_high r : 0 <= r -> kp r <= 1.003.
Proof.
  intros H. unfold kp. assert (-1.444 + 12.312 * r - 32.766 * (r * r) <= 0).
  { pose proof (Rle_0_sqr (r - 0.188)) as Sq. unfold Rsqr in Sq. nra. }
  assert (r * (-1.444 + 12.312 * r - 32.766 * (r * r)) <= 0) by nra. simpl. lra.
Qed.
Lemma kp_low r : 0 <= r <= 0.25 -> 0.89 <= kp r.
Proof.
  intros H. unfold kp.
  assert (E : 0.113 - 1.444 * r + 12.312 * (r * r) - 32.766 * (r * r * r) >= 0); [|simpl; lra].
  destruct (Rle_dec r 0.125) as [L|L].
  - assert (0 <= (0.125 - r) * (r * r)) by (apply Rmult_le_pos; nra).
    pose proof (Rle_0_sqr (r - 0.088)) as Sq. unfold Rsqr in Sq. lra.
  - assert (0 <= (r - 0.125) * (0.25 - r) * r) by (apply Rmult_le_pos; [apply Rmult_le_pos|]; lra). nra.
Qed.

(** ** one pass *)
Section pass.
Variables (tm tf tt pot kap sp dtr : R).
Hypothesis Htm : -100 <= tm <= 50.
Hypothesis Hdtr : 0 <= dtr <= 50.
Hypothesis Htf : 0 <= tf <= 1.
Hypothesis Htt : 0 <= tt <= 1.
Hypothesis Hpot : 0 <= pot.
Hypothesis Hkap : 0 <= kap.
Hypothesis Hsp : 0 < sp.
Hypothesis Hpet : kap * pot <= 0.25 * sp.

Definition trans (t : R) : R := Rmax (tt + ABASE * svp_R t) 0.0001.
Definition ratio (t : R) : R := kap * (pot * trans t * tf) / sp.
Definition pass (t : R) : R := (tm + KELVIN) * (-0.127 + 1.121 * kp (ratio t) + 0.0006 * dtr) - KELVIN.

Lemma trans_range t : 0 < trans t <= 1.
Proof.
  unfold trans. pose proof (svp_R_pos t). pose proof (Rmax_r (tt + ABASE * svp_R t) 0.0001). split; [lra|].
  apply Rmax_lub; unfold ABASE; lra.
Qed.
Lemma ratio_range t : 0 <= ratio t <= 0.25.
Proof.
  unfold ratio. pose proof (trans_range t) as [A B]. assert (0 <= pot * trans t * tf <= pot).
  { assert (0 <= pot * trans t <= pot) by (split; [apply Rmult_le_pos; lra|nra]). split; [apply Rmult_le_pos; lra|nra]. }
  split; [apply Rmult_le_pos; [apply Rmult_le_pos; lra|left; now apply Rinv_0_lt_compat]|].
  apply div_le; auto. assert (kap * (pot * trans t * tf) <= kap * pot) by (apply Rmult_le_compat_l; lra). lra.
Qed.
Lemma pass_range t : -125 <= pass t <= 59.
Proof.
  pose proof (ratio_range t) as Rr. pose proof (kp_high (ratio t) ltac:(lra)). pose proof (kp_low (ratio t) Rr).
  unfold pass, KELVIN. set (k := kp (ratio t)) in *.
  assert (0.87 <= -0.127 + 1.121 * k + 0.0006 * dtr <= 1.0274) by lra. set (m := -0.127 + 1.121 * k + 0.0006 * dtr) in *. split; nra.
Qed.

Lemma trans_drop x y : -125 <= x -> x <= y -> y <= 59 -> trans x - trans y <= 6.1e-5 * 1535 * (y - x) /\ trans y <= trans x.
Proof.
  intros X XY Y. pose proof (svp_lip x y X XY Y) as L.
  assert (M : svp_R x <= svp_R y) by (destruct (Req_dec x y) as [->|]; [lra|left; apply svp_R_incr; lra]).
  unfold trans, ABASE. unfold Rmax. destruct (Rle_dec (tt + -6.1e-5 * svp_R x) 0.0001), (Rle_dec (tt + -6.1e-5 * svp_R y) 0.0001); lra.
Qed.

Theorem pass_slow x y : -125 <= x -> x <= y -> y <= 59 -> pass y >= pass x - 0.84 * (y - x).
Proof.
  intros X XY Y. destruct (trans_drop x y X XY Y) as [Dr Mo].
  assert (E : ratio x - ratio y = kap * pot / sp * tf * (trans x - trans y)) by (unfold ratio; field; lra).
  assert (A : 0 <= kap * pot / sp <= 0.25).
  { split; [apply Rmult_le_pos; [apply Rmult_le_pos; lra|left; now apply Rinv_0_lt_compat]|apply div_le; lra]. }
  assert (B : 0 <= kap * pot / sp * tf <= 0.25) by nra.
  set (w := kap * pot / sp * tf) in *. set (dx := trans x - trans y) in *.
  assert (C : 0 <= ratio x - ratio y <= 0.25 * (6.1e-5 * 1535 * (y - x))).
  { rewrite E. split; [apply Rmult_le_pos; unfold dx; lra|].
    apply Rle_trans with (w * (6.1e-5 * 1535 * (y - x))); [apply Rmult_le_compat_l; lra|apply Rmult_le_compat_r; lra]. }
  pose proof (kp_rise (ratio x) (ratio y) ltac:(lra)) as K.
  assert (D : kp (ratio x) - kp (ratio y) <= 0.0023 * (y - x)) by lra.
  unfold pass, KELVIN. set (a := kp (ratio x)) in *. set (b := kp (ratio y)) in *.
  assert (F : (tm + 273.15) * (a - b) <= (tm + 273.15) * (0.0023 * (y - x))) by (apply Rmult_le_compat_l; lra).
  assert (G : (tm + 273.15) * (0.0023 * (y - x)) <= 323.15 * (0.0023 * (y - x))) by (apply Rmult_le_compat_r; lra).
  lra.
Qed.
End pass.
