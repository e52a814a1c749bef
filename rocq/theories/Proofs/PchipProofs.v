(** The shape-preserving interpolant. *)
From Coq Require Import ZArith Reals List Bool Arith Lia Lra Psatz.
From Verif Require Import Model.Py Model.Fl Model.Np Model.Interp Spec.TempSpec
  Proofs.Base Proofs.RBase Proofs.ArrayProofs Proofs.SolarTables.
Import ListNotations.
Local Open Scope list_scope.
Local Open Scope R_scope.

(** ** derivatives *)
Definition tame (m d : R) : Prop := exists a, 0 <= a <= 3 /\ d = a * m.

Lemma tame_zero m : tame m 0.
Proof. exists 0. lra. Qed.

Lemma sgn_cases x : (x < 0 /\ Rsgn x = (-1)%Z) \/ (x = 0 /\ Rsgn x = 0%Z) \/ (0 < x /\ Rsgn x = 1%Z).
Proof. unfold Rsgn. destruct (Rlt_dec x 0); [left; auto|]. destruct (Rlt_dec 0 x); [right; right; auto|]. right. left. split; auto. lra. Qed.

Lemma tame_of m d : m <> 0 -> 0 <= d / m <= 3 -> tame m d.
Proof. intros N H. exists (d / m). split; auto. field. auto. Qed.

Lemma harmonic w1 w2 m0 m1 : 0 < w1 -> 0 < w2 -> 0 < m0 -> 0 < m1 ->
  1 / ((w1 / m0 + w2 / m1) / (w1 + w2)) = (w1 + w2) * m0 * m1 / (w1 * m1 + w2 * m0).
Proof. intros. field. repeat split; try lra; nra. Qed.

Lemma harmonic_opp w1 w2 m0 m1 : 0 < w1 -> 0 < w2 -> m0 < 0 -> m1 < 0 ->
  1 / ((w1 / m0 + w2 / m1) / (w1 + w2)) = (w1 + w2) * m0 * m1 / (w1 * m1 + w2 * m0).
Proof. intros. field. repeat split; try lra; nra. Qed.

Lemma interior_pos h0 h1 m0 m1 : 0 < h0 -> 0 < h1 -> 0 < m0 -> 0 < m1 ->
  let d := (2 * h1 + h0 + (h1 + 2 * h0)) * m0 * m1 / ((2 * h1 + h0) * m1 + (h1 + 2 * h0) * m0) in
  0 <= d /\ d <= 3 * m0 /\ d <= 3 * m1.
Proof.
  intros A B C D d. assert (P : 0 < (2 * h1 + h0) * m1 + (h1 + 2 * h0) * m0) by nra.
  assert (Q : 0 < m0 * m1) by nra. unfold d. split; [|split].
  - apply Rmult_le_pos; [nra|]. left. now apply Rinv_0_lt_compat.
  - apply Rmult_le_reg_r with (1 := P). unfold Rdiv. rewrite Rmult_assoc, Rinv_l by lra. rewrite Rmult_1_r. nra.
  - apply Rmult_le_reg_r with (1 := P). unfold Rdiv. rewrite Rmult_assoc, Rinv_l by lra. rewrite Rmult_1_r. nra.
Qed.

Lemma tame_pos m d : 0 < m -> 0 <= d -> d <= 3 * m -> tame m d.
Proof.
  intros. apply tame_of; [lra|]. split.
  - apply Rmult_le_pos; [lra|]. left. now apply Rinv_0_lt_compat.
  - apply Rmult_le_reg_r with (r := m); auto. unfold Rdiv. rewrite Rmult_assoc, Rinv_l by lra. lra.
Qed.
Lemma tame_opp m d : tame (- m) (- d) -> tame m d.
Proof. intros (a & H & E). exists a. split; auto. lra. Qed.

Lemma interior_tame h0 h1 m0 m1 : 0 < h0 -> 0 < h1 ->
  tame m0 (pchip_interior h0 h1 m0 m1) /\ tame m1 (pchip_interior h0 h1 m0 m1).
Proof.
  intros A B. unfold pchip_interior.
  destruct (sgn_cases m0) as [[P0 E0]|[[P0 E0]|[P0 E0]]], (sgn_cases m1) as [[P1 E1]|[[P1 E1]|[P1 E1]]]; rewrite E0, E1;
    cbn [Z.eqb Pos.eqb negb orb]; try (split; apply tame_zero).
  - rewrite !Reqb_not by lra. cbn [orb]. cbv zeta. rewrite harmonic_opp by lra.
    destruct (interior_pos h0 h1 (- m0) (- m1) A B ltac:(lra) ltac:(lra)) as (D1 & D2 & D3). cbv zeta in *.
    assert (E : (2 * h1 + h0 + (h1 + 2 * h0)) * - m0 * - m1 / ((2 * h1 + h0) * - m1 + (h1 + 2 * h0) * - m0) =
      - ((2 * h1 + h0 + (h1 + 2 * h0)) * m0 * m1 / ((2 * h1 + h0) * m1 + (h1 + 2 * h0) * m0))).
    { field. split; nra. }
    rewrite E in *. split; apply tame_opp; apply tame_pos; lra.
  - rewrite P0, P1, Reqb_refl. cbn. split; apply tame_zero.
  - rewrite !Reqb_not by lra. cbn [orb]. cbv zeta. rewrite harmonic by lra.
    destruct (interior_pos h0 h1 m0 m1 A B P0 P1) as (D1 & D2 & D3). cbv zeta in *. split; apply tame_pos; lra.
Qed.

Lemma edge_tame h0 h1 m0 m1 : 0 < h0 -> 0 < h1 -> tame m0 (pchip_edge h0 h1 m0 m1).
Proof.
  intros A B. unfold pchip_edge. cbv zeta. set (d := ((2 * h0 + h1) * m0 - h0 * m1) / (h0 + h1)).
  assert (Ed : d * (h0 + h1) = (2 * h0 + h1) * m0 - h0 * m1) by (unfold d; field; lra). clearbody d.
  destruct (sgn_cases d) as [[Pd E]|[[Pd E]|[Pd E]]], (sgn_cases m0) as [[P0 E0]|[[P0 E0]|[P0 E0]]]; rewrite E, E0;
    cbn [Z.eqb Pos.eqb negb]; try apply tame_zero.
  - destruct (sgn_cases m1) as [[P1 E1]|[[P1 E1]|[P1 E1]]]; rewrite E1; cbn [Z.eqb Pos.eqb negb andb].
    + apply tame_opp, tame_pos; nra.
    + destruct (Rltb (3 * Rabs m0) (Rabs d)) eqn:Q; [exists 3; lra|]. apply Rltb_false in Q. rewrite !Rabs_left in Q by lra. apply tame_opp, tame_pos; lra.
    + destruct (Rltb (3 * Rabs m0) (Rabs d)) eqn:Q; [exists 3; lra|]. apply Rltb_false in Q. rewrite !Rabs_left in Q by lra. apply tame_opp, tame_pos; lra.
  - subst d. destruct (_ && _); [exists 3; split; lra|apply tame_zero].
  - destruct (sgn_cases m1) as [[P1 E1]|[[P1 E1]|[P1 E1]]]; rewrite E1; cbn [Z.eqb Pos.eqb negb andb].
    + destruct (Rltb (3 * Rabs m0) (Rabs d)) eqn:Q; [exists 3; lra|]. apply Rltb_false in Q. rewrite !Rabs_right in Q by lra. apply tame_pos; lra.
    + destruct (Rltb (3 * Rabs m0) (Rabs d)) eqn:Q; [exists 3; lra|]. apply Rltb_false in Q. rewrite !Rabs_right in Q by lra. apply tame_pos; lra.
    + apply tame_pos; nra.
Qed.

Lemma d_tame n x y k : (3 <= n)%nat -> (S k < n)%nat -> (forall j, (S j < n)%nat -> x j < x (S j)) ->
  tame (pchip_m x y k) (pchip_d n x y k) /\ tame (pchip_m x y k) (pchip_d n x y (S k)).
Proof.
  intros N K I. assert (H : forall j, (S j < n)%nat -> 0 < pchip_h x j) by (intros j J; unfold pchip_h; specialize (I j J); lra).
  unfold pchip_d. split.
  - destruct (Nat.eqb_spec k 0) as [->|K0]; [apply edge_tame; apply H; lia|]. destruct (Nat.eqb_spec k (n - 1)); [lia|].
    apply interior_tame; apply H; lia.
  - destruct (Nat.eqb_spec (S k) 0); [lia|]. destruct (Nat.eqb_spec (S k) (n - 1)) as [E|].
    + replace (n - 2)%nat with k by lia. apply edge_tame; apply H; lia.
    + replace (S k - 1)%nat with k by lia. apply interior_tame; apply H; lia.
Qed.

(** ** the cubic on one interval *)
Lemma hermite_between x0 h y0 y1 a b s : 0 < h -> 0 <= a <= 3 -> 0 <= b <= 3 -> 0 <= s <= 1 ->
  between y0 y1 (hermite x0 h y0 y1 (a * ((y1 - y0) / h)) (b * ((y1 - y0) / h)) (x0 + s * h)).
Proof.
  intros H A B S. unfold hermite, between. cbv zeta. replace ((x0 + s * h - x0) / h) with s by (field; lra).
  set (phi := s^2 * (3 - 2 * s) + s * (1 - s)^2 * a - s^2 * (1 - s) * b).
  assert (E : (1 + 2 * s) * (1 - s) ^ 2 * y0 + s * (1 - s) ^ 2 * h * (a * ((y1 - y0) / h)) + s ^ 2 * (3 - 2 * s) * y1 +
     s ^ 2 * (s - 1) * h * (b * ((y1 - y0) / h)) = y0 + phi * (y1 - y0)) by (unfold phi; field; lra).
  rewrite E.
  assert (P1 : 0 <= s ^ 2 * (1 - s)) by (apply Rmult_le_pos; [nra|lra]).
  assert (P2 : 0 <= s * (1 - s) ^ 2) by (apply Rmult_le_pos; [lra|nra]).
  assert (P3 : 0 <= s ^ 3) by (replace (s ^ 3) with (s * s ^ 2) by ring; apply Rmult_le_pos; [lra|nra]).
  assert (P4 : 0 <= (1 - s) ^ 3) by (replace ((1 - s) ^ 3) with ((1 - s) * (1 - s) ^ 2) by ring; apply Rmult_le_pos; [lra|nra]).
  assert (L : 0 <= phi).
  { replace phi with (s ^ 3 + s * (1 - s) ^ 2 * a + s ^ 2 * (1 - s) * (3 - b)) by (unfold phi; ring).
    assert (0 <= s * (1 - s) ^ 2 * a) by (apply Rmult_le_pos; lra). assert (0 <= s ^ 2 * (1 - s) * (3 - b)) by (apply Rmult_le_pos; lra). lra. }
  assert (U : phi <= 1).
  { replace phi with (1 - ((1 - s) ^ 3 + s * (1 - s) ^ 2 * (3 - a) + s ^ 2 * (1 - s) * b)) by (unfold phi; ring).
    assert (0 <= s * (1 - s) ^ 2 * (3 - a)) by (apply Rmult_le_pos; lra). assert (0 <= s ^ 2 * (1 - s) * b) by (apply Rmult_le_pos; lra). lra. }
  clearbody phi. unfold Rmin, Rmax. destruct (Rle_dec y0 y1); nra.
Qed.

Lemma find_interval_spec x t K : let k := find_interval x t K in
  (k <= K)%nat /\ (k = 0%nat \/ x k <= t) /\ (forall j, (k < j <= K)%nat -> t < x j).
Proof.
  induction K as [|K IH]; cbn [find_interval]; cbv zeta.
  - repeat split; auto. intros j J. lia.
  - destruct (Rle_dec (x (S K)) t).
    + repeat split; auto. intros j J. lia.
    + destruct IH as (A & B & C). split; [lia|]. split; auto. intros j J. destruct (Nat.eq_dec j (S K)) as [->|]; [lra|]. apply C. lia.
Qed.

Lemma incr_lt n x : (forall j, (S j < n)%nat -> x j < x (S j)) -> forall i j, (i < j < n)%nat -> x i < x j.
Proof. intros I i j [A B]. induction j as [|j IH]; [lia|]. destruct (Nat.eq_dec i j) as [->|]; [apply I; lia|]. apply Rlt_trans with (x j); [apply IH; lia|apply I; lia]. Qed.

(** the value lies between those of the two surrounding knots *)
Theorem pchip_between n x y t : (3 <= n)%nat -> (forall j, (S j < n)%nat -> x j < x (S j)) ->
  x 0%nat <= t <= x (n - 1)%nat ->
  exists k, (S k < n)%nat /\ x k <= t <= x (S k) /\ between (y k) (y (S k)) (pchip_eval n x y t).
Proof.
  intros N I T. unfold pchip_eval. destruct (find_interval_spec x t (n - 2)) as (A & B & C). set (k := find_interval x t (n - 2)) in *. cbv zeta.
  assert (K : (S k < n)%nat) by lia. exists k. split; auto.
  assert (TT : x k <= t <= x (S k)).
  { split; [destruct B as [->|]; lra|]. destruct (Nat.eq_dec (S k) (n - 1)) as [->|]; [lra|]. left. apply C. lia. }
  split; auto. clearbody k. clear A B C.
  destruct (d_tame n x y k N K I) as [(a & Ha & Ea) (b & Hb & Eb)]. rewrite Ea, Eb. unfold pchip_m.
  assert (H : 0 < pchip_h x k) by (unfold pchip_h; specialize (I k K); lra).
  assert (Et : t = x k + (t - x k) / pchip_h x k * pchip_h x k) by (field; lra). rewrite Et at 1.
  apply hermite_between; auto. split.
  - apply Rmult_le_pos; [lra|]. left. now apply Rinv_0_lt_compat.
  - apply Rmult_le_reg_r with (r := pchip_h x k); auto. unfold Rdiv. rewrite Rmult_assoc, Rinv_l by lra. unfold pchip_h. lra.
Qed.

(** ... and at a knot it is the value of the knot *)
Theorem pchip_knot n x y k : (3 <= n)%nat -> (forall j, (S j < n)%nat -> x j < x (S j)) -> (k < n)%nat ->
  pchip_eval n x y (x k) = y k.
Proof.
  intros N I K. unfold pchip_eval. destruct (find_interval_spec x (x k) (n - 2)) as (A & B & C). set (i := find_interval x (x k) (n - 2)) in *. cbv zeta.
  assert (H : 0 < pchip_h x i) by (unfold pchip_h; specialize (I i ltac:(lia)); lra).
  destruct (Nat.lt_trichotomy i k) as [L|[->|L]].
  - destruct (Nat.eq_dec k (n - 1)) as [->|].
    + assert (i = n - 2)%nat.
      { destruct (Nat.eq_dec i (n - 2)) as [|D]; auto. exfalso. specialize (C (n - 2)%nat ltac:(lia)). pose proof (incr_lt n x I (n - 2)%nat (n - 1)%nat ltac:(lia)). lra. }
      rewrite H0 in *. replace (S (n - 2)) with (n - 1)%nat by lia. unfold hermite. cbv zeta.
      replace ((x (n - 1)%nat - x (n - 2)%nat) / pchip_h x (n - 2)) with 1; [ring|].
      unfold pchip_h in *. replace (S (n - 2)) with (n - 1)%nat in * by lia. field. lra.
    + exfalso. specialize (C k ltac:(lia)). lra.
  - unfold hermite. cbv zeta. unfold Rminus at 1 2 3 4. rewrite Rplus_opp_r. unfold Rdiv. rewrite Rmult_0_l. ring.
  - exfalso. destruct B as [B|B]; [lia|]. pose proof (incr_lt n x I k i ltac:(lia)). lra.
Qed.

Lemma strictly_increasing_of l : (forall j, (S j < List.length l)%nat -> nth j l 0 < nth (S j) l 0) -> strictly_increasingb l = true.
Proof.
  induction l as [|a [|b l] IH]; intros H; auto. cbn [strictly_increasingb] in *. rewrite (Rltb_of a b) by (apply (H 0%nat); cbn; lia). cbn [andb].
  apply IH. intros j J. apply (H (S j)). cbn in *. lia.
Qed.
Lemma strictly_increasing_inv l : strictly_increasingb l = true -> forall j, (S j < List.length l)%nat -> nth j l 0 < nth (S j) l 0.
Proof.
  induction l as [|a [|b l] IH]; intros H j J; cbn in J; try lia. cbn [strictly_increasingb] in H. apply andb_true_iff in H as [H1 H2]. apply Rltb_true in H1.
  destruct j as [|j]; [exact H1|]. apply IH; auto. cbn. lia.
Qed.

Theorem pchip_made xs ys f : PchipInterpolator xs ys = Ok f ->
  (3 <= List.length xs)%nat /\ List.length xs = List.length ys /\ (forall j, (S j < List.length xs)%nat -> nth j xs 0 < nth (S j) xs 0) /\
  (forall k, (k < List.length xs)%nat -> f (nth k xs 0) = nth k ys 0) /\
  (forall t, nth 0 xs 0 <= t <= nth (List.length xs - 1) xs 0 ->
     exists k, (S k < List.length xs)%nat /\ nth k xs 0 <= t <= nth (S k) xs 0 /\ between (nth k ys 0) (nth (S k) ys 0) (f t)).
Proof.
  unfold PchipInterpolator. destruct (_ && _) eqn:E; [|discriminate]. intros H. assert (Hf : f = pchip_eval (List.length xs) (fun k => nth k xs 0) (fun k => nth k ys 0)) by congruence.
  apply andb_true_iff in E as [E I]. apply andb_true_iff in E as [E N]. apply Nat.eqb_eq in E. apply Nat.leb_le in N. pose proof (strictly_increasing_inv _ I) as J.
  rewrite Hf. split; auto. split; auto. split; auto. split.
  - intros k K. now apply (pchip_knot _ (fun k => nth k xs 0) (fun k => nth k ys 0)).
  - intros t T. now apply (pchip_between _ (fun k => nth k xs 0) (fun k => nth k ys 0)).
Qed.
