(** Successive differences of a bounded orbit t(n+1) = F(t n) tend to 0 when F
    never decreases faster than some slope less than 1. *)
From Coq Require Import Reals Arith Lia Lra Classical.
Local Open Scope R_scope.

Section orbit.
Variables (F : R -> R) (lo hi lam : R) (t : nat -> R).
Hypothesis L0 : 0 <= lam < 1.
Hypothesis slow : forall x y, lo <= x -> x <= y -> y <= hi -> F y >= F x - lam * (y - x).
Hypothesis next : forall n, t (S n) = F (t n).
Hypothesis range : forall n, lo <= t n <= hi.

(** after a step up that is followed by a step down, the orbit stays in the
    upper part of the step *)
Lemma trap_above n : t n < t (S n) -> t (S (S n)) <= t (S n) ->
  forall k, t (S n) - lam * (t (S n) - t n) <= t (S n + k)%nat <= t (S n).
Proof.
  intros U D. set (x := t n) in *. set (B := t (S n)) in *.
  assert (X : forall k, (B - lam * (B - x) <= t (S n + k)%nat) /\ exists p, lo <= p <= B /\ F p <= p /\ F p <= t (S n + k)%nat <= p).
  { induction k as [|k [Lo (p & Pr & Fp & Pk)]].
    - rewrite Nat.add_0_r. fold B. pose proof (range (S n)) as RB. fold B in RB.
      rewrite (next (S n)) in D. fold B in D. split; [nra|]. exists B. lra.
    - replace (S n + S k)%nat with (S (S n + k)) by lia. rewrite next. set (y := t (S n + k)) in *.
      pose proof (range (S n)) as RB. fold B in RB. pose proof (range n) as Rx. fold x in Rx. pose proof (range (S n + k)) as Ry. fold y in Ry.
      assert (Bx : B = F x) by (unfold B, x; apply next).
      split.
      + assert (x <= y) by nra. pose proof (slow x y ltac:(lra) ltac:(lra) ltac:(lra)) as Q. rewrite <- Bx in Q. assert (lam * (y - x) <= lam * (B - x)) by (apply Rmult_le_compat_l; lra). lra.
      + assert (Q : F p >= F y - lam * (p - y)) by (apply slow; lra).
        assert (lam * (p - y) <= p - y) by (assert (0 <= (1 - lam) * (p - y)) by (apply Rmult_le_pos; lra); lra).
        destruct (Rle_dec (F p) (F y)) as [C|C].
        * exists p. split; [lra|]. split; [lra|]. split; [lra|]. assert (lam * (p - y) <= lam * (p - F p)) by (apply Rmult_le_compat_l; lra).
          assert (lam * (p - F p) <= p - F p) by (assert (0 <= (1 - lam) * (p - F p)) by (apply Rmult_le_pos; lra); lra). lra.
        * exists y. split; [lra|]. lra. }
  intros k. destruct (X k) as [A (p & B1 & _ & B2)]. lra.
Qed.
End orbit.

Section settle.
Variables (F : R -> R) (lo hi lam : R) (t : nat -> R).
Hypothesis L0 : 0 <= lam < 1.
Hypothesis slow : forall x y, lo <= x -> x <= y -> y <= hi -> F y >= F x - lam * (y - x).
Hypothesis next : forall n, t (S n) = F (t n).
Hypothesis range : forall n, lo <= t n <= hi.

Lemma trap_below n : t (S n) < t n -> t (S n) <= t (S (S n)) ->
  forall k, t (S n) <= t (S n + k)%nat <= t (S n) + lam * (t n - t (S n)).
Proof.
  intros D U k.
  pose proof (trap_above (fun x => - F (- x)) (- hi) (- lo) lam (fun n => - t n) L0) as T.
  assert (S1 : forall x y, - hi <= x -> x <= y -> y <= - lo -> - F (- y) >= - F (- x) - lam * (y - x)).
  { intros x y A B C. pose proof (slow (- y) (- x) ltac:(lra) ltac:(lra) ltac:(lra)). nra. }
  assert (S2 : forall n, - t (S n) = - F (- - t n)) by (intros m; rewrite Ropp_involutive; now rewrite next).
  assert (S3 : forall n, - hi <= - t n <= - lo) by (intros m; pose proof (range m); lra).
  specialize (T S1 S2 S3 n ltac:(lra) ltac:(lra) k). cbv beta in T. nra.
Qed.

Lemma mono_settles (u : nat -> R) : (forall n, u n <= u (S n)) -> (exists M, forall n, u n <= M) ->
  forall eps, 0 < eps -> exists N, forall n, (n >= N)%nat -> Rabs (u (S n) - u n) < eps.
Proof.
  intros G [M B] eps E.
  assert (bound (EUn u)) as Bd by (exists M; intros x [i ->]; apply B).
  destruct (growing_cv u G Bd) as [l Hl]. destruct (Hl (eps / 2) ltac:(lra)) as [N HN]. exists N. intros n Hn.
  pose proof (HN n Hn) as A. pose proof (HN (S n) ltac:(lia)) as C. unfold R_dist in *.
  replace (u (S n) - u n) with ((u (S n) - l) - (u n - l)) by ring. eapply Rle_lt_trans; [apply Rabs_triang|]. rewrite Rabs_Ropp. lra.
Qed.

Definition settles (eps : R) : Prop := exists N, forall n, (n >= N)%nat -> Rabs (t (S n) - t n) < eps.

Lemma shrink eps m a b W : 0 < eps -> (forall n, (n >= m)%nat -> a <= t n <= b) -> b - a <= W ->
  settles eps \/ exists m' a' b', (forall n, (n >= m')%nat -> a' <= t n <= b') /\ b' - a' <= lam * W.
Proof.
  intros E I Wd.
  destruct (classic (exists n, (n >= m)%nat /\ ((t n < t (S n) /\ t (S (S n)) < t (S n)) \/ (t (S n) < t n /\ t (S n) < t (S (S n)))))) as [(n & Hn & [[U D]|[D U]])|N].
  - right. exists (S n), (t (S n) - lam * (t (S n) - t n)), (t (S n)). split.
    + intros k Hk. pose proof (trap_above F lo hi lam t L0 slow next range n U ltac:(lra) (k - S n)) as T. replace (S n + (k - S n))%nat with k in T by lia. exact T.
    + pose proof (I n Hn). pose proof (I (S n) ltac:(lia)). assert (lam * (t (S n) - t n) <= lam * W) by (apply Rmult_le_compat_l; lra). lra.
  - right. exists (S n), (t (S n)), (t (S n) + lam * (t n - t (S n))). split.
    + intros k Hk. pose proof (trap_below n D ltac:(lra) (k - S n)) as T. replace (S n + (k - S n))%nat with k in T by lia. exact T.
    + pose proof (I n Hn). pose proof (I (S n) ltac:(lia)). assert (lam * (t n - t (S n)) <= lam * W) by (apply Rmult_le_compat_l; lra). lra.
  - left. assert (St : forall n, (n >= m)%nat -> t (S n) = t n -> t (S (S n)) = t (S n)) by (intros n _ Q; rewrite (next (S n)), Q; now rewrite <- next).
    assert (X : forall n, (n >= m)%nat -> ~ (t n < t (S n) /\ t (S (S n)) < t (S n)) /\ ~ (t (S n) < t n /\ t (S n) < t (S (S n)))).
    { intros n Hn. split; intros Q; apply N; exists n; auto. }
    destruct (Rle_lt_dec (t m) (t (S m))) as [C|C].
    + assert (G : forall k, t (m + k)%nat <= t (S (m + k))).
      { induction k as [|k IH]; [now rewrite Nat.add_0_r|]. replace (m + S k)%nat with (S (m + k)) by lia.
        destruct (Req_dec (t (S (m + k))) (t (m + k)%nat)) as [Q|Q]; [rewrite (St (m + k)%nat) by (lia || auto); lra|].
        destruct (X (m + k)%nat ltac:(lia)) as [Y _]. destruct (Rle_lt_dec (t (S (m + k))) (t (S (S (m + k))))); [auto|]. exfalso. apply Y. lra. }
      destruct (mono_settles (fun k => t (m + k)%nat)) with (eps := eps) as [N0 H0]; auto.
      * intros k. replace (m + S k)%nat with (S (m + k)) by lia. apply G.
      * exists hi. intros k. apply range.
      * exists (m + N0)%nat. intros n Hn. specialize (H0 (n - m)%nat ltac:(lia)). cbv beta in H0. replace (m + S (n - m))%nat with (S n) in H0 by lia. replace (m + (n - m))%nat with n in H0 by lia. exact H0.
    + assert (G : forall k, t (S (m + k)) <= t (m + k)%nat).
      { induction k as [|k IH]; [rewrite Nat.add_0_r; lra|]. replace (m + S k)%nat with (S (m + k)) by lia.
        destruct (Req_dec (t (S (m + k))) (t (m + k)%nat)) as [Q|Q]; [rewrite (St (m + k)%nat) by (lia || auto); lra|].
        destruct (X (m + k)%nat ltac:(lia)) as [_ Y]. destruct (Rle_lt_dec (t (S (S (m + k)))) (t (S (m + k)))); [auto|]. exfalso. apply Y. lra. }
      destruct (mono_settles (fun k => - t (m + k)%nat)) with (eps := eps) as [N0 H0]; auto.
      * intros k. replace (m + S k)%nat with (S (m + k)) by lia. pose proof (G k). lra.
      * exists (- lo). intros k. pose proof (range (m + k)%nat). lra.
      * exists (m + N0)%nat. intros n Hn. specialize (H0 (n - m)%nat ltac:(lia)). cbv beta in H0. replace (m + S (n - m))%nat with (S n) in H0 by lia. replace (m + (n - m))%nat with n in H0 by lia.
        rewrite <- Rabs_Ropp. replace (- (t (S n) - t n)) with (- t (S n) - - t n) by ring. exact H0.
Qed.

Theorem orbit_settles eps : 0 < eps -> settles eps.
Proof.
  intros E.
  assert (X : forall k, settles eps \/ exists m a b, (forall n, (n >= m)%nat -> a <= t n <= b) /\ b - a <= lam ^ k * (hi - lo)).
  { induction k as [|k [S|(m & a & b & I & W)]].
    - right. exists 0%nat, lo, hi. split; [intros; apply range|simpl; lra].
    - now left.
    - destruct (shrink eps m a b _ E I W) as [S|(m' & a' & b' & I' & W')]; [now left|right]. exists m', a', b'. split; auto. simpl. lra. }
  assert (R0 : 0 <= hi - lo) by (pose proof (range 0%nat); lra).
  destruct (pow_lt_1_zero lam ltac:(rewrite Rabs_pos_eq; lra) (eps / (hi - lo + 1)) ltac:(apply Rdiv_lt_0_compat; lra)) as [K HK].
  destruct (X K) as [S|(m & a & b & I & W)]; auto. specialize (HK K ltac:(lia)). rewrite Rabs_pos_eq in HK by (apply pow_le; lra).
  assert (P : 0 <= lam ^ K) by (apply pow_le; lra).
  assert (lam ^ K * (hi - lo) < eps).
  { apply Rle_lt_trans with (lam ^ K * (hi - lo + 1)); [nra|]. apply Rmult_lt_compat_r with (r := hi - lo + 1) in HK; [|lra].
    replace (eps / (hi - lo + 1) * (hi - lo + 1)) with eps in HK by (field; lra). exact HK. }
  exists m. intros n Hn. pose proof (I n Hn). pose proof (I (S n) ltac:(lia)). apply Rabs_def1; lra.
Qed.
End settle.
