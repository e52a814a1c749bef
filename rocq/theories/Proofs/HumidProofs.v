(** Humidity, pressure, longwave and gap filling. *)
From Coq Require Import ZArith Reals String List Bool Arith Lia Lra.
From Verif Require Import Model.Py Model.Fl Model.Np Model.Constants Model.Physics Model.Params Model.Disagg
  Spec.TimeSpec Spec.SeriesSpec Proofs.Base Proofs.RBase Proofs.ArrayProofs Proofs.PrecProofs
  Proofs.WindProofs Proofs.SvpProofs.
Import ListNotations.
Local Open Scope list_scope.
Local Open Scope R_scope.

(** ** relative humidity *)
Lemma rh_le_100 vp T r : relative_humidity1 vp T = Some r -> r <= 100.
Proof.
  unfold relative_humidity1, MAX_PERCENT. destruct (fmul _ _) as [x|] eqn:E; [|discriminate].
  unfold fgt, flt. destruct (Rltb 100.0 x) eqn:L; intros [= <-]; [lra|]. apply Rltb_false in L. lra.
Qed.

Theorem rh_spec e T : -237.3 < T -> exists s r,
  svp1 (Some T) = Some s /\ relative_humidity1 (Some e) (Some T) = Some r /\
  r <= 100 /\ (0 <= e -> 0 <= r) /\ (100 * (1000 * e / s) <= 100 -> r = 100 * (1000 * e / s)) /\
  (100 < 100 * (1000 * e / s) -> r = 100).
Proof.
  intros H. exists (svp_R T).
  pose proof (svp_R_pos T) as P.
  assert (E : relative_humidity1 (Some e) (Some T) =
     if Rltb 100.0 (100.0 * 1000.0 * (e / svp_R T)) then Some 100.0 else Some (100.0 * 1000.0 * (e / svp_R T))).
  { unfold relative_humidity1, MAX_PERCENT, MBAR_PER_BAR. rewrite svp1_some by auto. rewrite fdiv_some by lra.
    cbn [fmul flift2 fgt flt]. reflexivity. }
  assert (X : 100.0 * 1000.0 * (e / svp_R T) = 100 * (1000 * e / svp_R T)) by (unfold Rdiv; lra).
  rewrite E, X. set (x := 100 * _).
  destruct (Rltb 100.0 x) eqn:L.
  - exists 100. apply Rltb_true in L. rewrite svp1_some by auto. repeat split; try lra. f_equal; lra.
  - exists x. apply Rltb_false in L. rewrite svp1_some by auto. repeat split; try lra.
    intros P0. unfold x. pose proof (div_nonneg (1000 * e) (svp_R T) ltac:(lra) P). lra.
Qed.

(** ** specific humidity *)
Definition sh (e p : R) : R := EPS * e / (p - e + EPS * e).
Lemma sh_eq e p : 0 <= e < p -> specific_humidity1 (Some e) (Some p) = Some (sh e p).
Proof.
  intros H. unfold specific_humidity1. cbn [fmul fsub fadd flift2]. rewrite fdiv_some by lra. cbn [fadd flift2].
  assert (0 <= EPS * e) by (unfold EPS; lra).
  pose proof (div_nonneg (EPS * e) (p - e) ltac:(auto) ltac:(lra)).
  rewrite fdiv_some by lra. f_equal. unfold sh. field. lra.
Qed.

Theorem sh_spec e p : 0 <= e < p -> exists q, specific_humidity1 (Some e) (Some p) = Some q /\
  0 <= q < 1 /\ (q = 0 <-> e = 0) /\
  forall e', e < e' < p -> exists q', specific_humidity1 (Some e') (Some p) = Some q' /\ q < q'.
Proof.
  intros H. exists (sh e p). rewrite sh_eq by auto. split; auto.
  assert (D : 0 < p - e + EPS * e) by (unfold EPS; lra).
  assert (N : 0 <= EPS * e) by (unfold EPS; lra).
  split; [|split].
  - unfold sh. split; [apply div_nonneg; auto|apply div_lt; lra].
  - unfold sh. split.
    + intros Z. assert (EPS * e = 0) by (apply (f_equal (fun x => x * (p - e + EPS * e))) in Z; field_simplify in Z; lra).
      unfold EPS in *. lra.
    + intros ->. unfold Rdiv. lra.
  - intros e' H'. exists (sh e' p). rewrite sh_eq by lra. split; auto. unfold sh.
    assert (D' : 0 < p - e' + EPS * e') by (unfold EPS; lra).
    apply div_lt; auto. replace (EPS * e' / (p - e' + EPS * e') * (p - e + EPS * e))
      with (EPS * e' * (p - e + EPS * e) / (p - e' + EPS * e')) by (field; lra).
    apply lt_div; auto. unfold EPS in *. nra.
Qed.

(** ** air pressure *)
Definition pres (T z lr : R) : R :=
  101.325 * exp (- (z * G_STD) / (R_DRY * (273.15 + T - 0.5 * z * lr))).
Lemma pressure_eq T z lr : 0 < 273.15 + T - 0.5 * z * lr ->
  pressure1 (Some T) (Some z) (Some lr) = Some (pres T z lr).
Proof.
  intros H. unfold pressure1, pres, KELVIN, R_DRY, P_STD, MBAR_PER_BAR. cbn [fadd fmul fneg flift1 flift2 option_map].
  replace (273.15 + T + 0.5 * z * - lr) with (273.15 + T - 0.5 * z * lr) by lra.
  rewrite fdiv_some by nra. cbn [fexp flift1 option_map fmul flift2]. rewrite fdiv_some by lra. f_equal. lra.
Qed.

Theorem pressure_spec T z lr : 0 <= z -> 0 < 273.15 + T -> 0 < 273.15 + T - 0.5 * z * lr ->
  exists p, pressure1 (Some T) (Some z) (Some lr) = Some p /\ 0 < p <= 101.325 /\ (p = 101.325 <-> z = 0) /\
    forall z', z < z' -> 0 < 273.15 + T - 0.5 * z' * lr ->
      exists p', pressure1 (Some T) (Some z') (Some lr) = Some p' /\ p' < p.
Proof.
  intros Hz A H. exists (pres T z lr). rewrite pressure_eq by auto. split; auto.
  set (u := fun z => - (z * G_STD) / (R_DRY * (273.15 + T - 0.5 * z * lr))).
  assert (M : forall a b, 0 <= a -> a < b -> 0 < 273.15 + T - 0.5 * a * lr -> 0 < 273.15 + T - 0.5 * b * lr -> u b < u a).
  { intros a b Ha Hb Ta Tb. unfold u, R_DRY, G_STD.
    apply div_lt; [lra|].
    replace (- (a * 9.80665) / (287 * (273.15 + T - 0.5 * a * lr)) * (287 * (273.15 + T - 0.5 * b * lr)))
      with (- (a * 9.80665) * (273.15 + T - 0.5 * b * lr) / (273.15 + T - 0.5 * a * lr)) by (field; lra).
    apply lt_div; auto.
    assert (0 < (b - a) * (273.15 + T)) by nra. nra. }
  assert (U0 : u 0 = 0) by (unfold u, Rdiv; lra).
  assert (T0 : 0 < 273.15 + T - 0.5 * 0 * lr) by lra.
  assert (Pu : forall a, pres T a lr = 101.325 * exp (u a)) by reflexivity.
  rewrite Pu. pose proof (exp_pos (u z)). destruct (Req_dec z 0) as [->|N].
  - rewrite U0, exp_0. repeat split; try lra. intros z' Hz' Tz'. exists (pres T z' lr). rewrite pressure_eq by auto.
    split; auto. rewrite Pu. pose proof (exp_increasing (u z') (u 0) (M 0 z' ltac:(lra) Hz' T0 Tz')). rewrite U0, exp_0 in *. lra.
  - pose proof (exp_increasing (u z) (u 0) (M 0 z ltac:(lra) ltac:(lra) T0 H)) as E. rewrite U0, exp_0 in E.
    repeat split; try lra. intros z' Hz' Tz'. exists (pres T z' lr). rewrite pressure_eq by auto.
    split; auto. rewrite Pu. pose proof (exp_increasing (u z') (u z) (M z z' Hz Hz' H Tz')). lra.
Qed.

(** ** gap filling *)
Lemma ffill_from_nth (l : list fl) : forall v i x, nth_error l i = Some (Some x) -> nth_error (ffill_from v l) i = Some (Some x).
Proof.
  induction l as [|y l IH]; intros v [|i] x; simpl; try discriminate.
  - intros [= ->]. reflexivity.
  - destruct y; simpl; intros H; now apply IH.
Qed.
Lemma ffill_from_length (l : list fl) : forall v, List.length (ffill_from v l) = List.length l.
Proof. induction l as [|[x|] l IH]; intros v; simpl; auto. Qed.

(** value carried to position [i]: last present value before or at [i] *)
Lemma ffill_from_gap (l : list fl) : forall v i, nth_error l i = Some None ->
  (forall j, (j < i)%nat -> nth_error l j = Some None) -> nth_error (ffill_from v l) i = Some v.
Proof.
  induction l as [|y l IH]; intros v [|i]; simpl; try discriminate.
  - intros [= ->] _. reflexivity.
  - intros H F. pose proof (F 0%nat ltac:(lia)) as F0. simpl in F0. injection F0 as ->. simpl. apply IH; auto.
    intros j Hj. apply (F (S j)). lia.
Qed.
Lemma ffill_from_carry (l : list fl) : forall v i j x, nth_error l j = Some (Some x) -> (j <= i)%nat -> (i < List.length l)%nat ->
  (forall k, (j < k <= i)%nat -> nth_error l k = Some None) -> nth_error (ffill_from v l) i = Some (Some x).
Proof.
  induction l as [|y l IH]; intros v i j x Hj Le Li F; [simpl in Li; lia|].
  destruct j as [|j].
  - simpl in Hj. injection Hj as ->. destruct i as [|i]; [reflexivity|]. simpl.
    apply ffill_from_gap; [apply (F (S i)); lia|]. intros k Hk. apply (F (S k)). lia.
  - destruct i as [|i]; [lia|]. simpl in *. 
    assert (G : forall w, nth_error (ffill_from w l) i = Some (Some x)).
    { intros w. apply IH with j; auto; try lia. intros k Hk. apply (F (S k)). lia. }
    destruct y; simpl; apply G.
Qed.

Lemma ffill_length (l : list fl) : List.length (ffill l) = List.length l.
Proof. apply ffill_from_length. Qed.
Lemma bfill_length (l : list fl) : List.length (bfill l) = List.length l.
Proof. unfold bfill. now rewrite rev_length, ffill_length, rev_length. Qed.
Lemma fill_gaps_length' l : List.length (fill_gaps l) = List.length l.
Proof. unfold fill_gaps. now rewrite bfill_length, ffill_length. Qed.

Lemma nth_error_rev {A} (l : list A) i : (i < List.length l)%nat ->
  nth_error (rev l) i = nth_error l (List.length l - 1 - i).
Proof.
  intros H. destruct (nth_error l (List.length l - 1 - i)) as [x|] eqn:E.
  - pose proof (nth_error_nth _ _ x E) as E'. rewrite (nth_error_nth' (rev l) x) by (rewrite rev_length; lia).
    rewrite rev_nth by lia. replace (List.length l - S i)%nat with (List.length l - 1 - i)%nat by lia. now rewrite E'.
  - apply nth_error_None in E. lia.
Qed.

Lemma bfill_nth (l : list fl) i x : nth_error l i = Some (Some x) -> nth_error (bfill l) i = Some (Some x).
Proof.
  intros H. assert (Li : (i < List.length l)%nat) by (apply nth_error_Some; congruence).
  unfold bfill. rewrite nth_error_rev by (rewrite ffill_length, rev_length; auto).
  rewrite ffill_length, rev_length. apply ffill_from_nth. rewrite nth_error_rev by lia.
  replace (List.length l - 1 - (List.length l - 1 - i))%nat with i by lia. auto.
Qed.

Theorem fill_keeps (l : list fl) i x : nth_error l i = Some (Some x) -> nth_error (fill_gaps l) i = Some (Some x).
Proof. intros H. now apply bfill_nth, ffill_from_nth. Qed.

(** nearest earlier value *)
Theorem fill_forward (l : list fl) i j x : nth_error l j = Some (Some x) -> (j <= i < List.length l)%nat ->
  (forall k, (j < k <= i)%nat -> nth_error l k = Some None) -> nth_error (fill_gaps l) i = Some (Some x).
Proof. intros H Le F. apply bfill_nth. apply ffill_from_carry with j; auto; lia. Qed.

(** before the first value: the first value *)
Theorem fill_backward (l : list fl) i j x : nth_error l j = Some (Some x) -> (i <= j)%nat ->
  (forall k, (k < j)%nat -> nth_error l k = Some None) -> nth_error (fill_gaps l) i = Some (Some x).
Proof.
  intros H Le F. assert (Lj : (j < List.length l)%nat) by (apply nth_error_Some; congruence).
  assert (G : forall k, (k < j)%nat -> nth_error (ffill l) k = Some None).
  { intros k Hk. apply ffill_from_gap; auto. intros k' Hk'. apply F. lia. }
  assert (Gj : nth_error (ffill l) j = Some (Some x)) by (now apply ffill_from_nth).
  unfold fill_gaps, bfill. pose proof (ffill_length l) as Ln.
  rewrite nth_error_rev by (rewrite ffill_length, rev_length, Ln; lia).
  rewrite ffill_length, rev_length, Ln.
  apply ffill_from_carry with (List.length l - 1 - j)%nat.
  - rewrite nth_error_rev by lia. rewrite Ln. replace (List.length l - 1 - (List.length l - 1 - j))%nat with j by lia. auto.
  - lia.
  - rewrite rev_length. lia.
  - intros k Hk. rewrite nth_error_rev by lia. apply G. lia.
Qed.

Lemma last_present (l : list fl) : forall i, (exists j x, (j <= i)%nat /\ nth_error l j = Some (Some x)) -> (i < List.length l)%nat ->
  exists j x, nth_error l j = Some (Some x) /\ (j <= i)%nat /\ forall k, (j < k <= i)%nat -> nth_error l k = Some None.
Proof.
  induction i as [|i IH]; intros (j & x & Hj & E) Li.
  - exists j, x. repeat split; auto. lia.
  - destruct (nth_error l (S i)) as [[y|]|] eqn:N; [| |apply nth_error_None in N; lia].
    + exists (S i), y. repeat split; auto. lia.
    + destruct (Nat.eq_dec j (S i)) as [->|]; [congruence|].
      destruct IH as (j' & x' & A & B & C); [exists j, x; split; auto; lia|lia|].
      exists j', x'. repeat split; auto. intros k Hk. destruct (Nat.eq_dec k (S i)) as [->|]; auto. apply C. lia.
Qed.
Lemma first_present (l : list fl) : forall j x, nth_error l j = Some (Some x) ->
  exists j' x', nth_error l j' = Some (Some x') /\ (j' <= j)%nat /\ forall k, (k < j')%nat -> nth_error l k = Some None.
Proof.
  induction l as [|y l IH]; intros j x H; [destruct j; discriminate|]. destruct y as [y|].
  - exists 0%nat, y. repeat split; auto; lia.
  - destruct j as [|j]; [discriminate|]. destruct (IH j x H) as (j' & x' & A & B & C).
    exists (S j'), x'. repeat split; auto; [lia|]. intros [|k] Hk; auto. apply C. lia.
Qed.

Theorem fill_complete (l : list fl) : (exists i x, nth_error l i = Some (Some x)) -> ~ In None (fill_gaps l).
Proof.
  intros (j & x & H) I. apply In_nth_error in I as (i & Hi).
  change (@nth_error fl (fill_gaps l) i = Some None) in Hi.
  assert (Li : (i < List.length l)%nat).
  { rewrite <- (fill_gaps_length' l). apply nth_error_Some. rewrite Hi. discriminate. }
  destruct (first_present l j x H) as (j' & x' & A & B & C).
  destruct (le_lt_dec i j') as [L|L].
  - rewrite (fill_backward l i j' x') in Hi by auto. discriminate.
  - destruct (last_present l i) as (q & y & D & E & F); auto.
    { exists j', x'. split; auto. lia. }
    rewrite (fill_forward l i q y) in Hi by auto. discriminate.
Qed.

Theorem fill_empty (l : list fl) : (forall x, ~ In (Some x) l) -> fill_gaps l = l.
Proof.
  intros H. assert (E : l = repeat None (List.length l)).
  { clear - H. induction l as [|[x|] l IH]; simpl; auto; [elim (H x); now left|]. f_equal. apply IH. intros x I. apply (H x). now right. }
  assert (Rf : forall n, ffill (repeat None n) = repeat None n).
  { intros n. unfold ffill. induction n; simpl; auto. now f_equal. }
  assert (Rv : forall n, @rev fl (repeat None n) = repeat None n).
  { induction n as [|n IHn]; [reflexivity|]. cbn [repeat rev]. rewrite IHn. symmetry. apply repeat_cons. }
  rewrite E. unfold fill_gaps, bfill. now rewrite !Rf, !Rv, !Rf, !Rv.
Qed.

(** ** longwave *)
Definition lw_prata_x (Ta e : R) : R := 46.5 * e / Ta.

Lemma exp_cube s : 0 <= s -> 1 + s + s * s / 3 <= exp s.
Proof.
  intros H. replace (exp s) with (exp (s / 3) * exp (s / 3) * exp (s / 3)).
  2:{ rewrite <- !exp_plus. f_equal. field. }
  pose proof (exp_ineq1_le (s / 3)) as E. set (a := exp (s / 3)) in *. set (b := s / 3) in *.
  assert (s = 3 * b) by (unfold b; field). assert (0 <= b) by lra.
  assert ((1 + b) * (1 + b) <= a * a) by nra.
  assert ((1 + b) * (1 + b) * (1 + b) <= a * a * a) by (apply Rmult_le_compat; nra).
  rewrite H0. nra.
Qed.

Lemma prata_bounds x : 0 <= x -> 0 < 1 - (1 + x) * exp (- sqrt (1.2 + 3 * x)) < 1.
Proof.
  intros H. set (s := sqrt _). assert (S : s * s = 1.2 + 3 * x) by (apply sqrt_sqrt; lra).
  assert (P : 0 <= s) by apply sqrt_pos. pose proof (exp_cube s P). pose proof (exp_pos s). pose proof (exp_pos (- s)).
  assert (E : exp (- s) * exp s = 1) by (rewrite <- exp_plus, Rplus_opp_l; apply exp_0).
  split; [|nra]. assert ((1 + x) < exp s) by nra. nra.
Qed.
