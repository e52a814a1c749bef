(** C125: series that agree from a step on. *)
From Coq Require Import ZArith Reals String List Bool Arith Lia Lra Psatz.
From Verif Require Import Model.Py Model.Fl Model.Np Model.Constants Model.Params Model.Physics Model.Interp Model.Disagg Model.Mtclim Model.Cell
  Spec.TimeSpec Spec.SeriesSpec Spec.ShortSpec Spec.TempSpec Spec.FrameSpec Spec.CellSpec Spec.EarlierSpec Spec.LaterSpec
  Proofs.Base Proofs.RBase Proofs.ArrayProofs Proofs.PrecProofs Proofs.DisaggProofs Proofs.ShortwaveProofs Proofs.PchipProofs Proofs.StateProofs Proofs.LongwaveProofs Proofs.UtcProofs
  Proofs.TempProofs Proofs.FrameProofs Proofs.CellProofs Proofs.CellTotal Proofs.CellOutputs Proofs.UtcDayProofs Proofs.SolarExamples Proofs.EarlierProofs.
Import ListNotations.
Local Open Scope string_scope.
Local Open Scope list_scope.
Local Open Scope R_scope.

Lemma from_less {A} p q (l l' : list A) : (p <= q)%nat -> same_from p l l' -> same_from q l l'.
Proof. intros L [E H]. split; [exact E|]. intros i I. apply H. lia. Qed.
Lemma from_nth {A} p (l l' : list A) i d : same_from p l l' -> (p <= i)%nat -> nth i l d = nth i l' d.
Proof.
  intros [_ H] I. specialize (H i I). destruct (nth_error l i) eqn:E; symmetry in H; [rewrite (nth_error_nth _ _ _ E), (nth_error_nth _ _ _ H); reflexivity|].
  apply nth_error_None in E, H. now rewrite !nth_overflow.
Qed.
Lemma from_skipn {A} p (l l' : list A) a : same_from p l l' -> (p <= a)%nat -> skipn a l = skipn a l'.
Proof.
  intros [E H] L. assert (Q : forall i, nth_error (skipn a l) i = nth_error (skipn a l') i) by (intros i; rewrite !nth_error_skipn; apply H; lia).
  revert Q. generalize (skipn a l) (skipn a l'). clear. intros l. induction l as [|x l IH]; intros [|x' l'] Q; auto.
  - specialize (Q 0%nat). discriminate.
  - specialize (Q 0%nat). discriminate.
  - pose proof (Q 0%nat) as Q0. cbn in Q0. injection Q0 as ->. f_equal. apply IH. intros i. exact (Q (S i)).
Qed.
Lemma from_refl {A} p (l : list A) : same_from p l l.
Proof. split; auto. Qed.
Lemma from_map {A B} (f : A -> B) p l l' : same_from p l l' -> same_from p (map f l) (map f l').
Proof. intros [E H]. split; [now rewrite !map_length|]. intros i I. rewrite !nth_error_map. now rewrite (H i I). Qed.
Lemma from_combine {A B} p (a a' : list A) (b b' : list B) : same_from p a a' -> same_from p b b' -> same_from p (combine a b) (combine a' b').
Proof. intros [E H] [F K]. split; [rewrite !combine_length; now rewrite E, F|]. intros i I. rewrite !nth_combine. now rewrite (H i I), (K i I). Qed.
Lemma from_map2 {A B C} (f : A -> B -> C) p a a' b b' : same_from p a a' -> same_from p b b' -> same_from p (map2 f a b) (map2 f a' b').
Proof. intros H K. apply from_map. now apply from_combine. Qed.
Lemma from_map3 {A B C D} (f : A -> B -> C -> D) p a a' b b' c c' :
  same_from p a a' -> same_from p b b' -> same_from p c c' -> same_from p (map3 f a b c) (map3 f a' b' c').
Proof. intros H K M. apply from_map2; auto. now apply from_map2. Qed.
Lemma from_zipw {A B C} (f : A -> B -> C) p a a' b b' r r' : zipw f a b = Ok r -> zipw f a' b' = Ok r' ->
  same_from p a a' -> same_from p b b' -> same_from p r r'.
Proof.
  unfold zipw. destruct (_ =? _)%nat; [|discriminate]. destruct (_ =? _)%nat; [|discriminate]. intros E E' H K.
  apply Ok_inj in E, E'. subst r r'. now apply from_map2.
Qed.
Lemma from_repeat {A} p (l l' : list A) c : (0 < c)%nat -> same_from p l l' -> same_from (p * c) (np_repeat l c) (np_repeat l' c).
Proof.
  intros C [E H]. split; [rewrite !np_repeat_length; congruence|]. intros i I. rewrite !np_repeat_nth by auto. apply H. apply Nat.div_le_lower_bound; lia.
Qed.
Lemma from_seq {A} p n (f f' : nat -> A) : (forall i, (p <= i < n)%nat -> f i = f' i) -> same_from p (map f (seq 0 n)) (map f' (seq 0 n)).
Proof.
  intros F. split; [now rewrite !map_length|]. intros i I. destruct (Nat.lt_ge_cases i n) as [L|L].
  - rewrite !nth_error_map, !nth_error_seq0 by lia. cbn. now rewrite F.
  - rewrite !(proj2 (nth_error_None _ _)); auto; rewrite map_length, seq_length; lia.
Qed.
Lemma from_reshape {A} p (l l' : list A) w r r' : reshape l w = Ok r -> reshape l' w = Ok r' ->
  same_from (p * Z.to_nat w) l l' -> same_from p r r'.
Proof.
  unfold reshape. destruct (Z.leb_spec w 0) as [|W]; [discriminate|]. intros E E' H. cbv zeta in E, E'. pose proof (proj1 H) as Q. rewrite <- Q in E'.
  destruct (_ =? 0)%nat; [|discriminate]. apply Ok_inj in E, E'. subst r r'.
  assert (Ln : forall n w (l : list A), List.length (rows n w l) = n) by (clear; intros n w; induction n as [|n IH]; intros l; cbn [rows List.length]; auto).
  split; [now rewrite !Ln|]. intros i I. destruct (Nat.lt_ge_cases i (List.length l / Z.to_nat w)) as [L|L].
  - rewrite !rows_error by auto. do 2 f_equal. apply (from_skipn _ _ _ _ H). apply Nat.mul_le_mono_r. exact I.
  - rewrite !(proj2 (nth_error_None _ _)); auto; now rewrite Ln.
Qed.
Lemma from_mapM {A B} (f f' : A -> res B) p l l' r r' : mapM f l = Ok r -> mapM f' l' = Ok r' -> same_from p l l' ->
  (forall i x, (p <= i)%nat -> nth_error l i = Some x -> f x = f' x) -> same_from p r r'.
Proof.
  intros M M' [E H] F. pose proof (Forall2_len _ _ _ (mapM_inv _ _ _ M)) as L. pose proof (Forall2_len _ _ _ (mapM_inv _ _ _ M')) as L'.
  split; [congruence|]. intros i I. destruct (nth_error l i) as [x|] eqn:X.
  - destruct (mapM_nth _ _ _ _ _ M X) as (y & Y & ->). pose proof X as X'. rewrite (H i I) in X'.
    destruct (mapM_nth _ _ _ _ _ M' X') as (y' & Y' & ->). rewrite <- (F i x I X) in Y'. congruence.
  - assert (List.length l <= i)%nat by now apply nth_error_None.
    rewrite !(proj2 (nth_error_None _ _)); auto; lia.
Qed.
Lemma concat_len {A} k (ls : list (list A)) : (forall x, In x ls -> List.length x = k) -> List.length (concat ls) = (List.length ls * k)%nat.
Proof. induction ls as [|x ls IH]; intros H; [reflexivity|]. cbn [concat List.length]. rewrite app_length, IH, (H x); [lia|now left|]. intros y Y. apply H. now right. Qed.
Lemma from_concat {A} p k (ls ls' : list (list A)) : (0 < k)%nat -> (forall x, In x ls -> List.length x = k) -> (forall x, In x ls' -> List.length x = k) ->
  same_from p ls ls' -> same_from (p * k) (concat ls) (concat ls').
Proof.
  intros K L L' [E H]. split; [rewrite (concat_len k ls L), (concat_len k ls' L'); congruence|].
  intros i I. rewrite !(concat_nth k) by auto. rewrite (H (i / k)%nat); [reflexivity|]. apply Nat.div_le_lower_bound; lia.
Qed.

(** ** filling *)
Lemma gap_level p q (l : list fl) : (p <= q <= List.length l)%nat -> (forall i, (p <= i < q)%nat -> nth_error l i = Some None) -> level_in p q (fill_gaps l).
Proof.
  intros L N. destruct (Nat.eq_dec p q) as [->|Q]; [exists None; intros i I; lia|].
  destruct (fill_split l) as [A|(j & x & J & F)].
  - exists None. intros i I. rewrite HumidProofs.fill_empty; [apply A; lia|]. intros x X. apply In_nth_error in X as (k & X). unfold fl in *.
    assert (K : (k < List.length l)%nat) by (apply nth_error_Some; intros V; congruence). rewrite (A k K) in X. discriminate.
  - assert (Jl : (j < List.length l)%nat) by (apply nth_error_Some; congruence).
    destruct (Nat.lt_ge_cases j p) as [B|B].
    + destruct (HumidProofs.last_present l p) as (k & y & K & Lk & G); [exists j, x; split; [lia|auto]|lia|].
      exists (Some y). intros i I. apply HumidProofs.fill_forward with k; [exact K|lia|]. intros u U.
      destruct (Nat.le_gt_cases u p) as [V|V]; [apply G; lia|apply N; lia].
    + assert (q <= j)%nat by (destruct (Nat.lt_ge_cases j q) as [V|V]; [rewrite N in J by lia; discriminate|exact V]).
      exists (Some x). intros i I. apply HumidProofs.fill_backward with j; auto. lia.
Qed.

Lemma present_from q (l l' : list fl) x : same_from q l l' -> nth_error l q = Some (Some x) -> same_from q (fill_gaps l) (fill_gaps l').
Proof.
  intros [E H] X. split; [now rewrite !fill_gaps_length|]. intros i I.
  destruct (Nat.lt_ge_cases i (List.length l)) as [L|L]; [|rewrite !(proj2 (nth_error_None _ _)); auto; rewrite fill_gaps_length; lia].
  destruct (HumidProofs.last_present l i) as (k & y & K & Lk & G); [exists q, x; auto|exact L|].
  assert (q <= k)%nat by (destruct (Nat.lt_ge_cases k q) as [V|V]; [rewrite (G q) in X by lia; discriminate|exact V]).
  transitivity (Some (Some y)); [apply HumidProofs.fill_forward with k; auto|symmetry].
  apply HumidProofs.fill_forward with k; [rewrite <- H by lia; exact K|lia|]. intros u U. rewrite <- H by lia. auto.
Qed.

Theorem fill_from p (l l' : list fl) : same_from p l l' ->
  exists q, (p <= q)%nat /\ level_in p q (fill_gaps l) /\ level_in p q (fill_gaps l') /\ same_from q (fill_gaps l) (fill_gaps l') /\
    (forall x, nth_error l p = Some (Some x) -> q = p).
Proof.
  intros S. pose proof S as [E H]. assert (Lv : forall q (l : list fl), (q <= p)%nat -> level_in p q l) by (intros q u L; exists None; intros i I; lia).
  destruct (Nat.le_gt_cases (List.length l) p) as [L|L].
  { exists p. split; [lia|]. split; [now apply Lv|]. split; [now apply Lv|]. split; [|reflexivity].
    split; [now rewrite !fill_gaps_length|]. intros i I. rewrite !(proj2 (nth_error_None _ _)); auto; rewrite fill_gaps_length; lia. }
  destruct (fill_split (skipn p l)) as [N|(j & x & J & F)].
  - exists (List.length l). rewrite skipn_length in N.
    assert (N1 : forall i, (p <= i < List.length l)%nat -> nth_error l i = Some None).
    { intros i I. replace i with (p + (i - p))%nat by lia. rewrite <- nth_error_skipn. apply N. lia. }
    split; [lia|]. split; [apply gap_level; auto; lia|]. split; [apply gap_level; [lia|]; intros i I; rewrite <- H by lia; auto|]. split.
    + split; [now rewrite !fill_gaps_length|]. intros i I. rewrite !(proj2 (nth_error_None _ _)); auto; rewrite fill_gaps_length; lia.
    + intros x X. rewrite N1 in X by lia. discriminate.
  - rewrite nth_error_skipn in J. assert (Jl : (p + j < List.length l)%nat) by (apply nth_error_Some; congruence).
    assert (N1 : forall i, (p <= i < p + j)%nat -> nth_error l i = Some None).
    { intros i I. replace i with (p + (i - p))%nat by lia. rewrite <- nth_error_skipn. apply F. lia. }
    exists (p + j)%nat. split; [lia|]. split; [apply gap_level; auto; lia|]. split; [apply gap_level; [lia|]; intros i I; rewrite <- H by lia; auto|]. split.
    + apply (present_from _ _ _ x); auto. apply (from_less p); auto. lia.
    + intros y Y. destruct j as [|j]; [lia|]. rewrite N1 in Y by lia. discriminate.
Qed.

(** ** interpolation *)
Lemma find_from x x' t J N : (J <= N)%nat -> (forall j, (J <= j <= N)%nat -> x j = x' j) -> x J <= t ->
  (J <= find_interval x t N)%nat /\ find_interval x t N = find_interval x' t N.
Proof.
  induction N as [|N IH]; intros L E T.
  - cbn. split; [lia|reflexivity].
  - cbn [find_interval]. rewrite <- (E (S N)) by lia. destruct (Rle_dec (x (S N)) t) as [Q|Q]; [split; [lia|reflexivity]|].
    destruct (Nat.eq_dec J (S N)) as [->|D]; [contradiction|]. apply IH; [lia| |exact T]. intros j I. apply E. lia.
Qed.

Lemma pchip_from n x y x' y' t J : (S J <= n - 2)%nat ->
  (forall j, (J <= j < n)%nat -> x j = x' j) -> (forall j, (J <= j < n)%nat -> y j = y' j) -> x (S J) <= t ->
  pchip_eval n x y t = pchip_eval n x' y' t.
Proof.
  intros Jn E Ey T. unfold pchip_eval.
  destruct (find_from x x' t (S J) (n - 2)) as [Lk Q]; auto; [intros j I; apply E; lia|]. rewrite <- Q.
  assert (Ub : (find_interval x t (n - 2) <= n - 2)%nat) by apply find_interval_spec.
  set (k := find_interval x t (n - 2)) in *. clearbody k. cbv zeta.
  assert (H : forall j, (J <= j < n - 1)%nat -> pchip_h x j = pchip_h x' j) by (intros j I; unfold pchip_h; now rewrite (E j), (E (S j)) by lia).
  assert (M : forall j, (J <= j < n - 1)%nat -> pchip_m x y j = pchip_m x' y' j) by (intros j I; unfold pchip_m; now rewrite (H j), (Ey j), (Ey (S j)) by lia).
  assert (D : forall j, (S J <= j <= n - 1)%nat -> pchip_d n x y j = pchip_d n x' y' j).
  { intros j I. unfold pchip_d. destruct (Nat.eqb_spec j 0) as [->|Z]; [lia|].
    destruct (Nat.eqb_spec j (n - 1)) as [->|Z']; [now rewrite (H (n - 2)%nat), (H (n - 3)%nat), (M (n - 2)%nat), (M (n - 3)%nat) by lia|].
    now rewrite (H j), (H (j - 1)%nat), (M j), (M (j - 1)%nat) by lia. }
  rewrite (E k), (H k), (Ey k), (Ey (S k)), (D k), (D (S k)) by lia. reflexivity.
Qed.

Lemma interp_from n x y x' y' t J : (J <= n - 2)%nat -> (2 <= n)%nat ->
  (forall j, (S j < n)%nat -> x j < x (S j)) -> (forall j, (S j < n)%nat -> x' j < x' (S j)) ->
  (forall j, (J <= j < n)%nat -> x j = x' j) -> (forall j, (J <= j < n)%nat -> y j = y' j) -> x J <= t ->
  interp1d_eval n x y t = interp1d_eval n x' y' t.
Proof.
  intros Jn N2 I I' E Ey T. unfold interp1d_eval.
  assert (First : forall x, (forall j, (S j < n)%nat -> x j < x (S j)) -> x J <= t -> Rltb t (x 0%nat) = false).
  { clear - Jn N2. intros x I T. apply Rltb_false. destruct (Nat.eq_dec J 0) as [->|Q]; [lra|]. pose proof (incr_lt n x I 0%nat J ltac:(lia)). lra. }
  rewrite (First x), (First x'), (E (n - 1)%nat) by (auto; try lia; rewrite <- E by lia; exact T). cbn [orb].
  destruct (Rltb (x' (n - 1)%nat) t); [reflexivity|]. destruct (Nat.eqb_spec n 1); [lia|].
  destruct (find_from x x' t J (n - 2)) as [Lk Q]; auto; [intros j V; apply E; lia|]. rewrite <- Q.
  assert (Ub : (find_interval x t (n - 2) <= n - 2)%nat) by apply find_interval_spec.
  set (k := find_interval x t (n - 2)) in *. clearbody k. cbv zeta.
  rewrite (E k), (E (S k)), (Ey k), (Ey (S k)) by lia. reflexivity.
Qed.

(** ** the columns *)
Lemma constant_from m x x' ts prm r r' : legal_time_step ts -> p_utc_offset prm = false ->
  daily_constant x ts prm = Ok r -> daily_constant x' ts prm = Ok r' -> same_from m x x' -> same_from (m * steps ts) r r'.
Proof.
  intros L U H H' S. unfold daily_constant in *. cbv zeta in *. rewrite U in *. inv_bind H. inv_bind H'. apply Ok_inj in H, H'. subst r r'.
  apply from_map. eapply from_reshape; [exact E|exact E0|]. rewrite steps_all by auto. apply from_repeat; [apply per_day|auto].
Qed.

Definition late_opt (m : nat) (c c' : option (list fl)) : Prop :=
  match c, c' with Some v, Some v' => same_from m v v' | None, None => True | _, _ => False end.

Lemma prec_from m P P' tmin tmin' pk pk' du du' ts prm r r' : legal_time_step ts -> p_utc_offset prm = false ->
  prec P tmin ts prm pk du = Ok r -> prec P' tmin' ts prm pk' du' = Ok r' -> same_from m P P' -> same_from m tmin tmin' ->
  late_opt m pk pk' -> late_opt m du du' -> same_from (m * steps ts) r r'.
Proof.
  intros L U H H' S St Sp Sd. unfold prec in *. cbv zeta in *. rewrite U in *. inv_bind H. inv_bind H. inv_bind H'. inv_bind H'.
  apply Ok_inj in H, H'. subst r r'. apply from_map. eapply from_reshape; [exact E0|exact E2|]. rewrite steps_all by auto.
  destruct (str_in _ _).
  - unfold prec_TRIANGLE in E, E1. inv_bind E. inv_bind E1. apply Ok_inj in E, E1. subst v v1.
    assert (Ln : forall (P tmin : list fl) pk du v, mapM (fun ip => prec_triangle_day (upper (p_prec_type prm) =? "MIX") (snd ip) (nth (fst ip) tmin None)
        (opt_nth pk (fst ip)) (opt_nth du (fst ip))) (combine (seq 0 (List.length P)) P) = Ok v -> forall x, In x v -> List.length x = MIN_PER_DAY).
    { clear. intros P tmin pk du v M x X. apply mapM_inv in M. apply In_nth_error in X as (i & X).
      assert (exists a, prec_triangle_day (upper (p_prec_type prm) =? "MIX") (snd a) (nth (fst a) tmin None) (opt_nth pk (fst a)) (opt_nth du (fst a)) = Ok x) as (a & A).
      { revert i X. induction M as [|a b l r Q M IH]; intros [|i] X; cbn in X; try discriminate; [|eauto]. injection X as <-. exists a. exact Q. }
      now apply triangle_day_length in A. }
    apply from_concat; [apply per_day|eapply Ln; eauto|eapply Ln; eauto|].
    eapply from_mapM; [exact E3|exact E4|rewrite <- (proj1 S); apply from_combine; [apply from_refl|exact S]|]. intros i [j q] I X. cbn [fst snd].
    assert (j = i) as ->.
    { rewrite nth_combine in X. destruct (nth_error (seq 0 _) i) as [w|] eqn:W; [|discriminate]. destruct (nth_error P i); [|discriminate].
      injection X as -> _. eapply seq_at. exact W. }
    rewrite (from_nth m tmin tmin' i None St I).
    assert (O : forall c c', late_opt m c c' -> opt_nth c i = opt_nth c' i).
    { intros [c|] [c'|] Q; cbn in *; try contradiction; auto. destruct Q as [_ Q]. auto. }
    rewrite (O _ _ Sp), (O _ _ Sd). reflexivity.
  - apply Ok_inj in E, E1. subst v v1. unfold prec_UNIFORM. apply from_repeat; [apply per_day|]. now apply from_map.
Qed.

Lemma shortwave_from m sw sw' dl dl' doy doy' tiny prm r r' : legal_time_step (p_time_step prm) -> p_utc_offset prm = false ->
  shortwave sw dl doy tiny prm = Ok r -> shortwave sw' dl' doy' tiny prm = Ok r' -> same_from m sw sw' -> same_from m dl dl' -> same_from m doy doy' ->
  same_from (m * steps (p_time_step prm)) r r'.
Proof.
  intros L U H H' Ss Sd Sy. unfold shortwave in *. cbv zeta in *. rewrite U in *. rewrite ts_per_day_steps in * by apply L. cbn [bind] in *.
  inv_bind H. inv_bind H. inv_bind H'. inv_bind H'. apply Ok_inj in H, H'. subst r r'.
  pose proof (from_zipw _ m _ _ _ _ _ _ E E1 Ss Sd) as Sv.
  assert (Ln : forall doy flat tmp n days, mapM (fun day => do y <- getitem doy day; do chunk <- sw_day (np_repeat (seq 0 (steps (p_time_step prm))) (Z.to_nat (p_time_step prm * 2))) flat tmp day y;
      if (List.length chunk =? steps (p_time_step prm))%nat then Ok chunk else Err ValueError) (seq 0 n) = Ok days -> forall x, In x days -> List.length x = steps (p_time_step prm)).
  { clear. intros doy flat tmp n days M x X. apply mapM_inv in M. apply In_nth_error in X as (i & X). revert i X.
    induction M as [|a b l r Q M IH]; intros [|i] X; cbn in X; try discriminate; [|eauto]. injection X as <-.
    inv_bind Q. inv_bind Q. destruct (Nat.eqb_spec (List.length v0) (steps (p_time_step prm))) as [Eq|]; [|discriminate]. apply Ok_inj in Q. now subst. }
  destruct (steps_mul _ L) as (_ & Sp & _).
  apply from_concat; [exact Sp|eapply Ln; eauto|eapply Ln; eauto|].
  eapply from_mapM; [exact E0|exact E2|rewrite !map_length, (proj1 Sv); apply from_refl|]. intros i j I X.
  assert (j = i) as -> by (eapply seq_at; exact X).
  unfold getitem. rewrite (proj2 Sy i I). destruct (nth_error doy' i) as [y|]; [|reflexivity]. cbn [bind]. unfold sw_day. cbv zeta. unfold list_slice.
  match goal with |- context [skipn _ (np_repeat (map ?f v) _)] => rewrite (from_skipn (m * RAD_STEPS) (np_repeat (map f v) RAD_STEPS) (np_repeat (map f v1) RAD_STEPS)
    (i * RAD_STEPS)) end; [reflexivity| |].
  - apply from_repeat; [apply per_rad|]. now apply from_map.
  - apply Nat.mul_le_mono_r. exact I.
Qed.

Lemma longwave_from m t t' v v' c c' lw lw' prm r r' : legal_time_step (p_time_step prm) ->
  longwave t v c prm lw = Ok r -> longwave t' v' c' prm lw' = Ok r' ->
  same_from (m * steps (p_time_step prm)) t t' -> same_from (m * steps (p_time_step prm)) v v' -> same_from (m * steps (p_time_step prm)) c c' -> late_opt m lw lw' ->
  same_from (m * steps (p_time_step prm)) r r'.
Proof.
  intros L H H' St Sv Sc Sl. unfold longwave in *. inv_bind H. cbn [bind] in H'. inv_bind H. cbn [bind] in H'.
  pose proof (from_map3 (longwave1 v0 v1) _ _ _ _ _ _ _ St Sv Sc) as S3.
  destruct lw as [lw|], lw' as [lw'|]; cbn in Sl; try contradiction; [|apply Ok_inj in H, H'; now subst].
  unfold longwave_rescale in *. rewrite ts_per_day_steps in * by apply L. cbn [bind] in *. inv_bind H. inv_bind H. inv_bind H'. inv_bind H'.
  destruct (steps_mul _ L) as (_ & Sp & _).
  eapply from_zipw; [exact H|exact H'|exact S3|]. apply from_repeat; auto.
  eapply from_zipw; [exact E2|exact E4|exact Sl|]. apply from_map. eapply from_reshape; [exact E1|exact E3|]. now rewrite Nat2Z.id.
Qed.
