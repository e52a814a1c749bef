(** C122: what happens later in the record. *)
From Coq Require Import ZArith Reals String List Bool Arith Lia Lra Psatz.
From Verif Require Import Model.Py Model.Fl Model.Np Model.Constants Model.Params Model.Physics Model.Interp Model.Disagg Model.Mtclim Model.Cell
  Spec.TimeSpec Spec.SeriesSpec Spec.ShortSpec Spec.TempSpec Spec.FrameSpec Spec.EarlierSpec
  Proofs.Base Proofs.RBase Proofs.ArrayProofs Proofs.PrecProofs Proofs.DisaggProofs Proofs.ShortwaveProofs Proofs.PchipProofs Proofs.StateProofs Proofs.LongwaveProofs Proofs.TempProofs Proofs.FrameProofs Proofs.CellProofs Proofs.CellTotal Proofs.CellOutputs.
Import ListNotations.
Local Open Scope string_scope.
Local Open Scope list_scope.
Local Open Scope R_scope.

(** ** series that agree *)
Lemma same_firstn {A} p (l l' : list A) : same_to p l l' -> firstn p l = firstn p l'.
Proof.
  revert l l'. induction p as [|p IH]; intros l l' H; [reflexivity|].
  pose proof (H 0%nat ltac:(lia)) as H0. destruct l as [|x l], l' as [|x' l']; cbn in H0; try discriminate; [reflexivity|].
  cbn [firstn]. f_equal; [congruence|]. apply IH. intros i I. exact (H (S i) ltac:(lia)).
Qed.
Lemma firstn_same {A} p (l l' : list A) : firstn p l = firstn p l' -> same_to p l l'.
Proof. intros H i I. rewrite <- (nth_error_firstn p l i I), <- (nth_error_firstn p l' i I). now rewrite H. Qed.
Lemma same_less {A} p q (l l' : list A) : (q <= p)%nat -> same_to p l l' -> same_to q l l'.
Proof. intros L H i I. apply H. lia. Qed.
Lemma same_nth {A} p (l l' : list A) i d : same_to p l l' -> (i < p)%nat -> nth i l d = nth i l' d.
Proof. intros H I. specialize (H i I). destruct (nth_error l i) eqn:E; symmetry in H; [rewrite (nth_error_nth _ _ _ E), (nth_error_nth _ _ _ H); reflexivity|]. apply nth_error_None in E, H. now rewrite !nth_overflow. Qed.
Lemma same_map {A B} (f : A -> B) p l l' : same_to p l l' -> same_to p (map f l) (map f l').
Proof. intros H i I. rewrite !nth_error_map. now rewrite (H i I). Qed.
Lemma nth_combine {A B} (a : list A) : forall (b : list B) i, nth_error (combine a b) i =
  match nth_error a i, nth_error b i with Some x, Some y => Some (x, y) | _, _ => None end.
Proof.
  induction a as [|x a IH]; intros [|y b] [|i]; cbn; auto. destruct (nth_error a i); reflexivity.
Qed.
Lemma same_combine {A B} p (a a' : list A) (b b' : list B) : same_to p a a' -> same_to p b b' -> same_to p (combine a b) (combine a' b').
Proof. intros H K i I. rewrite !nth_combine. now rewrite (H i I), (K i I). Qed.
Lemma same_map2 {A B C} (f : A -> B -> C) p a a' b b' : same_to p a a' -> same_to p b b' -> same_to p (map2 f a b) (map2 f a' b').
Proof. intros H K. apply same_map. now apply same_combine. Qed.
Lemma same_map3 {A B C D} (f : A -> B -> C -> D) p a a' b b' c c' :
  same_to p a a' -> same_to p b b' -> same_to p c c' -> same_to p (map3 f a b c) (map3 f a' b' c').
Proof. intros H K M. apply same_map2; auto. now apply same_map2. Qed.
Lemma same_zipw {A B C} (f : A -> B -> C) p a a' b b' r r' : zipw f a b = Ok r -> zipw f a' b' = Ok r' ->
  same_to p a a' -> same_to p b b' -> same_to p r r'.
Proof.
  unfold zipw. destruct (_ =? _)%nat; [|discriminate]. destruct (_ =? _)%nat; [|discriminate]. intros E E' H K.
  apply Ok_inj in E, E'. subst r r'. now apply same_map2.
Qed.
Lemma same_repeat {A} p (l l' : list A) c : (0 < c)%nat -> same_to p l l' -> same_to (p * c) (np_repeat l c) (np_repeat l' c).
Proof. intros C H i I. rewrite !np_repeat_nth by auto. apply H. apply Nat.div_lt_upper_bound; lia. Qed.
Lemma same_const {A} p n n' (x : A) : (p <= n)%nat -> (p <= n')%nat -> same_to p (repeat x n) (repeat x n').
Proof. intros H K i I. rewrite !repeat_nth_error by lia. reflexivity. Qed.
Lemma same_seq {A} p n n' (f : nat -> A) f' : (p <= n)%nat -> (p <= n')%nat -> (forall i, (i < p)%nat -> f i = f' i) ->
  same_to p (map f (seq 0 n)) (map f' (seq 0 n')).
Proof. intros H K F i I. rewrite !nth_error_map, !nth_error_seq0 by lia. cbn. now rewrite F. Qed.

Lemma rows_error {A} n w (l : list A) k : (k < n)%nat -> nth_error (rows n w l) k = Some (firstn w (skipn (k * w) l)).
Proof. revert l k. induction n as [|n IH]; intros l [|k] K; try lia; [reflexivity|]. cbn [rows nth_error]. rewrite IH by lia. rewrite skipn_skipn'. reflexivity. Qed.
Lemma same_slice {A} p (l l' : list A) a w : same_to p l l' -> (a + w <= p)%nat -> firstn w (skipn a l) = firstn w (skipn a l').
Proof. intros H L. apply same_firstn. intros i I. rewrite !nth_error_skipn. apply H. lia. Qed.
Lemma same_len {A} p (l l' : list A) i : same_to p l l' -> (i <= p)%nat -> (i <= List.length l)%nat -> (i <= List.length l')%nat.
Proof.
  intros H I L. destruct i as [|i]; [lia|]. destruct (Nat.lt_ge_cases i (List.length l')) as [|G]; [lia|].
  apply nth_error_None in G. rewrite <- H in G by lia. apply nth_error_None in G. lia.
Qed.
Lemma same_sym {A} p (l l' : list A) : same_to p l l' -> same_to p l' l.
Proof. intros H i I. symmetry. auto. Qed.
Lemma same_reshape {A} p (l l' : list A) w r r' : reshape l w = Ok r -> reshape l' w = Ok r' ->
  same_to (p * Z.to_nat w) l l' -> same_to p r r'.
Proof.
  unfold reshape. destruct (Z.leb_spec w 0) as [|W]; [discriminate|]. intros E E' H. cbv zeta in E, E'.
  destruct (_ =? 0)%nat; [|discriminate]. destruct (List.length l' mod Z.to_nat w =? 0)%nat; [|discriminate].
  apply Ok_inj in E, E'. subst r r'. intros i I. assert (W' : (0 < Z.to_nat w)%nat) by lia. set (c := Z.to_nat w) in *. clearbody c.
  assert (X : forall l : list A, (i < List.length l / c)%nat <-> (S i * c <= List.length l)%nat).
  { intros k. split; intros Q; [|apply Nat.div_le_lower_bound; lia]. pose proof (Nat.mul_div_le (List.length k) c ltac:(lia)). nia. }
  destruct (Nat.lt_ge_cases i (List.length l / c)) as [Q|Q].
  - assert (Q' : (i < List.length l' / c)%nat). { apply X. apply X in Q. apply (same_len (p * c) l l'); auto. nia. }
    rewrite !rows_error by auto. f_equal. apply same_slice with (p * c)%nat; [exact H|nia].
  - assert (Q' : (List.length l' / c <= i)%nat).
    { destruct (Nat.lt_ge_cases i (List.length l' / c)) as [V|V]; [|auto]. apply X in V. apply (same_len (p * c) l' l) in V; [|now apply same_sym|nia]. apply X in V. lia. }
    transitivity (@None (list A)); [|symmetry]; apply nth_error_None; now rewrite rows_length.
Qed.
Lemma same_upto p n n' : (forall i, (i < p)%nat -> (i < n <-> i < n')%nat) -> same_to p (seq 0 n) (seq 0 n').
Proof.
  intros H i I. destruct (Nat.lt_ge_cases i n) as [L|L].
  - rewrite !nth_error_seq0; auto. now apply H.
  - assert (n' <= i)%nat by (destruct (Nat.lt_ge_cases i n') as [Q|Q]; auto; apply H in Q; lia).
    transitivity (@None nat); [|symmetry]; apply nth_error_None; now rewrite seq_length.
Qed.
Lemma seq_at n i j : nth_error (seq 0 n) i = Some j -> j = i.
Proof. intros H. assert (i < n)%nat by (rewrite <- (seq_length n 0); apply nth_error_Some; congruence). rewrite nth_error_seq0 in H by auto. congruence. Qed.
Lemma same_counts {A} p (l l' : list A) : same_to p l l' -> same_to p (seq 0 (List.length l)) (seq 0 (List.length l')).
Proof. intros H. apply same_upto. intros i I. split; intros L; [apply (same_len p l l' (S i)) in L|apply (same_len p l' l (S i)) in L]; auto; try lia; now apply same_sym. Qed.

Lemma mapM_nth {A B} (f : A -> res B) l r i x : mapM f l = Ok r -> nth_error l i = Some x -> exists y, f x = Ok y /\ nth_error r i = Some y.
Proof.
  intros M. apply mapM_inv in M. revert i. induction M as [|a b l r H M IH]; intros [|i] X; cbn in X; try discriminate.
  - injection X as <-. exists b. auto.
  - now apply IH.
Qed.
Lemma same_mapM {A B} (f f' : A -> res B) p l l' r r' : mapM f l = Ok r -> mapM f' l' = Ok r' -> same_to p l l' ->
  (forall i x, (i < p)%nat -> nth_error l i = Some x -> f x = f' x) -> same_to p r r'.
Proof.
  intros M M' H F i I. destruct (nth_error l i) as [x|] eqn:E.
  - destruct (mapM_nth _ _ _ _ _ M E) as (y & Y & ->). pose proof E as E'. rewrite (H i I) in E'.
    destruct (mapM_nth _ _ _ _ _ M' E') as (y' & Y' & ->). rewrite (F i x I E) in Y. congruence.
  - pose proof E as E'. rewrite (H i I) in E'. apply nth_error_None in E, E'.
    apply mapM_inv, Forall2_len in M. apply mapM_inv, Forall2_len in M'.
    transitivity (@None B); [|symmetry]; apply nth_error_None; lia.
Qed.

Lemma concat_nth {A} k : (0 < k)%nat -> forall (ls : list (list A)), (forall x, In x ls -> List.length x = k) -> forall i,
  nth_error (concat ls) i = match nth_error ls (i / k) with Some x => nth_error x (i mod k) | None => None end.
Proof.
  intros K ls. induction ls as [|x ls IH]; intros L i.
  - cbn [concat]. destruct i; destruct (_ / k)%nat; reflexivity.
  - cbn [concat]. pose proof (L x (or_introl eq_refl)) as Lx. destruct (Nat.lt_ge_cases i k) as [I|I].
    + rewrite Nat.div_small, Nat.mod_small by auto. rewrite nth_error_app1 by lia. reflexivity.
    + rewrite nth_error_app2 by lia. rewrite Lx, IH by (intros y Y; apply L; now right).
      assert (D : (i / k = S ((i - k) / k))%nat) by (rewrite <- Nat.add_1_r, <- (Nat.div_add (i - k) 1 k) by lia; f_equal; lia).
      assert (M : (i mod k = (i - k) mod k)%nat) by (rewrite <- (Nat.mod_add (i - k) 1 k) by lia; f_equal; lia).
      rewrite D, M. reflexivity.
Qed.
Lemma same_concat {A} p k (ls ls' : list (list A)) : (0 < k)%nat -> (forall x, In x ls -> List.length x = k) -> (forall x, In x ls' -> List.length x = k) ->
  same_to p ls ls' -> same_to (p * k) (concat ls) (concat ls').
Proof.
  intros K L L' H i I. rewrite !(concat_nth k) by auto. now rewrite (H (i / k)%nat) by (apply Nat.div_lt_upper_bound; lia).
Qed.

(** ** filling *)
Lemma same_ffill p : forall (l l' : list fl) v, same_to p l l' -> same_to p (ffill_from v l) (ffill_from v l').
Proof.
  induction p as [|p IH]; intros l l' v H i I; [lia|]. pose proof (H 0%nat ltac:(lia)) as H0.
  assert (T : forall x x', l = x :: tl l -> l' = x' :: tl l' -> same_to p (tl l) (tl l')).
  { intros x x' E E' j J. pose proof (H (S j) ltac:(lia)) as G. rewrite E, E' in G. exact G. }
  destruct l as [|x l], l' as [|x' l']; cbn in H0; try discriminate; [reflexivity|]. injection H0 as <-. specialize (T x x eq_refl eq_refl). cbn [tl] in T.
  destruct x as [x|]; destruct i as [|i]; cbn [ffill_from nth_error]; auto; apply IH; auto; lia.
Qed.

(** after the forward fill of a series, everything from the first number on is a number *)
Lemma fill_split (l : list fl) : (forall i, (i < List.length l)%nat -> nth_error l i = Some None) \/
  exists j x, nth_error l j = Some (Some x) /\ forall i, (i < j)%nat -> nth_error l i = Some None.
Proof.
  induction l as [|[x|] l IH].
  - left. intros i I. cbn in I. lia.
  - right. exists 0%nat, x. split; [reflexivity|]. intros i I. lia.
  - destruct IH as [IH|(j & x & J & F)].
    + left. intros [|i] I; [reflexivity|]. apply IH. cbn in I. lia.
    + right. exists (S j), x. split; [exact J|]. intros [|i] I; [reflexivity|]. apply F. lia.
Qed.

Lemma fill_value (l : list fl) i j x : nth_error l j = Some (Some x) -> (forall k, (k < j)%nat -> nth_error l k = Some None) -> (i < List.length l)%nat ->
  nth_error (fill_gaps l) i = if (i <=? j)%nat then Some (Some x) else nth_error (ffill l) i.
Proof.
  intros J F I. destruct (Nat.leb_spec i j) as [L|L]; [now apply HumidProofs.fill_backward with j|].
  assert (E : exists j x, (j <= i)%nat /\ nth_error l j = Some (Some x)) by (exists j, x; split; [lia|auto]).
  destruct (HumidProofs.last_present l i E I) as (k & y & K & Le & G).
  transitivity (Some (Some y)).
  - apply HumidProofs.fill_forward with k; auto; lia.
  - symmetry. unfold ffill. apply HumidProofs.ffill_from_carry with k; auto; lia.
Qed.

Theorem same_fill p (l l' : list fl) : (p <= List.length l)%nat -> (p <= List.length l')%nat -> same_to p l l' ->
  (exists i x, (i < p)%nat /\ nth_error l i = Some (Some x)) -> same_to p (fill_gaps l) (fill_gaps l').
Proof.
  intros L L' H (i0 & x0 & I0 & E0) i I.
  destruct (fill_split l) as [N|(j & x & J & F)]; [rewrite N in E0 by lia; discriminate|].
  assert (Jp : (j <= i0)%nat) by (destruct (Nat.lt_ge_cases i0 j) as [Q|Q]; [rewrite F in E0 by lia; discriminate|lia]).
  rewrite (fill_value l i j x J F) by lia.
  rewrite (fill_value l' i j x); [|rewrite <- H by lia; auto|intros k K; rewrite <- H by lia; auto|lia].
  destruct (i <=? j)%nat; [reflexivity|]. apply (same_ffill p); auto.
Qed.

Theorem fill_same_or_level p (l l' : list fl) : (p <= List.length l)%nat -> (p <= List.length l')%nat -> same_to p l l' ->
  same_to p (fill_gaps l) (fill_gaps l') \/ level_to p (fill_gaps l) /\ level_to p (fill_gaps l').
Proof.
  intros L L' H.
  assert (Lev : forall l : list fl, (p <= List.length l)%nat -> (forall i, (i < p)%nat -> nth_error l i = Some None) -> level_to p (fill_gaps l)).
  { clear. intros l L N. destruct (fill_split l) as [A|(j & x & J & F)].
    - exists None. intros i I. assert (E : l = repeat None (List.length l)).
      { apply (nth_ext _ _ None None); [now rewrite repeat_length|]. intros k K. rewrite nth_repeat. apply nth_error_nth. now apply A. }
      rewrite E. assert (Rf : forall n v, ffill_from v (repeat None n) = repeat v n) by (induction n as [|n IH]; intros v; cbn; [reflexivity|now rewrite IH]).
      unfold fill_gaps, bfill, ffill. rewrite Rf. assert (V : forall n, rev (repeat (@None R) n) = repeat None n).
      { intros n. assert (S : forall n (x : fl), repeat x n ++ [x] = x :: repeat x n) by (induction n0 as [|n0 IH]; intros x; cbn; [reflexivity|now rewrite IH]).
        induction n as [|n IH]; [reflexivity|]. cbn [repeat rev]. rewrite IH. apply S. }
      rewrite V, Rf, V. apply repeat_nth_error. lia.
    - exists (Some x). intros i I. apply HumidProofs.fill_backward with j; auto.
      destruct (Nat.lt_ge_cases j p) as [Q|Q]; [rewrite (N j Q) in J; discriminate|lia]. }
  destruct (fill_split (firstn p l)) as [N|(j & x & J & F)].
  - right. rewrite firstn_length_le in N by auto. assert (N1 : forall i, (i < p)%nat -> nth_error l i = Some None) by (intros i I; rewrite <- (nth_error_firstn p) by auto; auto).
    split; apply Lev; auto. intros i I. rewrite <- H; auto.
  - left. assert (Jp : (j < p)%nat) by (rewrite <- (firstn_length_le l L); apply nth_error_Some; congruence).
    apply same_fill; auto. exists j, x. split; auto. rewrite <- (nth_error_firstn p l j Jp). exact J.
Qed.

(** ** interpolation *)
Lemma find_cut x t K N : (K <= N)%nat -> (forall j, (K < j <= N)%nat -> t < x j) -> find_interval x t N = find_interval x t K.
Proof.
  induction N as [|N IH]; intros L H; [now replace K with 0%nat by lia|]. destruct (Nat.eq_dec K (S N)) as [->|E]; [reflexivity|].
  cbn [find_interval]. destruct (Rle_dec (x (S N)) t) as [Q|_]; [specialize (H (S N) ltac:(lia)); lra|]. apply IH; [lia|]. intros j J. apply H. lia.
Qed.
Lemma find_ext x x' t K : (forall j, (j <= K)%nat -> x j = x' j) -> find_interval x t K = find_interval x' t K.
Proof. induction K as [|K IH]; intros H; [reflexivity|]. cbn [find_interval]. rewrite (H (S K)) by lia. rewrite IH; auto. Qed.

Lemma find_same n n' x x' t K : (1 <= K)%nat -> (K < n)%nat -> (K < n')%nat ->
  (forall j, (S j < n)%nat -> x j < x (S j)) -> (forall j, (S j < n')%nat -> x' j < x' (S j)) ->
  (forall j, (j <= K)%nat -> x j = x' j) -> t < x K ->
  (find_interval x t (n - 2) < K)%nat /\ find_interval x t (n - 2) = find_interval x' t (n' - 2).
Proof.
  intros K1 Kn Kn' I I' E T.
  assert (C : forall n x, (K < n)%nat -> (forall j, (S j < n)%nat -> x j < x (S j)) -> t < x K -> find_interval x t (n - 2) = find_interval x t (K - 1)).
  { clear - K1. intros n x Kn I T. apply find_cut; [lia|]. intros j J. destruct (Nat.eq_dec j K) as [->|Q]; auto.
    pose proof (incr_lt n x I K j ltac:(lia)). lra. }
  rewrite (C n x), (C n' x'); auto; [|rewrite <- E by lia; exact T]. split.
  - destruct (find_interval_spec x t (K - 1)) as (A & _). lia.
  - apply find_ext. intros j J. apply E. lia.
Qed.

Lemma pchip_same n n' x y x' y' t K : (1 <= K)%nat -> (S K < n)%nat -> (S K < n')%nat ->
  (forall j, (S j < n)%nat -> x j < x (S j)) -> (forall j, (S j < n')%nat -> x' j < x' (S j)) ->
  (forall j, (j <= S K)%nat -> x j = x' j) -> (forall j, (j <= S K)%nat -> y j = y' j) -> t < x K ->
  pchip_eval n x y t = pchip_eval n' x' y' t.
Proof.
  intros K1 Kn Kn' I I' E Ey T. unfold pchip_eval.
  destruct (find_same n n' x x' t K) as [Lk Q]; auto; try lia. rewrite <- Q. set (k := find_interval x t (n - 2)) in *. clearbody k. cbv zeta.
  assert (H : forall j, (j <= K)%nat -> pchip_h x j = pchip_h x' j) by (intros j J; unfold pchip_h; now rewrite (E j), (E (S j)) by lia).
  assert (M : forall j, (j <= K)%nat -> pchip_m x y j = pchip_m x' y' j) by (intros j J; unfold pchip_m; now rewrite (H j), (Ey j), (Ey (S j)) by lia).
  assert (D : forall j, (j <= K)%nat -> pchip_d n x y j = pchip_d n' x' y' j).
  { intros j J. unfold pchip_d. destruct (Nat.eqb_spec j 0) as [->|N]; [now rewrite (H 0%nat), (H 1%nat), (M 0%nat), (M 1%nat) by lia|].
    destruct (Nat.eqb_spec j (n - 1)); [lia|]. destruct (Nat.eqb_spec j (n' - 1)); [lia|].
    now rewrite (H j), (H (j - 1)%nat), (M j), (M (j - 1)%nat) by lia. }
  rewrite (E k), (H k), (Ey k), (Ey (S k)), (D k), (D (S k)) by lia. reflexivity.
Qed.

Lemma interp_same n n' x y x' y' t K : (1 <= K)%nat -> (K < n)%nat -> (K < n')%nat ->
  (forall j, (S j < n)%nat -> x j < x (S j)) -> (forall j, (S j < n')%nat -> x' j < x' (S j)) ->
  (forall j, (j <= K)%nat -> x j = x' j) -> (forall j, (j <= K)%nat -> y j = y' j) -> t < x K ->
  interp1d_eval n x y t = interp1d_eval n' x' y' t.
Proof.
  intros K1 Kn Kn' I I' E Ey T. unfold interp1d_eval.
  assert (Last : forall n x, (K < n)%nat -> (forall j, (S j < n)%nat -> x j < x (S j)) -> t < x K -> Rltb (x (n - 1)%nat) t = false).
  { clear - K1. intros n x Kn I T. apply Rltb_false. destruct (Nat.eq_dec K (n - 1)) as [<-|Q]; [lra|]. pose proof (incr_lt n x I K (n - 1)%nat ltac:(lia)). lra. }
  rewrite (Last n x), (Last n' x'), (E 0%nat) by (auto; try lia; rewrite <- E by lia; exact T).
  destruct (Rltb t (x' 0%nat)); cbn [orb]; [reflexivity|].
  destruct (Nat.eqb_spec n 1); [lia|]. destruct (Nat.eqb_spec n' 1); [lia|].
  destruct (find_same n n' x x' t K) as [Lk Q]; auto. rewrite <- Q. set (k := find_interval x t (n - 2)) in *. clearbody k. cbv zeta.
  rewrite (E k), (E (S k)), (Ey k), (Ey (S k)) by lia. reflexivity.
Qed.

(** ** the columns *)
Lemma same_enum {A} p (l l' : list A) : same_to p l l' -> same_to p (combine (seq 0 (List.length l)) l) (combine (seq 0 (List.length l')) l').
Proof. intros H. apply same_combine; auto. now apply same_counts. Qed.

Lemma steps_all m ts : legal_time_step ts -> (m * steps ts * Z.to_nat ts = m * MIN_PER_DAY)%nat.
Proof. intros L. destruct (steps_mul ts L) as (E & _ & _). rewrite <- E. lia. Qed.

Lemma per_day : (0 < MIN_PER_DAY)%nat. Proof. apply Nat.ltb_lt. vm_compute. reflexivity. Qed.
Lemma per_rad : (0 < RAD_STEPS)%nat. Proof. apply Nat.ltb_lt. vm_compute. reflexivity. Qed.

Lemma constant_same m x x' ts prm r r' : legal_time_step ts -> p_utc_offset prm = false ->
  daily_constant x ts prm = Ok r -> daily_constant x' ts prm = Ok r' -> same_to m x x' -> same_to (m * steps ts) r r'.
Proof.
  intros L U H H' S. unfold daily_constant in *. cbv zeta in *. rewrite U in *. inv_bind H. inv_bind H'. apply Ok_inj in H, H'. subst r r'.
  apply same_map. eapply same_reshape; [exact E|exact E0|]. rewrite steps_all by auto. apply same_repeat; [apply per_day|auto].
Qed.

(** optional columns: in both records or in neither *)
Definition same_opt (m : nat) (c c' : option (list fl)) : Prop :=
  match c, c' with Some v, Some v' => same_to m v v' | None, None => True | _, _ => False end.

Lemma prec_same m P P' tmin tmin' pk pk' du du' ts prm r r' : legal_time_step ts -> p_utc_offset prm = false ->
  prec P tmin ts prm pk du = Ok r -> prec P' tmin' ts prm pk' du' = Ok r' -> same_to m P P' -> same_to m tmin tmin' ->
  same_opt m pk pk' -> same_opt m du du' -> same_to (m * steps ts) r r'.
Proof.
  intros L U H H' S St Sp Sd. unfold prec in *. cbv zeta in *. rewrite U in *. inv_bind H. inv_bind H. inv_bind H'. inv_bind H'.
  apply Ok_inj in H, H'. subst r r'. apply same_map. eapply same_reshape; [exact E0|exact E2|]. rewrite steps_all by auto.
  destruct (str_in _ _).
  - unfold prec_TRIANGLE in E, E1. inv_bind E. inv_bind E1. apply Ok_inj in E, E1. subst v v1.
    assert (Ln : forall (P tmin : list fl) pk du v, mapM (fun ip => prec_triangle_day (upper (p_prec_type prm) =? "MIX") (snd ip) (nth (fst ip) tmin None)
        (opt_nth pk (fst ip)) (opt_nth du (fst ip))) (combine (seq 0 (List.length P)) P) = Ok v -> forall x, In x v -> List.length x = MIN_PER_DAY).
    { clear. intros P tmin pk du v M x X. apply mapM_inv in M. apply In_nth_error in X as (i & X).
      assert (exists a, prec_triangle_day (upper (p_prec_type prm) =? "MIX") (snd a) (nth (fst a) tmin None) (opt_nth pk (fst a)) (opt_nth du (fst a)) = Ok x) as (a & A).
      { revert i X. induction M as [|a b l r Q M IH]; intros [|i] X; cbn in X; try discriminate; [|eauto]. injection X as <-. exists a. exact Q. }
      now apply triangle_day_length in A. }
    apply same_concat; [apply per_day|eapply Ln; eauto|eapply Ln; eauto|].
    eapply same_mapM; [exact E3|exact E4|now apply same_enum|]. intros i [j q] I X. cbn [fst snd].
    assert (j = i) as ->.
    { rewrite nth_combine in X. destruct (nth_error (seq 0 _) i) as [w|] eqn:W; [|discriminate]. destruct (nth_error P i); [|discriminate].
      injection X as -> _. assert (i < List.length P)%nat by (rewrite <- (seq_length (List.length P) 0); apply nth_error_Some; congruence).
      rewrite nth_error_seq0 in W by auto. congruence. }
    rewrite (same_nth m tmin tmin' i None St I).
    assert (O : forall c c', same_opt m c c' -> opt_nth c i = opt_nth c' i).
    { intros [c|] [c'|] Q; cbn in *; try contradiction; auto. }
    rewrite (O _ _ Sp), (O _ _ Sd). reflexivity.
  - apply Ok_inj in E, E1. subst v v1. unfold prec_UNIFORM. apply same_repeat; [apply per_day|]. now apply same_map.
Qed.

Lemma shortwave_same m sw sw' dl dl' doy doy' tiny prm r r' : legal_time_step (p_time_step prm) -> p_utc_offset prm = false ->
  shortwave sw dl doy tiny prm = Ok r -> shortwave sw' dl' doy' tiny prm = Ok r' -> same_to m sw sw' -> same_to m dl dl' -> same_to m doy doy' ->
  same_to (m * steps (p_time_step prm)) r r'.
Proof.
  intros L U H H' Ss Sd Sy. unfold shortwave in *. cbv zeta in *. rewrite U in *. rewrite ts_per_day_steps in * by apply L. cbn [bind] in *.
  inv_bind H. inv_bind H. inv_bind H'. inv_bind H'. apply Ok_inj in H, H'. subst r r'.
  pose proof (same_zipw _ m _ _ _ _ _ _ E E1 Ss Sd) as Sv.
  assert (Ln : forall doy flat tmp n days, mapM (fun day => do y <- getitem doy day; do chunk <- sw_day (np_repeat (seq 0 (steps (p_time_step prm))) (Z.to_nat (p_time_step prm * 2))) flat tmp day y;
      if (List.length chunk =? steps (p_time_step prm))%nat then Ok chunk else Err ValueError) (seq 0 n) = Ok days -> forall x, In x days -> List.length x = steps (p_time_step prm)).
  { clear. intros doy flat tmp n days M x X. apply mapM_inv in M. apply In_nth_error in X as (i & X). revert i X.
    induction M as [|a b l r Q M IH]; intros [|i] X; cbn in X; try discriminate; [|eauto]. injection X as <-.
    inv_bind Q. inv_bind Q. destruct (Nat.eqb_spec (List.length v0) (steps (p_time_step prm))) as [Eq|]; [|discriminate]. apply Ok_inj in Q. now subst. }
  destruct (steps_mul _ L) as (_ & Sp & _).
  apply same_concat; [exact Sp|eapply Ln; eauto|eapply Ln; eauto|].
  eapply same_mapM; [exact E0|exact E2|rewrite !map_length; now apply same_counts|]. intros i j I X.
  assert (j = i) as -> by (eapply seq_at; exact X).
  unfold getitem. rewrite (Sy i I). destruct (nth_error doy' i) as [y|]; [|reflexivity]. cbn [bind]. unfold sw_day. cbv zeta. unfold list_slice.
  match goal with |- context [skipn _ (np_repeat (map ?f v) _)] => rewrite (same_slice (m * RAD_STEPS) (np_repeat (map f v) RAD_STEPS) (np_repeat (map f v1) RAD_STEPS)
    (i * RAD_STEPS) ((i + 1) * RAD_STEPS - i * RAD_STEPS)) end; [reflexivity| |].
  - apply same_repeat; [apply per_rad|]. now apply same_map.
  - generalize RAD_STEPS. intros c. nia.
Qed.

Lemma longwave_same m t t' v v' c c' lw lw' prm r r' : legal_time_step (p_time_step prm) ->
  longwave t v c prm lw = Ok r -> longwave t' v' c' prm lw' = Ok r' ->
  same_to (m * steps (p_time_step prm)) t t' -> same_to (m * steps (p_time_step prm)) v v' -> same_to (m * steps (p_time_step prm)) c c' -> same_opt m lw lw' ->
  same_to (m * steps (p_time_step prm)) r r'.
Proof.
  intros L H H' St Sv Sc Sl. unfold longwave in *. inv_bind H. cbn [bind] in H'. inv_bind H. cbn [bind] in H'.
  pose proof (same_map3 (longwave1 v0 v1) _ _ _ _ _ _ _ St Sv Sc) as S3.
  destruct lw as [lw|], lw' as [lw'|]; cbn in Sl; try contradiction; [|apply Ok_inj in H, H'; now subst].
  unfold longwave_rescale in *. rewrite ts_per_day_steps in * by apply L. cbn [bind] in *. inv_bind H. inv_bind H. inv_bind H'. inv_bind H'.
  destruct (steps_mul _ L) as (_ & Sp & _).
  eapply same_zipw; [exact H|exact H'|exact S3|]. apply same_repeat; auto.
  eapply same_zipw; [exact E2|exact E4|exact Sl|]. apply same_map. eapply same_reshape; [exact E1|exact E3|]. now rewrite Nat2Z.id.
Qed.
