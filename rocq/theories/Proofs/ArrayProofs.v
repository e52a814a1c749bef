(** Sums and array reshaping. *)
From Coq Require Import ZArith Reals String List Bool Arith Lia Lra Permutation.
From Verif Require Import Model.Py Model.Fl Model.Np Model.Constants Model.Params Spec.TimeSpec Spec.SeriesSpec Proofs.Base.
Import ListNotations.
Local Open Scope list_scope.
Arguments fsum l : simpl never.
Arguments total l : simpl never.
Arguments fmean l : simpl never.

(** ** fl *)
Lemma fadd_assoc a b c : fadd a (fadd b c) = fadd (fadd a b) c.
Proof. destruct a, b, c; simpl; auto. f_equal. lra. Qed.
Lemma fadd_comm a b : fadd a b = fadd b a.
Proof. destruct a, b; simpl; auto. f_equal. lra. Qed.
Lemma fadd_0_l a : fadd (Some 0%R) a = a.
Proof. destruct a; simpl; auto. f_equal. lra. Qed.
Lemma fadd_0_r a : fadd a (Some 0%R) = a.
Proof. rewrite fadd_comm. apply fadd_0_l. Qed.

Lemma fdiv_some a b : b <> 0%R -> fdiv (Some a) (Some b) = Some (a / b)%R.
Proof. intros H. unfold fdiv. destruct (Req_EM_T b 0); [contradiction|reflexivity]. Qed.
Lemma fdiv_0 a : fdiv a (Some 0%R) = None.
Proof. destruct a; simpl; auto. destruct (Req_EM_T 0 0); [reflexivity|lra]. Qed.

Lemma Rltb_true a b : Rltb a b = true <-> (a < b)%R.
Proof. unfold Rltb. destruct (Rlt_dec a b); split; congruence || auto. Qed.
Lemma Rltb_false a b : Rltb a b = false <-> (b <= a)%R.
Proof. unfold Rltb. destruct (Rlt_dec a b); split; try congruence; intros; lra || discriminate. Qed.
Lemma Rleb_true a b : Rleb a b = true <-> (a <= b)%R.
Proof. unfold Rleb. destruct (Rle_dec a b); split; congruence || auto. Qed.
Lemma Rleb_false a b : Rleb a b = false <-> (b < a)%R.
Proof. unfold Rleb. destruct (Rle_dec a b); split; try congruence; intros; lra || discriminate. Qed.
Lemma Reqb_true a b : Reqb a b = true <-> a = b.
Proof. unfold Reqb. destruct (Req_EM_T a b); split; congruence. Qed.
Lemma Reqb_false a b : Reqb a b = false <-> a <> b.
Proof. unfold Reqb. destruct (Req_EM_T a b); split; congruence. Qed.

(** ** sums *)
Lemma fsum_app a b : fsum (a ++ b) = fadd (fsum a) (fsum b).
Proof.
  induction a as [|x a IH]; [symmetry; apply fadd_0_l|]. unfold fsum in *. simpl app. cbn [fold_right]. rewrite IH. apply fadd_assoc.
Qed.
Lemma fsum_cons x l : fsum (x :: l) = fadd x (fsum l).
Proof. reflexivity. Qed.
Lemma fsum_concat ls : fsum (map fsum ls) = fsum (concat ls).
Proof. induction ls as [|l ls IH]; simpl; auto. now rewrite fsum_cons, fsum_app, IH. Qed.
Lemma fsum_some l : fsum (map Some l) = Some (total l).
Proof. induction l as [|x l IH]; auto. unfold fsum in *. cbn [map fold_right]. now rewrite IH. Qed.
Lemma fsum_perm a b : Permutation a b -> fsum a = fsum b.
Proof.
  induction 1; auto.
  - now rewrite !fsum_cons, IHPermutation.
  - rewrite !fsum_cons, !fadd_assoc. f_equal. apply fadd_comm.
  - congruence.
Qed.
Lemma fsum_none l : In None l -> fsum l = None.
Proof.
  induction l as [|x l IH]; simpl; [easy|]. rewrite fsum_cons. intros [->|I]; [reflexivity|].
  rewrite IH by auto. destruct x; reflexivity.
Qed.
Lemma fsum_repeat_none n : (0 < n)%nat -> fsum (repeat None n) = None.
Proof. destruct n; [lia|]. intros. apply fsum_none. now left. Qed.

Lemma total_nil : total [] = 0%R. Proof. reflexivity. Qed.
Lemma total_cons x l : total (x :: l) = (x + total l)%R.
Proof. reflexivity. Qed.
Lemma total_app a b : total (a ++ b) = (total a + total b)%R.
Proof. induction a as [|x a IH]; simpl app; rewrite ?total_nil, ?total_cons, ?IH; lra. Qed.
Lemma total_repeat x n : total (repeat x n) = (INR n * x)%R.
Proof. induction n as [|n IH]; [simpl; rewrite total_nil; lra|]. rewrite S_INR. simpl repeat. rewrite total_cons, IH. lra. Qed.
Lemma total_scale c l : total (map (fun x => c * x)%R l) = (c * total l)%R.
Proof. induction l as [|x l IH]; simpl; rewrite ?total_nil, ?total_cons, ?IH; lra. Qed.
Lemma total_concat ls : total (map total ls) = total (concat ls).
Proof. induction ls as [|l ls IH]; simpl; auto. now rewrite total_cons, total_app, IH. Qed.
Lemma total_nonneg l : (forall x, In x l -> 0 <= x)%R -> (0 <= total l)%R.
Proof.
  induction l as [|x l IH]; simpl; intros H; rewrite ?total_nil, ?total_cons; [lra|].
  assert (0 <= x)%R by (apply H; auto). assert (0 <= total l)%R by (apply IH; auto). lra.
Qed.
Lemma total_pos l x : (forall x, In x l -> 0 <= x)%R -> In x l -> (0 < x)%R -> (0 < total l)%R.
Proof.
  induction l as [|y l IH]; simpl; intros H I P; [easy|]. rewrite total_cons.
  assert (0 <= y)%R by (apply H; auto). assert (0 <= total l)%R by (apply total_nonneg; auto).
  destruct I as [->|I]; [lra|]. assert (0 < total l)%R by (apply IH; auto). lra.
Qed.
Lemma total_zero l : (forall x, In x l -> x = 0)%R -> total l = 0%R.
Proof.
  induction l as [|y l IH]; simpl; intros H; auto. rewrite total_cons, IH by auto. rewrite (H y) by auto. lra.
Qed.
Lemma total_bounds l lo hi : (forall x, In x l -> lo <= x <= hi)%R ->
  (INR (List.length l) * lo <= total l <= INR (List.length l) * hi)%R.
Proof.
  induction l as [|y l IH]; intros H; [simpl; rewrite total_nil; lra|]. cbn [List.length]. rewrite S_INR, total_cons.
  assert (lo <= y <= hi)%R by (apply H; now left).
  assert (INR (List.length l) * lo <= total l <= INR (List.length l) * hi)%R by (apply IH; intros; apply H; now right).
  lra.
Qed.
Lemma total_perm a b : Permutation a b -> total a = total b.
Proof. induction 1; rewrite ?total_cons; lra. Qed.
Lemma total_map_plus {A} (f g : A -> R) l :
  total (map (fun x => f x + g x)%R l) = (total (map f l) + total (map g l))%R.
Proof. induction l as [|x l IH]; simpl; rewrite ?total_nil, ?total_cons, ?IH; lra. Qed.
Lemma total_le l l' : Forall2 Rle l l' -> (total l <= total l')%R.
Proof. induction 1; rewrite ?total_cons; lra. Qed.

Lemma fmean_some l : l <> [] -> fmean (map Some l) = Some (total l / INR (List.length l))%R.
Proof.
  intros N. unfold fmean. rewrite fsum_some, map_length. apply fdiv_some.
  apply not_0_INR. destruct l; [congruence|simpl; lia].
Qed.

(** ** firstn / skipn *)
Lemma skipn_skipn' {A} n : forall m (l : list A), skipn n (skipn m l) = skipn (m + n) l.
Proof. intros m. revert n. induction m as [|m IH]; intros n l; simpl; auto. destruct l; [now rewrite skipn_nil|apply IH]. Qed.

(** ** rows *)
Lemma rows_length {A} n : forall w (l : list A), List.length (rows n w l) = n.
Proof. induction n; intros; simpl; auto. Qed.

Lemma rows_row_length {A} n : forall w (l : list A), List.length l = (n * w)%nat ->
  forall r, In r (rows n w l) -> List.length r = w.
Proof.
  induction n as [|n IH]; intros w l L r; simpl; [easy|]. simpl in L. intros [<-|I].
  - rewrite firstn_length. lia.
  - apply (IH w (skipn w l)); auto. rewrite skipn_length. lia.
Qed.

Lemma rows_concat {A} n : forall w (l : list A), List.length l = (n * w)%nat -> concat (rows n w l) = l.
Proof.
  induction n as [|n IH]; intros w l L; simpl.
  - destruct l; [auto|discriminate].
  - rewrite IH; [apply firstn_skipn|]. rewrite skipn_length. simpl in L. lia.
Qed.

Lemma rows_nth {A} n : forall w (l : list A) k, (k < n)%nat ->
  nth_error (rows n w l) k = Some (firstn w (skipn (k * w) l)).
Proof.
  induction n as [|n IH]; intros w l [|k] H; simpl; try lia; auto.
  rewrite IH by lia. now rewrite skipn_skipn'.
Qed.

Lemma rows_skip {A} k : forall n w (l : list A), skipn k (rows (k + n) w l) = rows n w (skipn (k * w) l).
Proof.
  induction k as [|k IH]; intros n w l; simpl; auto. rewrite IH. now rewrite skipn_skipn'.
Qed.
Lemma rows_first {A} k : forall n w (l : list A), firstn k (rows (k + n) w l) = rows k w (firstn (k * w) l).
Proof.
  induction k as [|k IH]; intros n w l; simpl; auto.
  rewrite firstn_firstn, Nat.min_l by lia. f_equal. rewrite IH. f_equal.
  rewrite firstn_skipn_comm. reflexivity.
Qed.

(** the rows of day [d] are the rows of the day's entries *)
Lemma rows_day {A} n k w (l : list A) d : (d < n)%nat ->
  day_part k d (rows (n * k) w l) = rows k w (day_part (k * w) d l).
Proof.
  intros H. unfold day_part.
  replace (n * k)%nat with (d * k + (n - d) * k)%nat by nia.
  rewrite rows_skip. replace ((n - d) * k)%nat with (k + (n - d - 1) * k)%nat by nia.
  rewrite rows_first. now replace (d * k * w)%nat with (d * (k * w))%nat by lia.
Qed.

Lemma day_part_length {A} k d n (l : list A) : List.length l = (n * k)%nat -> (d < n)%nat ->
  List.length (day_part k d l) = k.
Proof. intros L H. unfold day_part. rewrite firstn_length, skipn_length, L. nia. Qed.

Lemma day_part_map {A B} (f : A -> B) k d l : day_part k d (map f l) = map f (day_part k d l).
Proof. unfold day_part. now rewrite skipn_map, firstn_map. Qed.

Lemma nth_error_skipn {A} m : forall (l : list A) j, nth_error (skipn m l) j = nth_error l (m + j).
Proof. induction m as [|m IH]; intros l j; simpl; auto. destruct l; [now destruct j|apply IH]. Qed.
Lemma nth_error_firstn {A} m : forall (l : list A) j, (j < m)%nat -> nth_error (firstn m l) j = nth_error l j.
Proof. induction m as [|m IH]; intros l j H; [lia|]. destruct l; simpl; auto. destruct j; simpl; auto. apply IH. lia. Qed.

Lemma day_part_nth {A} k d (l : list A) j : (j < k)%nat ->
  nth_error (day_part k d l) j = nth_error l (d * k + j).
Proof. intros H. unfold day_part. now rewrite nth_error_firstn, nth_error_skipn by auto. Qed.

Lemma day_part_concat {A} k (ls : list (list A)) d l : (forall x, In x ls -> List.length x = k) ->
  nth_error ls d = Some l -> day_part k d (concat ls) = l.
Proof.
  revert d. induction ls as [|x ls IH]; intros d L N; [destruct d; discriminate|].
  assert (Lx : List.length x = k) by (apply L; now left).
  destruct d as [|d]; simpl in N.
  - injection N as <-. unfold day_part. simpl. subst k. rewrite firstn_app, firstn_all, Nat.sub_diag. simpl. now rewrite app_nil_r.
  - unfold day_part in *. simpl. rewrite <- (IH d); auto; [|intros; apply L; now right].
    subst k. rewrite skipn_app. replace (List.length x + d * List.length x - List.length x)%nat with (d * List.length x)%nat by lia.
    rewrite skipn_all2 by lia. reflexivity.
Qed.

(** ** reshape *)
Lemma reshape_ok {A} (l : list A) ts n : (0 < ts)%Z -> List.length l = (n * Z.to_nat ts)%nat ->
  reshape l ts = Ok (rows n (Z.to_nat ts) l).
Proof.
  intros P L. unfold reshape. destruct (Z.leb_spec ts 0); [lia|].
  assert (N : Z.to_nat ts <> 0%nat) by lia.
  rewrite L, Nat.mod_mul by auto. simpl. now rewrite Nat.div_mul by auto.
Qed.

(** ** repeat *)
Lemma np_repeat_length {A} (l : list A) n : List.length (np_repeat l n) = (List.length l * n)%nat.
Proof. unfold np_repeat. induction l as [|x l IH]; simpl; auto. rewrite app_length, repeat_length, IH. reflexivity. Qed.
Lemma np_repeat_concat {A} (l : list A) n : np_repeat l n = concat (map (fun x => repeat x n) l).
Proof. unfold np_repeat. apply flat_map_concat_map. Qed.
Lemma np_repeat_day {A} (l : list A) n d x : nth_error l d = Some x -> day_part n d (np_repeat l n) = repeat x n.
Proof.
  intros H. rewrite np_repeat_concat. apply day_part_concat.
  - intros y I. apply in_map_iff in I as (z & <- & _). apply repeat_length.
  - rewrite nth_error_map, H. reflexivity.
Qed.
Lemma np_repeat_nth {A} (l : list A) n i : (0 < n)%nat -> nth_error (np_repeat l n) i = nth_error l (i / n).
Proof.
  intros P. unfold np_repeat. revert i. induction l as [|x l IH]; intros i; simpl.
  - destruct i; destruct (_ / _)%nat; reflexivity.
  - destruct (Nat.lt_ge_cases i n) as [H|H].
    + rewrite nth_error_app1 by (rewrite repeat_length; auto). rewrite Nat.div_small by auto. simpl.
      rewrite (nth_error_nth' _ x) by (rewrite repeat_length; auto). f_equal. apply nth_repeat.
    + rewrite nth_error_app2 by (rewrite repeat_length; auto). rewrite repeat_length, IH.
      replace (i / n)%nat with (S ((i - n) / n)); [reflexivity|].
      replace i with ((i - n) + 1 * n)%nat at 2 by lia. rewrite Nat.div_add by lia. lia.
Qed.

(** ** roll *)
Lemma np_roll_perm {A} (l : list A) s : Permutation (np_roll l s) l.
Proof.
  unfold np_roll. generalize (Z.to_nat ((- s) mod Z.of_nat (List.length l))). intros k.
  etransitivity; [apply Permutation_app_comm|]. now rewrite firstn_skipn.
Qed.
Lemma np_roll_length {A} (l : list A) s : List.length (np_roll l s) = List.length l.
Proof. apply Permutation_length, np_roll_perm. Qed.

Lemma np_roll_nth {A} (l : list A) s i : (i < List.length l)%nat ->
  nth_error (np_roll l s) i =
  nth_error l (Z.to_nat ((Z.of_nat i - s) mod Z.of_nat (List.length l))).
Proof.
  intros H. unfold np_roll. set (n := Z.of_nat (List.length l)) in *.
  assert (Hn : (0 < n)%Z) by lia.
  pose proof (Z.mod_pos_bound (- s) n Hn) as B. set (k := ((- s) mod n)%Z) in *.
  assert (E : ((Z.of_nat i - s) mod n = (Z.of_nat i + k) mod n)%Z).
  { unfold k. rewrite Zplus_mod_idemp_r. f_equal. }
  rewrite E. destruct (Z.lt_ge_cases (Z.of_nat i + k) n) as [L|L].
  - rewrite Z.mod_small by lia. rewrite nth_error_app1 by (rewrite skipn_length; lia).
    rewrite nth_error_skipn. f_equal. lia.
  - rewrite nth_error_app2 by (rewrite skipn_length; lia). rewrite skipn_length.
    assert (M : ((Z.of_nat i + k) mod n = Z.of_nat i + k - n)%Z).
    { rewrite <- (Z_mod_plus_full _ (-1)). rewrite Z.mod_small; lia. }
    rewrite M, nth_error_firstn by lia. f_equal. lia.
Qed.

Lemma np_roll_circular {A} (l : list A) s d : 
  map (fun i => circular l (Z.of_nat i - s) d) (seq 0 (List.length l)) = np_roll l s.
Proof.
  apply nth_ext with (d := d) (d' := d).
  - now rewrite map_length, seq_length, np_roll_length.
  - intros i H. rewrite map_length, seq_length in H.
    assert (N : l <> []) by (destruct l; simpl in *; [lia|congruence]).
    rewrite nth_indep with (d' := (fun i => circular l (Z.of_nat i - s) d) 0%nat) by (rewrite map_length, seq_length; auto).
    rewrite (map_nth (fun i => circular l (Z.of_nat i - s) d)), seq_nth by auto. simpl.
    symmetry. apply nth_error_nth. rewrite np_roll_nth by auto. unfold circular. apply nth_error_nth'.
    pose proof (Z.mod_pos_bound (Z.of_nat i - s) (Z.of_nat (List.length l))). lia.
Qed.

(** ** time steps *)
Lemma steps_mul ts : legal_time_step ts -> (steps ts * Z.to_nat ts = MIN_PER_DAY)%nat /\ (0 < steps ts)%nat /\ (0 < ts)%Z.
Proof.
  intros (P & D & _). unfold steps. pose proof (Z.div_mod 1440 ts ltac:(lia)). rewrite D in H.
  assert (0 < 1440 / ts)%Z by nia. split; [|split; [lia|auto]].
  rewrite <- Z2Nat.inj_mul by lia. rewrite Z.mul_comm. replace (ts * (1440 / ts))%Z with 1440%Z by lia. reflexivity.
Qed.
Lemma steps_mul_R ts : legal_time_step ts -> (INR (steps ts) * IZR ts = 1440)%R.
Proof.
  intros L. destruct (steps_mul ts L) as (A & B & C).
  replace (IZR ts) with (INR (Z.to_nat ts)) by (rewrite INR_IZR_INZ, Z2Nat.id by lia; reflexivity).
  rewrite <- mult_INR, A. unfold MIN_PER_DAY. rewrite INR_IZR_INZ. reflexivity.
Qed.

Lemma day_sum n k w (l : list fl) d : List.length l = (n * (k * w))%nat -> (d < n)%nat ->
  fsum (day_part k d (map fsum (rows (n * k) w l))) = fsum (day_part (k * w) d l).
Proof.
  intros L H. rewrite day_part_map, rows_day by auto. rewrite fsum_concat, rows_concat; auto.
  now apply (day_part_length _ _ n).
Qed.

Lemma all_sum n w (l : list fl) : List.length l = (n * w)%nat -> fsum (map fsum (rows n w l)) = fsum l.
Proof. intros L. now rewrite fsum_concat, rows_concat. Qed.
