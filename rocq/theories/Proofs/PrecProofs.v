(** Precipitation. *)
From Coq Require Import ZArith Reals String List Bool Arith Lia Lra Permutation.
From Verif Require Import Model.Py Model.Fl Model.Np Model.Constants Model.Params Model.Disagg
  Spec.TimeSpec Spec.SeriesSpec Proofs.Base Proofs.ArrayProofs.
Import ListNotations.
Local Open Scope list_scope.

(** ** the part before the UTC shift *)
Definition prec_minutes (P tmin : list fl) (prm : params) (t_pk dur : option (list fl)) : res (list fl) :=
  if str_in (upper (p_prec_type prm)) ["TRIANGLE"; "MIX"]%string then
    prec_TRIANGLE P tmin t_pk dur (String.eqb (upper (p_prec_type prm)) "MIX")
  else Ok (prec_UNIFORM P).

Lemma prec_eq P tmin ts prm tpk dur : prec P tmin ts prm tpk dur =
  do L <- prec_minutes P tmin prm tpk dur;
  do r <- reshape (if p_utc_offset prm then np_roll L (- utc_minutes (p_lon prm)) else L) ts;
  Ok (map fsum r).
Proof. reflexivity. Qed.

Lemma uniform_length P : List.length (prec_UNIFORM P) = (List.length P * MIN_PER_DAY)%nat.
Proof. unfold prec_UNIFORM. now rewrite np_repeat_length, map_length. Qed.

Lemma fsum_repeat x n : fsum (repeat (Some x) n) = Some (INR n * x)%R.
Proof.
  induction n as [|n IH]; [simpl; cbv [fsum fold_right]; f_equal; lra|].
  rewrite S_INR. simpl repeat. rewrite fsum_cons, IH. simpl. f_equal. lra.
Qed.

Lemma repeat_rows {A} (x : A) n w : rows n w (repeat x (n * w)) = repeat (repeat x w) n.
Proof.
  induction n as [|n IH]; simpl; auto. rewrite repeat_app.
  rewrite firstn_app, firstn_all2 by (rewrite repeat_length; lia). rewrite repeat_length, Nat.sub_diag. simpl. rewrite app_nil_r.
  rewrite skipn_app, skipn_all2 by (rewrite repeat_length; lia). rewrite repeat_length, Nat.sub_diag. simpl. now rewrite IH.
Qed.
Lemma map_repeat {A B} (f : A -> B) x n : map f (repeat x n) = repeat (f x) n.
Proof. induction n; simpl; congruence. Qed.

Definition some_nonneg (x : fl) : Prop := exists y, x = Some y /\ (0 <= y)%R.

Theorem prec_uniform P tmin ts prm tpk dur :
  legal_time_step ts -> p_utc_offset prm = false ->
  str_in (upper (p_prec_type prm)) ["TRIANGLE"; "MIX"]%string = false ->
  exists out, prec P tmin ts prm tpk dur = Ok out /\
    List.length out = (List.length P * steps ts)%nat /\
    forall d p, nth_error P d = Some p ->
      day_part (steps ts) d out = repeat (fdiv p (Some (INR (steps ts)))) (steps ts) /\
      fsum (day_part (steps ts) d out) = p.
Proof.
  intros L U T. rewrite prec_eq. unfold prec_minutes. rewrite T, U. cbn [bind].
  destruct (steps_mul ts L) as (E & Sp & Tp). pose proof (steps_mul_R ts L) as ER.
  assert (Len : List.length (prec_UNIFORM P) = (List.length P * steps ts * Z.to_nat ts)%nat).
  { rewrite uniform_length, <- Nat.mul_assoc, E. reflexivity. }
  rewrite (reshape_ok _ ts (List.length P * steps ts)) by auto. cbn [bind].
  eexists. split; [reflexivity|]. split; [rewrite map_length, rows_length; auto|].
  intros d p Hd. assert (Ld : (d < List.length P)%nat) by (apply nth_error_Some; congruence).
  assert (D : day_part (steps ts) d (map fsum (rows (List.length P * steps ts) (Z.to_nat ts) (prec_UNIFORM P)))
              = repeat (fdiv p (Some (INR (steps ts)))) (steps ts)).
  { rewrite day_part_map, rows_day by auto. rewrite E. unfold prec_UNIFORM.
    rewrite (np_repeat_day _ MIN_PER_DAY d (fdiv p (Some 1440%R))) by (rewrite nth_error_map, Hd; reflexivity).
    rewrite <- E, repeat_rows, map_repeat. f_equal.
    destruct p as [p|].
    - rewrite !fdiv_some; [|apply not_0_INR; lia|lra]. rewrite fsum_repeat. f_equal.
      rewrite INR_IZR_INZ, Z2Nat.id by lia. rewrite <- ER. 
      assert (INR (steps ts) <> 0)%R by (apply not_0_INR; lia).
      assert (IZR ts <> 0)%R by (apply not_0_IZR; lia). field. auto.
    - simpl. destruct (Z.to_nat ts) eqn:Q; [lia|]. apply fsum_repeat_none. lia. }
  split; [exact D|]. rewrite D. destruct p as [p|].
  - rewrite fdiv_some by (apply not_0_INR; lia). rewrite fsum_repeat. f_equal. field. apply not_0_INR. lia.
  - simpl. now apply fsum_repeat_none.
Qed.

(** ** the triangle of one day *)

(** filtering consecutive minutes with an interval gives consecutive minutes *)
Lemma filter_convex (p : nat -> bool) :
  (forall x y z, p x = true -> p z = true -> x <= y <= z -> p y = true) ->
  forall n s, p s = true -> exists k, filter p (seq s n) = seq s k /\ k <= n.
Proof.
  intros C. induction n as [|n IH]; intros s Hs; [exists 0; auto|]. cbn [seq filter]. rewrite Hs.
  destruct (p (S s)) eqn:E.
  - destruct (IH (S s) E) as (k & Ek & Lk). exists (S k). rewrite Ek. split; [reflexivity|lia].
  - exists 1. split; [|lia]. simpl. f_equal.
    destruct (filter p (seq (S s) n)) as [|m l] eqn:F; auto. exfalso.
    assert (I : In m (filter p (seq (S s) n))) by (rewrite F; now left).
    apply filter_In in I as [I Pm]. apply in_seq in I.
    rewrite (C s (S s) m) in E; auto; [discriminate|lia].
Qed.
Lemma filter_convex_seq (p : nat -> bool) :
  (forall x y z, p x = true -> p z = true -> x <= y <= z -> p y = true) ->
  forall n s, exists a k, filter p (seq s n) = seq a k /\ s <= a /\ a + k <= s + n.
Proof.
  intros C. induction n as [|n IH]; intros s; [exists s, 0; repeat split; auto; lia|].
  destruct (p s) eqn:E.
  - destruct (filter_convex p C (S n) s E) as (k & Ek & Lk). exists s, k. rewrite Ek. repeat split; auto; lia.
  - cbn [seq filter]. rewrite E. destruct (IH (S s)) as (a & k & Ea & H1 & H2). exists a, k. repeat split; auto; lia.
Qed.

Lemma upd_length {A} (l : list A) : forall i v, List.length (upd i v l) = List.length l.
Proof. induction l; intros [|i] v; simpl; auto. Qed.
Lemma upd_nth {A} (l : list A) : forall i v j, i < List.length l ->
  nth_error (upd i v l) j = if (j =? i)%nat then Some v else nth_error l j.
Proof.
  induction l as [|x l IH]; intros [|i] v [|j]; simpl; intros H; try lia; auto. apply IH. lia.
Qed.

Lemma np_put_seq {A} (vs : list A) : forall (l : list A) a,
  a + List.length vs <= List.length l ->
  List.length (np_put l (seq a (List.length vs)) vs) = List.length l /\
  forall j, nth_error (np_put l (seq a (List.length vs)) vs) j =
    if ((a <=? j) && (j <? a + List.length vs))%nat%bool then nth_error vs (j - a) else nth_error l j.
Proof.
  unfold np_put. induction vs as [|v vs IH]; intros l a H.
  - simpl. split; auto. intros j. destruct (Nat.leb_spec a j); simpl; auto.
    destruct (Nat.ltb_spec j (a + 0)); auto; lia.
  - cbn [List.length seq combine fold_left fst snd]. simpl in H.
    destruct (IH (upd a v l) (S a)) as [L N]; [rewrite upd_length; lia|].
    split; [rewrite L; apply upd_length|]. intros j. rewrite N, upd_nth by lia.
    destruct (Nat.eqb_spec j a) as [->|Ne].
    + destruct (Nat.leb_spec (S a) a); [lia|]. simpl. rewrite Nat.leb_refl, Nat.sub_diag. simpl.
      destruct (Nat.ltb_spec a (a + S (List.length vs))); [auto|lia].
    + destruct (Nat.leb_spec (S a) j), (Nat.leb_spec a j); simpl; try lia; auto.
      replace (a + S (List.length vs)) with (S (a + List.length vs)) by lia.
      destruct (Nat.ltb_spec j (S (a + List.length vs))); auto.
      replace (j - a) with (S (j - S a)) by lia. reflexivity.
Qed.

(** rising and falling weights *)
Definition rise_w (k i : nat) : R := if (k <=? 1)%nat then 0%R else (INR i / INR (k - 1))%R.
Definition fall_w (k i : nat) : R := if (k <=? 1)%nat then 1%R else (1 - INR i / INR (k - 1))%R.

Lemma linspace_length a b n : List.length (linspace a b n) = n.
Proof. destruct n as [|[|n]]; auto. unfold linspace. now rewrite map_length, seq_length. Qed.
Lemma linspace_rise k i : (i < k)%nat -> nth_error (linspace 0 1.0 k) i = Some (rise_w k i).
Proof.
  intros H. unfold rise_w. destruct k as [|[|k]]; [lia| |].
  - destruct i; [|lia]. reflexivity.
  - unfold linspace. rewrite nth_error_map, (nth_error_nth' _ 0) by (rewrite seq_length; auto).
    rewrite seq_nth by auto. simpl plus. cbn [option_map Nat.leb]. f_equal. 
    assert (INR (S (S k) - 1) <> 0)%R by (apply not_0_INR; lia). 
    replace 1.0%R with 1%R by lra. field; auto.
Qed.
Lemma linspace_fall k i : (i < k)%nat -> nth_error (linspace 1.0 0 k) i = Some (fall_w k i).
Proof.
  intros H. unfold fall_w. destruct k as [|[|k]]; [lia| |].
  - destruct i; [|lia]. simpl. f_equal. lra.
  - unfold linspace. rewrite nth_error_map, (nth_error_nth' _ 0) by (rewrite seq_length; auto).
    rewrite seq_nth by auto. simpl plus. cbn [option_map Nat.leb]. f_equal.
    assert (INR (S (S k) - 1) <> 0)%R by (apply not_0_INR; lia). 
    replace 1.0%R with 1%R by lra. field; auto.
Qed.

Lemma rise_range k i : (i < k)%nat -> (0 <= rise_w k i <= 1)%R.
Proof.
  intros H. unfold rise_w. destruct (Nat.leb_spec k 1); [lra|].
  assert (0 < INR (k - 1))%R by (apply lt_0_INR; lia).
  assert (INR i <= INR (k - 1))%R by (apply le_INR; lia). pose proof (pos_INR i).
  split; [apply Rmult_le_pos; [auto|apply Rlt_le, Rinv_0_lt_compat; auto]|].
  apply Rmult_le_reg_r with (INR (k - 1)); auto. field_simplify; lra.
Qed.
Lemma fall_range k i : (i < k)%nat -> (0 <= fall_w k i <= 1)%R.
Proof.
  intros H. pose proof (rise_range k i H) as A. unfold fall_w, rise_w in *.
  destruct (Nat.leb_spec k 1); lra.
Qed.
Lemma rise_mono k i j : (i <= j)%nat -> (rise_w k i <= rise_w k j)%R.
Proof.
  intros H. unfold rise_w. destruct (Nat.leb_spec k 1); [lra|].
  apply Rmult_le_compat_r; [apply Rlt_le, Rinv_0_lt_compat, lt_0_INR; lia|]. apply le_INR; auto.
Qed.
Lemma fall_mono k i j : (i <= j)%nat -> (fall_w k j <= fall_w k i)%R.
Proof.
  intros H. pose proof (rise_mono k i j H) as A. unfold fall_w, rise_w in *.
  destruct (Nat.leb_spec k 1); lra.
Qed.
Lemma fall_0 k : fall_w k 0 = 1%R.
Proof. unfold fall_w. destruct (Nat.leb_spec k 1); auto. simpl. unfold Rdiv. rewrite Rmult_0_l. lra. Qed.

Section Triangle.
Variables (pk dur : R).

Definition in_plus (m : nat) : bool := (Rleb (INR m) pk && Rleb (pk - 0.5 * dur) (INR m))%bool.
Definition in_minus (m : nat) : bool := (Rleb pk (INR m) && Rleb (INR m) (pk + 0.5 * dur))%bool.

Lemma in_plus_spec m : in_plus m = true <-> (pk - dur / 2 <= INR m <= pk)%R.
Proof. unfold in_plus. rewrite andb_true_iff, !Rleb_true. split; intros; lra. Qed.
Lemma in_minus_spec m : in_minus m = true <-> (pk <= INR m <= pk + dur / 2)%R.
Proof. unfold in_minus. rewrite andb_true_iff, !Rleb_true. split; intros; lra. Qed.

(** the two blocks of minutes *)
Lemma blocks : exists a ka b kb,
  filter in_plus (seq 0 MIN_PER_DAY) = seq a ka /\ a + ka <= MIN_PER_DAY /\
  filter in_minus (seq 0 MIN_PER_DAY) = seq b kb /\ b + kb <= MIN_PER_DAY.
Proof.
  destruct (filter_convex_seq in_plus) with (n := MIN_PER_DAY) (s := 0) as (a & ka & E & _ & L).
  { intros x y z Hx Hz H. rewrite in_plus_spec in *. assert (INR x <= INR y)%R by (apply le_INR; lia). assert (INR y <= INR z)%R by (apply le_INR; lia). lra. }
  destruct (filter_convex_seq in_minus) with (n := MIN_PER_DAY) (s := 0) as (b & kb & E' & _ & L').
  { intros x y z Hx Hz H. rewrite in_minus_spec in *. assert (INR x <= INR y)%R by (apply le_INR; lia). assert (INR y <= INR z)%R by (apply le_INR; lia). lra. }
  exists a, ka, b, kb. auto.
Qed.

(** minute weights of the triangle *)
Definition weight_spec (w : nat -> R) : Prop :=
  (forall m, 0 <= w m <= 1)%R /\
  (forall m, (m < MIN_PER_DAY)%nat -> (w m <> 0 -> pk - dur / 2 <= INR m <= pk + dur / 2)%R) /\
  (forall m m', (m <= m')%nat -> (m' < MIN_PER_DAY)%nat -> (INR m' <= pk -> w m <= w m')%R) /\
  (forall m m', (m <= m')%nat -> (m' < MIN_PER_DAY)%nat -> (pk <= INR m -> w m' <= w m)%R) /\
  ((exists m, (m < MIN_PER_DAY)%nat /\ (0 < w m)%R) <-> covered pk dur).

Definition tri_list : list fl :=
  np_put (np_put (repeat (Some 0%R) MIN_PER_DAY) (filter in_plus (seq 0 MIN_PER_DAY))
            (map Some (linspace 0 1.0 (List.length (filter in_plus (seq 0 MIN_PER_DAY))))))
         (filter in_minus (seq 0 MIN_PER_DAY))
         (map Some (linspace 1.0 0 (List.length (filter in_minus (seq 0 MIN_PER_DAY))))).

Lemma tri_weights : exists w, tri_list = map (fun m => Some (w m)) (seq 0 MIN_PER_DAY) /\ weight_spec w.
Proof.
  destruct blocks as (a & ka & b & kb & Ea & La & Eb & Lb).
  assert (Pa : forall m, (m < MIN_PER_DAY)%nat -> (in_plus m = true <-> a <= m < a + ka)).
  { intros m H. rewrite <- in_seq, <- Ea, filter_In, in_seq. split; [intros; split; [lia|auto]|tauto]. }
  assert (Pb : forall m, (m < MIN_PER_DAY)%nat -> (in_minus m = true <-> b <= m < b + kb)).
  { intros m H. rewrite <- in_seq, <- Eb, filter_In, in_seq. split; [intros; split; [lia|auto]|tauto]. }
  set (w := fun m => if ((b <=? m) && (m <? b + kb))%nat%bool then fall_w kb (m - b)
                     else if ((a <=? m) && (m <? a + ka))%nat%bool then rise_w ka (m - a) else 0%R).
  assert (Wb : forall m, b <= m < b + kb -> w m = fall_w kb (m - b)).
  { intros m H. unfold w. destruct (Nat.leb_spec b m), (Nat.ltb_spec m (b + kb)); try lia. reflexivity. }
  assert (Wa : forall m, ~ (b <= m < b + kb) -> a <= m < a + ka -> w m = rise_w ka (m - a)).
  { intros m N H. unfold w. destruct (Nat.leb_spec b m), (Nat.ltb_spec m (b + kb)); try lia; simpl;
    destruct (Nat.leb_spec a m), (Nat.ltb_spec m (a + ka)); try lia; reflexivity. }
  assert (W0 : forall m, ~ (b <= m < b + kb) -> ~ (a <= m < a + ka) -> w m = 0%R).
  { intros m N H. unfold w. destruct (Nat.leb_spec b m), (Nat.ltb_spec m (b + kb)); try lia; simpl;
    destruct (Nat.leb_spec a m), (Nat.ltb_spec m (a + ka)); try lia; reflexivity. }
  assert (Dec : forall m, {b <= m < b + kb} + {~ (b <= m < b + kb)}).
  { intros m. destruct (le_dec b m), (lt_dec m (b + kb)); [left|right|right|right]; lia. }
  assert (Deca : forall m, {a <= m < a + ka} + {~ (a <= m < a + ka)}).
  { intros m. destruct (le_dec a m), (lt_dec m (a + ka)); [left|right|right|right]; lia. }
  exists w. split.
  - unfold tri_list. rewrite Ea, Eb, !seq_length.
    assert (L1 : @List.length fl (map Some (linspace 0 1.0 ka)) = ka) by (rewrite map_length; apply linspace_length).
    assert (L2 : @List.length fl (map Some (linspace 1.0 0 kb)) = kb) by (rewrite map_length; apply linspace_length).
    destruct (np_put_seq (A:=fl) (map Some (linspace 0 1.0 ka)) (repeat (Some 0%R) MIN_PER_DAY) a) as [N1 N2].
    { rewrite L1, repeat_length. lia. }
    rewrite L1 in N1, N2. set (M := np_put (A:=fl) (repeat (Some 0%R) MIN_PER_DAY) (seq a ka) (map Some (linspace 0 1.0 ka))) in *.
    destruct (np_put_seq (A:=fl) (map Some (linspace 1.0 0 kb)) M b) as [N3 N4].
    { rewrite L2, N1, repeat_length. lia. }
    rewrite L2 in N3, N4. set (M' := np_put (A:=fl) M (seq b kb) (map Some (linspace 1.0 0 kb))) in *.
    rewrite N1, repeat_length in N3.
    change (M' = map (fun m => Some (w m)) (seq 0 MIN_PER_DAY)).
    apply nth_ext with (d := None) (d' := None); [etransitivity; [exact N3|now rewrite map_length, seq_length]|].
    intros m Hm0. assert (Hm : (m < MIN_PER_DAY)%nat) by (eapply Nat.lt_le_trans; [exact Hm0|apply Nat.eq_le_incl; exact N3]). clear Hm0.
    assert (R1 : nth m (map (fun m => Some (w m)) (seq 0 MIN_PER_DAY)) None = Some (w m)).
    { rewrite nth_indep with (d' := Some (w 0)) by (rewrite map_length, seq_length; auto).
      rewrite (map_nth (fun m => Some (w m))), seq_nth by auto. reflexivity. }
    etransitivity; [|symmetry; exact R1]. apply nth_error_nth. etransitivity; [apply N4|].
    destruct (Dec m) as [H|H].
    + rewrite Wb by auto. destruct (Nat.leb_spec b m), (Nat.ltb_spec m (b + kb)); try lia. simpl.
      rewrite nth_error_map, linspace_fall by lia. reflexivity.
    + assert (F : ((b <=? m) && (m <? b + kb))%nat%bool = false).
      { destruct (Nat.leb_spec b m), (Nat.ltb_spec m (b + kb)); try lia; reflexivity. }
      rewrite F, N2. destruct (Deca m) as [H'|H'].
      * rewrite Wa by auto. destruct (Nat.leb_spec a m), (Nat.ltb_spec m (a + ka)); try lia. simpl.
        rewrite nth_error_map, linspace_rise by lia. reflexivity.
      * rewrite W0 by auto.
        assert (F' : ((a <=? m) && (m <? a + ka))%nat%bool = false).
        { destruct (Nat.leb_spec a m), (Nat.ltb_spec m (a + ka)); try lia; reflexivity. }
        rewrite F'. rewrite (nth_error_nth' _ (Some 0%R)) by (rewrite repeat_length; auto). f_equal. apply nth_repeat.
  - assert (Rg : forall m, (0 <= w m <= 1)%R).
    { intros m. destruct (Dec m); [rewrite Wb by auto; apply fall_range; lia|].
      destruct (Deca m); [rewrite Wa by auto; apply rise_range; lia|]. rewrite W0 by auto. lra. }
    unfold weight_spec. split; [exact Rg|]. split; [|split; [|split]].
    + intros m Hm Nz. destruct (Dec m) as [H|H].
      * apply Pb in H; auto. apply in_minus_spec in H. lra.
      * destruct (Deca m) as [H'|H']; [|exfalso; apply Nz, W0; auto].
        apply Pa in H'; auto. apply in_plus_spec in H'. lra.
    + intros m m' Le Hm Hpk. destruct (Dec m') as [H|H].
      * (* m' is the peak itself *)
        assert (Hp := H). apply Pb in Hp; auto. apply in_minus_spec in Hp.
        assert (m' = b).
        { destruct (Nat.eq_dec m' b); auto. exfalso.
          assert (Hb : in_minus b = true) by (apply Pb; lia). apply in_minus_spec in Hb.
          assert (INR b < INR m')%R by (apply lt_INR; lia). lra. }
        subst m'. rewrite (Wb b), Nat.sub_diag, fall_0 by auto. apply Rg.
      * destruct (Dec m) as [G|G].
        { exfalso. apply Pb in G; [|lia]. apply in_minus_spec in G.
          assert (INR m <= INR m')%R by (apply le_INR; lia).
          apply H. apply Pb; auto. apply in_minus_spec. lra. }
        destruct (Deca m) as [H1|H1].
        { assert (H2 : a <= m' < a + ka).
          { apply Pa; auto. apply in_plus_spec. apply Pa in H1; [|lia]. apply in_plus_spec in H1.
            assert (INR m <= INR m')%R by (apply le_INR; lia). lra. }
          rewrite !Wa by auto. apply rise_mono. lia. }
        { rewrite (W0 m) by auto. apply Rg. }
    + intros m m' Le Hm Hpk. destruct (Dec m') as [H|H].
      * assert (G : b <= m < b + kb).
        { apply Pb; [lia|]. apply Pb in H; auto. apply in_minus_spec in H. apply in_minus_spec.
          assert (INR m <= INR m')%R by (apply le_INR; lia). lra. }
        rewrite !Wb by auto. apply fall_mono. lia.
      * destruct (Deca m') as [H1|H1].
        { (* then m' is the peak and in the falling block or the duration is negative *)
          exfalso. apply H. apply Pb; auto. apply Pa in H1; auto. apply in_plus_spec in H1. apply in_minus_spec.
          assert (INR m <= INR m')%R by (apply le_INR; lia). lra. }
        { rewrite (W0 m') by auto. apply Rg. }
    + split.
      * intros (m & Hm & Pm). destruct (Dec m) as [H|H].
        { left. exists m. split; auto. apply in_minus_spec. apply Pb; auto. }
        destruct (Deca m) as [H1|H1]; [|rewrite W0 in Pm by auto; lra].
        right. rewrite Wa in Pm by auto. unfold rise_w in Pm. destruct (Nat.leb_spec ka 1); [lra|].
        assert (m - a <> 0). { intros E0. rewrite E0 in Pm. simpl in Pm. unfold Rdiv in Pm. lra. }
        exists a, m. split; [lia|]. split; (split; [lia|]); apply in_plus_spec, Pa; lia.
      * intros [(m & Hm & C)|(m & m' & Lt & (Hm & C) & (Hm' & C'))].
        { apply in_minus_spec in C. apply Pb in C; auto. exists b. split; [lia|].
          rewrite Wb, Nat.sub_diag, fall_0 by lia. lra. }
        { apply in_plus_spec in C. apply Pa in C; auto. apply in_plus_spec in C'. apply Pa in C'; auto.
          destruct (Dec m') as [H|H].
          - exists b. split; [lia|]. rewrite Wb, Nat.sub_diag, fall_0 by lia. lra.
          - exists m'. split; auto. rewrite Wa by auto. unfold rise_w. destruct (Nat.leb_spec ka 1); [lia|].
            apply Rmult_lt_0_compat; [apply lt_0_INR; lia|apply Rinv_0_lt_compat, lt_0_INR; lia]. }
Qed.
End Triangle.

Lemma triangle_day_eq P tmin pk dur : prec_triangle_day false P tmin (Some (Some pk)) (Some (Some dur)) =
  Ok (map (fun x => fmul (fdiv P (fsum (tri_list pk dur))) x) (tri_list pk dur)).
Proof.
  unfold prec_triangle_day, tri_list, in_plus, in_minus.
  generalize MIN_PER_DAY. intros n. reflexivity.
Qed.

(** ** what one day gets *)
Theorem triangle_day P tmin pk dur : exists w,
  weight_spec pk dur w /\
  (covered pk dur ->
     let S := total (map w (seq 0 MIN_PER_DAY)) in (0 < S)%R /\
     forall p, P = Some p -> 
     prec_triangle_day false P tmin (Some (Some pk)) (Some (Some dur)) =
       Ok (map (fun m => Some (p / S * w m)%R) (seq 0 MIN_PER_DAY))) /\
  (~ covered pk dur \/ P = None ->
     prec_triangle_day false P tmin (Some (Some pk)) (Some (Some dur)) = Ok (repeat None MIN_PER_DAY)).
Proof.
  destruct (tri_weights pk dur) as (w & E & W). exists w. split; auto.
  rewrite triangle_day_eq, E.
  assert (S : fsum (map (fun m => Some (w m)) (seq 0 MIN_PER_DAY)) = Some (total (map w (seq 0 MIN_PER_DAY)))).
  { rewrite <- fsum_some, map_map. reflexivity. }
  rewrite S. destruct W as (Rg & _ & _ & _ & C). split.
  - intros H. apply C in H as (m & Hm & Pm). cbv zeta.
    assert (Pos : (0 < total (map w (seq 0 MIN_PER_DAY)))%R).
    { apply (total_pos _ (w m)); auto.
      - intros x Hx. apply in_map_iff in Hx as (k & <- & _). apply Rg.
      - apply in_map. apply in_seq. lia. }
    split; auto. intros p ->. rewrite fdiv_some by lra. rewrite map_map. reflexivity.
  - intros H. assert (N : fdiv P (Some (total (map w (seq 0 MIN_PER_DAY)))) = None).
    { destruct H as [H| ->]; [|reflexivity]. rewrite total_zero; [apply fdiv_0|].
      intros x Hx. apply in_map_iff in Hx as (k & <- & Hk). apply in_seq in Hk.
      destruct (Rg k) as [[G|G] _]; auto. exfalso. apply H, C. exists k. split; [lia|auto]. }
    rewrite N. rewrite map_map. apply (f_equal Ok).
    transitivity (repeat (@None R) (List.length (seq 0 MIN_PER_DAY))); [|now rewrite seq_length].
    generalize (seq 0 MIN_PER_DAY). induction l as [|x l IH]; simpl; [reflexivity|]. now f_equal.
Qed.

(** ** all days *)
Lemma Ok_inj {A} (a b : A) : Ok a = Ok b -> a = b.
Proof. congruence. Qed.
Lemma np_put_length {A} (a : list A) idx vals : List.length (np_put a idx vals) = List.length a.
Proof.
  unfold np_put. generalize (combine idx vals). intros l. revert a.
  induction l as [|[i v] l IH]; intros a; simpl; auto. rewrite IH. apply upd_length.
Qed.

Lemma triangle_day_length mix P t pk dur day : prec_triangle_day mix P t pk dur = Ok day ->
  List.length day = MIN_PER_DAY.
Proof.
  unfold prec_triangle_day. destruct (mix && _)%bool.
  - intros H. apply Ok_inj in H. subst day. etransitivity; [apply map_length|apply repeat_length].
  - destruct pk, dur; try discriminate. intros H. apply Ok_inj in H. subst day.
    etransitivity; [apply map_length|]. rewrite 2 np_put_length. apply repeat_length.
Qed.

Lemma nth_error_combine_seq {A} (l : list A) : forall s d x, nth_error l d = Some x ->
  nth_error (combine (seq s (List.length l)) l) d = Some (s + d, x).
Proof.
  induction l as [|y l IH]; intros s [|d] x; simpl; try discriminate.
  - intros [= ->]. now rewrite Nat.add_0_r.
  - intros H. rewrite (IH (S s) d x) by auto. f_equal. f_equal. lia.
Qed.

Lemma Forall2_nth {A B} (R : A -> B -> Prop) l l' : Forall2 R l l' -> forall d x, nth_error l d = Some x ->
  exists y, nth_error l' d = Some y /\ R x y.
Proof.
  induction 1 as [|a b l l' Hab HF IH]; intros [|d] x; simpl; try discriminate; [intros [= ->]; eauto|apply IH].
Qed.

Lemma prec_TRIANGLE_days (P tmin : list fl) pk dur mix L : prec_TRIANGLE P tmin pk dur mix = Ok L ->
  List.length L = (List.length P * MIN_PER_DAY)%nat /\
  forall d p, nth_error P d = Some p ->
    prec_triangle_day mix p (nth d tmin None) (opt_nth pk d) (opt_nth dur d) = Ok (day_part MIN_PER_DAY d L).
Proof.
  unfold prec_TRIANGLE. destruct (mapM _ _) as [days|] eqn:E; cbn [bind]; [|discriminate]. intros [= <-].
  apply mapM_inv in E. pose proof (Forall2_len _ _ _ E) as Len.
  rewrite combine_length, seq_length, Nat.min_id in Len.
  assert (DL : forall x, In x days -> List.length x = MIN_PER_DAY).
  { clear Len. induction E as [|ip day l days H E IH]; simpl; [easy|]. intros x [<-|I]; [|auto].
    now apply triangle_day_length in H. }
  split.
  - rewrite Len. clear - DL. induction days as [|d days IH]; simpl; auto.
    rewrite app_length, IH, (DL d) by (intros; try apply DL; simpl; auto). reflexivity.
  - intros d p Hp. pose proof (nth_error_combine_seq P 0 d p Hp) as C.
    destruct (Forall2_nth _ _ _ E _ _ C) as (day & Hd & Hr). simpl in Hr.
    rewrite (day_part_concat _ days d day); auto.
Qed.

Lemma prec_TRIANGLE_ok (P tmin : list fl) pk dur mix :
  (forall d, (d < List.length P)%nat -> (mix = true /\ flt (nth d tmin None) (Some 0%R) = true) \/
     (exists a b, opt_nth pk d = Some a /\ opt_nth dur d = Some b)) ->
  exists L, prec_TRIANGLE P tmin pk dur mix = Ok L.
Proof.
  intros H. unfold prec_TRIANGLE.
  assert (G : exists days, mapM (fun ip => prec_triangle_day mix (snd ip) (nth (fst ip) tmin None)
                               (opt_nth pk (fst ip)) (opt_nth dur (fst ip)))
                  (combine (seq 0 (List.length P)) P) = Ok days).
  { assert (A : forall ip, In ip (combine (seq 0 (List.length P)) P) -> exists y,
       prec_triangle_day mix (snd ip) (nth (fst ip) tmin None) (opt_nth pk (fst ip)) (opt_nth dur (fst ip)) = Ok y).
    { intros [i p] I. apply in_combine_l in I. apply in_seq in I. cbn [fst snd]. unfold prec_triangle_day.
      destruct (H i ltac:(lia)) as [[E1 E2]|(a & b & -> & ->)].
      - rewrite E1, E2. cbn [andb]. eexists; exact eq_refl.
      - destruct (mix && _)%bool; eexists; exact eq_refl. }
    revert A. generalize (combine (seq 0 (List.length P)) P). intros l. induction l as [|x l IH]; intros A; [simpl; eauto|].
    destruct (A x (or_introl eq_refl)) as [y Ey]. destruct IH as [ys Eys]; [intros; apply A; now right|].
    cbn [mapM]. rewrite Ey. cbn [bind]. rewrite Eys. simpl. eauto. }
  destruct G as [days G]. destruct (mapM _ _) as [days'|] eqn:E; [cbn [bind]; eauto|].
  discriminate.
Qed.

Lemma prec_minutes_days (P tmin : list fl) prm pk dur L : prec_minutes P tmin prm pk dur = Ok L ->
  List.length L = (List.length P * MIN_PER_DAY)%nat.
Proof.
  unfold prec_minutes. destruct (str_in _ _).
  - intros H. now apply prec_TRIANGLE_days in H.
  - intros [= <-]. apply uniform_length.
Qed.

(** without shift, the output is the minute series summed by steps *)
Lemma prec_no_utc (P tmin : list fl) ts prm pk dur : legal_time_step ts -> p_utc_offset prm = false ->
  prec P tmin ts prm pk dur =
  do L <- prec_minutes P tmin prm pk dur; Ok (map fsum (rows (List.length P * steps ts) (Z.to_nat ts) L)).
Proof.
  intros Lt U. rewrite prec_eq, U. destruct (prec_minutes _ _ _ _ _) as [L|] eqn:E; cbn [bind]; auto.
  apply prec_minutes_days in E. destruct (steps_mul ts Lt) as (Em & _ & Tp).
  rewrite (reshape_ok _ ts (List.length P * steps ts)); auto. rewrite E, <- Em. lia.
Qed.

Lemma legal_1 : legal_time_step 1.
Proof. unfold legal_time_step. repeat split; lia. Qed.
Lemma steps_1 : steps 1 = MIN_PER_DAY.
Proof. reflexivity. Qed.

Lemma rows_1 l : map fsum (rows (List.length l) 1 l) = l.
Proof.
  induction l as [|x l IH]; [reflexivity|]. cbn [List.length rows firstn skipn map]. rewrite IH. f_equal.
  rewrite fsum_cons. apply fadd_0_r.
Qed.

Lemma prec_minute_series (P tmin : list fl) prm pk dur : p_utc_offset prm = false ->
  prec P tmin 1 prm pk dur = prec_minutes P tmin prm pk dur.
Proof.
  intros U. rewrite prec_no_utc; auto using legal_1. destruct (prec_minutes _ _ _ _ _) as [L|] eqn:E; cbn [bind]; auto.
  apply prec_minutes_days in E. rewrite steps_1, <- E. change (Z.to_nat 1) with 1%nat. now rewrite rows_1.
Qed.

Theorem prec_coarse (P tmin : list fl) ts prm pk dur m : legal_time_step ts -> p_utc_offset prm = false ->
  prec P tmin 1 prm pk dur = Ok m ->
  exists out, prec P tmin ts prm pk dur = Ok out /\ List.length out = (List.length P * steps ts)%nat /\
    forall k, (k < List.length out)%nat ->
      nth_error out k = Some (fsum (firstn (Z.to_nat ts) (skipn (k * Z.to_nat ts) m))).
Proof.
  intros Lt U H. rewrite prec_minute_series in H by auto. rewrite prec_no_utc, H by auto. cbn [bind].
  eexists. split; [reflexivity|]. rewrite map_length, rows_length. split; auto.
  intros k Hk. rewrite nth_error_map, rows_nth by auto. reflexivity.
Qed.

Lemma upper_triangle prm : upper (p_prec_type prm) = "TRIANGLE"%string ->
  forall P tmin pk dur, prec_minutes P tmin prm pk dur = prec_TRIANGLE P tmin pk dur false.
Proof. intros E P tmin pk dur. unfold prec_minutes. rewrite E. reflexivity. Qed.
Lemma upper_mix prm : upper (p_prec_type prm) = "MIX"%string ->
  forall P tmin pk dur, prec_minutes P tmin prm pk dur = prec_TRIANGLE P tmin pk dur true.
Proof. intros E P tmin pk dur. unfold prec_minutes. rewrite E. reflexivity. Qed.

Definition columns_cover (P : list fl) (pk dur : list fl) : Prop :=
  List.length pk = List.length P /\ List.length dur = List.length P.

Lemma triangle_runs (P tmin : list fl) prm ts pk dur : legal_time_step ts -> p_utc_offset prm = false ->
  upper (p_prec_type prm) = "TRIANGLE"%string ->
  List.length pk = List.length P -> List.length dur = List.length P ->
  exists L, prec_TRIANGLE P tmin (Some pk) (Some dur) false = Ok L /\
    prec P tmin ts prm (Some pk) (Some dur) = Ok (map fsum (rows (List.length P * steps ts) (Z.to_nat ts) L)).
Proof.
  intros Lt U E C1 C2. destruct (prec_TRIANGLE_ok P tmin (Some pk) (Some dur) false) as [L H].
  { intros d Hd. right. simpl. destruct (nth_error pk d) eqn:A; [|apply nth_error_None in A; lia].
    destruct (nth_error dur d) eqn:B; [|apply nth_error_None in B; lia]. eauto. }
  exists L. split; auto. rewrite prec_no_utc, upper_triangle, H by auto. reflexivity.
Qed.

Lemma fold_day {P : list fl} {d p} : nth_error P d = Some p -> (d < List.length P)%nat.
Proof. intros H. apply nth_error_Some. congruence. Qed.

Lemma total_triangle w p : (0 < total (map w (seq 0 MIN_PER_DAY)))%R ->
  fsum (map (fun m => Some (p / total (map w (seq 0 MIN_PER_DAY)) * w m)%R) (seq 0 MIN_PER_DAY)) = Some p.
Proof.
  intros Pos. set (S := total _) in *.
  rewrite <- (map_map (fun m => (p / S * w m)%R) Some), fsum_some. f_equal.
  rewrite <- (map_map w (fun x => (p / S * x)%R)), total_scale. fold S. field. lra.
Qed.

Lemma fsum_nonneg l : (forall x, In x l -> some_nonneg x) -> some_nonneg (fsum l).
Proof.
  induction l as [|x l IH]; intros H; [exists 0%R; split; [reflexivity|lra]|].
  rewrite fsum_cons. destruct (H x (or_introl eq_refl)) as (y & -> & Hy).
  destruct IH as (z & -> & Hz); [intros; apply H; now right|]. exists (y + z)%R. split; [reflexivity|lra].
Qed.

(** C17 and C19 in one statement *)
Theorem prec_triangle (P tmin : list fl) ts prm pk dur :
  legal_time_step ts -> p_utc_offset prm = false -> upper (p_prec_type prm) = "TRIANGLE"%string ->
  List.length pk = List.length P -> List.length dur = List.length P ->
  exists out, prec P tmin ts prm (Some pk) (Some dur) = Ok out /\
    List.length out = (List.length P * steps ts)%nat /\
    forall d p a b, nth_error P d = Some (Some p) -> nth_error pk d = Some (Some a) ->
      nth_error dur d = Some (Some b) ->
      (covered a b -> fsum (day_part (steps ts) d out) = Some p /\
         ((0 <= p)%R -> forall x, In x (day_part (steps ts) d out) -> exists y, x = Some y /\ (0 <= y)%R)) /\
      (~ covered a b -> day_part (steps ts) d out = repeat None (steps ts)).
Proof.
  intros Lt U E C1 C2. destruct (triangle_runs P tmin prm ts pk dur Lt U E C1 C2) as (L & HL & Hout).
  eexists. split; [exact Hout|]. rewrite map_length, rows_length. split; auto.
  destruct (steps_mul ts Lt) as (Em & Sp & Tp). apply prec_TRIANGLE_days in HL as [LL Days].
  intros d p a b Hp Ha Hb. pose proof (fold_day Hp) as Ld. specialize (Days d _ Hp).
  simpl opt_nth in Days. rewrite Ha, Hb in Days.
  destruct (triangle_day (Some p) (nth d tmin None) a b) as (w & W & C & N).
  rewrite day_part_map, rows_day, Em by auto. split.
  - intros Cov. destruct (C Cov) as [Pos Eq]. rewrite (Eq p eq_refl) in Days. apply Ok_inj in Days. rewrite <- Days.
    assert (LD : List.length (map (fun m => Some (p / total (map w (seq 0 MIN_PER_DAY)) * w m)%R) (seq 0 MIN_PER_DAY)) = (steps ts * Z.to_nat ts)%nat)
      by (rewrite map_length, seq_length; auto).
    split.
    + rewrite fsum_concat, rows_concat by exact LD. now apply total_triangle.
    + intros Pp x I. apply in_map_iff in I as (r & <- & Ir). apply fsum_nonneg. intros y Iy.
      assert (J : In y (map (fun m => Some (p / total (map w (seq 0 MIN_PER_DAY)) * w m)%R) (seq 0 MIN_PER_DAY))).
      { rewrite <- (rows_concat (steps ts) (Z.to_nat ts)) by exact LD. apply in_concat. eauto. }
      apply in_map_iff in J as (m & <- & _). eexists. split; [reflexivity|].
      destruct W as (Rg & _). apply Rmult_le_pos; [|apply Rg].
      apply Rmult_le_pos; auto. apply Rlt_le, Rinv_0_lt_compat; auto.
  - intros NC. rewrite N in Days by auto. apply Ok_inj in Days. rewrite <- Days, <- Em, repeat_rows, map_repeat.
    f_equal. apply fsum_repeat_none. lia.
Qed.

(** C18 *)
Theorem prec_shape (P tmin : list fl) prm pk dur :
  p_utc_offset prm = false -> upper (p_prec_type prm) = "TRIANGLE"%string ->
  List.length pk = List.length P -> List.length dur = List.length P ->
  exists out, prec P tmin 1 prm (Some pk) (Some dur) = Ok out /\
    forall d p a b, nth_error P d = Some (Some p) -> nth_error pk d = Some (Some a) ->
      nth_error dur d = Some (Some b) -> (0 <= p)%R -> covered a b ->
      exists x : nat -> R, day_part MIN_PER_DAY d out = map (fun m => Some (x m)) (seq 0 MIN_PER_DAY) /\
        (forall m, (m < MIN_PER_DAY)%nat -> x m <> 0%R -> (Rabs (INR m - a) <= b / 2)%R) /\
        (forall m m', (m <= m' < MIN_PER_DAY)%nat -> (INR m' <= a)%R -> (x m <= x m')%R) /\
        (forall m m', (m <= m' < MIN_PER_DAY)%nat -> (a <= INR m)%R -> (x m' <= x m)%R).
Proof.
  intros U E C1 C2. rewrite prec_minute_series by auto. rewrite upper_triangle by auto.
  destruct (triangle_runs P tmin prm 1 pk dur legal_1 U E C1 C2) as (L & HL & _).
  exists L. split; auto. intros d p a b Hp Ha Hb Pp Cov.
  apply prec_TRIANGLE_days in HL as [LL Days]. specialize (Days d _ Hp).
  simpl opt_nth in Days. rewrite Ha, Hb in Days.
  destruct (triangle_day (Some p) (nth d tmin None) a b) as (w & W & C & _).
  destruct (C Cov) as [Pos Eq]. rewrite (Eq p eq_refl) in Days. apply Ok_inj in Days.
  exists (fun m => (p / total (map w (seq 0 MIN_PER_DAY)) * w m)%R). split; [auto|].
  set (S := total _) in *. assert (0 <= p / S)%R.
  { apply Rmult_le_pos; auto. apply Rlt_le, Rinv_0_lt_compat; auto. }
  destruct W as (Rg & Sup & Up & Down & _). split; [|split].
  - intros m Hm Nz. assert (w m <> 0%R) by (intros Z; apply Nz; rewrite Z; lra).
    apply Sup in H0; auto. apply Rabs_le. lra.
  - intros m m' Hm Hpk. apply Rmult_le_compat_l; auto. apply Up; auto; lia.
  - intros m m' Hm Hpk. apply Rmult_le_compat_l; auto. apply Down; auto; lia.
Qed.

(** C20 *)
Lemma uniform_day P d p : nth_error P d = Some p ->
  day_part MIN_PER_DAY d (prec_UNIFORM P) = repeat (fdiv p (Some 1440%R)) MIN_PER_DAY.
Proof. intros H. unfold prec_UNIFORM. apply np_repeat_day. rewrite nth_error_map, H. reflexivity. Qed.

Theorem prec_mix (P tmin : list fl) ts prm pk dur : legal_time_step ts -> p_utc_offset prm = false ->
  List.length pk = List.length P -> List.length dur = List.length P ->
  exists mix uni tri,
    prec P tmin ts (with_prec_type "mix" prm) (Some pk) (Some dur) = Ok mix /\
    prec P tmin ts (with_prec_type "uniform" prm) (Some pk) (Some dur) = Ok uni /\
    prec P tmin ts (with_prec_type "triangle" prm) (Some pk) (Some dur) = Ok tri /\
    forall d, (d < List.length P)%nat ->
      day_part (steps ts) d mix =
      day_part (steps ts) d (if flt (nth d tmin None) (Some 0%R) then uni else tri).
Proof.
  intros Lt U C1 C2. destruct (steps_mul ts Lt) as (Em & Sp & Tp).
  assert (Cols : forall d, (d < List.length P)%nat -> exists a b, opt_nth (Some pk) d = Some a /\ opt_nth (Some dur) d = Some b).
  { intros d Hd. simpl. destruct (nth_error pk d) eqn:A; [|apply nth_error_None in A; lia].
    destruct (nth_error dur d) eqn:B; [|apply nth_error_None in B; lia]. eauto. }
  destruct (prec_TRIANGLE_ok P tmin (Some pk) (Some dur) true) as [M HM]; [intros; right; auto|].
  destruct (prec_TRIANGLE_ok P tmin (Some pk) (Some dur) false) as [T HT]; [intros; right; auto|].
  rewrite !prec_no_utc by auto. rewrite (upper_mix (with_prec_type "mix" prm)), (upper_triangle (with_prec_type "triangle" prm)), HM, HT by reflexivity.
  change (prec_minutes P tmin (with_prec_type "uniform" prm) (Some pk) (Some dur)) with (Ok (prec_UNIFORM P)).
  cbn [bind]. do 3 eexists. do 3 (split; [reflexivity|]). intros d Hd.
  destruct (nth_error P d) as [p|] eqn:Hp; [|apply nth_error_None in Hp; lia].
  apply prec_TRIANGLE_days in HM as [_ DM]. apply prec_TRIANGLE_days in HT as [_ DT].
  specialize (DM d p Hp). specialize (DT d p Hp).
  destruct (flt (nth d tmin None) (Some 0%R)) eqn:F.
  - rewrite !day_part_map, !rows_day by auto. rewrite Em. do 2 f_equal. rewrite (uniform_day P d p Hp).
    unfold prec_triangle_day in DM. rewrite F in DM. cbn [andb] in DM. rewrite map_repeat in DM. apply Ok_inj in DM. rewrite <- DM.
    f_equal. destruct p; simpl; auto. destruct (Req_EM_T 1440 0); auto; do 2 f_equal; lra.
  - rewrite !day_part_map, !rows_day by auto. rewrite Em. do 2 f_equal.
    unfold prec_triangle_day in DM, DT. rewrite F in DM. cbn [andb] in DM, DT. rewrite DM in DT. now apply Ok_inj in DT.
Qed.

(** C21 *)
Lemma skipn_seq q : forall s n, skipn q (seq s n) = seq (s + q) (n - q).
Proof.
  induction q as [|q IH]; intros s n; simpl; [now rewrite Nat.add_0_r, Nat.sub_0_r|].
  destruct n; simpl; [reflexivity|]. rewrite IH. f_equal. lia.
Qed.
Lemma firstn_seq w : forall s n, firstn w (seq s n) = seq s (Nat.min w n).
Proof. induction w as [|w IH]; intros s [|n]; simpl; auto. now rewrite IH. Qed.
Lemma seq_from w : forall q, seq q w = map (fun j => q + j)%nat (seq 0 w).
Proof.
  intros q. rewrite <- (map_id (seq q w)). replace q with (q + 0)%nat at 1 by lia.
  generalize 0%nat. induction w as [|w IH]; intros z; simpl; auto. f_equal. rewrite <- IH. do 2 f_equal. lia.
Qed.

Theorem prec_utc (P tmin : list fl) ts prm pk dur m : legal_time_step ts ->
  prec P tmin 1 (with_utc false prm) pk dur = Ok m ->
  exists out loc, prec P tmin ts (with_utc true prm) pk dur = Ok out /\
    prec P tmin ts (with_utc false prm) pk dur = Ok loc /\
    fsum out = fsum loc /\ List.length out = List.length loc /\
    forall k, (k < List.length out)%nat ->
      nth_error out k = Some (fsum (map (fun j =>
        circular m (Z.of_nat (k * Z.to_nat ts + j) + utc_minutes (p_lon prm)) None) (seq 0 (Z.to_nat ts)))).
Proof.
  intros Lt H. rewrite prec_minute_series in H by reflexivity. destruct (steps_mul ts Lt) as (Em & Sp & Tp).
  assert (H' : prec_minutes P tmin (with_utc true prm) pk dur = Ok m) by exact H.
  pose proof (prec_minutes_days _ _ _ _ _ _ H) as LM.
  rewrite (prec_no_utc _ _ _ (with_utc false prm)) by auto. rewrite H. rewrite prec_eq, H'. cbn [bind].
  change (p_utc_offset (with_utc true prm)) with true. change (p_lon (with_utc true prm)) with (p_lon prm). cbv iota.
  set (off := utc_minutes (p_lon prm)).
  assert (LR : List.length (np_roll m (- off)) = (List.length P * steps ts * Z.to_nat ts)%nat).
  { rewrite np_roll_length, LM, <- Em. lia. }
  rewrite (reshape_ok _ ts (List.length P * steps ts)) by auto. cbn [bind].
  do 2 eexists. split; [reflexivity|]. split; [reflexivity|].
  split; [|split; [now rewrite !map_length, !rows_length|]].
  - rewrite !all_sum; auto; [|rewrite LM, <- Em; lia]. apply fsum_perm, np_roll_perm.
  - intros k Hk. rewrite map_length, rows_length in Hk. rewrite nth_error_map, rows_nth by auto. simpl. f_equal. f_equal.
    rewrite <- (np_roll_circular m (- off) None).
    assert (Lm : List.length m = (List.length P * steps ts * Z.to_nat ts)%nat) by (rewrite LM, <- Em; lia).
    assert (Sq : firstn (Z.to_nat ts) (skipn (k * Z.to_nat ts) (seq 0 (List.length m)))
                 = map (fun j => (k * Z.to_nat ts + j)%nat) (seq 0 (Z.to_nat ts))).
    { rewrite skipn_seq, firstn_seq, Nat.min_l by nia. apply seq_from. }
    rewrite skipn_map, firstn_map, Sq, map_map. apply map_ext. intros j. f_equal. lia.
Qed.
