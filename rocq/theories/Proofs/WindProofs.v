(** Wind and cloud cover. *)
From Coq Require Import ZArith Reals String List Bool Arith Lia Lra Permutation.
From Verif Require Import Model.Py Model.Fl Model.Np Model.Constants Model.Params Model.Disagg
  Spec.TimeSpec Spec.SeriesSpec Proofs.Base Proofs.ArrayProofs Proofs.PrecProofs.
Import ListNotations.
Local Open Scope list_scope.

Lemma fsum_fdiv c l : c <> 0%R -> fsum (map (fun x => fdiv x (Some c)) l) = fdiv (fsum l) (Some c).
Proof.
  intros C. induction l as [|x l IH].
  - unfold fsum. simpl. destruct (Req_EM_T c 0); [contradiction|]. f_equal. field. auto.
  - cbn [map]. rewrite !fsum_cons, IH. destruct x as [x|], (fsum l) as [y|]; simpl; auto;
      destruct (Req_EM_T c 0); try contradiction; simpl; auto. f_equal. field. auto.
Qed.

Lemma fsum_np_repeat (l : list fl) n : (0 < n)%nat -> fsum (np_repeat l n) = fmul (fsum l) (Some (INR n)).
Proof.
  intros N. unfold np_repeat. induction l as [|x l IH]; [unfold fsum; simpl; f_equal; lra|].
  cbn [flat_map]. rewrite fsum_app, fsum_cons, IH. destruct x as [x|].
  - rewrite fsum_repeat. destruct (fsum l); simpl; auto. f_equal. lra.
  - rewrite fsum_repeat_none by auto. reflexivity.
Qed.

Lemma fmean_repeat x n : (0 < n)%nat -> fmean (repeat x n) = x.
Proof.
  intros N. unfold fmean. rewrite repeat_length. destruct x as [x|].
  - rewrite fsum_repeat, fdiv_some by (apply not_0_INR; lia). f_equal. field. apply not_0_INR. lia.
  - now rewrite fsum_repeat_none.
Qed.

Lemma fmean_bounds (l : list fl) lo hi : l <> [] ->
  (forall x, In x l -> exists y, x = Some y /\ (lo <= y <= hi)%R) ->
  exists y, fmean l = Some y /\ (lo <= y <= hi)%R.
Proof.
  intros N H.
  assert (E : exists r, l = map Some r /\ forall y, In y r -> (lo <= y <= hi)%R).
  { clear N. induction l as [|x l IH]; [exists []; split; auto; easy|].
    destruct (H x (or_introl eq_refl)) as (y & -> & Hy). destruct IH as (r & -> & Hr); [intros; apply H; now right|].
    exists (y :: r). split; auto. intros z [<-|I]; auto. }
  destruct E as (r & -> & Hr). assert (R0 : r <> []) by (destruct r; [now elim N|discriminate]).
  rewrite fmean_some by auto. eexists. split; [reflexivity|].
  assert (P : (0 < INR (List.length r))%R) by (apply lt_0_INR; destruct r; [congruence|simpl; lia]).
  pose proof (total_bounds r lo hi Hr) as [B1 B2]. split.
  - apply Rmult_le_reg_r with (INR (List.length r)); auto. unfold Rdiv. rewrite Rmult_assoc, Rinv_l by lra. lra.
  - apply Rmult_le_reg_r with (INR (List.length r)); auto. unfold Rdiv. rewrite Rmult_assoc, Rinv_l by lra. lra.
Qed.

Theorem daily_constant_local (x : list fl) ts prm : legal_time_step ts -> p_utc_offset prm = false ->
  exists out, daily_constant x ts prm = Ok out /\ List.length out = (List.length x * steps ts)%nat /\
    forall d v, nth_error x d = Some v -> day_part (steps ts) d out = repeat v (steps ts).
Proof.
  intros L U. unfold daily_constant. rewrite U. destruct (steps_mul ts L) as (Em & Sp & Tp).
  rewrite (reshape_ok _ ts (List.length x * steps ts)); auto.
  2:{ rewrite np_repeat_length, <- Em. lia. }
  cbn [bind]. eexists. split; [reflexivity|]. rewrite map_length, rows_length. split; auto.
  intros d v Hv. pose proof (fold_day Hv) as Ld.
  rewrite day_part_map, rows_day, Em by auto. rewrite (np_repeat_day _ _ _ v) by auto.
  rewrite <- Em, repeat_rows, map_repeat. f_equal. apply fmean_repeat. lia.
Qed.

Lemma circular_repeat (x : list fl) i : x <> [] ->
  circular (np_repeat x MIN_PER_DAY) i None = nth (Z.to_nat (i mod (Z.of_nat (List.length x) * 1440) / 1440)) x None.
Proof.
  intros N. unfold circular. rewrite np_repeat_length.
  assert (Ln : (0 < List.length x)%nat) by (destruct x; [congruence|simpl; lia]).
  rewrite Nat2Z.inj_mul. change (Z.of_nat MIN_PER_DAY) with 1440%Z.
  set (q := (i mod _)%Z).
  assert (Q : (0 <= q < Z.of_nat (List.length x) * 1440)%Z) by (apply Z.mod_pos_bound; lia).
  assert (M0 : (0 < MIN_PER_DAY)%nat) by (unfold MIN_PER_DAY; lia).
  assert (E : nth_error (np_repeat x MIN_PER_DAY) (Z.to_nat q) = nth_error x (Z.to_nat (q / 1440))).
  { rewrite np_repeat_nth by auto. f_equal. apply Nat2Z.inj. rewrite Nat2Z.inj_div.
    rewrite !Z2Nat.id; [reflexivity|apply Z.div_pos; lia|lia]. }
  assert (I : (Z.to_nat (q / 1440) < List.length x)%nat).
  { apply Nat2Z.inj_lt. rewrite Z2Nat.id by (apply Z.div_pos; lia). apply Z.div_lt_upper_bound; lia. }
  apply nth_error_nth' with (d := None) in I. rewrite I in E.
  exact (nth_error_nth _ _ None E).
Qed.

Lemma firstn_skipn_seq w q n : (q + w <= n)%nat ->
  firstn w (skipn q (seq 0 n)) = map (fun j => (q + j)%nat) (seq 0 w).
Proof. intros H. rewrite skipn_seq, firstn_seq, Nat.min_l by lia. apply seq_from. Qed.

Theorem daily_constant_utc (x : list fl) ts prm : legal_time_step ts -> p_utc_offset prm = true ->
  exists out, daily_constant x ts prm = Ok out /\ List.length out = (List.length x * steps ts)%nat /\
    (forall k, (k < List.length out)%nat ->
       nth_error out k = Some (fmean (map (fun j =>
         nth (Z.to_nat ((Z.of_nat (k * Z.to_nat ts + j) + utc_minutes (p_lon prm))
               mod (Z.of_nat (List.length x) * 1440) / 1440)) x None) (seq 0 (Z.to_nat ts))))) /\
    (forall lo hi, (forall v, In v x -> exists y, v = Some y /\ (lo <= y <= hi)%R) ->
       forall v, In v out -> exists y, v = Some y /\ (lo <= y <= hi)%R) /\
    fmean out = fmean x.
Proof.
  intros L U. unfold daily_constant. rewrite U. destruct (steps_mul ts L) as (Em & Sp & Tp).
  set (off := utc_minutes (p_lon prm)). set (m := np_repeat x MIN_PER_DAY).
  assert (Lm : List.length m = (List.length x * steps ts * Z.to_nat ts)%nat).
  { unfold m. rewrite np_repeat_length, <- Em. lia. }
  assert (Lr : List.length (np_roll m (- off)) = (List.length x * steps ts * Z.to_nat ts)%nat)
    by (now rewrite np_roll_length).
  rewrite (reshape_ok _ ts (List.length x * steps ts)) by auto.
  cbn [bind]. eexists. split; [reflexivity|]. rewrite map_length, rows_length. split; auto.
  split; [|split].
  - intros k Hk. rewrite nth_error_map, rows_nth by auto. cbn [option_map]. do 2 f_equal.
    assert (X0 : x <> []) by (intros ->; simpl in Hk; lia).
    rewrite <- (np_roll_circular m (- off) None), skipn_map, firstn_map, firstn_skipn_seq, map_map by nia.
    apply map_ext. intros j. unfold m. rewrite circular_repeat by auto. do 4 f_equal. lia.
  - intros lo hi H v I. apply in_map_iff in I as (r & <- & Ir). apply fmean_bounds.
    + intros ->. apply (rows_row_length _ _ _ Lr) in Ir. simpl in Ir. lia.
    + intros y Iy. apply H. assert (J : In y (np_roll m (- off))).
      { rewrite <- (rows_concat _ _ _ Lr). apply in_concat. eauto. }
      apply (Permutation_in _ (np_roll_perm m (- off))) in J. unfold m, np_repeat in J.
      apply in_flat_map in J as (z & Iz & Jz). apply repeat_spec in Jz. now subst.
  - assert (E : map fmean (rows (List.length x * steps ts) (Z.to_nat ts) (np_roll m (- off)))
                = map (fun r => fdiv r (Some (INR (Z.to_nat ts)))) (map fsum (rows (List.length x * steps ts) (Z.to_nat ts) (np_roll m (- off))))).
    { rewrite map_map. apply map_ext_in. intros r Ir. unfold fmean. now rewrite (rows_row_length _ _ _ Lr r Ir). }
    assert (T0 : INR (Z.to_nat ts) <> 0%R) by (apply not_0_INR; lia).
    unfold fmean at 1. rewrite E. rewrite fsum_fdiv, all_sum by auto.
    rewrite !map_length, rows_length.
    rewrite (fsum_perm _ _ (np_roll_perm m (- off))). unfold m. rewrite fsum_np_repeat by (unfold MIN_PER_DAY; lia).
    unfold fmean. rewrite mult_INR.
    assert (S0 : INR (steps ts) <> 0%R) by (apply not_0_INR; lia).
    destruct (fsum x) as [y|]; [|reflexivity]. cbn [fmul flift2].
    rewrite (fdiv_some _ _ T0). destruct x as [|v x].
    + cbn [List.length INR]. rewrite Rmult_0_l. now rewrite !fdiv_0.
    + assert (V0 : INR (List.length (v :: x)) <> 0%R) by (apply not_0_INR; simpl; lia).
      rewrite !fdiv_some by (try apply Rmult_integral_contrapositive; auto).
      f_equal. rewrite <- Em, mult_INR. field. auto.
Qed.
