(** From the forcing to the records in the files: C86. *)
From Coq Require Import ZArith Reals String List Bool Arith Lia Lra Sorting.Sorted.
From Verif Require Import Model.Py Model.Fl Model.Np Model.Params Model.Disagg Model.Units Model.Output Model.Cell Model.Machine Model.Run
  Spec.TimeSpec Spec.SeriesSpec Spec.GridSpec Spec.WriterSpec Spec.CellSpec
  Proofs.Base Proofs.ArrayProofs Proofs.PrecProofs Proofs.DisaggProofs Proofs.FrameProofs Proofs.OutputProofs Proofs.DateProofs Proofs.MachineProofs Proofs.SliceProofs
  Proofs.GlobalsProofs Proofs.CellProofs Proofs.CellOutputs.
Import ListNotations.
Local Open Scope string_scope.
Local Open Scope list_scope.

(** ** the converted series of a cell *)
Lemma converted ov ts df vs : convert_outputs ov ts df = Ok vs -> NoDup (keys ov) -> forall v name unit,
  nth_error ov v = Some (name, unit) -> exists conv col, converter_for name unit = Ok conv /\ dict_get df name = Some col /\
    dict_get vs name = Some (map (fun y => conv y ts) col).
Proof.
  intros H ND v name unit N. apply mapM_inv in H.
  assert (X : Forall2 (fun (vu : string * string) (o : string * list fl) => exists conv col, converter_for (fst vu) (snd vu) = Ok conv /\
     dict_get df (fst vu) = Some col /\ o = (fst vu, map (fun y => conv y ts) col)) ov vs).
  { clear - H. induction H as [|a b l l' P Q IH]; constructor; auto. inv_bind P. inv_bind P. apply Ok_inj in P. exists v, v0.
    split; auto. split; [now apply getitem_get|auto]. }
  clear H. revert v N. induction X as [|[k u] o l l' (conv & col & P1 & P2 & P3) Q IH]; intros v N; [destruct v; discriminate|].
  inversion ND as [|? ? N1 N2]. subst. cbn [fst snd] in *. destruct v as [|v].
  - injection N as -> ->. exists conv, col. split; auto. split; auto. cbn [dict_get]. now rewrite String.eqb_refl.
  - destruct (IH N2 v N) as (conv' & col' & Q1 & Q2 & Q3). exists conv', col'. split; auto. split; auto. cbn [dict_get].
    destruct (String.eqb_spec name k); [|exact Q3]. exfalso. apply N1. cbn [nth_error] in N. apply nth_error_In in N. apply in_map_iff. exists (name, unit). split; [exact e|exact N].
Qed.

(** ** number of values of a cell *)
Lemma cell_length fuel prm c out prm' : legal_time_step (p_time_step prm) -> (p_time_step prm < 1440)%Z ->
  run_cell fuel prm c = Some (Ok out, prm') -> forall name v, dict_get out name = Some v ->
  List.length v = (List.length (dl_doy (cd_daily c)) * steps (p_time_step prm))%nat.
Proof.
  intros L Lt H name v V. destruct (cell_forcing _ _ _ _ _ Lt H) as (g & df & s1 & s2 & G & Doy & _ & _ & _ & X).
  destruct (disaggregate_shape _ _ _ _ _ _ X L) as [_ Ln]. rewrite Doy in Ln. apply Ln with name. now apply dict_get_In.
Qed.

Local Open Scope Z_scope.
(** ** the records of a file in terms of the results of the cell *)
Lemma right_values fuel inp freq st n pe : NoDup (keys (ri_out_vars inp)) ->
  let ts := p_time_step (ri_prm inp) in
  legal_time_step ts -> (ts < 1440 \/ forall c df prm' name col, cell_in_grid (ri_dims inp) c -> run_cell fuel (ri_prm inp) (ri_data inp c) = Some (Ok df, prm') ->
    dict_get df name = Some col -> List.length col = n) -> (1 <= n)%nat -> match freq with Some bin => monotone_bins bin | None => True end ->
  output_axis st (st + (Z.of_nat n - 1) * 1440) ts pe = Ok (ri_axis inp) ->
  get_output_times freq st (st + (Z.of_nat n - 1) * 1440) ts pe = Ok (ri_groups inp) ->
  (forall c, cell_in_grid (ri_dims inp) c -> List.length (dl_doy (cd_daily (ri_data inp c))) = n) ->
  forall f g v name unit c x, nth_error (ri_groups inp) f = Some g -> nth_error (ri_out_vars inp) v = Some (name, unit) ->
    cell_in_grid (ri_dims inp) c -> right_records fuel inp f v c x ->
  List.length x = List.length g /\
    forall k t, nth_error g k = Some t -> exists i, t = st + (Z.of_nat i + (if pe then 1 else 0)) * ts /\
      (active (ri_mask inp c) -> exists df prm' conv col y, run_cell fuel (ri_prm inp) (ri_data inp c) = Some (Ok df, prm') /\
         converter_for name unit = Ok conv /\ dict_get df name = Some col /\ nth_error col i = Some y /\ nth_error x k = Some (conv y ts)) /\
      (~ active (ri_mask inp c) -> nth_error x k = Some None).
Proof.
  intros NV ts L Lt Hn Mb Ax Gr Dn f g v name unit c x Hg Hv Hc Rx.
  assert (Gn : nth f (ri_groups inp) [] = g) by (now apply nth_error_nth). assert (Ig : In g (ri_groups inp)) by (now apply nth_error_In in Hg).
  assert (Nn : nth v (keys (ri_out_vars inp)) "" = name).
  { unfold keys. apply nth_error_nth. rewrite nth_error_map, Hv. reflexivity. }
  destruct (output_axis_exact st (Z.of_nat n) ts pe L ltac:(lia)) as (axis & Ax' & La & Na & Sa).
  assert (axis = ri_axis inp) by (apply Ok_inj; congruence). subst axis.
  destruct (times_concat freq st (Z.of_nat n) ts pe L ltac:(lia) Mb) as (axis' & groups' & B1 & B2 & B3).
  assert (Ea : axis' = ri_axis inp) by (apply Ok_inj; congruence). assert (Eg : groups' = ri_groups inp) by (apply Ok_inj; congruence).
  rewrite Ea, Eg in B3. clear B1 B2 Ea Eg.
  assert (Pt : forall k t, nth_error g k = Some t -> exists i, nth_error (ri_axis inp) i = Some t /\ t = st + (Z.of_nat i + (if pe then 1 else 0)) * ts).
  { intros k t K. assert (I : In t (ri_axis inp)). { rewrite <- B3. apply in_concat. exists g. split; auto. now apply nth_error_In in K. }
    apply In_nth_error in I as (i & I). exists i. split; auto.
    assert (Li : (i < List.length (ri_axis inp))%nat) by (apply nth_error_Some; congruence). specialize (Na i Li). congruence. }
  assert (Rec : forall vals : list fl, List.length vals = List.length (ri_axis inp) ->
    List.length (file_records (ri_axis inp) vals g) = List.length g /\
    forall k i t, nth_error g k = Some t -> nth_error (ri_axis inp) i = Some t -> nth_error (file_records (ri_axis inp) vals g) k = nth_error vals i).
  { intros vals Lv. eapply records_exact; eauto. lia. }
  destruct Rx as [(Ac & vs & (df & prm' & Rn & Cv) & ->)|(Na' & ->)]; unfold cell_records; cbv zeta; rewrite Nn, Gn.
  - destruct (converted _ _ _ _ Cv NV v name unit Hv) as (conv & col & C1 & C2 & C3). unfold cell_series. rewrite C3.
    assert (Lc : List.length col = List.length (ri_axis inp)).
    { rewrite La, Z2Nat.inj_mul by (try lia; apply Z.div_pos; destruct L; lia). rewrite Nat2Z.id.
      destruct (Z.lt_ge_cases ts 1440) as [Lt'|Ge].
      - now rewrite (cell_length _ _ _ _ _ L Lt' Rn name col C2), (Dn c Hc).
      - destruct Lt as [Lt|Full]; [lia|]. rewrite (Full _ _ _ _ _ Hc Rn C2). destruct L as (_ & _ & [L|L]); [lia|]. rewrite L, Z.div_same by lia. cbn. lia. }
    destruct (Rec (map (fun y => conv y (p_time_step (ri_prm inp))) col)) as [R1 R2]; [now rewrite map_length|].
    split; [exact R1|]. intros k t K. destruct (Pt k t K) as (i & I & T). exists i. split; [exact T|]. split; [intros _|contradiction].
    destruct (nth_error col i) as [y|] eqn:Y.
    + exists df, prm', conv, col, y. split; [exact Rn|]. split; [exact C1|]. split; [exact C2|]. split; [exact Y|].
      rewrite (R2 k i t K I), nth_error_map, Y. reflexivity.
    + exfalso. apply nth_error_None in Y. assert (i < List.length (ri_axis inp))%nat by (apply nth_error_Some; congruence). unfold fl in *. lia.
  - unfold cell_series. destruct (Rec (repeat None (List.length (ri_axis inp))) (repeat_length _ _)) as [R1 R2].
    split; [exact R1|]. intros k t K. destruct (Pt k t K) as (i & I & T). exists i. split; [exact T|]. split; [contradiction|intros _].
    rewrite (R2 k i t K I). apply repeat_nth_error. apply nth_error_Some. congruence.
Qed.

Theorem files_hold_values fuel inp chunks ss outs freq st n pe pr pf :
  (chunks = [] \/ covers chunks (ri_dims inp)) -> positive_sizes (ri_dims inp) -> NoDup (keys (ri_dims inp)) ->
  slices chunks (ri_dims inp) = Ok ss -> workers_ok fuel inp ss outs -> NoDup (keys (ri_out_vars inp)) ->
  let ts := p_time_step (ri_prm inp) in
  legal_time_step ts -> (ts < 1440 \/ forall c df prm' name col, cell_in_grid (ri_dims inp) c -> run_cell fuel (ri_prm inp) (ri_data inp c) = Some (Ok df, prm') ->
    dict_get df name = Some col -> List.length col = n) -> (1 <= n)%nat -> match freq with Some bin => monotone_bins bin | None => True end ->
  output_axis st (st + (Z.of_nat n - 1) * 1440) ts pe = Ok (ri_axis inp) ->
  get_output_times freq st (st + (Z.of_nat n - 1) * 1440) ts pe = Ok (ri_groups inp) ->
  (forall c, cell_in_grid (ri_dims inp) c -> List.length (dl_doy (cd_daily (ri_data inp c))) = n) ->
  let S := run_system inp ss outs pr pf in
  forall old m s, exec S m (start S old) s -> finished S s ->
  forall f g v name unit c, nth_error (ri_groups inp) f = Some g -> nth_error (ri_out_vars inp) v = Some (name, unit) ->
    cell_in_grid (ri_dims inp) c ->
  exists x, disk s f v c = Some x /\ List.length x = List.length g /\
    forall k t, nth_error g k = Some t -> exists i, t = st + (Z.of_nat i + (if pe then 1 else 0)) * ts /\
      (active (ri_mask inp c) -> exists df prm' conv col y, run_cell fuel (ri_prm inp) (ri_data inp c) = Some (Ok df, prm') /\
         converter_for name unit = Ok conv /\ dict_get df name = Some col /\ nth_error col i = Some y /\ nth_error x k = Some (conv y ts)) /\
      (~ active (ri_mask inp c) -> nth_error x k = Some None).
Proof.
  intros Cov Pos ND E W NV ts L Lt Hn Mb Ax Gr Dn S old m s X Fin f g v name unit c Hg Hv Hc.
  assert (Hf : (f < List.length (ri_groups inp))%nat) by (apply nth_error_Some; congruence).
  assert (Hvl : (v < List.length (ri_out_vars inp))%nat) by (apply nth_error_Some; congruence).
  destruct (run_files fuel inp chunks ss outs Cov Pos ND E W pr pf old m s X Fin f v c Hf Hvl) as [A _].
  destruct (A Hc) as (x & Dx & Rx). exists x. split; [exact Dx|].
  exact (right_values fuel inp freq st n pe NV L Lt Hn Mb Ax Gr Dn f g v name unit c x Hg Hv Hc Rx).
Qed.
