(** Runs over dates without gaps: the number of days from the first to the
    last date is the number of rows. *)
From Coq Require Import ZArith Reals String List Bool Arith Lia Lra.
From Verif Require Import Model.Py Model.Fl Model.Np Model.Constants Model.Calendar Model.Physics Model.Params Model.Disagg Model.Mtclim
  Model.State Model.Validate Model.Output Model.Cell Model.Worker
  Spec.StateSpec Spec.RowsSpec Proofs.Base Proofs.SettingsProofs Proofs.SliceProofs Proofs.CellProofs.
Import ListNotations.
Local Open Scope string_scope.
Local Open Scope list_scope.

(** only the span of the frames that occur matters *)
Lemma run_cell_by_ext f g fuel prm c : (forall df, dl_doy df = dl_doy (cd_daily c) -> f df = g df) ->
  run_cell_by f fuel prm c = run_cell_by g fuel prm c.
Proof.
  intros H. unfold run_cell_by. cbv zeta. destruct (bind _ _) as [[sg df]|e] eqn:P; [|reflexivity].
  apply bind_inv in P as (g0 & _ & P). apply bind_inv in P as (dl & _ & P). apply bind_inv in P as (po & _ & P).
  apply bind_inv in P as (tt_ & _ & P). apply ok_inj in P. injection P as <- <-.
  destruct (run_method _ _ _) as [[df1|e]|] eqn:M; [|reflexivity|reflexivity].
  apply method_keeps in M as (D & _). rewrite (H df1); [reflexivity|exact D].
Qed.

Lemma run_cell_rows n fuel prm c : List.length (dl_doy (cd_daily c)) = n -> run_cell_over n fuel prm c = run_cell fuel prm c.
Proof. intros H. apply run_cell_by_ext. intros df D. now rewrite D. Qed.

(** a cell that is not there has no columns *)
Lemma run_no_cell f g fuel prm : run_cell_by f fuel prm no_cell = run_cell_by g fuel prm no_cell.
Proof.
  unfold run_cell_by. cbv zeta. destruct (bind _ _) as [[sg df]|e] eqn:P; [|reflexivity].
  apply bind_inv in P as (g0 & _ & P). apply bind_inv in P as (dl & _ & P). apply bind_inv in P as (po & _ & P).
  apply bind_inv in P as (tt_ & _ & P). apply ok_inj in P. injection P as <- <-.
  unfold run_method. destruct (_ =? "mtclim"); [reflexivity|]. destruct (_ =? "passthrough"); reflexivity.
Qed.

Lemma run_cells_by_ext one two ov mask data : forall cells prm out,
  (forall prm c, In c cells -> one prm (data c) = two prm (data c)) ->
  run_cells_by one ov mask data cells prm out = run_cells_by two ov mask data cells prm out.
Proof.
  induction cells as [|c cells IH]; intros prm out H; [reflexivity|]. cbn [run_cells_by]. rewrite (H prm c (or_introl eq_refl)).
  assert (T : forall p x, In x cells -> one p (data x) = two p (data x)) by (intros p x X; apply H; now right).
  destruct (fgt _ _); [|now apply IH]. destruct (two _ _) as [[[df|e] prm']|]; [|reflexivity|reflexivity].
  destruct (convert_outputs _ _ _); [|reflexivity]. now apply IH.
Qed.

(** the rows of a loaded cell are the dates *)
Lemma loaded_rows prm start stop days r c0 c : load_cell start stop days r = Ok c0 -> monthly_cell prm days r c0 = Ok c ->
  dl_doy (cd_daily c) = map (fun d => Z.to_nat (dayofyear d)) days.
Proof.
  unfold load_cell, load_cell_over, monthly_cell. intros H G.
  apply bind_inv in H as (a & _ & H). apply bind_inv in H as (b & _ & H). apply bind_inv in H as (d & _ & H). apply bind_inv in H as (ag & _ & H).
  apply ok_inj in H. subst c0. destruct (str_in _ _).
  - apply bind_inv in G as (x & _ & G). apply bind_inv in G as (y & _ & G). apply bind_inv in G as (z & _ & G). apply ok_inj in G. now subst c.
  - apply ok_inj in G. now subst c.
Qed.

Lemma span_dates start n : date_span (dates_from start n) = n.
Proof.
  unfold dates_from. destruct n as [|n]; [reflexivity|]. cbn [seq map date_span].
  assert (L : forall m d, last (map (fun k => (start + Z.of_nat k)%Z) (seq 1 m)) d = match m with O => d | S _ => (start + Z.of_nat m)%Z end).
  { intros m d. destruct m as [|m]; [reflexivity|]. rewrite seq_S, map_app. cbn [map]. rewrite last_last. do 2 f_equal. }
  rewrite L. destruct n; lia.
Qed.

(** the worker over dates without gaps *)
Lemma nth_cell_cases cells data c : nth_cell cells data no_cell c = no_cell \/ In (nth_cell cells data no_cell c) data.
Proof.
  unfold nth_cell. destruct (find _ _) as [p|] eqn:F; [right|now left]. apply find_some in F as [F _]. destruct p. now apply in_combine_r in F.
Qed.

Theorem run_rows fuel prm w : run_worker_rows fuel prm w =
  let prep :=
    do data <- load_slice (wk_start w) (wk_stop w) (wk_days w) (wk_cells w);
    do _ <- validate_setup (wk_setup w);
    mapM (fun rc => monthly_cell prm (wk_days w) (fst rc) (snd rc)) (combine (wk_cells w) data) in
  match prep with
  | Err e => Some (Err e)
  | Ok data =>
      match run_slice fuel (wk_out_vars w) (wk_shape w) (wk_mask w)
              (nth_cell (indices (wk_shape w)) data no_cell) prm with
      | None => None
      | Some (r, _) => Some r
      end
  end.
Proof.
  unfold run_worker_rows. cbv zeta. destruct (bind _ _) as [data|e] eqn:P; [|reflexivity].
  unfold run_slice, run_slice_by. rewrite (run_cells_by_ext _ (run_cell fuel)); [reflexivity|].
  intros p c _. destruct (nth_cell_cases (indices (wk_shape w)) data c) as [->|I]; [apply run_no_cell|].
  apply run_cell_rows.
  apply bind_inv in P as (data0 & Ld & P). apply bind_inv in P as (u & _ & P).
  unfold load_slice in Ld. apply bind_inv in Ld as (u1 & _ & Ld). apply bind_inv in Ld as (u2 & _ & Ld).
  apply mapM_inv in Ld, P. apply In_nth_error in I as (i & I). revert I. generalize (nth_cell (indices (wk_shape w)) data no_cell c) as d. intros d I.
  revert i I. generalize dependent data. induction Ld as [|r c0 cs ds L1 L2 IH]; intros data Q i I; cbn [combine] in Q.
  - inversion Q. subst. destruct i; discriminate.
  - inversion Q as [|x y l l' M1 M2]. subst. destruct i as [|i]; [|now apply (IH l' M2 i)]. injection I as <-. cbn [fst snd] in M1.
    rewrite (loaded_rows _ _ _ _ _ _ _ L1 M1), map_length. reflexivity.
Qed.

Theorem run_worker_is_rows fuel prm w : date_span (wk_days w) = List.length (wk_days w) -> run_worker fuel prm w = run_worker_rows fuel prm w.
Proof. intros Sp. unfold run_worker, run_worker_rows. now rewrite Sp. Qed.

Theorem run_worker_dates fuel prm w : date_span (wk_days w) = List.length (wk_days w) -> run_worker fuel prm w =
  let prep :=
    do data <- load_slice (wk_start w) (wk_stop w) (wk_days w) (wk_cells w);
    do _ <- validate_setup (wk_setup w);
    mapM (fun rc => monthly_cell prm (wk_days w) (fst rc) (snd rc)) (combine (wk_cells w) data) in
  match prep with
  | Err e => Some (Err e)
  | Ok data =>
      match run_slice fuel (wk_out_vars w) (wk_shape w) (wk_mask w)
              (nth_cell (indices (wk_shape w)) data no_cell) prm with
      | None => None
      | Some (r, _) => Some r
      end
  end.
Proof. intros Sp. rewrite run_worker_is_rows by exact Sp. apply run_rows. Qed.
