From Coq Require Import ZArith Reals String List Bool Arith Lia.
From Verif Require Import Model.Py Model.Fl Model.Output Model.Machine Model.Cell Model.Run
  Spec.GridSpec Spec.CellSpec Spec.WriterSpec Proofs.Base Proofs.ChunkProofs Proofs.MachineProofs Proofs.SliceProofs.
Import ListNotations.
Local Open Scope list_scope.

Section W.
Context {cell value : Type} (S : system cell value).
Context (D : disjoint_owners S).

Lemma complete_run_correct s : reachable S s -> finished S s ->
  forall f v c, f < nfiles S -> v < nvars S -> point_correct S s f v c.
Proof. intros (old & n & X) F f v c Hf Hv. exact (final_content S D old n s X F f v c Hf Hv). Qed.

Lemma crash_point s : reachable S s ->
  forall f v c, f < nfiles S ->
    disk s f v c = None \/
    exists w x, w < nworkers S /\ payload S w f v c = Some x /\ disk s f v c = Some x.
Proof. intros (old & n & X). exact (intermediate_content S D old n s X). Qed.

Lemma rerun_repairs crashed n s clean n' s' :
  exec S n (start S (disk crashed)) s -> finished S s ->
  exec S n' (start S clean) s' -> finished S s' ->
  forall f v c, f < nfiles S -> v < nvars S -> disk s f v c = disk s' f v c.
Proof.
  intros X F X' F' f v c Hf Hv.
  destruct (final_content S D _ _ _ X F f v c Hf Hv) as [A B].
  destruct (final_content S D _ _ _ X' F' f v c Hf Hv) as [A' B'].
  assert (Dec : (exists w x, w < nworkers S /\ payload S w f v c = Some x) \/
                (forall w, w < nworkers S -> payload S w f v c = None)).
  { generalize (nworkers S). induction n0 as [|m [(w & x & I1 & I2)|IH]].
    - right; intros; lia.
    - left. exists w, x. split; auto.
    - destruct (payload S m f v c) as [x|] eqn:P.
      + left. exists m, x. auto.
      + right. intros w Hw. destruct (Nat.eq_dec w m) as [->|]; auto. apply IH; lia. }
  destruct Dec as [(w & x & Hw & P)|N].
  - rewrite (A w x), (A' w x); auto.
  - rewrite B, B'; auto.
Qed.

Lemma no_deadlock s : reachable S s -> ~ finished S s -> exists w s', step S s w = Some s'.
Proof. intros (old & n & X). exact (progress S D old n s X). Qed.
Lemma run_can_finish s : reachable S s -> exists old m s', exec S m (start S old) s' /\ finished S s'.
Proof. intros (old & n & X). destruct (can_finish S D old n s X) as (m & s' & _ & H). eauto. Qed.
End W.

(** two chunkings of one run *)
Theorem chunking_transparent fuel inp chunks1 chunks2 ss1 ss2 outs1 outs2 p1 q1 p2 q2 old1 old2 n1 n2 s1 s2 :
  (chunks1 = [] \/ covers chunks1 (ri_dims inp)) -> (chunks2 = [] \/ covers chunks2 (ri_dims inp)) ->
  positive_sizes (ri_dims inp) -> NoDup (keys (ri_dims inp)) ->
  slices chunks1 (ri_dims inp) = Ok ss1 -> slices chunks2 (ri_dims inp) = Ok ss2 ->
  workers_ok fuel inp ss1 outs1 -> workers_ok fuel inp ss2 outs2 ->
  let S1 := run_system inp ss1 outs1 p1 q1 in
  let S2 := run_system inp ss2 outs2 p2 q2 in
  exec S1 n1 (start S1 old1) s1 -> finished S1 s1 ->
  exec S2 n2 (start S2 old2) s2 -> finished S2 s2 ->
  forall f v c, f < List.length (ri_groups inp) -> v < List.length (ri_out_vars inp) ->
    disk s1 f v c = disk s2 f v c.
Proof.
  intros C1 C2 Pos ND E1 E2 W1 W2 S1 S2 X1 F1 X2 F2 f v c Hf Hv.
  destruct (run_files fuel inp chunks1 ss1 outs1 C1 Pos ND E1 W1 p1 q1 old1 n1 s1 X1 F1 f v c Hf Hv) as [A1 B1].
  destruct (run_files fuel inp chunks2 ss2 outs2 C2 Pos ND E2 W2 p2 q2 old2 n2 s2 X2 F2 f v c Hf Hv) as [A2 B2].
  assert (Dec : cell_in_grid (ri_dims inp) c \/ ~ cell_in_grid (ri_dims inp) c).
  { clear. unfold cell_in_grid. generalize (ri_dims inp) as dl. revert c.
    induction c as [|i c IH]; intros [|d dl].
    - left; constructor.
    - right; intros H; inversion H.
    - right; intros H; inversion H.
    - destruct (le_lt_dec (snd d) i).
      + right; intros H; inversion H; subst; lia.
      + destruct (IH dl) as [G|G]; [left; constructor; auto | right; intros H; inversion H; subst; auto]. }
  destruct Dec as [G|G].
  - destruct (A1 G) as (x1 & -> & R1). destruct (A2 G) as (x2 & -> & R2). f_equal.
    eapply right_records_fun; eauto.
  - rewrite B1, B2; auto.
Qed.

Lemma run_owners_disjoint fuel inp chunks ss outs p q :
  (chunks = [] \/ covers chunks (ri_dims inp)) ->
  positive_sizes (ri_dims inp) -> NoDup (keys (ri_dims inp)) ->
  slices chunks (ri_dims inp) = Ok ss -> workers_ok fuel inp ss outs ->
  disjoint_owners (run_system inp ss outs p q).
Proof. intros C Pos ND E W. exact (run_disjoint inp chunks ss outs C Pos ND E p q). Qed.

Lemma partial_chunks_nothing_written chunks inp ss outs pr pf d n :
  chunks <> [] -> In (d, n) (ri_dims inp) -> ~ In d (keys chunks) ->
  slices chunks (ri_dims inp) = Ok ss ->
  let S := run_system inp ss outs pr pf in
  forall old k s, exec S k (start S old) s ->
  forall f v c, f < List.length (ri_groups inp) -> disk s f v c = None.
Proof.
  intros NE I N E S old k s X f v c Hf.
  apply (no_payload_no_write S old k s); auto.
  intros w f' v' c' Hw. eapply partial_chunks_payload; eauto.
Qed.
