(** C120: workers that die and are run again. *)
From Coq Require Import List Bool Arith Lia.
From Verif Require Import Model.Machine Model.Restart Spec.WriterSpec Proofs.MachineProofs Proofs.SliceProofs Proofs.RestartProofs Properties.Writers.
Import ListNotations.

(** However often and wherever workers die and are run again, a run that
    finishes leaves every point of every file with the series of the worker
    owning it ... *)
Theorem C120_content : forall cell value (S : system cell value), disjoint_owners S ->
  forall freed old n k s, exec_again S freed n k (start S old) s -> finished S s ->
  forall f v c, f < nfiles S -> v < nvars S -> point_correct S s f v c.
Proof. exact @again_correct. Qed.
Print Assumptions C120_content.

(** ... which are the files of a run in which nobody died. *)
Theorem C120_same_files : forall cell value (S : system cell value), disjoint_owners S ->
  forall freed old n k s old' n' s', exec_again S freed n k (start S old) s -> finished S s ->
  exec S n' (start S old') s' -> finished S s' ->
  forall f v c, f < nfiles S -> v < nvars S -> disk s f v c = disk s' f v c.
Proof. exact @again_same. Qed.
Print Assumptions C120_same_files.

(** At no time does a point hold anything but nothing or its final value, *)
Theorem C120_unwritten_or_correct : forall cell value (S : system cell value), disjoint_owners S ->
  forall freed old n k s, exec_again S freed n k (start S old) s ->
  forall f v c, f < nfiles S -> disk s f v c = None \/
    exists w x, w < nworkers S /\ payload S w f v c = Some x /\ disk s f v c = Some x.
Proof. exact @again_crash. Qed.
Print Assumptions C120_unwritten_or_correct.

(** and files of other runs are left alone. *)
Theorem C120_other_files : forall cell value (S : system cell value) freed old n k s,
  exec_again S freed n k (start S old) s -> forall f, nfiles S <= f -> disk s f = old f.
Proof. exact @again_others. Qed.
Print Assumptions C120_other_files.

(** Every restart costs at most the steps of one worker. *)
Theorem C120_bounded : forall cell value (S : system cell value) freed old n k s,
  exec_again S freed n k (start S old) s -> n <= (nworkers S + k) * (nfiles S * (6 + nvars S)).
Proof. exact @again_bounded. Qed.
Print Assumptions C120_bounded.

(** When the locks of the dead are freed, the run is never stuck and can
    always be finished without another restart; *)
Theorem C120_no_deadlock_partial : forall cell value (S : system cell value) old n k s,
  exec_again S true n k (start S old) s -> ~ finished S s -> exists w s', step S s w = Some s'.
Proof. exact @again_progress. Qed.
Print Assumptions C120_no_deadlock_partial.

Theorem C120_can_finish_partial : forall cell value (S : system cell value) old n k s,
  exec_again S true n k (start S old) s ->
  exists m s', n <= m /\ exec_again S true m k (start S old) s' /\ finished S s'.
Proof. exact @again_can_finish. Qed.
Print Assumptions C120_can_finish_partial.

(** when they are not, a worker that dies with the lock of a file in hand
    keeps the run from finishing, whatever happens afterwards. *)
Theorem C120_lock_kept : forall cell value (S : system cell value), disjoint_owners S ->
  forall old n k s w f n' k' s', exec_again S false n k (start S old) s -> w < nworkers S -> f < nfiles S ->
  file_lock s f = Some w -> exec_again S false n' k' (restart false s w) s' -> ~ finished S s'.
Proof. exact @kept_lock. Qed.
Print Assumptions C120_lock_kept.

(** Such a state is two steps away: the first worker has taken the locks of
    the first file. *)
Theorem C120_finishes_refuted : exists s, exec_again demo false 2 0 (start demo (fun _ _ _ => None)) s /\
  forall n k s', exec_again demo false n k (restart false s 0) s' -> ~ finished demo s'.
Proof. exact (taken_never_finishes demo demo_disjoint (fun _ _ _ => None) 0 ltac:(simpl; lia) ltac:(simpl; lia) eq_refl). Qed.
Print Assumptions C120_finishes_refuted.

(** The same two steps and death with locks that are freed: the run
    finishes, and the cell of the dead worker has its values. *)
Example C120_case : exists s n s', exec_again demo true 2 0 (start demo (fun _ _ _ => None)) s /\ file_lock s 0 = Some 0 /\
  exec_again demo true n 1 (start demo (fun _ _ _ => None)) s' /\ finished demo s' /\ disk s' 0 1 0 = Some 1 /\ disk s' 1 0 1 = Some 110.
Proof. exact (taken_finishes demo demo_disjoint (fun _ _ _ => None) 0 0 1 0 1 1 1 0 1 110 ltac:(simpl; lia) ltac:(simpl; lia) eq_refl
  ltac:(simpl; lia) ltac:(simpl; lia) ltac:(simpl; lia) ltac:(simpl; lia) ltac:(simpl; lia) eq_refl eq_refl). Qed.
