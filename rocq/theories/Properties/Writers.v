(** C02, C04, C05: the writing phase. *)
From Coq Require Import List Bool Arith Lia.
From Verif Require Import Model.Machine Spec.WriterSpec Proofs.MachineProofs Proofs.SliceProofs Proofs.WriterProofs.
Import ListNotations.

(** C02: whatever the interleaving, after all workers finished every point of
    every file holds the series of the worker owning it. *)
Theorem C02_no_lost_update : forall cell value (S : system cell value),
  disjoint_owners S ->
  forall s, reachable S s -> finished S s ->
  forall f v c, f < nfiles S -> v < nvars S -> point_correct S s f v c.
Proof. exact @complete_run_correct. Qed.
Print Assumptions C02_no_lost_update.

(** C04: at every intermediate point of every schedule a point is unwritten
    or final. *)
Theorem C04_crash_leaves_unwritten_or_correct : forall cell value (S : system cell value),
  disjoint_owners S ->
  forall s, reachable S s ->
  forall f v c, f < nfiles S ->
    disk s f v c = None \/
    exists w x, w < nworkers S /\ payload S w f v c = Some x /\ disk s f v c = Some x.
Proof. exact @crash_point. Qed.
Print Assumptions C04_crash_leaves_unwritten_or_correct.

(** C04: a complete run over the directory left by a crash produces the same
    files as a complete run over any other directory. *)
Theorem C04_rerun_repairs : forall cell value (S : system cell value),
  disjoint_owners S ->
  forall (crashed : state cell value) n s clean n' s',
  exec S n (start S (disk crashed)) s -> finished S s ->
  exec S n' (start S clean) s' -> finished S s' ->
  forall f v c, f < nfiles S -> v < nvars S -> disk s f v c = disk s' f v c.
Proof. exact @rerun_repairs. Qed.
Print Assumptions C04_rerun_repairs.

(** C04: files that are not part of the run are left alone. *)
Theorem C04_other_files_untouched : forall cell value (S : system cell value) old n s,
  exec S n (start S old) s -> forall f, nfiles S <= f -> disk s f = old f.
Proof. exact @other_files_untouched. Qed.
Print Assumptions C04_other_files_untouched.

(** C05: no reachable state with an unfinished worker is stuck ... *)
Theorem C05_no_deadlock : forall cell value (S : system cell value),
  disjoint_owners S ->
  forall s, reachable S s -> ~ finished S s -> exists w s', step S s w = Some s'.
Proof. exact @no_deadlock. Qed.
Print Assumptions C05_no_deadlock.

(** ... every schedule has a bounded number of program steps ... *)
Theorem C05_schedules_bounded : forall cell value (S : system cell value) old n s,
  exec S n (start S old) s -> n <= nworkers S * (nfiles S * (6 + nvars S)).
Proof. exact @steps_bounded. Qed.
Print Assumptions C05_schedules_bounded.

(** ... and every reachable state can be run to completion. *)
Theorem C05_can_finish : forall cell value (S : system cell value),
  disjoint_owners S ->
  forall old n s, exec S n (start S old) s ->
  exists m s', n <= m /\ exec S m (start S old) s' /\ finished S s'.
Proof. exact @can_finish. Qed.
Print Assumptions C05_can_finish.

(** Two workers of two processes, two files, two variables; worker w owns
    cell w.  File 0 is locked process part first, file 1 file part first. *)
Definition demo : system nat nat :=
  {| nfiles := 2; nvars := 2; nworkers := 2; proc_of := fun w => w; proc_first := fun f => f =? 0;
     payload := fun w f v c => if c =? w then Some (100 * w + 10 * f + v) else None |}.

Lemma demo_disjoint : disjoint_owners demo.
Proof.
  intros w w' f v c x y _ _. simpl.
  destruct (Nat.eqb_spec c w), (Nat.eqb_spec c w'); subst; congruence.
Qed.

Example C02_case : disjoint_owners demo /\
  exists s, reachable demo s /\ finished demo s /\ disk s 1 1 1 = Some 111 /\ disk s 0 1 0 = Some 1.
Proof.
  split; [exact demo_disjoint|].
  destruct (can_finish demo demo_disjoint (fun _ _ _ => None) 0 _ (exec_refl _ _))
    as (m & s & _ & X & F).
  exists s. assert (R : reachable demo s) by (exists (fun _ _ _ => None), m; exact X).
  split; [exact R|]. split; [exact F|].
  destruct (complete_run_correct demo demo_disjoint s R F 1 1 1) as [A _]; try (simpl; lia).
  destruct (complete_run_correct demo demo_disjoint s R F 0 1 0) as [B _]; try (simpl; lia).
  split; [apply (A 1 111) | apply (B 0 1)]; simpl; auto.
Qed.

Example C04_case : exists s, reachable demo s /\ ~ finished demo s /\ ws s 0 <> mkw 0 Idle.
Proof.
  exists (match step demo (start demo (fun _ _ _ => None)) 0 with Some s => s | None => start demo (fun _ _ _ => None) end).
  split; [|split].
  - exists (fun _ _ _ => None), 1. eapply (exec_step demo 0 _ 0); [apply exec_refl|]. reflexivity.
  - intros F. specialize (F 0 ltac:(simpl; lia)). simpl in F. lia.
  - simpl. discriminate.
Qed.

