(** C124: scheduler, client and progress bar. *)
From Coq Require Import ZArith String List Bool Lia.
From Verif Require Import Model.Py Model.Scheduler Spec.SchedulerSpec.
Import ListNotations.
Local Open Scope string_scope.
Local Open Scope list_scope.

Lemma core_spec s : existsb (String.eqb s) DASK_CORE_SCHEDULERS = true <-> In s DASK_CORE_SCHEDULERS.
Proof.
  rewrite existsb_exists. split.
  - intros (x & Hx & E). apply String.eqb_eq in E. now subst.
  - intros H. exists s. split; [exact H|apply String.eqb_refl].
Qed.

Lemma core_not_distributed : ~ In "distributed" DASK_CORE_SCHEDULERS.
Proof. intros H. apply core_spec in H. discriminate. Qed.

Theorem worker_session isfile debug n sched :
  s_client (init isfile false debug n sched) = None /\ s_config (init isfile false debug n sched) = Some sched.
Proof. split; reflexivity. Qed.

Theorem parent_session isfile debug n sched :
  (In sched DASK_CORE_SCHEDULERS ->
     s_client (init isfile true debug n sched) = None /\ s_config (init isfile true debug n sched) = Some sched) /\
  (sched = "distributed" ->
     s_client (init isfile true debug n sched) = Some (mk_client (Some (mk_cluster n true)) true)) /\
  (~ In sched DASK_CORE_SCHEDULERS -> sched <> "distributed" ->
     s_client (init isfile true debug n sched) = Some (mk_client None true)).
Proof.
  unfold init. destruct (existsb (String.eqb sched) DASK_CORE_SCHEDULERS) eqn:E.
  - apply core_spec in E. split; [split; reflexivity|]. split; [|tauto].
    intros ->. elim (core_not_distributed E).
  - assert (N : ~ In sched DASK_CORE_SCHEDULERS) by (intros H; apply core_spec in H; congruence).
    split; [tauto|]. destruct (String.eqb_spec "distributed" sched) as [D|D].
    + split; [reflexivity|]. intros _ H. now elim H.
    + split; [intros H; now elim D|]. intros _ _. now destruct (isfile sched).
Qed.

Theorem parent_bar isfile debug n sched : call_bar (s_bar (init isfile true debug n sched)) = Ok tt.
Proof.
  unfold init. destruct debug; [|reflexivity].
  destruct (String.eqb_spec "distributed" sched) as [<-|D]; [reflexivity|].
  destruct (existsb (String.eqb sched) DASK_CORE_SCHEDULERS); [reflexivity|]. now destruct (isfile sched).
Qed.

Theorem slice_bar isfile n compute :
  snd (run (Ok tt) compute (init isfile false true n "distributed")) = Err TypeError.
Proof. reflexivity. Qed.

Theorem run_exact isfile debug n sched before compute :
  snd (run before compute (init isfile true debug n sched)) = (do _ <- before; compute).
Proof.
  unfold run. rewrite parent_bar. destruct before as [[]|e]; cbn [bind]; [|reflexivity].
  now destruct compute as [[]|e].
Qed.

Lemma cleaned isfile debug n sched :
  released (clean_up (init isfile true debug n sched)) <-> In sched ("distributed" :: DASK_CORE_SCHEDULERS).
Proof.
  destruct (parent_session isfile debug n sched) as (A & B & C).
  destruct (in_dec string_dec sched DASK_CORE_SCHEDULERS) as [I|I].
  - destruct (A I) as [A1 _]. split; [intros _; now right|]. intros _. unfold clean_up. rewrite A1.
    intros c Hc. congruence.
  - destruct (string_dec sched "distributed") as [D|D].
    + split; [intros _; now left|]. intros _. unfold clean_up. rewrite (B D). cbn [cl_cluster].
      intros c Hc. cbn [s_client] in Hc. injection Hc as <-. split; [reflexivity|].
      intros k Hk. cbn [cl_cluster] in Hk. now injection Hk as <-.
    + split.
      * unfold clean_up. rewrite (C I D). cbn [cl_cluster]. intros H.
        destruct (H _ (C I D)) as [H1 _]. discriminate.
      * intros [H|H]; [now elim D|contradiction].
Qed.

Theorem run_released isfile debug n sched before compute :
  snd (run before compute (init isfile true debug n sched)) = Ok tt ->
  (released (fst (run before compute (init isfile true debug n sched))) <->
   In sched ("distributed" :: DASK_CORE_SCHEDULERS)).
Proof.
  unfold run. rewrite parent_bar. destruct before as [[]|e]; cbn [bind]; [|discriminate].
  destruct compute as [[]|e]; [|discriminate]. intros _. apply cleaned.
Qed.

Theorem failed_kept isfile debug n before compute e :
  snd (run before compute (init isfile true debug n "distributed")) = Err e ->
  ~ released (fst (run before compute (init isfile true debug n "distributed"))).
Proof.
  rewrite run_exact. intros H.
  assert (Q : fst (run before compute (init isfile true debug n "distributed")) = init isfile true debug n "distributed").
  { unfold run. rewrite parent_bar. destruct before as [[]|e0]; cbn [bind] in *; [|reflexivity].
    rewrite H. reflexivity. }
  rewrite Q. intros R. destruct (parent_session isfile debug n "distributed") as (_ & B & _).
  destruct (R _ (B eq_refl)) as [R1 _]. discriminate.
Qed.

Theorem worker_names isfile debug n sched name :
  s_config (init isfile false debug n sched) = Some name ->
  In sched ("distributed" :: DASK_CORE_SCHEDULERS) -> In name dask_names.
Proof.
  intros H I. cbn [init s_config] in H. injection H as <-. unfold dask_names, DASK_CORE_SCHEDULERS in *.
  cbn [In] in *. tauto.
Qed.

Theorem worker_address isfile debug n : exists name,
  s_config (init isfile false debug n "tcp://10.0.0.1:8786") = Some name /\ ~ In name dask_names.
Proof.
  eexists. split; [reflexivity|]. intros H. unfold dask_names in H. cbn [In] in H.
  repeat (destruct H as [H|H]; [discriminate|]). exact H.
Qed.
