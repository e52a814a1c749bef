(** C124: scheduler, client and progress bar of a run. *)
From Coq Require Import ZArith String List Bool.
From Verif Require Import Model.Py Model.Scheduler Spec.SchedulerSpec Proofs.SchedulerProofs.
Import ListNotations.
Local Open Scope string_scope.
Local Open Scope list_scope.

(** The worker of a slice never starts or joins a cluster. *)
Theorem C124_worker : forall isfile debug n sched,
  s_client (init isfile false debug n sched) = None /\ s_config (init isfile false debug n sched) = Some sched.
Proof. exact worker_session. Qed.
Print Assumptions C124_worker.

(** The parent opens no client for the schedulers of dask itself, a cluster
    with num_workers workers for 'distributed', and otherwise joins one. *)
Theorem C124_parent : forall isfile debug n sched,
  (In sched DASK_CORE_SCHEDULERS ->
     s_client (init isfile true debug n sched) = None /\ s_config (init isfile true debug n sched) = Some sched) /\
  (sched = "distributed" ->
     s_client (init isfile true debug n sched) = Some (mk_client (Some (mk_cluster n true)) true)) /\
  (~ In sched DASK_CORE_SCHEDULERS -> sched <> "distributed" ->
     s_client (init isfile true debug n sched) = Some (mk_client None true)).
Proof. exact parent_session. Qed.
Print Assumptions C124_parent.

Example C124_parent_case :
  s_client (init (fun _ => false) true true 4 "threads") = None /\
  s_client (init (fun _ => false) true true 4 "distributed") = Some (mk_client (Some (mk_cluster 4 true)) true) /\
  s_client (init (fun _ => false) true true 4 "Threads") = Some (mk_client None true).
Proof. repeat split; reflexivity. Qed.

(** Whatever the verbosity and the scheduler, the progress bar never
    decides the outcome of a run of the whole domain. *)
Theorem C124_outcome : forall isfile debug n sched before compute,
  snd (run before compute (init isfile true debug n sched)) = (do _ <- before; compute).
Proof. exact run_exact. Qed.
Print Assumptions C124_outcome.

Example C124_outcome_case :
  snd (run (Ok tt) (Ok tt) (init (fun _ => true) true true 2 "scheduler.json")) = Ok tt /\
  snd (run (Ok tt) (Err KeyError) (init (fun _ => true) true false 2 "distributed")) = Err KeyError.
Proof. split; reflexivity. Qed.

(** It does for [run] of an object made for a slice. *)
Theorem C124_slice_run_refuted : forall isfile n compute,
  snd (run (Ok tt) compute (init isfile false true n "distributed")) = Err TypeError.
Proof. exact slice_bar. Qed.
Print Assumptions C124_slice_run_refuted.

(** A run that completes leaves nothing running and no connection open
    exactly for the schedulers of dask itself and for 'distributed'. *)
Theorem C124_released_partial : forall isfile debug n sched before compute,
  snd (run before compute (init isfile true debug n sched)) = Ok tt ->
  (released (fst (run before compute (init isfile true debug n sched))) <->
   In sched ("distributed" :: DASK_CORE_SCHEDULERS)).
Proof. exact run_released. Qed.
Print Assumptions C124_released_partial.

Example C124_released_case :
  snd (run (Ok tt) (Ok tt) (init (fun _ => false) true false 2 "distributed")) = Ok tt /\
  s_client (fst (run (Ok tt) (Ok tt) (init (fun _ => false) true false 2 "distributed")))
    = Some (mk_client (Some (mk_cluster 2 false)) false) /\
  s_client (fst (run (Ok tt) (Ok tt) (init (fun _ => false) true false 2 "tcp://10.0.0.1:8786")))
    = Some (mk_client None true).
Proof. repeat split; reflexivity. Qed.

(** A run that fails keeps its cluster running. *)
Theorem C124_failed_refuted : forall isfile debug n before compute e,
  snd (run before compute (init isfile true debug n "distributed")) = Err e ->
  ~ released (fst (run before compute (init isfile true debug n "distributed"))).
Proof. exact failed_kept. Qed.
Print Assumptions C124_failed_refuted.

Example C124_failed_case :
  s_client (fst (run (Ok tt) (Err KeyError) (init (fun _ => false) true false 2 "distributed")))
    = Some (mk_client (Some (mk_cluster 2 true)) true).
Proof. reflexivity. Qed.

(** The scheduler that a worker hands to dask is one that dask knows, when
    it is one of these names; an address is handed on as it is. *)
Theorem C124_names_partial : forall isfile debug n sched name,
  s_config (init isfile false debug n sched) = Some name ->
  In sched ("distributed" :: DASK_CORE_SCHEDULERS) -> In name dask_names.
Proof. exact worker_names. Qed.
Print Assumptions C124_names_partial.

Theorem C124_names_refuted : forall isfile debug n, exists name,
  s_config (init isfile false debug n "tcp://10.0.0.1:8786") = Some name /\ ~ In name dask_names.
Proof. exact worker_address. Qed.
Print Assumptions C124_names_refuted.
