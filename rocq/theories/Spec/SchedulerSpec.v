(** What a run leaves behind, for C124. *)
From Coq Require Import ZArith String List Bool.
From Verif Require Import Model.Py Model.Scheduler.
Import ListNotations.
Local Open Scope string_scope.

(** nothing keeps running and no connection is held *)
Definition released (s : session) : Prop :=
  forall c, s_client s = Some c -> cl_open c = false /\ forall k, cl_cluster c = Some k -> cluster_up k = false.

(** dask's own names: [dask.base.named_schedulers] and the two names of the
    distributed scheduler *)
Definition dask_names : list string :=
  ["sync"; "synchronous"; "single-threaded"; "threads"; "threading"; "processes"; "multiprocessing";
   "distributed"; "dask.distributed"].
