(** metsim/metsim.py:173-222 and 330-352: the dask scheduler, the client of
    a run, its progress bar and its cleaning up.  [isfile] is
    [os.path.isfile]; clients come up. *)
From Coq Require Import ZArith String List Bool.
From Verif Require Import Model.Py.
Import ListNotations.
Local Open Scope string_scope.
Local Open Scope list_scope.

(** :63-64 *)
Definition DASK_CORE_SCHEDULERS : list string :=
  ["multiprocessing"; "threading"; "synchronous"; "processes"; "threads"; "single-threaded"; "sync"].

(** [distributed.Client]: a client made without address starts a cluster of
    its own, one made from an address or a file has [cluster = None] *)
Record cluster := mk_cluster { cluster_workers : Z; cluster_up : bool }.
Record client := mk_client { cl_cluster : option cluster; cl_open : bool }.

(** [self.progress_bar]: [dask.diagnostics.ProgressBar()] is not callable,
    [distributed.progress] and the lambdas are *)
Inductive bar := BarObject | BarFunction.

Record session := mk_session
  { s_config : option string     (* dask.config scheduler, None = not set here *)
  ; s_client : option client
  ; s_bar : bar }.

(** [__init__], :173-222; [parent] is [domain_slice is NO_SLICE] (:194),
    [debug] is [verbose == logging.DEBUG] *)
Definition init (isfile : string -> bool) (parent debug : bool) (workers : Z) (scheduler : string) : session :=
  let s :=
    if parent then
      if existsb (String.eqb scheduler) DASK_CORE_SCHEDULERS
      then mk_session (Some scheduler) None BarObject                                     (* :195-196 *)
      else if "distributed" =? scheduler
      then mk_session None (Some (mk_client (Some (mk_cluster workers true)) true))       (* :199-204 *)
                      (if debug then BarFunction else BarObject)
      else if isfile scheduler
      then mk_session None (Some (mk_client None true)) BarObject                         (* :205-207 *)
      else mk_session None (Some (mk_client None true)) BarObject                         (* :208-209 *)
    else mk_session (Some scheduler) None BarObject in                                    (* :210-211 *)
  mk_session (s_config s) (s_client s)
    (if debug
     then if "distributed" =? scheduler then s_bar s else BarFunction                     (* :215-218 *)
     else BarFunction).                                                                   (* :219-221 *)

(** :345-352; an exception of the clean-up is dropped *)
Definition clean_up (s : session) : session :=
  match s_client s with
  | None => s
  | Some c =>
    match cl_cluster c with
    | None => s
    | Some k => mk_session (s_config s) (Some (mk_client (Some (mk_cluster (cluster_workers k) false)) false)) (s_bar s)
    end
  end.

Definition call_bar (b : bar) : res unit :=
  match b with BarObject => Err TypeError | BarFunction => Ok tt end.

(** [run], :330-352: [before] is what happens up to :341, [compute] the
    evaluation of the slices (:343) *)
Definition run (before compute : res unit) (s : session) : session * res unit :=
  match (do _ <- before; do _ <- call_bar (s_bar s); compute) with
  | Err e => (s, Err e)
  | Ok _ => (clean_up s, Ok tt)
  end.
