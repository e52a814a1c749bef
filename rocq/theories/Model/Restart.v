(** The machine of Model/Machine.v with workers that die and are run again:
    the tasks of metsim/metsim.py:338-343 are run by dask, which starts a task
    anew when the process that ran it, or that kept its result, is lost.

    A dead worker loses its buffer; what it flushed stays on the disk.  The
    lock of its process (NETCDFC_LOCK) ends with the process.  Whether the
    lock of the file is freed is up to the lock service ([freed]): the locks
    of distributed are kept on the scheduler, which in older versions never
    takes them back. *)
From Coq Require Import List Bool Arith.
From Verif Require Import Model.Machine.

Section Restart.
Context {cell value : Type}.
Context (S : system cell value).
Context (freed : bool).

Definition without (w : nat) (lock : nat -> option nat) : nat -> option nat :=
  fun k => match lock k with Some h => if h =? w then None else Some h | None => None end.

Definition restart (s : state cell value) (w : nat) : state cell value :=
  mkstate (upd_nat (ws s) w (mkw 0 Idle)) (disk s) (without w (proc_lock s))
    (if freed then without w (file_lock s) else file_lock s).

(** executions with [n] program steps and [k] restarts *)
Inductive exec_again : nat -> nat -> state cell value -> state cell value -> Prop :=
| again_refl : forall s, exec_again 0 0 s s
| again_step : forall n k s w s' s'', exec_again n k s s' -> step S s' w = Some s'' -> exec_again (n + 1) k s s''
| again_flush : forall n k s s' s'', exec_again n k s s' -> flush S s' s'' -> exec_again n k s s''
| again_restart : forall n k s w s', exec_again n k s s' -> w < nworkers S -> exec_again n (k + 1) s (restart s' w).
End Restart.
