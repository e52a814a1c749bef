(** The writing phase of a run: [MetSim.run] (metsim/metsim.py:330-343) sets
    up every output file and starts one worker per slice; every worker
    executes [write_chunk] (metsim.py:438-454).

    Small-step machine.  Workers, files, variables are numbered; every worker
    handles the files 0..nf-1 in order (self._times) and in each file the
    variables 0..nv-1 in order.  A point of a file is a (variable, cell).

    Locks: write_locks[file] is combine_locks([NETCDFC_LOCK, file lock])
    (metsim.py:336).  NETCDFC_LOCK is one lock per process; the file lock
    excludes all workers of all processes.  The order in which the combined
    lock acquires its two parts is arbitrary but fixed per file
    ([proc_first]).

    File access: opening "r+" gives the worker a private buffer initialised
    from the disk; assignments go to the buffer; while the file is open any
    single point of the buffer may reach the disk at any time (library
    flush); closing stores the whole buffer. *)
From Coq Require Import List Bool Arith.
Import ListNotations.

Section Machine.
Context {cell value : Type}.

Definition content := nat -> cell -> option value.      (* variable, cell *)

Record system := mksystem {
  nfiles : nat;
  nvars : nat;
  nworkers : nat;
  proc_of : nat -> nat;                                 (* worker -> process *)
  proc_first : nat -> bool;                             (* file -> order of the lock parts *)
  payload : nat -> nat -> nat -> cell -> option value   (* worker, file, variable, cell *)
}.

Inductive phase :=
| Idle                          (* about to acquire the first lock part *)
| Half                          (* holds the first part *)
| Locked                        (* holds both, file not open *)
| Writing (k : nat) (buf : content)  (* open, variables < k assigned *)
| Closed                        (* both held, file closed *)
| Half2.                        (* first part released, second still held *)

Record wstate := mkw { w_file : nat; w_phase : phase }.

Record state := mkstate {
  ws : nat -> wstate;
  disk : nat -> content;                  (* file -> content *)
  proc_lock : nat -> option nat;          (* process -> holder *)
  file_lock : nat -> option nat }.        (* file -> holder *)

Context (S : system).

Definition upd_nat {A} (f : nat -> A) (k : nat) (v : A) : nat -> A :=
  fun x => if x =? k then v else f x.

Definition set_w (s : state) (w : nat) (x : wstate) : state :=
  mkstate (upd_nat (ws s) w x) (disk s) (proc_lock s) (file_lock s).
Definition set_disk (s : state) (f : nat) (c : content) : state :=
  mkstate (ws s) (upd_nat (disk s) f c) (proc_lock s) (file_lock s).
Definition set_plock (s : state) (p : nat) (o : option nat) : state :=
  mkstate (ws s) (disk s) (upd_nat (proc_lock s) p o) (file_lock s).
Definition set_flock (s : state) (f : nat) (o : option nat) : state :=
  mkstate (ws s) (disk s) (proc_lock s) (upd_nat (file_lock s) f o).

(** the lock parts of (worker, file) in acquisition order: true = process *)
Definition part_free (s : state) (w f : nat) (proc : bool) : bool :=
  match (if proc then proc_lock s (proc_of S w) else file_lock s f) with
  | None => true | Some _ => false end.
Definition take (s : state) (w f : nat) (proc : bool) : state :=
  if proc then set_plock s (proc_of S w) (Some w) else set_flock s f (Some w).
Definition drop_part (s : state) (w f : nat) (proc : bool) : state :=
  if proc then set_plock s (proc_of S w) None else set_flock s f None.

(** assignment of one variable, metsim.py:453-454 *)
Definition assign (w f k : nat) (buf : content) : content :=
  fun v c => if v =? k then match payload S w f v c with Some x => Some x | None => buf v c end
             else buf v c.

(** program steps of worker [w]; [None] = blocked or finished *)
Definition step (s : state) (w : nat) : option state :=
  let x := ws s w in
  let f := w_file x in
  let pf := proc_first S f in
  if (nworkers S <=? w) || (nfiles S <=? f) then None else
  match w_phase x with
  | Idle => if part_free s w f pf then Some (set_w (take s w f pf) w (mkw f Half)) else None
  | Half => if part_free s w f (negb pf)
            then Some (set_w (take s w f (negb pf)) w (mkw f Locked)) else None
  | Locked => Some (set_w s w (mkw f (Writing 0 (disk s f))))
  | Writing k buf =>
      if k <? nvars S then Some (set_w s w (mkw f (Writing (k + 1) (assign w f k buf))))
      else Some (set_w (set_disk s f buf) w (mkw f Closed))
  | Closed => Some (set_w (drop_part s w f pf) w (mkw f Half2))
  | Half2 => Some (set_w (drop_part s w f (negb pf)) w (mkw (f + 1) Idle))
  end.

(** library flush of one point of an open file *)
Inductive flush : state -> state -> Prop :=
| flush_point : forall s w f k buf v0 (is_c0 : cell -> bool),
    ws s w = mkw f (Writing k buf) -> w < nworkers S ->
    (* the points of variable v0 selected by is_c0 reach the disk *)
    flush s (set_disk s f (fun v c => if (v =? v0) && is_c0 c then buf v c else disk s f v c)).

(** executions, with the number of program steps taken; any worker may move
    next *)
Inductive exec : nat -> state -> state -> Prop :=
| exec_refl : forall s, exec 0 s s
| exec_step : forall n s w s' s'', exec n s s' -> step s' w = Some s'' -> exec (n + 1) s s''
| exec_flush : forall n s s' s'', exec n s s' -> flush s' s'' -> exec n s s''.

(** state after the setup loop of [run] (metsim.py:333-336): every file is
    created with mode "w", so all points are unwritten whatever was on the
    disk before; files outside the run are untouched *)
Definition setup_disk (old : nat -> content) : nat -> content :=
  fun f => if f <? nfiles S then (fun _ _ => None) else old f.
Definition start (old : nat -> content) : state :=
  mkstate (fun _ => mkw 0 Idle) (setup_disk old) (fun _ => None) (fun _ => None).

Definition finished (s : state) : Prop := forall w, w < nworkers S -> nfiles S <= w_file (ws s w).
End Machine.
Arguments system : clear implicits.
Arguments state : clear implicits.
Arguments content : clear implicits.
