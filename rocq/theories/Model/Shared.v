(** The writing phase when groups of time stamps share a file name
    (sub-daily out_freq): the machine of [Machine.v] with the file of a group
    looked up by its name, as [run] and [write_chunk] do
    (metsim/metsim.py:333-336, :443-454). *)
From Coq Require Import ZArith Reals String List Bool Arith.
From Verif Require Import Model.Py Model.Fl Model.Output Model.Cell Model.Machine Model.Run.
Import ListNotations.
Local Open Scope list_scope.

Section Named.
Context {cell value : Type}.
Context (S : system cell value).
Context (name_of : nat -> nat).      (* group -> file *)

(** [Machine.step]: a worker goes through the groups, locks and opens the
    file of the group's name *)
Definition step_named (s : state cell value) (w : nat) : option (state cell value) :=
  let x := ws s w in
  let t := w_file x in
  let f := name_of t in
  let pf := proc_first S f in
  if (nworkers S <=? w) || (nfiles S <=? t) then None else
  match w_phase x with
  | Idle => if part_free S s w f pf then Some (set_w (take S s w f pf) w (mkw t Half)) else None
  | Half => if part_free S s w f (negb pf)
            then Some (set_w (take S s w f (negb pf)) w (mkw t Locked)) else None
  | Locked => Some (set_w s w (mkw t (Writing 0 (disk s f))))
  | Writing k buf =>
      if k <? nvars S then Some (set_w s w (mkw t (Writing (k + 1) (assign S w t k buf))))
      else Some (set_w (set_disk s f buf) w (mkw t Closed))
  | Closed => Some (set_w (drop_part S s w f pf) w (mkw t Half2))
  | Half2 => Some (set_w (drop_part S s w f (negb pf)) w (mkw (t + 1) Idle))
  end.

Inductive flush_named : state cell value -> state cell value -> Prop :=
| flush_named_point : forall s w t k buf v0 (is_c0 : cell -> bool),
    ws s w = mkw t (Writing k buf) -> w < nworkers S ->
    flush_named s (set_disk s (name_of t) (fun v c => if (v =? v0) && is_c0 c then buf v c else disk s (name_of t) v c)).

Inductive exec_named : state cell value -> state cell value -> Prop :=
| named_refl : forall s, exec_named s s
| named_step : forall s w s' s'', exec_named s s' -> step_named s' w = Some s'' -> exec_named s s''
| named_flush : forall s s' s'', exec_named s s' -> flush_named s' s'' -> exec_named s s''.

(** every file that has the name of a group is created empty *)
Definition start_named (old : nat -> content cell value) : state cell value :=
  mkstate (fun _ => mkw 0 Idle)
    (fun f => if existsb (fun t => name_of t =? f) (seq 0 (nfiles S)) then (fun _ _ => None) else old f)
    (fun _ => None) (fun _ => None).
End Named.

(** files by name: a group has the number of the first group of its name *)
Fixpoint first_index (names : list string) (x : string) : nat :=
  match names with
  | [] => 0
  | y :: r => if String.eqb y x then 0 else 1 + first_index r x
  end.
Definition name_number (names : list string) (t : nat) : nat := first_index names (nth t names ""%string).

(** the machine of a run: the points of a file are (cell, record); the time
    dimension is unlimited, so that longer groups extend the file and shorter
    ones leave what follows them *)
Definition record_system (inp : run_input) (ss : list (dict pyslice)) (outs : list slice_out)
    (proc_of : nat -> nat) (proc_first : nat -> bool) : system (cell * nat) fl :=
  {| nfiles := List.length (ri_groups inp);
     nvars := List.length (ri_out_vars inp);
     nworkers := List.length ss;
     proc_of := proc_of; proc_first := proc_first;
     payload := fun w t v p =>
       match slice_payload inp (nth w ss []) (nth w outs (fun _ => None)) t v (fst p) with
       | Some x => nth_error x (snd p)
       | None => None
       end |}.
