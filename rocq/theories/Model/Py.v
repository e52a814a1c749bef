(** Python runtime vocabulary used by the model: exceptions as values,
    dictionaries, slices, strings.  Nothing here is specific to MetSim. *)
From Coq Require Import ZArith List String Ascii Bool Arith.
Import ListNotations.

(** Exceptions that the modelled code can raise (class only; messages are
    kept for [_validate_setup], metsim/metsim.py:622-684). *)
Inductive exn : Type :=
| KeyError | ValueError | IndexError | TypeError | AttributeError
| AssertionError | ZeroDivisionError | NotImplementedError | StructError | RuntimeError
| InvalidIndexError
| SetupError (msgs : list string).

Inductive res (A : Type) : Type :=
| Ok (a : A)
| Err (e : exn).
Arguments Ok {A} _.
Arguments Err {A} _.

Definition bind {A B} (r : res A) (f : A -> res B) : res B :=
  match r with Ok a => f a | Err e => Err e end.
Notation "'do' x <- r ; k" := (bind r (fun x => k))
  (at level 200, x pattern, r at level 100, k at level 200, right associativity).

(** Sequential evaluation of a list of fallible computations; the first
    exception wins (a Python [for] loop). *)
Fixpoint mapM {A B} (f : A -> res B) (l : list A) : res (list B) :=
  match l with
  | [] => Ok []
  | x :: xs => do y <- f x; do ys <- mapM f xs; Ok (y :: ys)
  end.

(** ** Dictionaries: association lists keyed by strings, insertion ordered,
    at most one binding per key is maintained by [dict_set]. *)
Definition dict (V : Type) := list (string * V).

Fixpoint dict_get {V} (d : dict V) (k : string) : option V :=
  match d with
  | [] => None
  | (k', v) :: r => if String.eqb k k' then Some v else dict_get r k
  end.

Fixpoint dict_set {V} (d : dict V) (k : string) (v : V) : dict V :=
  match d with
  | [] => [(k, v)]
  | (k', v') :: r => if String.eqb k k' then (k', v) :: r
                     else (k', v') :: dict_set r k v
  end.

(** [d.update(e)] *)
Definition dict_update {V} (d e : dict V) : dict V :=
  fold_left (fun d kv => dict_set d (fst kv) (snd kv)) e d.

(** [dict(pairs)] / [OrderedDict(pairs)] *)
Definition dict_of {V} (e : list (string * V)) : dict V := dict_update [] e.

Definition dict_mem {V} (d : dict V) (k : string) : bool :=
  match dict_get d k with Some _ => true | None => false end.

Definition keys {V} (d : dict V) : list string := map fst d.
Definition values {V} (d : dict V) : list V := map snd d.

(** [d[k]] *)
Definition dict_getitem {V} (d : dict V) (k : string) : res V :=
  match dict_get d k with Some v => Ok v | None => Err KeyError end.

(** ** Slices with non-negative bounds, clamped to the sequence length the
    way Python, NumPy, xarray [isel] and netCDF4 do.  [None] = open bound. *)
Record pyslice := mkslice { sl_start : option nat; sl_stop : option nat }.

Definition slice_lo (s : pyslice) (n : nat) : nat :=
  match sl_start s with None => 0 | Some a => Nat.min a n end.
Definition slice_hi (s : pyslice) (n : nat) : nat :=
  match sl_stop s with None => n | Some b => Nat.min b n end.
(** positions selected by [x[s]] on a sequence of length [n] *)
Definition slice_range (s : pyslice) (n : nat) : list nat :=
  seq (slice_lo s n) (slice_hi s n - slice_lo s n).

(** [l[a:b]] for [0 <= a], [0 <= b] *)
Definition list_slice {A} (l : list A) (a b : nat) : list A :=
  firstn (b - a) (skipn a l).

(** ** Strings (ASCII only) *)
Definition upper_ascii (c : ascii) : ascii :=
  let n := nat_of_ascii c in
  if (97 <=? n) && (n <=? 122) then ascii_of_nat (n - 32) else c.
Definition lower_ascii (c : ascii) : ascii :=
  let n := nat_of_ascii c in
  if (65 <=? n) && (n <=? 90) then ascii_of_nat (n + 32) else c.

Fixpoint string_map (f : ascii -> ascii) (s : string) : string :=
  match s with
  | EmptyString => EmptyString
  | String c r => String (f c) (string_map f r)
  end.
Definition upper := string_map upper_ascii.
Definition lower := string_map lower_ascii.

(** whitespace removed by [str.strip()]: \t \n \v \f \r, 0x1c-0x1f and space *)
Definition is_space (c : ascii) : bool :=
  let n := nat_of_ascii c in
  ((9 <=? n) && (n <=? 13)) || ((28 <=? n) && (n <=? 32)).

Fixpoint lstrip (s : string) : string :=
  match s with
  | EmptyString => EmptyString
  | String c r => if is_space c then lstrip r else s
  end.

Fixpoint string_rev_app (s acc : string) : string :=
  match s with
  | EmptyString => acc
  | String c r => string_rev_app r (String c acc)
  end.
Definition string_rev (s : string) : string := string_rev_app s EmptyString.
Definition strip (s : string) : string := string_rev (lstrip (string_rev (lstrip s))).

Definition starts_with (c : ascii) (s : string) : bool :=
  match s with EmptyString => false | String c' _ => Ascii.eqb c c' end.

(** [s.split(c)[0]] *)
Fixpoint before_char (c : ascii) (s : string) : string :=
  match s with
  | EmptyString => EmptyString
  | String c' r => if Ascii.eqb c c' then EmptyString else String c' (before_char c r)
  end.

Definition str_in (s : string) (l : list string) : bool := existsb (String.eqb s) l.
