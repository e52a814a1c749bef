(** Floating-point values as exact reals plus NaN.

    [None] is NaN.  Simplification: results that IEEE arithmetic would make
    infinite (division of a non-zero number by zero, 0 to a negative power)
    are also represented by [None]; rounding and overflow are not modelled. *)
From Coq Require Import Reals List Bool ZArith.
Import ListNotations.
Local Open Scope R_scope.

Definition fl := option R.

(** comparisons on reals as booleans *)
Definition Rltb (x y : R) : bool := if Rlt_dec x y then true else false.
Definition Rleb (x y : R) : bool := if Rle_dec x y then true else false.
Definition Reqb (x y : R) : bool := if Req_EM_T x y then true else false.

Definition flift1 (f : R -> R) (x : fl) : fl := option_map f x.
Definition flift2 (f : R -> R -> R) (x y : fl) : fl :=
  match x, y with Some a, Some b => Some (f a b) | _, _ => None end.

Definition fadd := flift2 Rplus.
Definition fsub := flift2 Rminus.
Definition fmul := flift2 Rmult.
Definition fneg := flift1 Ropp.
Definition fexp := flift1 exp.
Definition fmax := flift2 Rmax.   (* np.maximum propagates NaN *)
Definition fpow (x : fl) (n : nat) : fl := option_map (fun a => pow a n) x.

Definition fdiv (x y : fl) : fl :=
  match x, y with
  | Some a, Some b => if Req_EM_T b 0 then None else Some (a / b)
  | _, _ => None
  end.

(** np.sqrt: NaN on negative numbers *)
Definition fsqrt (x : fl) : fl :=
  match x with
  | Some a => if Rlt_dec a 0 then None else Some (sqrt a)
  | None => None
  end.

(** np.power(x, y) for a (generally non-integer) real exponent *)
Definition fpower (x y : fl) : fl :=
  match x, y with
  | Some a, Some b =>
      if Rlt_dec 0 a then Some (Rpower a b)
      else if Req_EM_T a 0
           then (if Req_EM_T b 0 then Some 1 else if Rlt_dec 0 b then Some 0 else None)
           else None
  | _, _ => None
  end.

(** comparisons are false on NaN *)
Definition flt (x y : fl) : bool :=
  match x, y with Some a, Some b => Rltb a b | _, _ => false end.
Definition fle (x y : fl) : bool :=
  match x, y with Some a, Some b => Rleb a b | _, _ => false end.
Definition fgt (x y : fl) : bool := flt y x.
Definition isnan (x : fl) : bool := match x with None => true | Some _ => false end.

Declare Scope fl_scope.
Delimit Scope fl_scope with fl.
Infix "+" := fadd : fl_scope.
Infix "-" := fsub : fl_scope.
Infix "*" := fmul : fl_scope.
Infix "/" := fdiv : fl_scope.
Notation "- x" := (fneg x) : fl_scope.
Notation "# r" := (@Some R r%R) (at level 1, format "# r") : fl_scope.
Bind Scope fl_scope with fl.

(** np.sum, np.mean *)
Definition fsum (l : list fl) : fl := fold_right fadd (Some 0) l.
Definition fmean (l : list fl) : fl := fdiv (fsum l) (Some (INR (length l))).

(** Python [int(x)]: truncation toward zero; [Int_part] is floor. *)
Definition Rtrunc (x : R) : Z :=
  if Rle_dec 0 x then Int_part x else (- Int_part (- x))%Z.

(** [np.ceil], used by [np.arange] to size its result *)
Definition Rceil (x : R) : Z := (- Int_part (- x))%Z.
