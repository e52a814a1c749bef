(** External numerical routines used by MetSim, transcribed from their
    documented algorithms.  They are not part of /repo: these definitions
    are assumptions about SciPy recorded in the trusted base. *)
From Coq Require Import ZArith Reals List Bool Arith.
From Verif Require Import Model.Py Model.Fl Model.Np.
Import ListNotations.
Local Open Scope R_scope.

(** ** scipy.interpolate.PchipInterpolator(x, y, extrapolate=True)
    (called at metsim/disaggregate.py:260-261) *)

Fixpoint strictly_increasingb (l : list R) : bool :=
  match l with
  | a :: r => match r with
              | b :: _ => Rltb a b && strictly_increasingb r
              | [] => true
              end
  | [] => true
  end.

Definition Rsgn (x : R) : Z := if Rlt_dec x 0 then (-1)%Z else if Rlt_dec 0 x then 1%Z else 0%Z.

(** successive differences and slopes of the knots *)
Definition pchip_h (x : nat -> R) (k : nat) : R := x (S k) - x k.
Definition pchip_m (x y : nat -> R) (k : nat) : R := (y (S k) - y k) / pchip_h x k.

(** interior derivative at knot k (1 <= k): weighted harmonic mean of the
    neighbouring slopes, 0 at local extrema *)
Definition pchip_interior (h0 h1 m0 m1 : R) : R :=
  if negb (Rsgn m0 =? Rsgn m1)%Z || Reqb m1 0 || Reqb m0 0 then 0
  else let w1 := 2 * h1 + h0 in
       let w2 := h1 + 2 * h0 in
       1 / ((w1 / m0 + w2 / m1) / (w1 + w2)).

(** one-sided three-point end derivative, shape preserving *)
Definition pchip_edge (h0 h1 m0 m1 : R) : R :=
  let d := ((2 * h0 + h1) * m0 - h0 * m1) / (h0 + h1) in
  if negb (Rsgn d =? Rsgn m0)%Z then 0
  else if negb (Rsgn m0 =? Rsgn m1)%Z && Rltb (3 * Rabs m0) (Rabs d) then 3 * m0
  else d.

(** derivative at knot k of n knots (n >= 3) *)
Definition pchip_d (n : nat) (x y : nat -> R) (k : nat) : R :=
  if k =? 0 then
    pchip_edge (pchip_h x 0) (pchip_h x 1) (pchip_m x y 0) (pchip_m x y 1)
  else if k =? n - 1 then
    pchip_edge (pchip_h x (n - 2)) (pchip_h x (n - 3)) (pchip_m x y (n - 2)) (pchip_m x y (n - 3))
  else pchip_interior (pchip_h x (k - 1)) (pchip_h x k) (pchip_m x y (k - 1)) (pchip_m x y k).

(** cubic Hermite polynomial on [x0, x0+h] *)
Definition hermite (x0 h y0 y1 d0 d1 t : R) : R :=
  let s := (t - x0) / h in
  (1 + 2 * s) * (1 - s)^2 * y0 + s * (1 - s)^2 * h * d0
  + s^2 * (3 - 2 * s) * y1 + s^2 * (s - 1) * h * d1.

(** interval used at t: the last k <= n-2 with x k <= t, or 0 *)
Fixpoint find_interval (x : nat -> R) (t : R) (k : nat) : nat :=
  match k with
  | O => O
  | S k' => if Rle_dec (x k) t then k else find_interval x t k'
  end.

Definition pchip_eval (n : nat) (x y : nat -> R) (t : R) : R :=
  let k := find_interval x t (n - 2) in
  hermite (x k) (pchip_h x k) (y k) (y (S k)) (pchip_d n x y k) (pchip_d n x y (S k)) t.

(** Construction rejects fewer than 2 knots, different lengths and knots
    that are not strictly increasing (ValueError).  The two-knot special
    case is not modelled: MetSim always has at least 6 knots, so fewer than
    3 is reported as ValueError here. *)
Definition PchipInterpolator (xs ys : list R) : res (R -> R) :=
  if (length xs =? length ys)%nat && (3 <=? length xs)%nat && strictly_increasingb xs
  then Ok (pchip_eval (length xs) (fun k => nth k xs 0) (fun k => nth k ys 0))
  else Err ValueError.

(** ** scipy.interpolate.interp1d(x, y, bounds_error=False)
    (called at metsim/disaggregate.py:480-482): linear, NaN outside
    [x_0, x_{n-1}].  The sort interp1d applies to x is the identity on the
    strictly increasing abscissae MetSim passes and is not modelled.
    NaN ordinates propagate.  A single abscissa is accepted and gives NaN
    everywhere else. *)
Definition interp1d_eval (n : nat) (x : nat -> R) (y : nat -> fl) (t : R) : fl :=
  if Rltb t (x 0%nat) || Rltb (x (n - 1)%nat) t then None
  else if (n =? 1)%nat then y 0%nat
  else
    let k := find_interval x t (n - 2) in
    fadd (y k) (fmul (fdiv (fsub (y (S k)) (y k)) (Some (x (S k) - x k)))
                     (Some (t - x k))).

Definition interp1d (xs : list R) (ys : list fl) : res (R -> fl) :=
  if (length xs =? length ys)%nat && (1 <=? length xs)%nat
  then Ok (interp1d_eval (length xs) (fun k => nth k xs 0) (fun k => nth k ys None))
  else Err ValueError.
