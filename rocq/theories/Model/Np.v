(** NumPy / pandas array primitives used by MetSim, on lists. *)
From Coq Require Import ZArith Reals List Bool Arith.
From Verif Require Import Model.Py Model.Fl.
Import ListNotations.

(** np.repeat(a, n) *)
Definition np_repeat {A} (l : list A) (n : nat) : list A :=
  flat_map (fun x => repeat x n) l.

(** np.roll(a, shift) on a flat array: element i of the result is element
    (i - shift) mod n of the argument. *)
Definition np_roll {A} (l : list A) (shift : Z) : list A :=
  let n := Z.of_nat (length l) in
  let s := Z.to_nat ((- shift) mod n)%Z in
  skipn s l ++ firstn s l.

(** the first [n] rows of width [w] of a flat array *)
Fixpoint rows {A} (n w : nat) (l : list A) : list (list A) :=
  match n with
  | O => []
  | S n' => firstn w l :: rows n' w (skipn w l)
  end.

(** a.reshape(-1, w): ValueError if w <= 0 or the size is no multiple of w *)
Definition reshape {A} (l : list A) (w : Z) : res (list (list A)) :=
  if (w <=? 0)%Z then Err ValueError
  else let w' := Z.to_nat w in
       if (length l mod w') =? 0 then Ok (rows (length l / w') w' l)
       else Err ValueError.

(** a[idx] = vals for an integer index array (later writes win) *)
Fixpoint upd {A} (i : nat) (v : A) (l : list A) : list A :=
  match l, i with
  | [], _ => []
  | _ :: xs, O => v :: xs
  | x :: xs, S i' => x :: upd i' v xs
  end.
Definition np_put {A} (a : list A) (idx : list nat) (vals : list A) : list A :=
  fold_left (fun a iv => upd (fst iv) (snd iv) a) (combine idx vals) a.

(** np.linspace(a, b, n), endpoint included *)
Definition linspace (a b : R) (n : nat) : list R :=
  match n with
  | O => []
  | 1 => [a]
  | _ => map (fun k => (a + INR k * ((b - a) / INR (n - 1)))%R) (seq 0 n)
  end.

(** np.bincount(ids, weights): result has max(ids)+1 entries.
    ValueError when the two arrays differ in length. *)
Definition bincount (ids : list nat) (ws : list fl) : res (list fl) :=
  if length ids =? length ws then
    match ids with
    | [] => Ok []
    | _ => Ok (map (fun k => fsum (map snd (filter (fun p => fst p =? k) (combine ids ws))))
                   (seq 0 (S (list_max ids))))
    end
  else Err ValueError.

(** elementwise binary operation; NumPy raises ValueError on different
    lengths (broadcasting of length-1 arrays is not modelled) *)
Definition map2 {A B C} (f : A -> B -> C) (a : list A) (b : list B) : list C :=
  map (fun p => f (fst p) (snd p)) (combine a b).
Definition zipw {A B C} (f : A -> B -> C) (a : list A) (b : list B) : res (list C) :=
  if length a =? length b then Ok (map2 f a b) else Err ValueError.

Definition map3 {A B C D} (f : A -> B -> C -> D) a b c : list D :=
  map2 (fun g x => g x) (map2 f a b) c.

(** Series.fillna(method='ffill') with the carried value *)
Fixpoint ffill_from (last : fl) (l : list fl) : list fl :=
  match l with
  | [] => []
  | None :: r => last :: ffill_from last r
  | Some x :: r => Some x :: ffill_from (Some x) r
  end.
Definition ffill (l : list fl) : list fl := ffill_from None l.
(** Series.fillna(method='bfill') *)
Definition bfill (l : list fl) : list fl := rev (ffill (rev l)).
Definition fill_gaps (l : list fl) : list fl := bfill (ffill l).

(** np.diff *)
Fixpoint np_diffZ (l : list Z) : list Z :=
  match l with
  | a :: r => match r with
              | b :: _ => (b - a)%Z :: np_diffZ r
              | [] => []
              end
  | [] => []
  end.

(** a[i], IndexError out of range *)
Definition getitem {A} (l : list A) (i : nat) : res A :=
  match nth_error l i with Some x => Ok x | None => Err IndexError end.
