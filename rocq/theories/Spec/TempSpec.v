(** Vocabulary for the temperature curve: the record extended by one day on
    each side. *)
From Coq Require Import ZArith Reals List.
From Verif Require Import Model.Params Model.Disagg Spec.SolarSpec.
Import ListNotations.
Local Open Scope R_scope.

Definition between (a b v : R) : Prop := Rmin a b <= v <= Rmax a b.

(** times of an extreme, repeated 24 h before the first and after the last day *)
Definition ext_times (a : list R) : list R := (hd 0 a - 1440) :: a ++ [last a 0 + 1440].

(** daily values with those of the day before and of the day after *)
Definition ext_values (before : R) (v : list R) (after : R) : list R := before :: v ++ [after].

(** extreme values of the neighbouring days: given, or those of the first
    (last) day *)
Definition day_before (given : option (R * R)) (tmin tmax : list R) : R * R :=
  match given with Some p => p | None => (hd 0 tmin, hd 0 tmax) end.
Definition day_after (given : option (R * R)) (tmin tmax : list R) : R * R :=
  match given with Some p => p | None => (last tmin 0, last tmax 0) end.
Definition pair_list (p : option (R * R)) : option (list R) := option_map (fun p => [fst p; snd p]) p.

(** each minimum precedes its maximum, which precedes the next minimum *)
Definition alternate (a b : list R) : Prop :=
  List.length a = List.length b /\
  (forall d, (d < List.length a)%nat -> nth d a 0 < nth d b 0 < nth d a 0 + 1440) /\
  (forall d, (S d < List.length a)%nat -> nth d b 0 < nth (S d) a 0).

(** days of year *)
Definition days_valid (doy : list nat) : Prop := forall k, In k doy -> (1 <= k <= 366)%nat.

(** v lies between the extremes that surround time t *)
Definition surrounded (a b tmin tmax : list R) (before after : R * R) (t v : R) : Prop := exists d,
  let TA := ext_times a in let TB := ext_times b in
  let VA := ext_values (fst before) tmin (fst after) in let VB := ext_values (snd before) tmax (snd after) in
  ((d < List.length a + 2)%nat /\ nth d TA 0 <= t <= nth d TB 0 /\ between (nth d VA 0) (nth d VB 0) v) \/
  ((S d < List.length a + 2)%nat /\ nth d TB 0 <= t <= nth (S d) TA 0 /\ between (nth d VB 0) (nth (S d) VA 0) v).

(** a row without radiation, or with one block of it around noon *)
Definition usable (row : list R) : Prop := (forall x, In x row -> x <= 0) \/ exists a b, daylight_block row a b.

(** UTC shift of the times of the extremes, in minutes *)
Definition shift_of (prm : params) : R := if p_utc_offset prm then IZR (utc_temp_minutes prm) else 0.
