(** Dates between the first and the last one that are missing *)
From Coq Require Import ZArith List Sorting.Sorted.
Import ListNotations.

(** dates in increasing order, none twice *)
Definition increasing (days : list Z) : Prop := Sorted Z.lt days.

Definition missing_date (days : list Z) (d : Z) : Prop :=
  ~ In d days /\ (exists a, In a days /\ (a < d)%Z) /\ (exists b, In b days /\ (d < b)%Z).
