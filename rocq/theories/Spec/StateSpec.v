(** Vocabulary for statements about the state window and the seasonal
    predictors. *)
From Coq Require Import ZArith Reals String List Bool.
From Verif Require Import Model.Fl.
Import ListNotations.

(** the last [w] entries of a record *)
Definition last_days {A} (w : nat) (l : list A) : list A := skipn (length l - w) l.

(** state followed by the run up to and including day [i] *)
Definition up_to {A} (state run : list A) (i : nat) : list A := state ++ firstn (S i) run.

(** [n] consecutive dates from [start] *)
Definition dates_from (start : Z) (n : nat) : list Z := map (fun i => (start + Z.of_nat i)%Z) (seq 0 n).

(** different dates of the run from [start] to [stop] *)
Definition run_dates (start stop : Z) (days : list Z) : Prop :=
  NoDup days /\ forall d, In d days -> (start <= d <= stop)%Z.

(** a day whose maximum temperature is below its minimum *)
Definition inverted_day (tmin tmax : list fl) : Prop :=
  exists d a b, nth_error tmin d = Some (Some a) /\ nth_error tmax d = Some (Some b) /\ (b < a)%R.

Definition no_missing (l : list fl) : Prop := forall x, In x l -> x <> None.

(** shape of the inputs of one cell over [n] days *)
Definition shaped (n : nat) (sp stn stx pr tmin tmax : list fl) : Prop :=
  List.length sp = 90%nat /\ List.length stn = 90%nat /\ List.length stx = 90%nat /\
  List.length pr = n /\ List.length tmin = n /\ List.length tmax = n.
