(** C78-C80: the period of a run. *)
From Coq Require Import ZArith Reals String Ascii List Bool Arith Lia Lra Sorted.
From Verif Require Import Model.Py Model.Fl Model.Calendar Model.State Model.Period Spec.StateSpec Spec.PeriodSpec
  Proofs.StateProofs Proofs.PeriodProofs.
Import ListNotations.
Local Open Scope list_scope.

(** C78: a run whose start and stop name the days [a] and [b] is accepted
    exactly when the forcing has both; it then keeps the forcing days
    between them. *)
Theorem C78_accepted : forall parse parse_int times start stop a b,
  StronglySorted Z.lt times -> names parse parse_int start a -> names parse parse_int stop b ->
  ((In a times /\ In b times /\ (a <= b)%Z) ->
   exists p, load_period parse parse_int times start stop = Ok p /\
    pr_start p = a /\ pr_stop p = b /\ pr_state_start p = (a - 90)%Z /\ pr_state_stop p = (a - 1)%Z /\
    StronglySorted Z.lt (pr_days p) /\
    (forall d, In d (pr_days p) <-> In d times /\ (a <= d <= b)%Z)) /\
  (~ (In a times /\ In b times /\ (a <= b)%Z) ->
   exists e, load_period parse parse_int times start stop = Err e).
Proof. exact covers. Qed.
Print Assumptions C78_accepted.

(** C78: if the forcing has no gaps, the run has every day. *)
Theorem C78_every_day_partial : forall parse parse_int t0 n start stop a b p,
  names parse parse_int start a -> names parse parse_int stop b ->
  load_period parse parse_int (dates_from t0 n) start stop = Ok p ->
  (a <= b)%Z /\ pr_days p = dates_from a (Z.to_nat (b - a + 1)).
Proof. exact contiguous. Qed.
Print Assumptions C78_every_day_partial.

Example C78_case :
  names (fun _ => Some (10958, 10958)%Z) (fun s => match s with "2000" => Some 2000 | "01" => Some 1 | "02" => Some 2 | _ => None end%string%Z)
    (Text "2000/01/02") 10958 /\
  load_period (fun _ => None) (fun _ => None) (dates_from 10957 5) (Given 10958) (Given 10960) =
    Ok (mk_period [10958; 10959; 10960] 10958 10960 10868 10957)%Z /\
  load_period (fun _ => None) (fun _ => None) (dates_from 10957 5) (Given 10956) (Given 10960) = Err AssertionError /\
  load_period (fun _ => None) (fun _ => None) (dates_from 10957 5) (Given 10958) (Given 10962) = Err AssertionError.
Proof. exact demo_period. Qed.

(** C78: a start or stop year/month/day that is no date is rejected. *)
Theorem C78_no_such_date : forall parse parse_int times start stop y m k y' m' k',
  no_slash y -> no_slash m -> no_slash k -> parse_int y = Some y' -> parse_int m = Some m' -> parse_int k = Some k' ->
  (forall d, civil_from_days d <> mkcivil y' m' k') ->
  let s := (y ++ "/" ++ m ++ "/" ++ k)%string in start = Text s \/ stop = Text s ->
  exists e, load_period parse parse_int times start stop = Err e.
Proof. exact no_such_date. Qed.
Print Assumptions C78_no_such_date.

Example C78_date_case : forall d, civil_from_days d <> mkcivil 2000 2 30.
Proof. exact no_feb_30. Qed.

(** C78 is false for a forcing with a gap: only its ends are compared. *)
Theorem C78_gap_refuted : forall parse parse_int,
  exists p, load_period parse parse_int [0; 1; 3; 4]%Z (Given 0) (Given 4) = Ok p /\
  (pr_start p < 2 < pr_stop p)%Z /\ ~ In 2%Z (pr_days p).
Proof. exact gap_accepted. Qed.
Print Assumptions C78_gap_refuted.

(** C79 is false: the word fails as a slice bound before it is looked at. *)
Theorem C79_forcing_refuted : forall parse parse_int times start stop,
  parse "forcing"%string = None -> start = Text "forcing" \/ stop = Text "forcing" ->
  load_period parse parse_int times start stop = Err TypeError.
Proof. exact forcing_word. Qed.
Print Assumptions C79_forcing_refuted.

(** C79: had the word been a legal bound, it would mean the ends of the
    forcing. *)
Theorem C79_meaning_partial : forall parse parse_int times edge,
  resolve parse parse_int (first_of times) (Text "forcing") = first_of times /\
  resolve parse parse_int (last_of times) (Text "forcing") = last_of times /\
  resolve parse parse_int edge (Text "forcing") = edge.
Proof. exact forcing_meaning. Qed.
Print Assumptions C79_meaning_partial.

Theorem C79_whole_partial : forall parse parse_int times t0 lo hi, parse "forcing"%string = Some (lo, hi) ->
  (forall d, In d times -> (lo <= d <= hi)%Z) -> first_of times = Ok t0 ->
  exists p, load_period parse parse_int times (Text "forcing") (Text "forcing") = Ok p /\
    pr_days p = times /\ pr_start p = t0 /\ pr_stop p = last times t0.
Proof. exact forcing_whole. Qed.
Print Assumptions C79_whole_partial.

(** C80, when start and stop name days. *)
Theorem C80_complete_partial : forall parse parse_int t0 n start stop a b p sp stn stx pr tmin tmax out,
  names parse parse_int start a -> names parse parse_int stop b ->
  load_period parse parse_int (dates_from t0 n) start stop = Ok p ->
  shaped (List.length (pr_days p)) sp stn stx pr tmin tmax ->
  no_missing (sp ++ pr) -> no_missing (stn ++ tmin) -> no_missing (stx ++ tmax) ->
  aggregate_state (pr_start p) (pr_stop p) (pr_days p) sp stn stx pr tmin tmax = Ok out ->
  List.length (ag_seasonal out) = List.length (pr_days p) /\ no_missing (ag_seasonal out).
Proof. exact named_complete. Qed.
Print Assumptions C80_complete_partial.

(** C80 is false for a stop that names a month: 29 February is run without
    its seasonal precipitation. *)
Theorem C80_month_refuted : forall parse parse_int,
  parse "2000-02"%string = Some (10988, 11016)%Z ->
  exists p, load_period parse parse_int (dates_from 10957 60) (Given 10957) (Text "2000-02") = Ok p /\
    pr_days p = dates_from 10957 60 /\ civil_from_days 11016 = mkcivil 2000 2 29 /\
    forall sp stn stx pr tmin tmax out,
      aggregate_state (pr_start p) (pr_stop p) (pr_days p) sp stn stx pr tmin tmax = Ok out ->
      nth_error (ag_seasonal out) 59 = Some None.
Proof. exact month_text_missing. Qed.
Print Assumptions C80_month_refuted.

Example C80_case : exists out,
  aggregate_state 10957 10988 (dates_from 10957 60) (repeat (Some 0%R) 90) (repeat (Some 1%R) 90) (repeat (Some 3%R) 90)
    (repeat (Some 0%R) 60) (repeat (Some 1%R) 60) (repeat (Some 3%R) 60) = Ok out.
Proof. exact month_text_runs. Qed.
