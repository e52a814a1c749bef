(** C117: a run in the calendar of its forcing. *)
From Coq Require Import ZArith Reals String List Bool Arith.
From Verif Require Import Model.Py Model.Fl Model.Calendar Model.Datetime Model.Params Model.Validate Model.Output Model.Cell Model.Worker Model.CalendarRun
  Spec.StateSpec Spec.RowsSpec Spec.WorkerSpec Spec.CellSpec Spec.GapSpec Spec.CalendarSpec Spec.CalendarRunSpec Proofs.WorkerTotal Proofs.CalendarRunProofs.
Import ListNotations.
Local Open Scope list_scope.
Local Open Scope Z_scope.

(** C117: in the standard calendars a worker is that of Model/Worker.v *)
Theorem C117_standard : forall name fuel prm w, In name ["standard"; "gregorian"; "proleptic_gregorian"]%string ->
  0 < p_time_step prm -> 1440 mod p_time_step prm = 0 -> increasing (wk_days w) ->
  run_worker_in name fuel prm w = run_worker fuel prm w.
Proof. exact standard_worker. Qed.
Print Assumptions C117_standard.

(** C117: with 365 day years, a run over all dates of that calendar computes
    every active cell from its own inputs, with a step of a day for every date
    of the forcing; the 90 and 30 day means count dates, and the day of the
    year is that of the standard calendar ([loaded_on]) *)
Theorem C117_noleap_partial : forall name fuel prm w n out, named name NoLeap -> 0 < p_time_step prm -> 1440 mod p_time_step prm = 0 ->
  all_dates NoLeap (wk_days w) -> ~ lacking_window NoLeap (wk_start w) -> (forall d, In d (wk_days w) -> wk_start w <= d <= wk_stop w) ->
  List.length (wk_days w) = n -> (forall r, In r (wk_cells w) -> raw_shaped n r) ->
  run_worker_in name fuel prm w = Some (Ok out) ->
  forall i c r, nth_error (indices (wk_shape w)) i = Some c -> nth_error (wk_cells w) i = Some r ->
    (active (wk_mask w c) -> exists cd vs, loaded_on prm (wk_days w) n r cd /\ cell_alone fuel (wk_out_vars w) prm cd vs /\ out c = Some vs) /\
    (~ active (wk_mask w c) -> out c = None).
Proof. exact noleap_cells. Qed.
Print Assumptions C117_noleap_partial.

(** such a run finishes *)
Theorem C117_total_partial : forall name prm w n, named name NoLeap -> (0 < p_tmax_frac prm <= 1)%R -> (0 < n)%nat -> 0 < p_time_step prm ->
  all_dates NoLeap (wk_days w) -> ~ lacking_window NoLeap (wk_start w) -> (forall d, In d (wk_days w) -> wk_start w <= d <= wk_stop w) ->
  List.length (wk_days w) = n -> List.length (wk_cells w) = List.length (indices (wk_shape w)) ->
  (forall r, In r (wk_cells w) -> loadable prm n r) ->
  (forall i c r, nth_error (indices (wk_shape w)) i = Some c -> nth_error (wk_cells w) i = Some r -> active (wk_mask w c) -> good_raw prm n r) ->
  validate_setup (wk_setup w) = Ok tt -> describes (wk_setup w) prm (wk_out_vars w) -> requestable (wk_out_vars w) (wk_cells w) ->
  exists N, forall fuel, (fuel >= N)%nat -> exists out, run_worker_in name fuel prm w = Some (Ok out).
Proof. exact noleap_total. Qed.
Print Assumptions C117_total_partial.

(** 28 February and 1 March 2000 in the two calendars *)
Example C117_noleap_case : all_dates NoLeap [11015; 11017] /\
  (exists N, forall fuel, (fuel >= N)%nat -> exists out,
     run_worker_in "noleap" fuel (demo_method "mtclim" 60) (leap_worker 11015 11017 [11015; 11017]) = Some (Ok out)) /\
  (forall fuel out, run_worker_in "standard" fuel (demo_method "mtclim" 60) (leap_worker 11015 11017 [11015; 11017]) <> Some (Ok out)).
Proof.
  split; [exact leap_dates|]. split.
  - exact (leap_runs "noleap" "mtclim" (or_introl eq_refl) (or_intror (or_introl eq_refl))).
  - intros fuel out. exact (leap_gap fuel "mtclim" out (or_intror (or_introl eq_refl))).
Qed.

(** C117 is false for runs that start in the 90 days after a 29 February *)
Theorem C117_refuted : ~ (forall name prm w n, named name NoLeap -> (0 < p_tmax_frac prm <= 1)%R -> (0 < n)%nat -> 0 < p_time_step prm ->
  all_dates NoLeap (wk_days w) -> (forall d, In d (wk_days w) -> wk_start w <= d <= wk_stop w) ->
  List.length (wk_days w) = n -> List.length (wk_cells w) = List.length (indices (wk_shape w)) ->
  (forall r, In r (wk_cells w) -> loadable prm n r) ->
  (forall i c r, nth_error (indices (wk_shape w)) i = Some c -> nth_error (wk_cells w) i = Some r -> active (wk_mask w c) -> good_raw prm n r) ->
  validate_setup (wk_setup w) = Ok tt -> describes (wk_setup w) prm (wk_out_vars w) -> requestable (wk_out_vars w) (wk_cells w) ->
  exists N, forall fuel, (fuel >= N)%nat -> exists out, run_worker_in name fuel prm w = Some (Ok out)).
Proof. exact leap_refuted. Qed.
Print Assumptions C117_refuted.

(** all of them fail *)
Theorem C117_window_refuted : forall name k fuel prm w, named name k -> lacking_window k (wk_start w) ->
  (forall r, In r (wk_cells w) -> List.length (rc_st_prec r) = 90%nat) ->
  run_worker_in name fuel prm w = Some (Err ValueError).
Proof. exact lacking_worker. Qed.
Print Assumptions C117_window_refuted.

Theorem C117_window : forall s, lacking_window NoLeap s <-> exists y d, civil_from_days d = mkcivil y 2 29 /\ d + 1 <= s <= d + 90.
Proof. exact leap_window. Qed.
Print Assumptions C117_window.

Example C117_window_case : civil_from_days 11016 = mkcivil 2000 2 29 /\ lacking_window NoLeap 11031 /\ civil_from_days 11031 = mkcivil 2000 3 15 /\
  run_worker_in "365_day" 0 (demo_method "mtclim" 60) (leap_worker 11031 11032 [11031; 11032]) = Some (Err ValueError).
Proof.
  split; [reflexivity|]. split; [apply C117_window; exists 2000, 11016; split; [reflexivity|split; discriminate]|]. split; [reflexivity|].
  exact (march_case "365_day" 0 "mtclim" (or_intror (or_introl eq_refl))).
Qed.

(** with 360 day years every run fails: 90 days have a 31st *)
Theorem C117_days360_refuted : forall name fuel prm w, named name Days360 ->
  (forall r, In r (wk_cells w) -> List.length (rc_st_prec r) = 90%nat) ->
  run_worker_in name fuel prm w = Some (Err ValueError).
Proof. exact worker_360. Qed.
Print Assumptions C117_days360_refuted.

Example C117_days360_case : forall fuel, run_worker_in "360_day" fuel (demo_method "mtclim" 60) equator_worker = Some (Err ValueError).
Proof.
  intros fuel. apply (C117_days360_refuted "360_day"); [right; right; left; reflexivity|]. intros r [<-|[<-|[]]]; reflexivity.
Qed.
