(** C85, C88: the worker of a slice. *)
From Coq Require Import ZArith Reals String List Bool Arith.
From Verif Require Import Model.Py Model.Fl Model.Params Model.Units Model.State Model.Validate Model.Output Model.Cell Model.Worker
  Spec.StateSpec Spec.FrameSpec Spec.CellSpec Spec.WorkerSpec Proofs.LoadProofs Proofs.WorkerTotal.
Import ListNotations.
Local Open Scope string_scope.
Local Open Scope list_scope.

(** C85: every active cell is run on what its raw inputs provide
    ([loaded]), every other cell stays missing. *)
Theorem C85_worker_cells : forall fuel prm w n out,
  wk_days w = dates_from (wk_start w) n -> wk_stop w = (wk_start w + Z.of_nat n - 1)%Z ->
  (forall r, In r (wk_cells w) -> raw_shaped n r) ->
  run_worker fuel prm w = Some (Ok out) ->
  forall i c r, nth_error (indices (wk_shape w)) i = Some c -> nth_error (wk_cells w) i = Some r ->
    (active (wk_mask w c) -> exists cd vs, loaded prm (wk_start w) n r cd /\
       cell_alone fuel (wk_out_vars w) prm cd vs /\ out c = Some vs) /\
    (~ active (wk_mask w c) -> out c = None).
Proof. exact worker_cells. Qed.
Print Assumptions C85_worker_cells.

Example C85_case : exists N, forall fuel, (fuel >= N)%nat -> exists out, run_worker fuel (demo_method "passthrough" 60) equator_worker = Some (Ok out).
Proof. exact (equator_worker_runs "passthrough" (or_introl eq_refl)). Qed.

(** C88: a worker whose setup is accepted, whose cells can be loaded and whose
    active cells can be run, finishes. *)
Theorem C88_worker_finishes : forall prm w n,
  (0 < p_time_step prm)%Z -> (0 < p_tmax_frac prm <= 1)%R -> (0 < n)%nat ->
  wk_days w = dates_from (wk_start w) n -> wk_stop w = (wk_start w + Z.of_nat n - 1)%Z ->
  List.length (wk_cells w) = List.length (indices (wk_shape w)) ->
  (forall r, In r (wk_cells w) -> loadable prm n r) ->
  (forall i c r, nth_error (indices (wk_shape w)) i = Some c -> nth_error (wk_cells w) i = Some r -> active (wk_mask w c) -> good_raw prm n r) ->
  validate_setup (wk_setup w) = Ok tt -> describes (wk_setup w) prm (wk_out_vars w) -> requestable (wk_out_vars w) (wk_cells w) ->
  exists N, forall fuel, (fuel >= N)%nat -> exists out, run_worker fuel prm w = Some (Ok out).
Proof. exact worker_total. Qed.
Print Assumptions C88_worker_finishes.

Example C88_case : (forall m, loadable (demo_method m 60) 2 equator_raw) /\ good_raw (demo_method "mtclim" 60) 2 equator_raw /\
  describes (wk_setup equator_worker) (demo_method "mtclim" 60) (wk_out_vars equator_worker) /\
  requestable (wk_out_vars equator_worker) (wk_cells equator_worker) /\ validate_setup (wk_setup equator_worker) = Ok tt.
Proof.
  exact (conj (fun m => equator_loadable m 60) (conj (equator_raw_good "mtclim" 60 (or_intror (or_introl eq_refl)))
    (conj (equator_describes _) (conj equator_requestable eq_refl)))).
Qed.
