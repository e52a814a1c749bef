(** C109: forcing with missing dates. *)
From Coq Require Import ZArith Reals String List Bool Arith.
From Verif Require Import Model.Py Model.Fl Model.Params Model.Disagg Model.Output Model.Cell Model.Worker
  Spec.CellSpec Spec.WorkerSpec Spec.GapSpec Proofs.GapProofs Proofs.WorkerTotal.
Import ListNotations.
Local Open Scope string_scope.
Local Open Scope list_scope.

(** C109: when a date between the first and the last one is missing, no
    worker that has an active cell produces output. *)
Theorem C109_refused : forall fuel prm w d out i c r, (0 < p_time_step prm)%Z -> increasing (wk_days w) -> missing_date (wk_days w) d ->
  nth_error (indices (wk_shape w)) i = Some c -> nth_error (wk_cells w) i = Some r -> active (wk_mask w c) ->
  run_worker fuel prm w <> Some (Ok out).
Proof. exact worker_gap. Qed.
Print Assumptions C109_refused.

(** a cell that is computed over dates without gaps is a ValueError when its
    rows are spread over another number of days *)
Theorem C109_kind : forall span fuel prm c out prm', (0 < p_time_step prm)%Z -> List.length (dl_doy (cd_daily c)) <> span ->
  run_cell fuel prm c = Some (Ok out, prm') -> run_cell_over span fuel prm c = Some (Err ValueError, prm').
Proof. exact cell_kind. Qed.
Print Assumptions C109_kind.

(** without gaps the number of days is the number of rows, with a gap it is
    larger *)
Theorem C109_days : (forall start n, date_span (map (fun i => (start + Z.of_nat i)%Z) (seq 0 n)) = n) /\
  (forall days d, increasing days -> missing_date days d -> List.length days < date_span days).
Proof. exact days_spanned. Qed.
Print Assumptions C109_days.

(** two days with a missing one in between; the same cells without the gap
    are computed *)
Example C109_case : (increasing (wk_days gap_worker) /\ missing_date (wk_days gap_worker) 1 /\
  nth_error (indices (wk_shape gap_worker)) 0 = Some [0; 0] /\ nth_error (wk_cells gap_worker) 0 = Some equator_raw /\ active (wk_mask gap_worker [0; 0])) /\
  (exists N, forall fuel, (fuel >= N)%nat -> exists out, run_worker fuel (demo_method "mtclim" 60) equator_worker = Some (Ok out)) /\
  exists N, forall fuel, (fuel >= N)%nat -> exists prm', run_cell_over 3 fuel (demo_method "mtclim" 60) equator_cell = Some (Err ValueError, prm').
Proof. exact (conj gap_case (conj (equator_worker_runs "mtclim" (or_intror (or_introl eq_refl))) gap_cell)). Qed.
