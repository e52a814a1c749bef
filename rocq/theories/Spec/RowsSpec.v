(** A worker that spreads its rows over as many days as there are dates. *)
From Coq Require Import ZArith String List Bool.
From Verif Require Import Model.Py Model.Fl Model.Params Model.State Model.Validate Model.Output Model.Cell Model.Worker.
Import ListNotations.
Local Open Scope list_scope.

(** the worker computing its cells over as many days as there are dates *)
Definition run_worker_rows (fuel : nat) (prm : params) (w : worker_in) : option (res slice_out) :=
  let prep :=
    do data <- load_slice (wk_start w) (wk_stop w) (wk_days w) (wk_cells w);
    do _ <- validate_setup (wk_setup w);
    mapM (fun rc => monthly_cell prm (wk_days w) (fst rc) (snd rc)) (combine (wk_cells w) data) in
  match prep with
  | Err e => Some (Err e)
  | Ok data =>
      match run_slice_by (run_cell_over (List.length (wk_days w)) fuel) (wk_out_vars w) (wk_shape w) (wk_mask w)
              (nth_cell (indices (wk_shape w)) data no_cell) prm with
      | None => None
      | Some (r, _) => Some r
      end
  end.

