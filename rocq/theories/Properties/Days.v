(** C121: estimates of a day do not depend on the other days of the record. *)
From Coq Require Import ZArith Reals String List Lra.
From Verif Require Import Model.Py Model.Fl Model.Np Model.Params Model.Physics Model.Disagg Model.Mtclim
  Spec.FrameSpec Spec.DewSpec Spec.DaySpec Proofs.DewGaps Proofs.DayProofs.
Import ListNotations.
Local Open Scope string_scope.
Local Open Scope list_scope.
Local Open Scope R_scope.

(** C121: the daytime temperature, the transmittance and the cloud cover of a
    day are the same in every record with that day; *)
Theorem C121_columns : forall fuel fuel' df df' prm out out' d d',
  mtclim_run fuel df prm = Some (Ok out) -> mtclim_run fuel' df' prm = Some (Ok out') ->
  same_at mtclim_reads df df' d d' -> same_at ["t_day"; "tfmax"; "tskc"] out out' d d'.
Proof. exact day_columns. Qed.
Print Assumptions C121_columns.

(** its dewpoint is reached by passes over that day alone, of which other
    days decide only the number; vapor pressure, radiation and evaporation
    are the same when the dewpoint is. *)
Theorem C121_passes_partial : forall fuel fuel' df df' prm out out' d d',
  mtclim_run fuel df prm = Some (Ok out) -> mtclim_run fuel' df' prm = Some (Ok out') ->
  same_at mtclim_reads df df' d d' ->
  exists x j j', passes_of prm df d x /\ passes_of prm df' d' x /\ at_day out "tdew" d (x (S j)) /\ at_day out' "tdew" d' (x (S j')) /\
    (x (S j) = x (S j') -> same_at ["tdew"; "vapor_pressure"; "shortwave"; "pet"] out out' d d').
Proof. exact day_passes. Qed.
Print Assumptions C121_passes_partial.

Example C121_passes_case : same_at mtclim_reads (calm_record 0) (calm_record 15) 0 0.
Proof. exact (calm_same 15). Qed.

(** The order of the days of a record, with or without gaps, does not matter. *)
Theorem C121_order : forall fuel fuel' df df' prm out out' place,
  mtclim_run fuel df prm = Some (Ok out) -> mtclim_run fuel' df' prm = Some (Ok out') -> reordered df df' place ->
  forall d, (d < List.length (dl_doy df))%nat ->
  same_at ["t_day"; "tfmax"; "tskc"; "tdew"; "vapor_pressure"; "shortwave"; "pet"] out out' (place d) d.
Proof. exact day_order. Qed.
Print Assumptions C121_order.

Example C121_order_case : reordered full_frame turned_frame (fun d => (1 - d)%nat) /\
  exists fuel out fuel' out', mtclim_run fuel full_frame (demo_step 60) = Some (Ok out) /\ mtclim_run fuel' turned_frame (demo_step 60) = Some (Ok out').
Proof. exact turned_case. Qed.

(** The number of days does: at every tolerance below 0.7 K, a day alone and
    the same day followed by enough calm days have different dewpoints and
    vapor pressures, as the change that ends the iteration is averaged over
    the record.  All days are complete and physical. *)
Theorem C121_refuted : forall tol n, 0 < tol < 0.7 -> 4 <= INR (S n) * tol ^ 2 ->
  physical (tol_step tol) (calm_record 0) 1 /\ physical (tol_step tol) (calm_record n) (S n) /\ same_at mtclim_reads (calm_record 0) (calm_record n) 0 0 /\
  exists fuel fuel' out out' a b va vb,
    mtclim_run fuel (calm_record 0) (tol_step tol) = Some (Ok out) /\ mtclim_run fuel' (calm_record n) (tol_step tol) = Some (Ok out') /\
    at_day out "tdew" 0 (Some a) /\ at_day out' "tdew" 0 (Some b) /\ a <> b /\
    at_day out "vapor_pressure" 0 (Some va) /\ at_day out' "vapor_pressure" 0 (Some vb) /\ va <> vb.
Proof. exact calm_refuted. Qed.
Print Assumptions C121_refuted.

Example C121_refuted_case : 0 < 0.5 < 0.7 /\ 4 <= INR (S 15) * 0.5 ^ 2.
Proof. exact tol_half. Qed.
