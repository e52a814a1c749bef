(** C01, C07, C08: decomposition of the grid. *)
From Coq Require Import ZArith String List Bool Arith Permutation Lia.
From Verif Require Import Model.Py Model.Output Model.Machine Model.Run Spec.GridSpec
  Proofs.ChunkProofs Proofs.SliceProofs Proofs.WriterProofs.
Import ListNotations.
Local Open Scope string_scope.
Local Open Scope list_scope.

(** C01: every grid cell is in exactly one slice. *)
Theorem C01_chunks_tile_grid : forall (chunks : dict Z) (dims : dimlist),
  (chunks = [] \/ covers chunks dims) -> positive_sizes dims ->
  exists ss, slices chunks dims = Ok ss /\
    forall coord, in_grid dims coord -> exists ds, filter (selectsb coord) ss = [ds].
Proof. exact slices_tile. Qed.
Print Assumptions C01_chunks_tile_grid.

(** C01: a clamped slice is non-empty and stays inside the grid. *)
Theorem C01_slices_inside_grid : forall (chunks : dict Z) (dims : dimlist) ss ds d s n,
  covers chunks dims -> positive_sizes dims -> chunk_domain chunks dims = Ok ss ->
  In ds ss -> In (d, s) ds -> In (d, n) dims ->
  slice_range s n <> [] /\ (forall i, In i (slice_range s n) -> i < n).
Proof. exact chunk_slices_nonempty. Qed.
Print Assumptions C01_slices_inside_grid.

(** C01, on index vectors: every cell belongs to the ranges of exactly one
    slice number. *)
Theorem C01_one_worker_per_cell : forall (chunks : dict Z) (dims : dimlist) ss,
  (chunks = [] \/ covers chunks dims) -> positive_sizes dims -> NoDup (keys dims) ->
  slices chunks dims = Ok ss ->
  forall c, Forall2 (fun i (d : string * nat) => i < snd d) c dims ->
  exists w, w < List.length ss /\ Forall2 (fun i r => In i r) c (isel_ranges dims (nth w ss [])) /\
    forall w', w' < List.length ss ->
      Forall2 (fun i r => In i r) c (isel_ranges dims (nth w' ss [])) -> w' = w.
Proof. exact slice_of_cell. Qed.
Print Assumptions C01_one_worker_per_cell.

Example C01_case :
  let dims := [("lat", 5); ("lon", 4)] in
  let chunks := [("lon", 3%Z); ("lat", 2%Z)] in
  covers chunks dims /\ positive_sizes dims /\ NoDup (keys dims) /\
  exists ss, slices chunks dims = Ok ss /\ List.length ss = 6 /\
    in_grid dims (fun d => if d =? "lat" then 4 else 3).
Proof.
  cbv zeta. repeat split.
  - repeat constructor; simpl; intuition congruence.
  - apply perm_swap.
  - simpl. intros d c [E|[E|[]]]; inversion E; lia.
  - simpl. intros d c [E|[E|[]]]; inversion E; lia.
  - repeat constructor; simpl; intuition congruence.
  - eexists. split; [reflexivity|]. split; [reflexivity|].
    intros d n [E|[E|[]]]; inversion E; subst; simpl; lia.
Qed.

(** C07: if [chunks] omits a dimension, every write raises KeyError and
    leaves the file as it was. *)
Theorem C07_missing_dimension_write_fails :
  forall V (chunks : dict Z) (dims : dimlist) ss ds d n (vals : cell -> V) file,
  chunks <> [] -> In (d, n) dims -> ~ In d (keys chunks) ->
  slices chunks dims = Ok ss -> In ds ss -> write_values dims ds vals file = Err KeyError.
Proof. exact @partial_chunks_fail. Qed.
Print Assumptions C07_missing_dimension_write_fails.

(** C07: so no point of any output file is ever written, under any
    schedule. *)
Theorem C07_missing_dimension_nothing_written :
  forall chunks inp ss outs pr pf d n,
  chunks <> [] -> In (d, n) (ri_dims inp) -> ~ In d (keys chunks) ->
  slices chunks (ri_dims inp) = Ok ss ->
  let S := run_system inp ss outs pr pf in
  forall old k s, exec S k (start S old) s ->
  forall f v c, f < List.length (ri_groups inp) -> disk s f v c = None.
Proof. exact partial_chunks_nothing_written. Qed.
Print Assumptions C07_missing_dimension_nothing_written.

(** C07: a dimension unknown to the mask makes slicing raise KeyError. *)
Theorem C07_unknown_dimension_fails : forall (chunks : dict Z) (dims : dimlist) d c,
  In (d, c) chunks -> ~ In d (keys dims) ->
  (forall d c, In (d, c) chunks -> (0 < c)%Z) -> positive_sizes dims ->
  slices chunks dims = Err KeyError.
Proof. exact unknown_chunk_dim_fails. Qed.
Print Assumptions C07_unknown_dimension_fails.

Example C07_case :
  let dims := [("lat", 5); ("lon", 4)] in
  (exists ss ds, slices [("lat", 2%Z)] dims = Ok ss /\ In ds ss /\ ~ In "lon" (keys [("lat", 2%Z)])) /\
  (slices [("lat", 2%Z); ("x", 2%Z)] dims = Err KeyError).
Proof.
  cbv zeta. split.
  - eexists. eexists. split; [reflexivity|]. split; [left; reflexivity|]. simpl. intuition congruence.
  - reflexivity.
Qed.

(** C08: requested storage chunk sizes are legal. *)
Theorem C08_storage_chunks_legal : forall (chunks : dict Z) d n,
  0 < n -> (forall d c, In (d, c) chunks -> (0 < c)%Z) ->
  (1 <= storage_chunk chunks (d, n) <= Z.of_nat n)%Z /\
  (forall c, dict_get chunks d = Some c -> (c <= Z.of_nat n)%Z -> storage_chunk chunks (d, n) = c) /\
  (dict_get chunks d = None -> storage_chunk chunks (d, n) = Z.of_nat n).
Proof. exact storage_chunk_legal. Qed.
Print Assumptions C08_storage_chunks_legal.

Example C08_case :
  storage_chunks [("lat", 10%Z); ("lon", 3%Z)] [("lat", 5); ("lon", 4); ("z", 7)] = [5; 3; 7]%Z.
Proof. reflexivity. Qed.
