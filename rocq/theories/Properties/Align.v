(** C99-C101: which inputs belong to which cell. *)
From Coq Require Import ZArith Reals String List Bool Arith.
From Verif Require Import Model.Py Model.Fl Model.Params Model.Units Model.State Model.Validate Model.Output Model.Cell Model.Machine Model.Run Model.Worker Model.Align
  Spec.TimeSpec Spec.GridSpec Spec.WriterSpec Spec.StateSpec Spec.CellSpec Spec.WorkerSpec Spec.AlignSpec Proofs.RunTotal Proofs.AlignProofs Proofs.AlignRun Proofs.FileRun Proofs.AlignCases.
Import ListNotations.
Local Open Scope string_scope.
Local Open Scope list_scope.

(** C99: whatever the order and the extent of the axes of the forcing and the
    state, every cell of every worker has the mask, the place and the monthly
    values of its domain cell and what the two files hold at its coordinates. *)
Theorem C99_own_inputs : forall inp sl w, good_files inp -> slice_worker inp sl = Ok w ->
  List.length (wk_cells w) = List.length (indices (wk_shape w)) /\
  forall i l r, nth_error (indices (wk_shape w)) i = Some l -> nth_error (wk_cells w) i = Some r ->
    let c := globalize (axes_ranges (gi_axes inp) sl) l in
    on_grid (gi_axes inp) c /\ wk_mask w l = gi_mask inp c /\ own_inputs inp c r.
Proof. exact worker_inputs. Qed.
Print Assumptions C99_own_inputs.

(** the inputs of a cell are determined by its coordinates *)
Theorem C99_determined : forall inp c r r', own_inputs inp c r -> own_inputs inp c r' -> r = r'.
Proof. exact own_fun. Qed.
Print Assumptions C99_determined.

(** files that cover the domain can be read by every worker *)
Theorem C99_covered : forall inp sl, good_files inp ->
  labels_cover (nc_axes (gi_forcing inp)) (gi_axes inp) -> labels_cover (nc_axes (gi_state inp)) (gi_axes inp) ->
  exists w, slice_worker inp sl = Ok w.
Proof. exact worker_readable. Qed.
Print Assumptions C99_covered.

Example C99_case : good_files demo_inputs /\ equator_raw <> cold_raw /\
  exists w, slice_worker demo_inputs [] = Ok w /\ wk_cells w = [equator_raw; cold_raw].
Proof. split; [exact demo_good|]. split; [discriminate|exact demo_worker]. Qed.

(** a coordinate of the domain that a file lacks stops the run with KeyError *)
Theorem C99_missing : forall inp chunks ss k have want x,
  good_files inp -> (chunks = [] \/ covers chunks (axes_dims (gi_axes inp))) -> slices chunks (axes_dims (gi_axes inp)) = Ok ss ->
  dict_get (nc_axes (gi_forcing inp)) k = Some have \/ dict_get (nc_axes (gi_state inp)) k = Some have ->
  dict_get (gi_axes inp) k = Some want -> In x want -> ~ In x have ->
  exists ds, In ds ss /\ slice_worker inp ds = Err KeyError /\ forall fuel prm, file_worker fuel prm inp ds = Some (Err KeyError).
Proof. exact missing_stops. Qed.
Print Assumptions C99_missing.

Example C99_missing_case : good_files short_inputs /\ exists ss ds, slices demo_chunks (axes_dims (gi_axes short_inputs)) = Ok ss /\ In ds ss /\ slice_worker short_inputs ds = Err KeyError.
Proof. exact (conj short_good short_refused). Qed.

(** a dimension of the domain that the state lacks stops the run of every
    slice that has active cells with ValueError *)
Theorem C99_state_dimension : forall inp sl l k, NoDup (keys (gi_axes inp)) ->
  readable (nc_axes (gi_forcing inp)) (gi_axes inp) -> readable (nc_axes (gi_state inp)) (gi_axes inp) ->
  labels_cover (nc_axes (gi_forcing inp)) (gi_axes inp) -> labels_cover (nc_axes (gi_state inp)) (gi_axes inp) ->
  In k (keys (gi_axes inp)) -> ~ In k (keys (nc_axes (gi_state inp))) ->
  In l (indices (map (@List.length nat) (axes_ranges (gi_axes inp) sl))) ->
  active (gi_mask inp (globalize (axes_ranges (gi_axes inp) sl) l)) ->
  slice_worker inp sl = Err ValueError.
Proof. exact state_dimension. Qed.
Print Assumptions C99_state_dimension.

Example C99_state_dimension_case : ~ In "lon" (keys (nc_axes (gi_state flat_inputs))) /\ In "lon" (keys (gi_axes flat_inputs)) /\
  slice_worker flat_inputs [] = Err ValueError.
Proof. exact flat_refused. Qed.

(** C100: in the files of a run over netCDF inputs, every record of every
    active cell is the converted value of the run of that cell on what the
    input files hold at its coordinates; every other record is missing.
    No two of the files have the same name (C111). *)
Theorem C100_files_to_files : forall fuel prm inp chunks ss outs n freq pe axis groups dir prefix files pr pf,
  good_files inp -> (chunks = [] \/ covers chunks (axes_dims (gi_axes inp))) -> slices chunks (axes_dims (gi_axes inp)) = Ok ss ->
  Forall2 (fun ds out => file_worker fuel prm inp ds = Some (Ok out)) ss outs ->
  (1 <= n)%nat -> gi_days inp = dates_from (gi_start inp) n -> gi_stop inp = (gi_start inp + Z.of_nat n - 1)%Z ->
  (forall c r, on_grid (gi_axes inp) c -> own_inputs inp c r -> raw_shaped n r /\ forall k v, raw_col r k = Ok v -> List.length v = n) ->
  NoDup (keys (gi_out_vars inp)) ->
  let ts := p_time_step prm in let st := (1440 * gi_start inp)%Z in
  legal_time_step ts -> match freq with Some bin => monotone_bins bin | None => True end ->
  output_axis st (st + (Z.of_nat n - 1) * 1440)%Z ts pe = Ok axis ->
  get_output_times freq st (st + (Z.of_nat n - 1) * 1440)%Z ts pe = Ok groups ->
  write_headers dir prefix groups = Ok files -> map snd files = groups ->
  let S := run_system (mk_run_input (axes_dims (gi_axes inp)) (gi_mask inp) (fun _ => no_cell) prm (gi_out_vars inp) axis groups) ss outs pr pf in
  forall old m s, exec S m (start S old) s -> finished S s ->
  forall f fname g v name unit c, nth_error files f = Some (fname, g) -> nth_error (gi_out_vars inp) v = Some (name, unit) -> on_grid (gi_axes inp) c ->
  exists x, disk s f v c = Some x /\ List.length x = List.length g /\
    forall k t, nth_error g k = Some t -> exists i, t = (st + (Z.of_nat i + (if pe then 1 else 0)) * ts)%Z /\
      (active (gi_mask inp c) -> exists r cd df prm' conv col y, own_inputs inp c r /\ loaded prm (gi_start inp) n r cd /\
         run_cell fuel prm cd = Some (Ok df, prm') /\
         converter_for name unit = Ok conv /\ dict_get df name = Some col /\ nth_error col i = Some y /\ nth_error x k = Some (conv y ts)) /\
      (~ active (gi_mask inp c) -> nth_error x k = Some None).
Proof. exact named_files_to_files. Qed.
Print Assumptions C100_files_to_files.

(** a run over files that cover the domain, with acceptable setup and
    inputs, is computed by all of its workers *)
Theorem C100_computed : forall prm inp chunks ss n,
  good_files inp -> labels_cover (nc_axes (gi_forcing inp)) (gi_axes inp) -> labels_cover (nc_axes (gi_state inp)) (gi_axes inp) ->
  (chunks = [] \/ covers chunks (axes_dims (gi_axes inp))) -> slices chunks (axes_dims (gi_axes inp)) = Ok ss ->
  (0 < p_time_step prm)%Z -> (0 < p_tmax_frac prm <= 1)%R -> (0 < n)%nat ->
  gi_days inp = dates_from (gi_start inp) n -> gi_stop inp = (gi_start inp + Z.of_nat n - 1)%Z ->
  (forall c r, on_grid (gi_axes inp) c -> own_inputs inp c r -> loadable prm n r /\ (active (gi_mask inp c) -> good_raw prm n r) /\
     (In "wind" (keys (gi_out_vars inp)) -> exists v, raw_col r "wind" = Ok v)) ->
  (forall name unit, In (name, unit) (gi_out_vars inp) -> exists conv, converter_for name unit = Ok conv) ->
  validate_setup (gi_setup inp) = Ok tt -> describes (gi_setup inp) prm (gi_out_vars inp) ->
  exists N, forall fuel, (fuel >= N)%nat -> exists outs, Forall2 (fun ds out => file_worker fuel prm inp ds = Some (Ok out)) ss outs.
Proof. exact files_run_finishes. Qed.
Print Assumptions C100_computed.

Example C100_case : good_files demo_inputs /\
  (forall c r, on_grid (gi_axes demo_inputs) c -> own_inputs demo_inputs c r -> raw_shaped 2 r /\ forall k v, raw_col r k = Ok v -> List.length v = 2) /\
  exists ss, slices demo_chunks (axes_dims (gi_axes demo_inputs)) = Ok ss /\ List.length ss = 2 /\
  exists N, forall fuel, (fuel >= N)%nat -> exists outs, Forall2 (fun ds out => file_worker fuel (demo_method "mtclim" 60) demo_inputs ds = Some (Ok out)) ss outs.
Proof. exact (conj demo_good (conj demo_even (demo_finishes "mtclim" (or_intror (or_introl eq_refl))))). Qed.

(** C101: forcing passed in memory belongs to the right cells when its axes
    have the labels of the domain in the same order and the domain is not
    split; partial, because that is required. *)
Theorem C101_same_labels_partial : forall V (ds : nc V) dom l, readable (nc_axes ds) dom -> NoDup (keys dom) ->
  (forall k have, In (k, have) (nc_axes ds) -> dict_get dom k = Some have) -> on_grid dom l ->
  exists v, memory_cell ds dom [] l = Ok v /\ holds_at ds dom l v.
Proof. exact @memory_labels. Qed.
Print Assumptions C101_same_labels_partial.

(** with the same labels in another order the cells get each other's forcing *)
Theorem C101_order_refuted : ~ forall (ds : nc nat) dom l v, readable (nc_axes ds) dom -> NoDup (keys dom) -> labels_cover (nc_axes ds) dom ->
  (forall k have want, dict_get (nc_axes ds) k = Some have -> dict_get dom k = Some want -> List.length have = List.length want) ->
  on_grid dom l -> memory_cell ds dom [] l = Ok v -> holds_at ds dom l v.
Proof. exact memory_refuted. Qed.
Print Assumptions C101_order_refuted.

(** a worker whose slice has another number of rows or columns than the
    forcing stops with ValueError *)
Theorem C101_split_refused : forall V (ds : nc V) dom sl l k have want, In (k, have) (nc_axes ds) -> In k ["lat"; "lon"] ->
  dict_get (slice_axes dom sl) k = Some want -> List.length want <> List.length have -> memory_cell ds dom sl l = Err ValueError.
Proof. exact @memory_chunked. Qed.
Print Assumptions C101_split_refused.

Example C101_case : memory_cell demo_reversed demo_domain [] [0; 0] = Ok 0 /\ ~ holds_at demo_reversed demo_domain [0; 0] 0 /\
  memory_cell demo_reversed demo_domain [("lat", mkslice (Some 0) (Some 1))] [0; 0] = Err ValueError.
Proof. exact (conj (proj1 reversed_swapped) (conj (proj2 reversed_swapped) eq_refl)). Qed.
