(** C119: every cell is run on the file named after it. *)
From Coq Require Import ZArith Reals String List Bool Arith.
From Verif Require Import Model.Py Model.Fl Model.Params Model.State Model.Validate Model.Units Model.Reader Model.Vic Model.Output Model.Cell Model.Worker Model.Align Model.VicWorker
  Model.Machine Model.Run Spec.TimeSpec Spec.GridSpec Spec.WriterSpec Spec.PeriodSpec Spec.ReaderSpec Spec.CellSpec Spec.StateSpec Spec.WorkerSpec Spec.AlignSpec Spec.VicWorkerSpec
  Proofs.WorkerTotal Proofs.RunTotal Proofs.VicRun.
Import ListNotations.
Local Open Scope string_scope.
Local Open Scope list_scope.

(** C119: whatever the slice, each cell of its worker has the coordinates,
    monthly values and state of its own place, and the series of a file named
    after it *)
Theorem C119_own_file : forall pf read names n jobs inp g, lat_lon (gi_axes inp) ->
  process_vic pf (slice_vic_domain inp []) read jobs = Ok g ->
  forall ds w, good_state inp -> vic_slice_worker pf read names n jobs inp ds = Ok w ->
  List.length (wk_cells w) = List.length (indices (wk_shape w)) /\
  forall i l r, nth_error (indices (wk_shape w)) i = Some l -> nth_error (wk_cells w) i = Some r ->
    let c := globalize (axes_ranges (gi_axes inp) ds) l in
    on_grid (gi_axes inp) c /\ wk_mask w l = gi_mask inp c /\ own_place inp c r /\ file_columns pf read names n jobs inp c (rc_cols r).
Proof. exact vic_worker_cells. Qed.
Print Assumptions C119_own_file.

(** ... which is the file of the cell when there is one *)
Theorem C119_only_file : forall pf read names n jobs inp c cols job d, file_columns pf read names n jobs inp c cols -> active (gi_mask inp c) ->
  only_file_of pf (gi_axes inp) jobs job c -> read job = Ok d -> cols = d.
Proof. exact columns_only. Qed.
Print Assumptions C119_only_file.

(** the readers of text and binary files give the variables of the table, one
    value per day *)
Theorem C119_readers : forall pf bytes lines fmt m n,
  NoDup (keys m) -> proper_reader (read_vic pf bytes lines fmt m n) (keys m) n.
Proof. exact readers_proper. Qed.
Print Assumptions C119_readers.

(** the worker of a slice gets its inputs as soon as the directory can be read
    and the state covers the domain *)
Theorem C119_reads : forall pf read names n jobs inp g, lat_lon (gi_axes inp) ->
  process_vic pf (slice_vic_domain inp []) read jobs = Ok g ->
  forall ds, good_state inp -> labels_cover (nc_axes (gi_state inp)) (gi_axes inp) ->
  exists w, vic_slice_worker pf read names n jobs inp ds = Ok w.
Proof. exact vic_worker_reads. Qed.
Print Assumptions C119_reads.

Example C119_case : lat_lon (gi_axes demo_inputs) /\ good_state demo_inputs /\ full_state demo_inputs /\
  proper_reader equator_read equator_names 2 /\ incl ["prec"; "t_min"; "t_max"] equator_names /\
  (exists g, process_vic zero_float (slice_vic_domain demo_inputs []) equator_read equator_jobs = Ok g) /\
  (exists w, vic_slice_worker zero_float equator_read equator_names 2 equator_jobs demo_inputs [] = Ok w /\ wk_shape w = [1; 2]%nat) /\
  active (gi_mask demo_inputs [0; 0]%nat) /\ only_file_of zero_float (gi_axes demo_inputs) equator_jobs "/data/full_0_0" [0; 0]%nat /\
  equator_read "/data/full_0_0" = Ok (rc_cols equator_raw) /\
  no_file_of zero_float (gi_axes demo_inputs) equator_read ["/data/readme"] [0; 0]%nat /\
  (exists g, process_vic zero_float (slice_vic_domain demo_inputs []) equator_read ["/data/readme"] = Ok g).
Proof. exact equator_case. Qed.

(** C119: from the files of the directory to the output files *)
Theorem C119_files : forall pf read names n jobs inp g0 fuel prm chunks ss outs freq pe axis groups dir prefix files pr pfin,
  lat_lon (gi_axes inp) -> good_state inp -> full_state inp -> proper_reader read names n -> incl ["prec"; "t_min"; "t_max"] names ->
  process_vic pf (slice_vic_domain inp []) read jobs = Ok g0 ->
  (chunks = [] \/ covers chunks (axes_dims (gi_axes inp))) -> slices chunks (axes_dims (gi_axes inp)) = Ok ss ->
  Forall2 (fun ds out => vic_file_worker pf read names n jobs fuel prm inp ds = Some (Ok out)) ss outs ->
  (1 <= n)%nat -> gi_days inp = dates_from (gi_start inp) n -> gi_stop inp = (gi_start inp + Z.of_nat n - 1)%Z ->
  NoDup (keys (gi_out_vars inp)) ->
  let ts := p_time_step prm in let st := (1440 * gi_start inp)%Z in
  legal_time_step ts -> match freq with Some bin => monotone_bins bin | None => True end ->
  output_axis st (st + (Z.of_nat n - 1) * 1440)%Z ts pe = Ok axis ->
  get_output_times freq st (st + (Z.of_nat n - 1) * 1440)%Z ts pe = Ok groups ->
  write_headers dir prefix groups = Ok files -> map snd files = groups ->
  let S := run_system (mk_run_input (axes_dims (gi_axes inp)) (gi_mask inp) (fun _ => no_cell) prm (gi_out_vars inp) axis groups) ss outs pr pfin in
  forall old m s, exec S m (start S old) s -> finished S s ->
  forall f fname g v name unit c, nth_error files f = Some (fname, g) -> nth_error (gi_out_vars inp) v = Some (name, unit) -> on_grid (gi_axes inp) c ->
  exists x, disk s f v c = Some x /\ List.length x = List.length g /\
    forall k t, nth_error g k = Some t -> exists i, t = (st + (Z.of_nat i + (if pe then 1 else 0)) * ts)%Z /\
      (active (gi_mask inp c) -> exists r cd df prm' conv col y, own_place inp c r /\ file_columns pf read names n jobs inp c (rc_cols r) /\
         loaded prm (gi_start inp) n r cd /\ run_cell fuel prm cd = Some (Ok df, prm') /\
         converter_for name unit = Ok conv /\ dict_get df name = Some col /\ nth_error col i = Some y /\ nth_error x k = Some (conv y ts)) /\
      (~ active (gi_mask inp c) -> nth_error x k = Some None).
Proof. exact vic_to_files. Qed.
Print Assumptions C119_files.

(** C119: the run finishes when the files of all active cells are acceptable *)
Theorem C119_finishes_partial : forall pf read names n jobs inp g prm chunks ss,
  lat_lon (gi_axes inp) -> good_state inp -> labels_cover (nc_axes (gi_state inp)) (gi_axes inp) ->
  process_vic pf (slice_vic_domain inp []) read jobs = Ok g ->
  (chunks = [] \/ covers chunks (axes_dims (gi_axes inp))) -> slices chunks (axes_dims (gi_axes inp)) = Ok ss ->
  (0 < p_time_step prm)%Z -> (0 < p_tmax_frac prm <= 1)%R -> (0 < n)%nat ->
  gi_days inp = dates_from (gi_start inp) n -> gi_stop inp = (gi_start inp + Z.of_nat n - 1)%Z ->
  (forall c r, on_grid (gi_axes inp) c -> own_place inp c r -> file_columns pf read names n jobs inp c (rc_cols r) ->
     loadable prm n r /\ (active (gi_mask inp c) -> good_raw prm n r) /\ (In "wind" (keys (gi_out_vars inp)) -> exists v, raw_col r "wind" = Ok v)) ->
  (forall name unit, In (name, unit) (gi_out_vars inp) -> exists conv, converter_for name unit = Ok conv) ->
  validate_setup (gi_setup inp) = Ok tt -> describes (gi_setup inp) prm (gi_out_vars inp) ->
  exists N, forall fuel, (fuel >= N)%nat ->
    exists outs, Forall2 (fun ds out => vic_file_worker pf read names n jobs fuel prm inp ds = Some (Ok out)) ss outs.
Proof. exact vic_finishes. Qed.
Print Assumptions C119_finishes_partial.

Example C119_finishes_case : exists ss, slices demo_chunks (axes_dims (gi_axes demo_inputs)) = Ok ss /\ List.length ss = 2%nat /\
  exists N, forall fuel, (fuel >= N)%nat ->
  exists outs, Forall2 (fun ds out => vic_file_worker zero_float equator_read equator_names 2 equator_jobs fuel (demo_method "mtclim" 60) demo_inputs ds = Some (Ok out)) ss outs.
Proof. exact equator_finishes. Qed.

(** C119 is false when an active cell has no file: its series are missing, and
    a sub-daily run of its slice never finishes *)
Theorem C119_missing_file : forall pf read names n jobs inp g ds fuel prm l out,
  lat_lon (gi_axes inp) -> good_state inp -> full_state inp -> proper_reader read names n -> incl ["prec"; "t_min"; "t_max"] names ->
  process_vic pf (slice_vic_domain inp []) read jobs = Ok g ->
  (1 <= n)%nat -> gi_days inp = dates_from (gi_start inp) n -> gi_stop inp = (gi_start inp + Z.of_nat n - 1)%Z ->
  (p_time_step prm < 1440)%Z ->
  In l (indices (map (@List.length nat) (axes_ranges (gi_axes inp) ds))) ->
  active (gi_mask inp (globalize (axes_ranges (gi_axes inp) ds) l)) ->
  no_file_of pf (gi_axes inp) read jobs (globalize (axes_ranges (gi_axes inp) ds) l) ->
  vic_file_worker pf read names n jobs fuel prm inp ds <> Some (Ok out).
Proof. exact vic_missing_stops. Qed.
Print Assumptions C119_missing_file.

(** so does a single missing temperature, whatever the forcing *)
Theorem C119_missing_temperature : forall fuel prm w n k v out i c r,
  (p_time_step prm < 1440)%Z ->
  wk_days w = dates_from (wk_start w) n -> wk_stop w = (wk_start w + Z.of_nat n - 1)%Z -> (forall r, In r (wk_cells w) -> raw_shaped n r) ->
  nth_error (indices (wk_shape w)) i = Some c -> nth_error (wk_cells w) i = Some r -> active (wk_mask w c) ->
  In k ["t_min"; "t_max"] -> raw_col r k = Ok v -> In None v -> run_worker fuel prm w <> Some (Ok out).
Proof. exact worker_missing. Qed.
Print Assumptions C119_missing_temperature.

Theorem C119_missing_file_refuted : ~ (forall pf read names n jobs inp g prm chunks ss,
  (chunks = [] \/ covers chunks (axes_dims (gi_axes inp))) -> slices chunks (axes_dims (gi_axes inp)) = Ok ss ->
  lat_lon (gi_axes inp) -> good_state inp -> full_state inp -> labels_cover (nc_axes (gi_state inp)) (gi_axes inp) ->
  proper_reader read names n -> incl ["prec"; "t_min"; "t_max"] names ->
  process_vic pf (slice_vic_domain inp []) read jobs = Ok g ->
  (0 < p_time_step prm)%Z -> (0 < p_tmax_frac prm <= 1)%R -> (0 < n)%nat ->
  gi_days inp = dates_from (gi_start inp) n -> gi_stop inp = (gi_start inp + Z.of_nat n - 1)%Z ->
  (exists c, on_grid (gi_axes inp) c /\ active (gi_mask inp c) /\ ~ no_file_of pf (gi_axes inp) read jobs c) ->
  (forall c r, on_grid (gi_axes inp) c -> own_place inp c r -> file_columns pf read names n jobs inp c (rc_cols r) -> loadable prm n r) ->
  (forall c r, on_grid (gi_axes inp) c -> own_place inp c r -> file_columns pf read names n jobs inp c (rc_cols r) ->
     active (gi_mask inp c) -> ~ no_file_of pf (gi_axes inp) read jobs c -> good_raw prm n r) ->
  ~ In "wind" (keys (gi_out_vars inp)) ->
  (forall name unit, In (name, unit) (gi_out_vars inp) -> exists conv, converter_for name unit = Ok conv) ->
  validate_setup (gi_setup inp) = Ok tt -> describes (gi_setup inp) prm (gi_out_vars inp) ->
  exists fuel outs, Forall2 (fun ds out => vic_file_worker pf read names n jobs fuel prm inp ds = Some (Ok out)) ss outs).
Proof. exact both_stop. Qed.
Print Assumptions C119_missing_file_refuted.
