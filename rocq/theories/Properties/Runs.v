(** C03, C06, C86, C87 and the run-level form of C02 and C04. *)
From Coq Require Import ZArith Reals String List Bool Arith.
From Verif Require Import Model.Py Model.Fl Model.Params Model.Units Model.Output Model.Machine Model.Cell Model.Disagg Model.Run
  Spec.TimeSpec Spec.GridSpec Spec.CellSpec Spec.WriterSpec Proofs.SliceProofs Proofs.WriterProofs Proofs.EndToEnd Proofs.RunTotal Proofs.FileRun.
Import ListNotations.
Local Open Scope list_scope.

(** C03: after a slice is run, starting from the user's settings with
    whatever location entries were left over, each active cell holds the
    result of that cell run alone and every other cell is missing. *)
Theorem C03_cell_isolation : forall fuel out_vars shape mask data user prm out prm',
  same_settings prm user ->
  run_slice fuel out_vars shape mask data prm = Some (Ok out, prm') ->
  same_settings prm' user /\
  (forall c, In c (indices shape) -> active (mask c) ->
     exists vs, cell_alone fuel out_vars user (data c) vs /\ out c = Some vs) /\
  (forall c, ~ active (mask c) -> out c = None).
Proof. exact run_slice_spec. Qed.
Print Assumptions C03_cell_isolation.

(** C02 for a whole run: the finished files hold the right records. *)
Theorem C02_run_files : forall fuel inp chunks ss outs,
  (chunks = [] \/ covers chunks (ri_dims inp)) -> positive_sizes (ri_dims inp) ->
  NoDup (keys (ri_dims inp)) -> slices chunks (ri_dims inp) = Ok ss ->
  workers_ok fuel inp ss outs ->
  forall proc_of proc_first, let S := run_system inp ss outs proc_of proc_first in
  forall old n s, exec S n (start S old) s -> finished S s ->
  forall f v c, f < List.length (ri_groups inp) -> v < List.length (ri_out_vars inp) ->
    (cell_in_grid (ri_dims inp) c ->
       exists x, disk s f v c = Some x /\ right_records fuel inp f v c x) /\
    (~ cell_in_grid (ri_dims inp) c -> disk s f v c = None).
Proof. exact run_files. Qed.
Print Assumptions C02_run_files.

(** C04 for a whole run: at every moment a point is unwritten or right. *)
Theorem C04_run_crash : forall fuel inp chunks ss outs,
  (chunks = [] \/ covers chunks (ri_dims inp)) -> positive_sizes (ri_dims inp) ->
  NoDup (keys (ri_dims inp)) -> slices chunks (ri_dims inp) = Ok ss ->
  workers_ok fuel inp ss outs ->
  forall proc_of proc_first, let S := run_system inp ss outs proc_of proc_first in
  forall old n s, exec S n (start S old) s ->
  forall f v c, f < List.length (ri_groups inp) ->
    disk s f v c = None \/
    exists x, disk s f v c = Some x /\ right_records fuel inp f v c x.
Proof. exact run_crash. Qed.
Print Assumptions C04_run_crash.

(** C06: two runs that differ only in chunking (and schedule, processes, old
    directory) end with the same files. *)
Theorem C06_chunking_transparent :
  forall fuel inp chunks1 chunks2 ss1 ss2 outs1 outs2 p1 q1 p2 q2 old1 old2 n1 n2 s1 s2,
  (chunks1 = [] \/ covers chunks1 (ri_dims inp)) ->
  (chunks2 = [] \/ covers chunks2 (ri_dims inp)) ->
  positive_sizes (ri_dims inp) -> NoDup (keys (ri_dims inp)) ->
  slices chunks1 (ri_dims inp) = Ok ss1 -> slices chunks2 (ri_dims inp) = Ok ss2 ->
  workers_ok fuel inp ss1 outs1 -> workers_ok fuel inp ss2 outs2 ->
  let S1 := run_system inp ss1 outs1 p1 q1 in
  let S2 := run_system inp ss2 outs2 p2 q2 in
  exec S1 n1 (start S1 old1) s1 -> finished S1 s1 ->
  exec S2 n2 (start S2 old2) s2 -> finished S2 s2 ->
  forall f v c, f < List.length (ri_groups inp) -> v < List.length (ri_out_vars inp) ->
    disk s1 f v c = disk s2 f v c.
Proof. exact chunking_transparent. Qed.
Print Assumptions C06_chunking_transparent.

(** C06: whether the workers succeed does not depend on the chunking. *)
Theorem C06_success_independent_of_chunking :
  forall fuel inp chunks1 ss1 outs1 chunks2 ss2,
  (chunks1 = [] \/ covers chunks1 (ri_dims inp)) ->
  (chunks2 = [] \/ covers chunks2 (ri_dims inp)) ->
  positive_sizes (ri_dims inp) -> NoDup (keys (ri_dims inp)) ->
  slices chunks1 (ri_dims inp) = Ok ss1 -> slices chunks2 (ri_dims inp) = Ok ss2 ->
  workers_ok fuel inp ss1 outs1 -> exists outs2, workers_ok fuel inp ss2 outs2.
Proof. exact workers_ok_any. Qed.
Print Assumptions C06_success_independent_of_chunking.

(** C86: record k of a finished file, whose time stamp is that of step i, is
    the value of step i of the cell run alone, in the requested units; it is
    missing outside the mask.  [st] is the first midnight, [n] the number of
    days, [pe] the period-ending option.  No two files
    have the same name.  At the daily step the frame of a
    cell is assumed to have one value per day in every column. *)
Theorem C86_files_hold_values : forall fuel inp chunks ss outs freq st n pe dir prefix files pr pf,
  (chunks = [] \/ covers chunks (ri_dims inp)) -> positive_sizes (ri_dims inp) -> NoDup (keys (ri_dims inp)) ->
  slices chunks (ri_dims inp) = Ok ss -> workers_ok fuel inp ss outs -> NoDup (keys (ri_out_vars inp)) ->
  let ts := p_time_step (ri_prm inp) in
  legal_time_step ts -> ((ts < 1440)%Z \/ forall c df prm' name col, cell_in_grid (ri_dims inp) c ->
    run_cell fuel (ri_prm inp) (ri_data inp c) = Some (Ok df, prm') -> dict_get df name = Some col -> List.length col = n) -> 1 <= n -> match freq with Some bin => monotone_bins bin | None => True end ->
  output_axis st (st + (Z.of_nat n - 1) * 1440)%Z ts pe = Ok (ri_axis inp) ->
  get_output_times freq st (st + (Z.of_nat n - 1) * 1440)%Z ts pe = Ok (ri_groups inp) ->
  write_headers dir prefix (ri_groups inp) = Ok files -> map snd files = ri_groups inp ->
  (forall c, cell_in_grid (ri_dims inp) c -> List.length (dl_doy (cd_daily (ri_data inp c))) = n) ->
  let S := run_system inp ss outs pr pf in
  forall old m s, exec S m (start S old) s -> finished S s ->
  forall f fname g v name unit c, nth_error files f = Some (fname, g) -> nth_error (ri_out_vars inp) v = Some (name, unit) ->
    cell_in_grid (ri_dims inp) c ->
  exists x, disk s f v c = Some x /\ List.length x = List.length g /\
    forall k t, nth_error g k = Some t -> exists i, t = (st + (Z.of_nat i + (if pe then 1 else 0)) * ts)%Z /\
      (active (ri_mask inp c) -> exists df prm' conv col y, run_cell fuel (ri_prm inp) (ri_data inp c) = Some (Ok df, prm') /\
         converter_for name unit = Ok conv /\ dict_get df name = Some col /\ nth_error col i = Some y /\ nth_error x k = Some (conv y ts)) /\
      (~ active (ri_mask inp c) -> nth_error x k = Some None).
Proof. exact named_files_hold. Qed.
Print Assumptions C86_files_hold_values.

(** Two cells in two chunks, one of them in the mask; the second of two days
    has 5 mm of uniform rain and is the second file. *)
Example C86_case : exists ss outs, slices demo_chunks (ri_dims demo_run) = Ok ss /\ List.length ss = 2 /\ workers_ok 0 demo_run ss outs /\
  let S := run_system demo_run ss outs (fun w => w) (fun _ => true) in
  exists m s, exec S m (start S (fun _ _ _ => None)) s /\ finished S s /\
    disk s 1 0 [0; 0] = Some (repeat (Some (5 / 24)%R) 24) /\ disk s 1 0 [0; 1] = Some (repeat None 24).
Proof. exact demo_files. Qed.

Example C86_names : exists files, write_headers "out" "forcing" (ri_groups demo_run) = Ok files /\
  keys files = ["out/forcing_19700101-19700101.nc"; "out/forcing_19700102-19700102.nc"]%string /\ map snd files = ri_groups demo_run.
Proof. eexists. split; [vm_compute; reflexivity|]. split; vm_compute; reflexivity. Qed.

(** C87: the workers succeed exactly when every active cell of the grid does
    on its own ... *)
Theorem C87_workers_succeed_iff : forall fuel inp chunks ss,
  (chunks = [] \/ covers chunks (ri_dims inp)) -> positive_sizes (ri_dims inp) ->
  NoDup (keys (ri_dims inp)) -> slices chunks (ri_dims inp) = Ok ss ->
  (exists outs, workers_ok fuel inp ss outs) <->
  (forall c, cell_in_grid (ri_dims inp) c -> active (ri_mask inp c) ->
     exists vs, cell_alone fuel (ri_out_vars inp) (ri_prm inp) (ri_data inp c) vs).
Proof. exact workers_iff. Qed.
Print Assumptions C87_workers_succeed_iff.

(** ... and then the run can be driven to its end over any old directory. *)
Theorem C87_run_completes : forall fuel inp chunks ss proc_of proc_first old,
  (chunks = [] \/ covers chunks (ri_dims inp)) -> positive_sizes (ri_dims inp) ->
  NoDup (keys (ri_dims inp)) -> slices chunks (ri_dims inp) = Ok ss ->
  (forall c, cell_in_grid (ri_dims inp) c -> active (ri_mask inp c) ->
     exists vs, cell_alone fuel (ri_out_vars inp) (ri_prm inp) (ri_data inp c) vs) ->
  exists outs, workers_ok fuel inp ss outs /\
    let S := run_system inp ss outs proc_of proc_first in exists m s, exec S m (start S old) s /\ finished S s.
Proof. exact run_completes. Qed.
Print Assumptions C87_run_completes.

Example C87_case : exists vs, cell_alone 0 [("prec", "mm timestep-1"); ("temp", "K")]%string (demo_method "passthrough" 60) equator_cell vs.
Proof. exact equator_alone. Qed.
