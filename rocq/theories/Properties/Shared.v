(** C113, C114: groups of time stamps that share a file. *)
From Coq Require Import ZArith Reals String List Bool Arith.
From Verif Require Import Model.Py Model.Fl Model.Params Model.Disagg Model.Units Model.Output Model.Cell Model.Machine Model.Run Model.Shared
  Spec.TimeSpec Spec.GridSpec Spec.WriterSpec Spec.CellSpec Spec.SharedSpec
  Proofs.Base Proofs.RunTotal Proofs.SharedProofs Proofs.SharedRun Proofs.SharedCases.
Import ListNotations.
Local Open Scope string_scope.
Local Open Scope list_scope.
Local Open Scope Z_scope.

(** C113: for every output frequency, whether or not groups share a name,
    in every finished execution record [k] of a file holds, for every cell,
    what the cell's own run gives for stamp [k] of the time axis in the
    file's header, and NaN at cells that are masked out. *)
Theorem C113_records_match_header : forall fuel inp chunks ss outs freq st n pe dir prefix names files pr pf,
  (chunks = [] \/ covers chunks (ri_dims inp)) -> positive_sizes (ri_dims inp) -> NoDup (keys (ri_dims inp)) ->
  slices chunks (ri_dims inp) = Ok ss -> workers_ok fuel inp ss outs -> NoDup (keys (ri_out_vars inp)) ->
  let ts := p_time_step (ri_prm inp) in
  legal_time_step ts -> (ts < 1440 \/ forall c df prm' name col, cell_in_grid (ri_dims inp) c -> run_cell fuel (ri_prm inp) (ri_data inp c) = Some (Ok df, prm') ->
    dict_get df name = Some col -> List.length col = n) -> (1 <= n)%nat -> match freq with Some bin => monotone_bins bin | None => True end ->
  output_axis st (st + (Z.of_nat n - 1) * 1440) ts pe = Ok (ri_axis inp) ->
  get_output_times freq st (st + (Z.of_nat n - 1) * 1440) ts pe = Ok (ri_groups inp) ->
  file_names dir prefix (ri_groups inp) = Ok names -> write_headers dir prefix (ri_groups inp) = Ok files ->
  (forall c, cell_in_grid (ri_dims inp) c -> List.length (dl_doy (cd_daily (ri_data inp c))) = n) ->
  let S := record_system inp ss outs pr pf in let num := name_number names in
  forall old s, exec_named S num (start_named S num old) s -> finished S s ->
  forall t0 f g v name unit c k stamp, nth_error names t0 = Some f -> dict_get files f = Some g -> nth_error g k = Some stamp ->
    nth_error (ri_out_vars inp) v = Some (name, unit) -> cell_in_grid (ri_dims inp) c ->
    exists i, stamp = st + (Z.of_nat i + (if pe then 1 else 0)) * ts /\
      (active (ri_mask inp c) -> exists df prm' conv col y, run_cell fuel (ri_prm inp) (ri_data inp c) = Some (Ok df, prm') /\
         converter_for name unit = Ok conv /\ dict_get df name = Some col /\ nth_error col i = Some y /\ disk s (num t0) v (c, k) = Some (conv y ts)) /\
      (~ active (ri_mask inp c) -> disk s (num t0) v (c, k) = Some None).
Proof. exact headers_match. Qed.
Print Assumptions C113_records_match_header.

(** record [k] of a file is that of the last group of its name that is long
    enough, and is absent when none is *)
Theorem C113_what_remains : forall fuel inp chunks ss outs freq st n pe dir prefix names pr pf,
  (chunks = [] \/ covers chunks (ri_dims inp)) -> positive_sizes (ri_dims inp) -> NoDup (keys (ri_dims inp)) ->
  slices chunks (ri_dims inp) = Ok ss -> workers_ok fuel inp ss outs -> NoDup (keys (ri_out_vars inp)) ->
  let ts := p_time_step (ri_prm inp) in
  legal_time_step ts -> (ts < 1440 \/ forall c df prm' name col, cell_in_grid (ri_dims inp) c -> run_cell fuel (ri_prm inp) (ri_data inp c) = Some (Ok df, prm') ->
    dict_get df name = Some col -> List.length col = n) -> (1 <= n)%nat -> match freq with Some bin => monotone_bins bin | None => True end ->
  output_axis st (st + (Z.of_nat n - 1) * 1440) ts pe = Ok (ri_axis inp) ->
  get_output_times freq st (st + (Z.of_nat n - 1) * 1440) ts pe = Ok (ri_groups inp) ->
  file_names dir prefix (ri_groups inp) = Ok names ->
  (forall c, cell_in_grid (ri_dims inp) c -> List.length (dl_doy (cd_daily (ri_data inp c))) = n) ->
  let S := record_system inp ss outs pr pf in let num := name_number names in
  forall old s, exec_named S num (start_named S num old) s -> finished S s ->
  forall t0 f v name unit c k, nth_error names t0 = Some f -> nth_error (ri_out_vars inp) v = Some (name, unit) -> cell_in_grid (ri_dims inp) c ->
  (forall t g stamp, nth_error names t = Some f -> nth_error (ri_groups inp) t = Some g -> nth_error g k = Some stamp ->
     (forall t' g', (t < t')%nat -> nth_error names t' = Some f -> nth_error (ri_groups inp) t' = Some g' -> nth_error g' k = None) ->
     exists i, stamp = st + (Z.of_nat i + (if pe then 1 else 0)) * ts /\
      (active (ri_mask inp c) -> exists df prm' conv col y, run_cell fuel (ri_prm inp) (ri_data inp c) = Some (Ok df, prm') /\
         converter_for name unit = Ok conv /\ dict_get df name = Some col /\ nth_error col i = Some y /\ disk s (num t0) v (c, k) = Some (conv y ts)) /\
      (~ active (ri_mask inp c) -> disk s (num t0) v (c, k) = Some None)) /\
  ((forall t g, nth_error names t = Some f -> nth_error (ri_groups inp) t = Some g -> nth_error g k = None) -> disk s (num t0) v (c, k) = None).
Proof. exact shared_files_hold. Qed.
Print Assumptions C113_what_remains.

(** files have the same number exactly when they have the same name *)
Theorem C113_numbers : forall names t t' f, nth_error names t = Some f -> (t' < List.length names)%nat ->
  (name_number names t' = name_number names t <-> nth_error names t' = Some f).
Proof. exact same_number. Qed.
Print Assumptions C113_numbers.

(** shared names cannot make the workers wait for each other for ever: an
    execution that is not finished has a next step, ... *)
Theorem C113_no_deadlock : forall {cell value} (S : system cell value) name_of owner, owned S owner -> forall old s,
  exec_named S name_of (start_named S name_of old) s -> ~ finished S s -> exists w s', step_named S name_of s w = Some s'.
Proof. exact @named_progress. Qed.
Print Assumptions C113_no_deadlock.

(** ... can be continued to a finished one, ... *)
Theorem C113_completes : forall {cell value} (S : system cell value) name_of owner, owned S owner -> forall old s,
  exec_named S name_of (start_named S name_of old) s -> exists s', exec_named S name_of s s' /\ finished S s'.
Proof. exact @named_finish. Qed.
Print Assumptions C113_completes.

(** ... and has a limited number of steps, however they are scheduled *)
Theorem C113_limited : forall {cell value} (S : system cell value) name_of old m s,
  takes S name_of m (start_named S name_of old) s -> (m <= nworkers S * (nfiles S * (6 + nvars S)))%nat.
Proof. exact @named_limit. Qed.
Print Assumptions C113_limited.

(** finished executions agree on every point: what the last group of the
    name writes that has something for the point *)
Theorem C113_content : forall {cell value} (S : system cell value) name_of owner, owned S owner -> forall old s,
  exec_named S name_of (start_named S name_of old) s -> finished S s ->
  forall t v c, (t < nfiles S)%nat -> (v < nvars S)%nat -> (owner c < nworkers S)%nat ->
  last_written S name_of (owner c) (nfiles S) (name_of t) v c (disk s (name_of t) v c).
Proof. exact @shared_content. Qed.
Print Assumptions C113_content.

(** two days of hourly files: two files, each with one record *)
Example C113_case : exists ss outs, slices demo_chunks (ri_dims hour_run) = Ok ss /\ workers_ok 0 hour_run ss outs /\
  let S := record_system hour_run ss outs (fun w => w) (fun _ => true) in let num := name_number hour_names in
  num 24%nat = num 47%nat /\
  exists s, exec_named S num (start_named S num (fun _ _ _ => None)) s /\ finished S s /\
    disk s (num 24%nat) 0%nat ([0; 0]%nat, 0%nat) = Some (Some (5 / 24)%R) /\
    disk s (num 24%nat) 0%nat ([0; 1]%nat, 0%nat) = Some None /\
    forall k, disk s (num 24%nat) 0%nat ([0; 0]%nat, Datatypes.S k) = None.
Proof. exact hour_files. Qed.

Example C113_headers_case : write_headers "out" "forcing" (ri_groups hour_run) =
  Ok [("out/forcing_19700101-19700101.nc", [1380]); ("out/forcing_19700102-19700102.nc", [2820])].
Proof. exact hour_headers. Qed.

(** C114, the part that holds: a file has no records beyond the time axis of
    its header if and only if no group of its name is longer than the last *)
Theorem C114_no_surplus_partial : forall fuel inp chunks ss outs freq st n pe dir prefix names files pr pf,
  (chunks = [] \/ covers chunks (ri_dims inp)) -> positive_sizes (ri_dims inp) -> NoDup (keys (ri_dims inp)) ->
  slices chunks (ri_dims inp) = Ok ss -> workers_ok fuel inp ss outs -> NoDup (keys (ri_out_vars inp)) ->
  let ts := p_time_step (ri_prm inp) in
  legal_time_step ts -> (ts < 1440 \/ forall c df prm' name col, cell_in_grid (ri_dims inp) c -> run_cell fuel (ri_prm inp) (ri_data inp c) = Some (Ok df, prm') ->
    dict_get df name = Some col -> List.length col = n) -> (1 <= n)%nat -> match freq with Some bin => monotone_bins bin | None => True end ->
  output_axis st (st + (Z.of_nat n - 1) * 1440) ts pe = Ok (ri_axis inp) ->
  get_output_times freq st (st + (Z.of_nat n - 1) * 1440) ts pe = Ok (ri_groups inp) ->
  file_names dir prefix (ri_groups inp) = Ok names -> write_headers dir prefix (ri_groups inp) = Ok files ->
  (forall c, cell_in_grid (ri_dims inp) c -> List.length (dl_doy (cd_daily (ri_data inp c))) = n) ->
  let S := record_system inp ss outs pr pf in let num := name_number names in
  forall old s, exec_named S num (start_named S num old) s -> finished S s ->
  forall t0 f g v name unit c, nth_error names t0 = Some f -> dict_get files f = Some g ->
    nth_error (ri_out_vars inp) v = Some (name, unit) -> cell_in_grid (ri_dims inp) c ->
    (forall k, (List.length g <= k)%nat -> disk s (num t0) v (c, k) = None) <->
    (forall t g', nth_error names t = Some f -> nth_error (ri_groups inp) t = Some g' -> (List.length g' <= List.length g)%nat).
Proof. exact no_surplus. Qed.
Print Assumptions C114_no_surplus_partial.

(** hourly files have nothing beyond their header *)
Example C114_case : forall t g, nth_error (ri_groups hour_run) t = Some g -> List.length g = 1%nat.
Proof. exact hour_single. Qed.

(** C114 fails for files of five hours: the last group of two days has three
    stamps and the file name of the group before, which has five *)
Theorem C114_refuted : ~ forall fuel inp chunks ss outs freq st n pe dir prefix names files pr pf,
  (chunks = [] \/ covers chunks (ri_dims inp)) -> positive_sizes (ri_dims inp) -> NoDup (keys (ri_dims inp)) ->
  slices chunks (ri_dims inp) = Ok ss -> workers_ok fuel inp ss outs -> NoDup (keys (ri_out_vars inp)) ->
  let ts := p_time_step (ri_prm inp) in
  legal_time_step ts -> (ts < 1440)%Z -> (1 <= n)%nat -> monotone_bins freq ->
  output_axis st (st + (Z.of_nat n - 1) * 1440) ts pe = Ok (ri_axis inp) ->
  get_output_times (Some freq) st (st + (Z.of_nat n - 1) * 1440) ts pe = Ok (ri_groups inp) ->
  file_names dir prefix (ri_groups inp) = Ok names -> write_headers dir prefix (ri_groups inp) = Ok files ->
  (forall c, cell_in_grid (ri_dims inp) c -> List.length (dl_doy (cd_daily (ri_data inp c))) = n) ->
  let S := record_system inp ss outs pr pf in let num := name_number names in
  forall old s, exec_named S num (start_named S num old) s -> finished S s ->
  forall t0 f g v c k, nth_error names t0 = Some f -> dict_get files f = Some g -> cell_in_grid (ri_dims inp) c ->
    (List.length g <= k)%nat -> disk s (num t0) v (c, k) = None.
Proof. exact surplus_left. Qed.
Print Assumptions C114_refuted.

Example C114_surplus_case : exists ss outs, slices demo_chunks (ri_dims five_run) = Ok ss /\ workers_ok 0 five_run ss outs /\
  let S := record_system five_run ss outs (fun w => w) (fun _ => true) in let num := name_number five_names in
  exists s, exec_named S num (start_named S num (fun _ _ _ => None)) s /\ finished S s /\
    exists k, (3 <= k)%nat /\ disk s (num 8%nat) 0%nat ([0; 0]%nat, k) <> None.
Proof. exact five_surplus. Qed.
