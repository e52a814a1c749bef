(** C86 and C100 for the files identified by their names. *)
From Coq Require Import ZArith Reals String List Bool Arith Lia.
From Verif Require Import Model.Py Model.Fl Model.Np Model.Params Model.Disagg Model.Mtclim Model.Units Model.Reader Model.State Model.Output Model.Validate Model.Cell Model.Machine Model.Run Model.Worker Model.Align
  Spec.TimeSpec Spec.SeriesSpec Spec.GridSpec Spec.WriterSpec Spec.StateSpec Spec.FrameSpec Spec.CellSpec Spec.WorkerSpec Spec.AlignSpec
  Proofs.Base Proofs.SliceProofs Proofs.HeaderProofs Proofs.SettingsProofs Proofs.GlobalsProofs Proofs.CellProofs Proofs.LoadProofs Proofs.WorkerTotal Proofs.AlignProofs Proofs.CellBody Proofs.SpanProofs Proofs.EndToEnd Proofs.AlignRun.
Import ListNotations.
Local Open Scope string_scope.
Local Open Scope list_scope.
Local Open Scope Z_scope.

Lemma named_group (files : dict (list Z)) groups f fname g : map snd files = groups -> nth_error files f = Some (fname, g) -> nth_error groups f = Some g.
Proof. intros <- H. now rewrite nth_error_map, H. Qed.

Theorem named_files_hold fuel inp chunks ss outs freq st n pe dir prefix files pr pf :
  (chunks = [] \/ covers chunks (ri_dims inp)) -> positive_sizes (ri_dims inp) -> NoDup (keys (ri_dims inp)) ->
  slices chunks (ri_dims inp) = Ok ss -> workers_ok fuel inp ss outs -> NoDup (keys (ri_out_vars inp)) ->
  let ts := p_time_step (ri_prm inp) in
  legal_time_step ts -> (ts < 1440 \/ forall c df prm' name col, cell_in_grid (ri_dims inp) c -> run_cell fuel (ri_prm inp) (ri_data inp c) = Some (Ok df, prm') ->
    dict_get df name = Some col -> List.length col = n) -> (1 <= n)%nat -> match freq with Some bin => monotone_bins bin | None => True end ->
  output_axis st (st + (Z.of_nat n - 1) * 1440) ts pe = Ok (ri_axis inp) ->
  get_output_times freq st (st + (Z.of_nat n - 1) * 1440) ts pe = Ok (ri_groups inp) ->
  write_headers dir prefix (ri_groups inp) = Ok files -> map snd files = ri_groups inp ->
  (forall c, cell_in_grid (ri_dims inp) c -> List.length (dl_doy (cd_daily (ri_data inp c))) = n) ->
  let S := run_system inp ss outs pr pf in
  forall old m s, exec S m (start S old) s -> finished S s ->
  forall f fname g v name unit c, nth_error files f = Some (fname, g) -> nth_error (ri_out_vars inp) v = Some (name, unit) ->
    cell_in_grid (ri_dims inp) c ->
  exists x, disk s f v c = Some x /\ List.length x = List.length g /\
    forall k t, nth_error g k = Some t -> exists i, t = st + (Z.of_nat i + (if pe then 1 else 0)) * ts /\
      (active (ri_mask inp c) -> exists df prm' conv col y, run_cell fuel (ri_prm inp) (ri_data inp c) = Some (Ok df, prm') /\
         converter_for name unit = Ok conv /\ dict_get df name = Some col /\ nth_error col i = Some y /\ nth_error x k = Some (conv y ts)) /\
      (~ active (ri_mask inp c) -> nth_error x k = Some None).
Proof.
  intros Cov Pos ND E W NV ts L Lt Hn Mb Ax Gr _ Nm Dn S old m s X Fin f fname g v name unit c Hf.
  exact (files_hold_values fuel inp chunks ss outs freq st n pe pr pf Cov Pos ND E W NV L Lt Hn Mb Ax Gr Dn old m s X Fin f g v name unit c (named_group _ _ _ _ _ Nm Hf)).
Qed.

Theorem named_files_to_files fuel prm inp chunks ss outs n freq pe axis groups dir prefix files pr pf :
  good_files inp -> (chunks = [] \/ covers chunks (axes_dims (gi_axes inp))) -> slices chunks (axes_dims (gi_axes inp)) = Ok ss ->
  Forall2 (fun ds out => file_worker fuel prm inp ds = Some (Ok out)) ss outs ->
  (1 <= n)%nat -> gi_days inp = dates_from (gi_start inp) n -> gi_stop inp = gi_start inp + Z.of_nat n - 1 ->
  (forall c r, on_grid (gi_axes inp) c -> own_inputs inp c r -> raw_shaped n r /\ forall k v, raw_col r k = Ok v -> List.length v = n) ->
  NoDup (keys (gi_out_vars inp)) ->
  let ts := p_time_step prm in let st := 1440 * gi_start inp in
  legal_time_step ts -> match freq with Some bin => monotone_bins bin | None => True end ->
  output_axis st (st + (Z.of_nat n - 1) * 1440) ts pe = Ok axis ->
  get_output_times freq st (st + (Z.of_nat n - 1) * 1440) ts pe = Ok groups ->
  write_headers dir prefix groups = Ok files -> map snd files = groups ->
  let S := run_system (mk_run_input (axes_dims (gi_axes inp)) (gi_mask inp) (fun _ => no_cell) prm (gi_out_vars inp) axis groups) ss outs pr pf in
  forall old m s, exec S m (start S old) s -> finished S s ->
  forall f fname g v name unit c, nth_error files f = Some (fname, g) -> nth_error (gi_out_vars inp) v = Some (name, unit) -> on_grid (gi_axes inp) c ->
  exists x, disk s f v c = Some x /\ List.length x = List.length g /\
    forall k t, nth_error g k = Some t -> exists i, t = st + (Z.of_nat i + (if pe then 1 else 0)) * ts /\
      (active (gi_mask inp c) -> exists r cd df prm' conv col y, own_inputs inp c r /\ loaded prm (gi_start inp) n r cd /\
         run_cell fuel prm cd = Some (Ok df, prm') /\
         converter_for name unit = Ok conv /\ dict_get df name = Some col /\ nth_error col i = Some y /\ nth_error x k = Some (conv y ts)) /\
      (~ active (gi_mask inp c) -> nth_error x k = Some None).
Proof.
  intros G Cv E W Hn Hd Hs Sh NV ts st L Mb Ax Gr _ Nm S old m s X Fin f fname g v name unit c Hf.
  exact (files_to_files fuel prm inp chunks ss outs n freq pe axis groups pr pf G Cv E W Hn Hd Hs Sh NV L Mb Ax Gr old m s X Fin f g v name unit c (named_group _ _ _ _ _ Nm Hf)).
Qed.
