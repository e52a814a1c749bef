(** A run with hourly files: 48 groups and two names: C113. *)
From Coq Require Import ZArith Reals String List Bool Arith Lia Lra.
From Verif Require Import Model.Py Model.Fl Model.Np Model.Constants Model.Params Model.Physics Model.Disagg Model.Units Model.Output Model.Cell Model.Machine Model.Run Model.Shared
  Spec.TimeSpec Spec.SeriesSpec Spec.GridSpec Spec.WriterSpec Spec.FrameSpec Spec.SolarSpec Spec.CellSpec Spec.SharedSpec
  Proofs.Base Proofs.ArrayProofs Proofs.PrecProofs Proofs.UtcProofs Proofs.DisaggProofs Proofs.FrameProofs Proofs.OutputProofs Proofs.DateProofs Proofs.MachineProofs Proofs.SliceProofs Proofs.WriterProofs
  Proofs.GlobalsProofs Proofs.TempProofs Proofs.CellProofs Proofs.CellTotal Proofs.CellOutputs Proofs.SolarProofs Proofs.SolarExamples Proofs.PrecExamples Proofs.EndToEnd Proofs.RunTotal Proofs.SharedProofs Proofs.SharedRun.
Import ListNotations.
Local Open Scope R_scope.
Local Open Scope string_scope.
Local Open Scope list_scope.

Definition hour_bin (t : Z) : Z := (t / 60)%Z.
Definition hour_run : run_input := two_cells demo_axis (map (fun t => [t]) demo_axis).
Definition hour_names : list string :=
  repeat "out/forcing_19700101-19700101.nc" 24 ++ repeat "out/forcing_19700102-19700102.nc" 24.

Lemma hour_axis : output_axis 0 (0 + (Z.of_nat 2 - 1) * 1440) 60 false = Ok (ri_axis hour_run).
Proof. vm_compute. reflexivity. Qed.
Lemma hour_groups : get_output_times (Some hour_bin) 0 (0 + (Z.of_nat 2 - 1) * 1440) 60 false = Ok (ri_groups hour_run).
Proof. vm_compute. reflexivity. Qed.
Lemma hour_file_names : file_names "out" "forcing" (ri_groups hour_run) = Ok hour_names.
Proof. vm_compute. reflexivity. Qed.
Lemma hour_headers : write_headers "out" "forcing" (ri_groups hour_run) =
  Ok [("out/forcing_19700101-19700101.nc", [1380%Z]); ("out/forcing_19700102-19700102.nc", [2820%Z])].
Proof. vm_compute. reflexivity. Qed.

Lemma hour_alone : forall c, cell_in_grid (ri_dims hour_run) c -> active (ri_mask hour_run c) ->
  exists vs, cell_alone 0 (ri_out_vars hour_run) (ri_prm hour_run) (ri_data hour_run c) vs.
Proof. intros c _ _. exact equator_alone. Qed.

Lemma hour_single : forall t g, nth_error (ri_groups hour_run) t = Some g -> List.length g = 1%nat.
Proof.
  intros t g H. unfold hour_run in H. cbn [two_cells ri_groups] in H. apply nth_error_In, in_map_iff in H as (x & <- & _). reflexivity.
Qed.

(** of the 24 values of the second day the last one is left: one record, for
    an hour whose value is 5/24 mm *)
Theorem hour_files : exists ss outs, slices demo_chunks (ri_dims hour_run) = Ok ss /\ workers_ok 0 hour_run ss outs /\
  let S := record_system hour_run ss outs (fun w => w) (fun _ => true) in let num := name_number hour_names in
  num 24%nat = num 47%nat /\
  exists s, exec_named S num (start_named S num (fun _ _ _ => None)) s /\ finished S s /\
    disk s (num 24%nat) 0%nat ([0; 0]%nat, 0%nat) = Some (Some (5 / 24)) /\
    disk s (num 24%nat) 0%nat ([0; 1]%nat, 0%nat) = Some None /\
    forall k, disk s (num 24%nat) 0%nat ([0; 0]%nat, Datatypes.S k) = None.
Proof.
  assert (E : exists ss, slices demo_chunks (ri_dims hour_run) = Ok ss) by (eexists; vm_compute; reflexivity).
  destruct E as (ss & E).
  destruct (proj2 (workers_iff 0 hour_run demo_chunks ss (or_intror demo_covers) demo_positive demo_dims E) hour_alone) as [outs W].
  exists ss, outs. split; [exact E|]. split; [exact W|]. cbv zeta. split; [vm_compute; reflexivity|].
  set (S := record_system hour_run ss outs (fun w => w) (fun _ => true)). set (num := name_number hour_names).
  destruct (named_finish S num (cell_owner hour_run ss) (records_owned hour_run demo_chunks ss outs (or_intror demo_covers) demo_positive demo_dims E _ _)
    (fun _ _ _ => None) _ (named_refl S num _)) as (s & X & F).
  exists s. split; [exact X|]. split; [exact F|].
  pose proof (shared_files_hold 0 hour_run demo_chunks ss outs (Some hour_bin) 0%Z 2 false "out" "forcing" hour_names (fun w => w) (fun _ => true)
    (or_intror demo_covers) demo_positive demo_dims E W demo_vars legal_60 (or_introl eq_refl) (le_S _ _ (le_n _)) (fun a b H => Z.div_le_mono a b 60 eq_refl H)
    hour_axis hour_groups hour_file_names (fun _ _ => eq_refl) (fun _ _ _ => None) s X F 24%nat "out/forcing_19700102-19700102.nc" 0%nat "prec" "mm timestep-1") as Q.
  assert (Grid : forall j, (j < 2)%nat -> cell_in_grid (ri_dims hour_run) [0; j]%nat).
  { intros j J. constructor; [cbn; lia|]. constructor; [exact J|constructor]. }
  assert (Lst : forall t' g' : _, (47 < t')%nat -> nth_error hour_names t' = Some "out/forcing_19700102-19700102.nc" ->
     nth_error (ri_groups hour_run) t' = Some g' -> nth_error g' 0 = None).
  { intros t' g' L N _. exfalso. assert (Some "out/forcing_19700102-19700102.nc" <> None) as Y by discriminate. rewrite <- N in Y.
    apply nth_error_Some in Y. change (List.length hour_names) with 48%nat in Y. lia. }
  assert (G47 : nth_error (ri_groups hour_run) 47 = Some [2820%Z]) by (vm_compute; reflexivity).
  fold S num in Q. split; [|split].
  - destruct (proj1 (Q [0; 0]%nat 0%nat eq_refl eq_refl (Grid 0%nat ltac:(lia))) 47%nat [2820%Z] 2820%Z eq_refl G47 eq_refl Lst) as (i & Ti & A & _).
    cbn [hour_run two_cells ri_prm demo_method p_time_step] in Ti.
    destruct A as (df & prm' & conv & col & y & Rn & Cv & Cl & Ny & Nx); [exists 1; split; [reflexivity|lra]|].
    assert (conv = ident) by (symmetry; apply Ok_inj; exact Cv). subst conv. etransitivity; [exact Nx|]. f_equal. unfold ident.
    destruct (cell_precipitation 0 (demo_method "passthrough" 60) equator_cell df prm' _ legal_60 eq_refl eq_refl eq_refl eq_refl Rn) as (v & Vv & _ & Day & _).
    assert (v = col) by (apply Some_inj; unfold fl in *; congruence). subst v. destruct (Day 1%nat 5 eq_refl) as [Dy _].
    change (steps (p_time_step (demo_method "passthrough" 60))) with 24%nat in Dy.
    assert (Hi : i = (1 * 24 + 23)%nat) by lia. rewrite Hi in Ny.
    assert (K : (23 < 24)%nat) by lia.
    pose proof (part_index 24 1 col _ 23 Dy K) as P. rewrite repeat_nth_error in P by exact K.
    assert (y = Some (5 / INR 24)) by (apply Some_inj; unfold fl in *; congruence). subst y. do 2 f_equal. cbn. lra.
  - destruct (proj1 (Q [0; 1]%nat 0%nat eq_refl eq_refl (Grid 1%nat ltac:(lia))) 47%nat [2820%Z] 2820%Z eq_refl G47 eq_refl Lst) as (i & Ti & _ & A).
    apply A. intros (z & Z & P). cbn in Z. apply Some_inj in Z. lra.
  - intros k. apply (proj2 (Q [0; 0]%nat (Datatypes.S k) eq_refl eq_refl (Grid 0%nat ltac:(lia)))). intros t g _ G. apply hour_single in G.
    apply nth_error_None. lia.
Qed.

(** ** files of five hours *)
Definition five_bin (t : Z) : Z := (t / 300)%Z.
Definition five_groups : list (list Z) := match get_output_times (Some five_bin) 0 1440 60 false with Ok a => a | Err _ => [] end.
Definition five_run : run_input := two_cells demo_axis five_groups.
Definition day_name : string := "out/forcing_19700102-19700102.nc".
Definition five_names : list string := match file_names "out" "forcing" five_groups with Ok a => a | Err _ => [] end.
Definition five_files : dict (list Z) := match write_headers "out" "forcing" five_groups with Ok a => a | Err _ => [] end.

Lemma five_axis_ok : output_axis 0 (0 + (Z.of_nat 2 - 1) * 1440) 60 false = Ok (ri_axis five_run).
Proof. vm_compute. reflexivity. Qed.
Lemma five_groups_ok : get_output_times (Some five_bin) 0 (0 + (Z.of_nat 2 - 1) * 1440) 60 false = Ok (ri_groups five_run).
Proof. vm_compute. reflexivity. Qed.
Lemma five_names_ok : file_names "out" "forcing" (ri_groups five_run) = Ok five_names.
Proof. vm_compute. reflexivity. Qed.
Lemma five_files_ok : write_headers "out" "forcing" (ri_groups five_run) = Ok five_files.
Proof. vm_compute. reflexivity. Qed.
Lemma five_header : dict_get five_files day_name = Some [2700; 2760; 2820]%Z.
Proof. vm_compute. reflexivity. Qed.
Lemma five_long : nth_error five_names 8 = Some day_name /\ nth_error (ri_groups five_run) 8 = Some [2400; 2460; 2520; 2580; 2640]%Z.
Proof. split; vm_compute; reflexivity. Qed.

Lemma five_alone : forall c, cell_in_grid (ri_dims five_run) c -> active (ri_mask five_run c) ->
  exists vs, cell_alone 0 (ri_out_vars five_run) (ri_prm five_run) (ri_data five_run c) vs.
Proof. intros c _ _. exact equator_alone. Qed.

(** two records of the last file are left from the group before: its header
    has three stamps *)
Theorem five_surplus : exists ss outs, slices demo_chunks (ri_dims five_run) = Ok ss /\ workers_ok 0 five_run ss outs /\
  let S := record_system five_run ss outs (fun w => w) (fun _ => true) in let num := name_number five_names in
  exists s, exec_named S num (start_named S num (fun _ _ _ => None)) s /\ finished S s /\
    exists k, (3 <= k)%nat /\ disk s (num 8%nat) 0%nat ([0; 0]%nat, k) <> None.
Proof.
  assert (E : exists ss, slices demo_chunks (ri_dims five_run) = Ok ss) by (eexists; vm_compute; reflexivity).
  destruct E as (ss & E).
  destruct (proj2 (workers_iff 0 five_run demo_chunks ss (or_intror demo_covers) demo_positive demo_dims E) five_alone) as [outs W].
  exists ss, outs. split; [exact E|]. split; [exact W|]. cbv zeta.
  set (S := record_system five_run ss outs (fun w => w) (fun _ => true)). set (num := name_number five_names).
  destruct (named_finish S num (cell_owner five_run ss) (records_owned five_run demo_chunks ss outs (or_intror demo_covers) demo_positive demo_dims E _ _)
    (fun _ _ _ => None) _ (named_refl S num _)) as (s & X & F).
  exists s. split; [exact X|]. split; [exact F|].
  assert (Grid : cell_in_grid (ri_dims five_run) [0; 0]%nat) by (constructor; [cbn; lia|]; constructor; [cbn; lia|constructor]).
  pose proof (no_surplus 0 five_run demo_chunks ss outs (Some five_bin) 0%Z 2 false "out" "forcing" five_names five_files (fun w => w) (fun _ => true)
    (or_intror demo_covers) demo_positive demo_dims E W demo_vars legal_60 (or_introl eq_refl) (le_S _ _ (le_n _)) (fun a b H => Z.div_le_mono a b 300 eq_refl H)
    five_axis_ok five_groups_ok five_names_ok five_files_ok (fun _ _ => eq_refl) (fun _ _ _ => None) s X F 8%nat day_name [2700; 2760; 2820]%Z 0%nat "prec" "mm timestep-1"
    [0; 0]%nat (proj1 five_long) five_header eq_refl Grid) as Q.
  apply Classical_Prop.NNPP. intros No. assert (A : forall k, (List.length [2700; 2760; 2820]%Z <= k)%nat -> disk s (num 8%nat) 0%nat ([0; 0]%nat, k) = None).
  { intros k Hk. apply Classical_Prop.NNPP. intros D. apply No. exists k. auto. }
  pose proof (proj1 Q A 8%nat _ (proj1 five_long) (proj2 five_long)) as B. cbn in B. lia.
Qed.

Theorem surplus_left : ~ forall fuel inp chunks ss outs freq st n pe dir prefix names files pr pf,
  (chunks = [] \/ covers chunks (ri_dims inp)) -> positive_sizes (ri_dims inp) -> NoDup (keys (ri_dims inp)) ->
  slices chunks (ri_dims inp) = Ok ss -> workers_ok fuel inp ss outs -> NoDup (keys (ri_out_vars inp)) ->
  let ts := p_time_step (ri_prm inp) in
  legal_time_step ts -> (ts < 1440)%Z -> (1 <= n)%nat -> monotone_bins freq ->
  output_axis st (st + (Z.of_nat n - 1) * 1440) ts pe = Ok (ri_axis inp) ->
  get_output_times (Some freq) st (st + (Z.of_nat n - 1) * 1440) ts pe = Ok (ri_groups inp) ->
  file_names dir prefix (ri_groups inp) = Ok names -> write_headers dir prefix (ri_groups inp) = Ok files ->
  (forall c, cell_in_grid (ri_dims inp) c -> List.length (dl_doy (cd_daily (ri_data inp c))) = n) ->
  let S := record_system inp ss outs pr pf in let num := name_number names in
  forall old s, exec_named S num (start_named S num old) s -> finished S s ->
  forall t0 f g v c k, nth_error names t0 = Some f -> dict_get files f = Some g -> cell_in_grid (ri_dims inp) c ->
    (List.length g <= k)%nat -> disk s (num t0) v (c, k) = None.
Proof.
  intros H. destruct five_surplus as (ss & outs & E & W & Z). cbv zeta in Z. destruct Z as (s & X & F & k & Hk & D). apply D.
  refine (H 0%nat five_run demo_chunks ss outs five_bin 0%Z 2%nat false "out" "forcing" five_names five_files (fun w => w) (fun _ => true)
    (or_intror demo_covers) demo_positive demo_dims E W demo_vars legal_60 eq_refl (le_S _ _ (le_n _)) (fun a b H => Z.div_le_mono a b 300 eq_refl H)
    five_axis_ok five_groups_ok five_names_ok five_files_ok (fun _ _ => eq_refl) (fun _ _ _ => None) s X F 8%nat day_name [2700; 2760; 2820]%Z 0%nat [0; 0]%nat k
    (proj1 five_long) five_header _ Hk).
  constructor; [cbn; lia|]. constructor; [cbn; lia|constructor].
Qed.
