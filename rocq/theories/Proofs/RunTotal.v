(** When a run completes, and a run that does: C87 and examples. *)
From Coq Require Import ZArith Reals String List Bool Arith Lia Lra.
From Verif Require Import Model.Py Model.Fl Model.Np Model.Constants Model.Params Model.Physics Model.Disagg Model.Units Model.Output Model.Cell Model.Machine Model.Run
  Spec.TimeSpec Spec.SeriesSpec Spec.GridSpec Spec.WriterSpec Spec.FrameSpec Spec.SolarSpec Spec.CellSpec
  Proofs.Base Proofs.ArrayProofs Proofs.PrecProofs Proofs.UtcProofs Proofs.DisaggProofs Proofs.FrameProofs Proofs.OutputProofs Proofs.DateProofs Proofs.MachineProofs Proofs.SliceProofs Proofs.WriterProofs
  Proofs.GlobalsProofs Proofs.TempProofs Proofs.CellProofs Proofs.CellTotal Proofs.CellOutputs Proofs.SolarProofs Proofs.SolarExamples Proofs.PrecExamples Proofs.EndToEnd.
Import ListNotations.
Local Open Scope string_scope.
Local Open Scope list_scope.

Theorem workers_iff fuel inp chunks ss :
  (chunks = [] \/ covers chunks (ri_dims inp)) -> positive_sizes (ri_dims inp) -> NoDup (keys (ri_dims inp)) -> slices chunks (ri_dims inp) = Ok ss ->
  (exists outs, workers_ok fuel inp ss outs) <->
  (forall c, cell_in_grid (ri_dims inp) c -> active (ri_mask inp c) ->
     exists vs, cell_alone fuel (ri_out_vars inp) (ri_prm inp) (ri_data inp c) vs).
Proof.
  intros Cv Pos ND E. split.
  - intros [outs W] c G A. destruct (slice_of_cell chunks _ ss Cv Pos ND E c G) as (w & Hw & I & _).
    destruct (globalize_onto _ _ I) as (l & Hl & Eg).
    destruct (worker_spec fuel inp ss outs W w Hw) as [S1 _].
    destruct (S1 l Hl) as (vs & Q & _); [now rewrite Eg|]. rewrite Eg in Q. eauto.
  - intros All. clear - All. induction ss as [|ds ss (outs & IH)]; [exists []; constructor|].
    destruct (run_cells_total fuel (ri_out_vars inp)
       (fun l => ri_mask inp (globalize (isel_ranges (ri_dims inp) ds) l))
       (fun l => ri_data inp (globalize (isel_ranges (ri_dims inp) ds) l)) (ri_prm inp)
       (indices (map (@List.length nat) (isel_ranges (ri_dims inp) ds))) (ri_prm inp) (fun _ => None))
       as (o & p & R).
    + reflexivity.
    + intros l Hl A. apply All; auto. eapply in_slice_grid. unfold in_slice. apply globalize_in. exact Hl.
    + exists (o :: outs). constructor; auto. exists (ri_prm inp), p. split; [reflexivity|exact R].
Qed.

(** the whole run: from any old directory some schedule finishes *)
Theorem run_completes fuel inp chunks ss pr pf old :
  (chunks = [] \/ covers chunks (ri_dims inp)) -> positive_sizes (ri_dims inp) -> NoDup (keys (ri_dims inp)) -> slices chunks (ri_dims inp) = Ok ss ->
  (forall c, cell_in_grid (ri_dims inp) c -> active (ri_mask inp c) ->
     exists vs, cell_alone fuel (ri_out_vars inp) (ri_prm inp) (ri_data inp c) vs) ->
  exists outs, workers_ok fuel inp ss outs /\
    let S := run_system inp ss outs pr pf in exists m s, exec S m (start S old) s /\ finished S s.
Proof.
  intros Cv Pos ND E A. destruct (proj2 (workers_iff _ _ _ _ Cv Pos ND E) A) as [outs W]. exists outs. split; [exact W|]. cbv zeta.
  destruct (can_finish _ (run_owners_disjoint fuel inp chunks ss outs pr pf Cv Pos ND E W) old 0 _ (exec_refl _ _)) as (m & s & _ & X & F). eauto.
Qed.

(** ** the cell with gaps *)
Lemma gappy_options k : good_options (demo_rain k).
Proof. constructor; [exact legal_60|cbn [demo_rain p_tmax_frac]; lra|right;right;right;right;right;right;left;reflexivity|right;right;left;reflexivity]. Qed.

Lemma gappy_forcing k : good_forcing (cd_daily gappy_cell) (demo_rain k).
Proof.
  constructor.
  - discriminate.
  - intros j [<-|[<-|[<-|[<-|[]]]]]; lia.
  - exists [10; 12; 11; 11]%R. split; reflexivity.
  - exists [20; 25; 22; 21]%R. split; reflexivity.
  - intros j [<-|[<-|[<-|[<-|[]]]]]; eexists; split; reflexivity.
  - intros j I v V. cbn [In] in I.
    repeat (destruct I as [<-|I]; [first [discriminate V | apply Some_inj in V; subst v; reflexivity]|]). destruct I.
  - intros _. split; eexists; split; reflexivity.
Qed.

Theorem gappy_runs fuel k : exists out prm', run_cell fuel (demo_rain k) gappy_cell = Some (Ok out, prm').
Proof.
  destruct (equator_ok 0 0.0065) as [g G].
  refine (pass_cell_total fuel (demo_rain k) gappy_cell g 9 22 eq_refl (gappy_options _) (gappy_forcing _) _ _ G _ _).
  - eexists. split; reflexivity.
  - cbn [cd_lat gappy_cell]. lra.
  - reflexivity.
  - reflexivity.
Qed.

Local Open Scope R_scope.
Lemma covered_noon : SeriesSpec.covered 720 60.
Proof. apply PrecExamples.covered_example. Qed.

Lemma uncovered_late : ~ SeriesSpec.covered 720.5 0.5.
Proof. apply PrecExamples.uncovered_example. Qed.

Theorem gappy_uniform : exists out prm' v, run_cell 0 (demo_rain "uniform") gappy_cell = Some (Ok out, prm') /\ dict_get out "prec" = Some v /\ map (fun d => fsum (day_part 24 d v)) [0; 1; 2; 3]%nat = map Some [6; 6; 5; 2].
Proof.
  destruct (gappy_runs 0 "uniform") as (out & prm' & Rn). exists out, prm'.
  destruct (cell_precipitation 0 (demo_rain "uniform") gappy_cell out prm' _ legal_60 eq_refl eq_refl eq_refl eq_refl Rn) as (v & V & _ & A & B).
  exists v. split; [exact Rn|]. split; [exact V|]. change (steps (p_time_step (demo_rain "uniform"))) with 24%nat in *.
  destruct (A 0%nat 6 eq_refl) as [_ A0]. destruct (A 2%nat 5 eq_refl) as [_ A2]. destruct (A 3%nat 2 eq_refl) as [_ A3].
  assert (A1 : fsum (day_part 24 1 v) = Some 6).
  { apply (B 0%nat 1%nat 6 eq_refl); [cbn; lia|]. intros j J. assert (j = 1%nat) by lia. subst. reflexivity. }
  cbn [map]. now rewrite A0, A1, A2, A3.
Qed.

Theorem gappy_triangle : exists out prm' v x, run_cell 0 (demo_rain "triangle") gappy_cell = Some (Ok out, prm') /\ dict_get out "prec" = Some v /\ fsum (day_part 24 0 v) = Some 6 /\ fsum (day_part 24 2 v) = Some 5 /\ day_part 24 3 v = repeat (Some x) 24.
Proof.
  destruct (gappy_runs 0 "triangle") as (out & prm' & Rn). exists out, prm'.
  destruct (cell_triangle 0 (demo_rain "triangle") gappy_cell out prm' _ _ _ legal_60 eq_refl eq_refl eq_refl eq_refl eq_refl eq_refl eq_refl eq_refl Rn)
    as (v & V & _ & A & B).
  change (steps (p_time_step (demo_rain "triangle"))) with 24%nat in *.
  destruct (B 2%nat 5 2 720 60 720.5 0.5 eq_refl eq_refl eq_refl covered_noon eq_refl eq_refl eq_refl uncovered_late) as (x & _ & X).
  exists v, x. split; [exact Rn|]. split; [exact V|]. split; [|split; [|exact X]].
  - exact (A 0%nat 6 720 60 eq_refl eq_refl eq_refl covered_noon).
  - exact (A 2%nat 5 720 60 eq_refl eq_refl eq_refl covered_noon).
Qed.

Theorem gappy_wind : exists out prm' v, run_cell 0 (demo_rain "uniform") gappy_cell = Some (Ok out, prm') /\ dict_get out "wind" = Some v /\ v = repeat (Some 3) 48 ++ repeat (Some 4) 24 ++ repeat (Some 1) 24.
Proof.
  destruct (gappy_runs 0 "uniform") as (out & prm' & Rn). exists out, prm'.
  destruct (cell_wind 0 (demo_rain "uniform") gappy_cell out prm' _ legal_60 eq_refl eq_refl eq_refl Rn) as (v & V & Ln & A & B).
  exists v. split; [exact Rn|]. split; [exact V|]. change (steps (p_time_step (demo_rain "uniform"))) with 24%nat in *.
  pose proof (A 0%nat 3 eq_refl) as A0. pose proof (A 2%nat 4 eq_refl) as A2. pose proof (A 3%nat 1 eq_refl) as A3.
  assert (A1 : day_part 24 1 v = repeat (Some 3) 24).
  { apply (B 0%nat 1%nat 3 eq_refl); [cbn; lia|]. intros j J. assert (j = 1%nat) by lia. subst. reflexivity. }
  change (List.length v = 96)%nat in Ln. apply SolarProofs.list_ext. intros i.
  assert (Q : forall d j x, day_part 24 d v = repeat (Some x) 24 -> (j < 24)%nat -> nth_error v (d * 24 + j) = Some (Some x)).
  { intros d j x D J. etransitivity; [exact (part_index 24 d v _ j D J)|]. now apply repeat_nth_error. }
  destruct (Nat.lt_ge_cases i 48) as [I|I]; [rewrite nth_error_app1 by (rewrite repeat_length; exact I); rewrite repeat_nth_error by exact I|].
  { destruct (Nat.lt_ge_cases i 24); [exact (Q 0%nat i 3 A0 ltac:(lia))|].
    replace i with (1 * 24 + (i - 24))%nat by lia. apply Q; [exact A1|lia]. }
  rewrite nth_error_app2 by (rewrite repeat_length; exact I). rewrite repeat_length.
  destruct (Nat.lt_ge_cases i 72) as [I2|I2].
  { rewrite nth_error_app1 by (rewrite repeat_length; lia). rewrite repeat_nth_error by lia. replace i with (2 * 24 + (i - 48))%nat by lia.
    apply Q; [exact A2|lia]. }
  rewrite nth_error_app2 by (rewrite repeat_length; lia). rewrite repeat_length.
  destruct (Nat.lt_ge_cases i 96) as [I3|I3].
  { rewrite repeat_nth_error by lia. replace i with (3 * 24 + (i - 72))%nat by lia. apply Q; [exact A3|lia]. }
  transitivity (@None fl); [|symmetry]; apply nth_error_None; [unfold fl in *; lia|rewrite repeat_length; lia].
Qed.

(** ** two cells *)
Lemma equator_alone : exists vs, cell_alone 0 [("prec", "mm timestep-1"); ("temp", "K")] (demo_method "passthrough" 60) equator_cell vs.
Proof.
  destruct (equator_runs 0 60 legal_60) as (out & prm' & Rn).
  destruct (cell_forcing 0 (demo_method "passthrough" 60) equator_cell out prm' eq_refl Rn) as (g & df & s1 & s2 & _ & _ & _ & _ & _ & X).
  destruct (disaggregate_shape _ _ _ _ _ _ X legal_60) as [Ns _].
  assert (G : forall k, In k (map fst out) -> exists v, dict_getitem out k = Ok v).
  { intros k I. destruct (dict_get_Some_key out k I) as [v V]. exists v. unfold dict_getitem. now rewrite V. }
  rewrite Ns in G. unfold sub_daily_names in G.
  destruct (G "prec") as [p P]; [apply in_or_app; left; mem|]. destruct (G "temp") as [t T]; [apply in_or_app; left; mem|].
  eexists. exists out, prm'. split; [exact Rn|]. unfold convert_outputs. cbn [mapM fst snd].
  change (converter_for "prec" "mm timestep-1") with (Ok ident). change (converter_for "temp" "K") with (Ok (fun (x : fl) (_ : Z) => (x + #273.15)%fl)).
  cbn [bind]. rewrite P, T. cbn [bind]. reflexivity.
Qed.

Definition daily_bin (t : Z) : Z := (t / 1440)%Z.
Definition demo_chunks : dict Z := [("lon", 1%Z); ("lat", 1%Z)].
Definition demo_axis : list Z := match output_axis 0 1440 60 false with Ok a => a | Err _ => [] end.
Definition demo_groups : list (list Z) := match get_output_times (Some daily_bin) 0 1440 60 false with Ok a => a | Err _ => [] end.
Definition demo_run : run_input := two_cells demo_axis demo_groups.

Lemma demo_alone : forall c, cell_in_grid (ri_dims demo_run) c -> active (ri_mask demo_run c) ->
  exists vs, cell_alone 0 (ri_out_vars demo_run) (ri_prm demo_run) (ri_data demo_run c) vs.
Proof. intros c _ _. exact equator_alone. Qed.

Lemma demo_covers : covers demo_chunks (ri_dims demo_run).
Proof.
  split; [|split].
  - cbn. constructor; [intros [X|[]]; discriminate X|]. constructor; [intros []|constructor].
  - cbn. apply Permutation.perm_swap.
  - intros d c [X|[X|[]]]; injection X as <- <-; lia.
Qed.

Lemma demo_positive : positive_sizes (ri_dims demo_run).
Proof. intros d n [X|[X|[]]]; injection X as <- <-; lia. Qed.

Lemma demo_dims : NoDup (keys (ri_dims demo_run)).
Proof. cbn. constructor; [intros [X|[]]; discriminate X|]. constructor; [intros []|constructor]. Qed.

Lemma demo_vars : NoDup (keys (ri_out_vars demo_run)).
Proof. cbn. constructor; [intros [X|[]]; discriminate X|]. constructor; [intros []|constructor]. Qed.

(** the second file holds the second day's 5 mm, an hour at a time, at the
    active cell and nothing at the other *)
Theorem demo_files : exists ss outs, slices demo_chunks (ri_dims demo_run) = Ok ss /\ List.length ss = 2%nat /\ workers_ok 0 demo_run ss outs /\
  let S := run_system demo_run ss outs (fun w => w) (fun _ => true) in
  exists m s, exec S m (start S (fun _ _ _ => None)) s /\ finished S s /\
    disk s 1%nat 0%nat [0; 0]%nat = Some (repeat (Some (5 / 24)) 24) /\ disk s 1%nat 0%nat [0; 1]%nat = Some (repeat None 24).
Proof.
  assert (E : exists ss, slices demo_chunks (ri_dims demo_run) = Ok ss /\ List.length ss = 2%nat).
  { eexists. split; [vm_compute; reflexivity|reflexivity]. }
  destruct E as (ss & E & L2).
  destruct (run_completes 0 demo_run demo_chunks ss (fun w => w) (fun _ => true) (fun _ _ _ => None) (or_intror demo_covers) demo_positive demo_dims E demo_alone)
    as (outs & W & m & s & X & F).
  exists ss, outs. split; [exact E|]. split; [exact L2|]. split; [exact W|]. cbv zeta. exists m, s. split; [exact X|]. split; [exact F|].
  assert (Ax : output_axis 0 (0 + (Z.of_nat 2 - 1) * 1440) 60 false = Ok (ri_axis demo_run)) by (vm_compute; reflexivity).
  assert (Gr : get_output_times (Some daily_bin) 0 (0 + (Z.of_nat 2 - 1) * 1440) 60 false = Ok (ri_groups demo_run)) by (vm_compute; reflexivity).
  assert (G1 : exists g, nth_error (ri_groups demo_run) 1 = Some g /\ List.length g = 24%nat /\
     forall k t, nth_error g k = Some t -> (k < 24)%nat -> t = (1440 + Z.of_nat k * 60)%Z).
  { eexists. split; [vm_compute; reflexivity|]. split; [reflexivity|]. intros k t K Hk.
    do 24 (destruct k as [|k]; [apply Some_inj in K; subst t; reflexivity|]). lia. }
  destruct G1 as (g & G1 & Lg & Tg).
  pose proof (files_hold_values 0 demo_run demo_chunks ss outs (Some daily_bin) 0%Z 2 false (fun w => w) (fun _ => true)
    (or_intror demo_covers) demo_positive demo_dims E W demo_vars legal_60 (or_introl eq_refl) (le_S _ _ (le_n _)) (fun a b H => Z.div_le_mono a b 1440 eq_refl H) Ax Gr (fun _ _ => eq_refl)
    (fun _ _ _ => None) m s X F 1%nat g 0%nat "prec" "mm timestep-1") as Q.
  assert (Grid : forall j, (j < 2)%nat -> cell_in_grid (ri_dims demo_run) [0; j]%nat).
  { intros j J. constructor; [cbn; lia|]. constructor; [exact J|constructor]. }
  split.
  - destruct (Q [0; 0]%nat G1 eq_refl (Grid 0%nat ltac:(lia))) as (x & D & Lx & V). etransitivity; [exact D|]. f_equal.
    rewrite Lg in Lx. apply SolarProofs.list_ext. intros k. destruct (Nat.lt_ge_cases k 24) as [K|K].
    + rewrite repeat_nth_error by exact K. assert (exists t, nth_error g k = Some t) as [t T].
      { destruct (nth_error g k) eqn:Y; [eauto|]. apply nth_error_None in Y. lia. }
      destruct (V k t T) as (i & Ti & A & _). specialize (Tg k t T K). cbn [demo_run two_cells ri_prm demo_method p_time_step] in Ti.
      destruct A as (df & prm' & conv & col & y & Rn & Cv & Cl & Ny & Nx); [exists 1; split; [reflexivity|lra]|].
      assert (conv = ident) by (symmetry; apply Ok_inj; exact Cv). subst conv. rewrite Nx. f_equal. unfold ident.
      destruct (cell_precipitation 0 (demo_method "passthrough" 60) equator_cell df prm' _ legal_60 eq_refl eq_refl eq_refl eq_refl Rn) as (v & Vv & _ & Day & _).
      assert (v = col) by (apply Some_inj; unfold fl in *; congruence). subst v. destruct (Day 1%nat 5 eq_refl) as [Dy _].
      change (steps (p_time_step (demo_method "passthrough" 60))) with 24%nat in Dy.
      assert (Hi : i = (1 * 24 + k)%nat) by lia. rewrite Hi in Ny.
      pose proof (part_index 24 1 col _ k Dy K) as P. rewrite repeat_nth_error in P by exact K.
      assert (y = Some (5 / INR 24)) by (apply Some_inj; unfold fl in *; congruence). subst y. do 2 f_equal. cbn. lra.
    + transitivity (@None fl); [|symmetry]; apply nth_error_None; [unfold fl in *; lia|rewrite repeat_length; lia].
  - destruct (Q [0; 1]%nat G1 eq_refl (Grid 1%nat ltac:(lia))) as (x & D & Lx & V). etransitivity; [exact D|]. f_equal.
    rewrite Lg in Lx. apply SolarProofs.list_ext. intros k. destruct (Nat.lt_ge_cases k 24) as [K|K].
    + rewrite repeat_nth_error by exact K. assert (exists t, nth_error g k = Some t) as [t T].
      { destruct (nth_error g k) eqn:Y; [eauto|]. apply nth_error_None in Y. lia. }
      destruct (V k t T) as (i & Ti & _ & A). apply A. intros (z & Z & P). cbn in Z. apply Some_inj in Z. lra.
    + transitivity (@None fl); [|symmetry]; apply nth_error_None; [unfold fl in *; lia|rewrite repeat_length; lia].
Qed.
