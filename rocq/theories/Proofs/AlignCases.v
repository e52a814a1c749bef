(** Concrete inputs for C99-C101. *)
From Coq Require Import ZArith Reals String List Bool Arith Lia Lra Permutation.
From Verif Require Import Model.Py Model.Fl Model.Params Model.State Model.Units Model.Output Model.Validate Model.Cell Model.Worker Model.Align
  Spec.GridSpec Spec.StateSpec Spec.FrameSpec Spec.CellSpec Spec.WorkerSpec Spec.AlignSpec
  Proofs.Base Proofs.PrecProofs Proofs.UtcProofs Proofs.SliceProofs Proofs.WorkerTotal Proofs.RunTotal Proofs.AlignProofs Proofs.AlignRun.
Import ListNotations.
Local Open Scope string_scope.
Local Open Scope list_scope.

Ltac nodup := repeat (constructor; [cbn [In]; intros X; repeat (destruct X as [X|X]; [first [discriminate X|lra]|]); exact X|]); constructor.

Lemma demo_good : good_files demo_inputs.
Proof.
  constructor.
  - cbn. nodup.
  - cbn. intros k labels [E|[E|[]]]; injection E as <- <-; discriminate.
  - constructor; cbn.
    + nodup.
    + intros x [<-|[<-|[]]]; cbn; auto.
    + intros k labels [E|[E|[]]]; injection E as <- <-; nodup.
  - constructor; cbn.
    + nodup.
    + intros x [<-|[<-|[]]]; cbn; auto.
    + intros k labels [E|[E|[]]]; injection E as <- <-; nodup.
  - cbn. intros x [<-|[<-|[]]]; cbn; auto.
Qed.

Lemma demo_cover : labels_cover (nc_axes (gi_forcing demo_inputs)) (gi_axes demo_inputs) /\ labels_cover (nc_axes (gi_state demo_inputs)) (gi_axes demo_inputs).
Proof.
  split; intros k have want H W x X; apply dict_get_In in H; apply dict_get_In in W; cbn in H, W;
    destruct H as [H|[H|[]]]; injection H as <- <-; destruct W as [W|[W|[]]]; try discriminate W; injection W as <-; cbn in *; tauto.
Qed.

Lemma demo_points c : on_grid (gi_axes demo_inputs) c -> c = [0; 0]%nat \/ c = [0; 1]%nat.
Proof.
  intros H. inversion H as [|i a c' axes Hi H' E1 E2]. inversion H' as [|j b c'' axes' Hj H'' E3 E4]. inversion H''. subst. cbn in Hi, Hj.
  assert (i = 0)%nat by lia. subst i. assert (j = 0 \/ j = 1)%nat as [->| ->] by lia; auto.
Qed.

Lemma coord_at (axes : dict (list R)) c i k labels n x : nth_error axes i = Some (k, labels) -> nth_error c i = Some n -> nth_error labels n = Some x -> has_coord axes c k x.
Proof. intros A B C. exists i, labels, n. auto. Qed.

Ltac at_point := split; [repeat (constructor; [cbn; lia|]); constructor|];
  intros k x (i & labels & n & A & B & C);
  repeat (destruct i as [|i]; [cbn in A, B; injection A as <- <-; injection B as <-; cbn in C; injection C as <-;
      first [eapply (coord_at _ _ 0); reflexivity | eapply (coord_at _ _ 1); reflexivity] |]);
  destruct i; discriminate.

Lemma demo_first r : own_inputs demo_inputs [0; 0]%nat r -> r = equator_raw.
Proof.
  intros O. destruct (oi_place _ _ _ O) as (A1 & A2 & A3). destruct (oi_months _ _ _ O) as (A4 & A5).
  pose proof (proj2 (oi_forcing _ _ _ O) [2; 0]%nat) as F. pose proof (proj2 (oi_state _ _ _ O) [0; 1]%nat) as S.
  assert (P1 : at_place (nc_axes (gi_forcing demo_inputs)) [2; 0]%nat (gi_axes demo_inputs) [0; 0]%nat) by at_point.
  assert (P2 : at_place (nc_axes (gi_state demo_inputs)) [0; 1]%nat (gi_axes demo_inputs) [0; 0]%nat) by at_point.
  specialize (F P1). specialize (S P2). destruct r as [la lo el co du tp sp sn sx]. cbn [rc_lat rc_lon rc_elev rc_cols rc_dur rc_tpk rc_st_prec rc_st_tmin rc_st_tmax] in *.
  cbn in F. injection S as -> -> ->. subst. reflexivity.
Qed.

Lemma demo_second r : own_inputs demo_inputs [0; 1]%nat r -> r = cold_raw.
Proof.
  intros O. destruct (oi_place _ _ _ O) as (A1 & A2 & A3). destruct (oi_months _ _ _ O) as (A4 & A5).
  pose proof (proj2 (oi_forcing _ _ _ O) [1; 0]%nat) as F. pose proof (proj2 (oi_state _ _ _ O) [0; 0]%nat) as S.
  assert (P1 : at_place (nc_axes (gi_forcing demo_inputs)) [1; 0]%nat (gi_axes demo_inputs) [0; 1]%nat) by at_point.
  assert (P2 : at_place (nc_axes (gi_state demo_inputs)) [0; 0]%nat (gi_axes demo_inputs) [0; 1]%nat) by at_point.
  specialize (F P1). specialize (S P2). destruct r as [la lo el co du tp sp sn sx]. cbn [rc_lat rc_lon rc_elev rc_cols rc_dur rc_tpk rc_st_prec rc_st_tmin rc_st_tmax] in *.
  cbn in F. injection S as -> -> ->. subst. reflexivity.
Qed.

(** the worker of the whole domain *)
Theorem demo_worker : exists w, slice_worker demo_inputs [] = Ok w /\ wk_cells w = [equator_raw; cold_raw].
Proof.
  destruct (worker_readable demo_inputs [] demo_good (proj1 demo_cover) (proj2 demo_cover)) as (w & W). exists w. split; [exact W|].
  destruct (worker_inputs _ _ _ demo_good W) as (L & X).
  assert (Sh : wk_shape w = [1; 2]%nat).
  { unfold slice_worker, worker_with in W. apply SettingsProofs.bind_inv in W as (m & _ & W). apply SettingsProofs.bind_inv in W as (s & _ & W).
    apply SettingsProofs.bind_inv in W as (c & _ & W). apply SettingsProofs.ok_inj in W. rewrite <- W. reflexivity. }
  rewrite Sh in *. destruct (wk_cells w) as [|a [|b [|? ?]]]; try discriminate L.
  destruct (X 0%nat [0; 0]%nat a eq_refl eq_refl) as (_ & _ & Oa). destruct (X 1%nat [0; 1]%nat b eq_refl eq_refl) as (_ & _ & Ob).
  cbn in Oa, Ob. now rewrite (demo_first a Oa), (demo_second b Ob).
Qed.

(** a column that the forcing lacks *)
Lemma short_good : good_files short_inputs.
Proof.
  destruct demo_good as [A B C D E]. constructor; auto. constructor; cbn.
  - nodup.
  - intros x [<-|[<-|[]]]; cbn; auto.
  - intros k labels [X|[X|[]]]; injection X as <- <-; nodup.
Qed.

Theorem short_refused : exists ss ds, slices demo_chunks (axes_dims (gi_axes short_inputs)) = Ok ss /\ In ds ss /\ slice_worker short_inputs ds = Err KeyError.
Proof.
  assert (E : exists ss, slices demo_chunks (axes_dims (gi_axes short_inputs)) = Ok ss) by (eexists; vm_compute; reflexivity). destruct E as (ss & E).
  destruct (missing_refused short_inputs demo_chunks ss "lon" [0]%R [0; 1]%R 1%R short_good (or_intror demo_covers) E (or_introl eq_refl) eq_refl) as (ds & I & H).
  - right. now left.
  - intros [X|[]]. lra.
  - eauto.
Qed.

(** a state without columns *)
Lemma flat_readable : readable (nc_axes (gi_state flat_inputs)) (gi_axes flat_inputs) /\ labels_cover (nc_axes (gi_state flat_inputs)) (gi_axes flat_inputs).
Proof.
  split; [constructor; cbn|].
  - nodup.
  - intros x [<-|[]]; cbn; auto.
  - intros k labels [X|[]]; injection X as <- <-; nodup.
  - intros k have want H W x X. apply dict_get_In in H. apply dict_get_In in W. cbn in H, W.
    destruct H as [H|[]]. injection H as <- <-. destruct W as [W|[W|[]]]; try discriminate W. injection W as <-. exact X.
Qed.

Theorem flat_refused : ~ In "lon" (keys (nc_axes (gi_state flat_inputs))) /\ In "lon" (keys (gi_axes flat_inputs)) /\ slice_worker flat_inputs [] = Err ValueError.
Proof.
  assert (N : ~ In "lon" (keys (nc_axes (gi_state flat_inputs)))) by (cbn; intros [X|[]]; discriminate X).
  assert (I : In "lon" (keys (gi_axes flat_inputs))) by (cbn; auto).
  split; [exact N|]. split; [exact I|]. destruct flat_readable as (F1 & F2). pose proof demo_good as G.
  apply (state_dimension flat_inputs [] [0; 0]%nat "lon"); auto.
  - apply (gf_names _ G).
  - apply (gf_forcing _ G).
  - exact (proj1 demo_cover).
  - vm_compute. auto.
  - exists 1%R. split; [reflexivity|lra].
Qed.

Lemma cold_loadable m ts : loadable (demo_method m ts) 2 cold_raw.
Proof.
  constructor.
  - exists (map Some [3; 3]%R), (map Some [-5; -4]%R), (map Some [1; 2]%R). do 3 (split; [reflexivity|]). unfold shaped. split; [reflexivity|]. split; [reflexivity|]. split; [reflexivity|]. auto.
  - intros (a & b & A & B & d & x & y & X & Y & I). apply Ok_inj in A. apply Ok_inj in B. subst. destruct d as [|[|d]]; cbn in X, Y;
      [| |destruct d; discriminate]; apply Some_inj, Some_inj in X; apply Some_inj, Some_inj in Y; lra.
  - intros T. exfalso. cbn in T. destruct T as [T|[T|[]]]; discriminate T.
Qed.

Lemma demo_cells m : In m ["passthrough"; "mtclim"] -> forall c r, on_grid (gi_axes demo_inputs) c -> own_inputs demo_inputs c r ->
  loadable (demo_method m 60) 2 r /\ (active (gi_mask demo_inputs c) -> good_raw (demo_method m 60) 2 r) /\
  (In "wind" (keys (gi_out_vars demo_inputs)) -> exists v, raw_col r "wind" = Ok v).
Proof.
  intros Hm c r On O. destruct (demo_points c On) as [-> | ->].
  - rewrite (demo_first r O). split; [apply equator_loadable|]. split; [intros _; now apply equator_raw_good|]. intros [X|[X|[]]]; discriminate X.
  - rewrite (demo_second r O). split; [apply cold_loadable|]. split.
    + cbn. intros (y & Y & P). injection Y as <-. lra.
    + intros [X|[X|[]]]; discriminate X.
Qed.

Theorem demo_finishes m : In m ["passthrough"; "mtclim"] -> exists ss, slices demo_chunks (axes_dims (gi_axes demo_inputs)) = Ok ss /\ List.length ss = 2%nat /\
  exists N, forall fuel, (fuel >= N)%nat -> exists outs, Forall2 (fun ds out => file_worker fuel (demo_method m 60) demo_inputs ds = Some (Ok out)) ss outs.
Proof.
  intros Hm. assert (E : exists ss, slices demo_chunks (axes_dims (gi_axes demo_inputs)) = Ok ss /\ List.length ss = 2%nat).
  { eexists. split; [vm_compute; reflexivity|reflexivity]. }
  destruct E as (ss & E & L). exists ss. split; [exact E|]. split; [exact L|].
  apply (files_run_finishes (demo_method m 60) demo_inputs demo_chunks ss 2 demo_good (proj1 demo_cover) (proj2 demo_cover) (or_intror demo_covers) E); try reflexivity.
  - cbn. lra.
  - lia.
  - exact (demo_cells m Hm).
  - intros name unit [X|[X|[]]]; injection X as <- <-; eexists; reflexivity.
  - exact (equator_describes m).
Qed.

(** every column of the two cells has two values *)
Lemma demo_even : forall c r, on_grid (gi_axes demo_inputs) c -> own_inputs demo_inputs c r -> raw_shaped 2 r /\ forall k v, raw_col r k = Ok v -> List.length v = 2%nat.
Proof.
  intros c r On O. destruct (demo_points c On) as [-> | ->].
  - rewrite (demo_first r O). split; [exact (lo_shape _ _ _ (equator_loadable "mtclim" 60))|]. intros k v V. apply GlobalsProofs.getitem_get, dict_get_In in V.
    cbn in V. repeat (destruct V as [V|V]; [injection V as _ <-; reflexivity|]). destruct V.
  - rewrite (demo_second r O). split; [exact (lo_shape _ _ _ (cold_loadable "mtclim" 60))|]. intros k v V. apply GlobalsProofs.getitem_get, dict_get_In in V.
    cbn in V. repeat (destruct V as [V|V]; [injection V as _ <-; reflexivity|]). destruct V.
Qed.

(** ** rows in the opposite order *)
Lemma reversed_readable : readable (nc_axes demo_reversed) demo_domain /\ labels_cover (nc_axes demo_reversed) demo_domain /\ on_grid demo_domain [0; 0]%nat.
Proof.
  split; [constructor; cbn|split].
  - nodup.
  - intros x X. exact X.
  - intros k labels [X|[X|[]]]; injection X as <- <-; nodup.
  - intros k have want H W x X; apply dict_get_In in H; apply dict_get_In in W; cbn in H, W;
    destruct H as [H|[H|[]]]; injection H as <- <-; destruct W as [W|[W|[]]]; try discriminate W; injection W as <-; cbn in *; tauto.
  - repeat (constructor; [cbn; lia|]). constructor.
Qed.

Theorem reversed_swapped : memory_cell demo_reversed demo_domain [] [0; 0]%nat = Ok 0%nat /\ ~ holds_at demo_reversed demo_domain [0; 0]%nat 0%nat.
Proof.
  split; [reflexivity|]. intros (_ & H). specialize (H [1; 0]%nat). cbn in H. discriminate H. at_point.
Qed.

Theorem memory_refuted : ~ forall (ds : nc nat) dom l v, readable (nc_axes ds) dom -> NoDup (keys dom) -> labels_cover (nc_axes ds) dom ->
  (forall k have want, dict_get (nc_axes ds) k = Some have -> dict_get dom k = Some want -> List.length have = List.length want) ->
  on_grid dom l -> memory_cell ds dom [] l = Ok v -> holds_at ds dom l v.
Proof.
  intros H. destruct reversed_readable as (A & B & C). apply (proj2 reversed_swapped). apply H; auto.
  - cbn. nodup.
  - intros k have want Hk W. apply dict_get_In in Hk. apply dict_get_In in W. cbn in Hk, W.
    destruct Hk as [Hk|[Hk|[]]]; injection Hk as <- <-; destruct W as [W|[W|[]]]; try discriminate W; injection W as <-; reflexivity.
Qed.
