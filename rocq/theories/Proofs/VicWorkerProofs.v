(** Workers on files in the formats of VIC: C119. *)
From Coq Require Import ZArith Reals String List Bool Arith Lia.
From Verif Require Import Model.Py Model.Fl Model.Reader Model.Vic Model.Output Model.Worker Model.Align Model.VicWorker
  Spec.ReaderSpec Spec.CellSpec Spec.StateSpec Spec.WorkerSpec Spec.AlignSpec Spec.VicWorkerSpec
  Proofs.Base Proofs.PrecProofs Proofs.GlobalsProofs Proofs.SettingsProofs Proofs.ReaderProofs Proofs.VicProofs Proofs.ChunkProofs Proofs.AlignProofs Proofs.AlignRun.
Import ListNotations.
Local Open Scope string_scope.
Local Open Scope list_scope.

(** ** looking up labels in a part of an axis *)
Lemma find_coord_at xs : NoDup xs -> forall i x k, nth_error xs i = Some x -> find_coord xs x k = Ok (k + i)%nat.
Proof.
  induction 1 as [|y xs N ND IH]; intros i x k H; [destruct i; discriminate|]. destruct i as [|i]; cbn in H |- *.
  - injection H as ->. destruct (Req_EM_T x x); [f_equal; lia|contradiction].
  - destruct (Req_EM_T x y) as [->|]; [exfalso; apply N; now apply nth_error_In in H|]. rewrite (IH i x (S k) H). f_equal. lia.
Qed.

Definition part (xs : list R) (r : list nat) : list R := map (fun i => nth i xs 0%R) r.

Lemma part_nth xs r i : (forall k, In k r -> (k < List.length xs)%nat) -> (i < List.length r)%nat ->
  nth_error (part xs r) i = nth_error xs (nth i r 0%nat) /\ (nth i r 0%nat < List.length xs)%nat.
Proof.
  intros B L. assert (I : In (nth i r 0%nat) r) by (now apply nth_In). split; [|auto]. unfold part.
  rewrite nth_error_map, (nth_error_nth' r 0%nat L). cbn [option_map]. symmetry. apply nth_error_nth'. auto.
Qed.

Lemma nodup_nth_inj (r : list nat) i j : NoDup r -> (i < List.length r)%nat -> (j < List.length r)%nat -> nth i r 0%nat = nth j r 0%nat -> i = j.
Proof. intros N A B E. exact (proj1 (NoDup_nth r 0%nat) N i j A B E). Qed.

Lemma part_nodup xs r : NoDup xs -> NoDup r -> (forall k, In k r -> (k < List.length xs)%nat) -> NoDup (part xs r).
Proof.
  intros N M B. apply NoDup_nth_error. intros i j L E. unfold part in L. rewrite map_length in L.
  destruct (part_nth xs r i B L) as (E1 & B1). rewrite E1 in E.
  destruct (Nat.lt_ge_cases j (List.length r)) as [J|J].
  - destruct (part_nth xs r j B J) as (E2 & B2). rewrite E2 in E.
    apply (nodup_nth_inj r i j M L J). apply (proj1 (NoDup_nth_error xs) N); auto.
  - rewrite (proj2 (nth_error_None (part xs r) j)) in E by (unfold part; now rewrite map_length).
    apply nth_error_None in E. lia.
Qed.

Lemma positions_part xs r : NoDup xs -> (forall k, In k r -> (k < List.length xs)%nat) -> positions xs (part xs r) = Ok r.
Proof.
  intros N B. unfold positions. rewrite (proj2 (distinct_nodup _) N). unfold part. induction r as [|k r IH]; [reflexivity|].
  cbn [map mapM]. rewrite (find_coord_at xs N k _ 0) by (apply nth_error_nth'; apply B; now left). cbn [bind].
  rewrite IH by (intros q Q; apply B; now right). reflexivity.
Qed.

(** ** reading for a part of a domain *)
Section Part.
  Variable V : Type.
  Variable pf : string -> option R.
  Variable read : string -> res V.
  Variables whole sub : vic_domain.
  Variables rl rn : list nat.
  Hypothesis Nl : NoDup (vd_lat whole).
  Hypothesis Nn : NoDup (vd_lon whole).
  Hypothesis Ml : NoDup rl.
  Hypothesis Mn : NoDup rn.
  Hypothesis Bl : forall k, In k rl -> (k < List.length (vd_lat whole))%nat.
  Hypothesis Bn : forall k, In k rn -> (k < List.length (vd_lon whole))%nat.
  Hypothesis Sl : vd_lat sub = part (vd_lat whole) rl.
  Hypothesis Sn : vd_lon sub = part (vd_lon whole) rn.
  Hypothesis Mk : forall i j, (i < List.length rl)%nat -> (j < List.length rn)%nat ->
    vd_mask sub i j = vd_mask whole (nth i rl 0%nat) (nth j rn 0%nat).

  Lemma find_part xs r x : NoDup xs -> (forall k, In k r -> (k < List.length xs)%nat) -> NoDup r ->
    (exists i, (i < List.length r)%nat /\ find_coord (part xs r) x 0 = Ok i /\ find_coord xs x 0 = Ok (nth i r 0%nat)) \/
    (find_coord (part xs r) x 0 = Err KeyError /\ forall i, (i < List.length r)%nat -> find_coord xs x 0 <> Ok (nth i r 0%nat)).
  Proof.
    intros N B M. destruct (in_dec Req_EM_T x (part xs r)) as [I|I].
    - left. apply In_nth_error in I as (i & I). assert (L : (i < List.length r)%nat).
      { assert (L : (i < List.length (part xs r))%nat) by (apply nth_error_Some; congruence). unfold part in L. now rewrite map_length in L. }
      exists i. split; [exact L|]. split; [exact (find_coord_at _ (part_nodup xs r N M B) i x 0 I)|].
      destruct (part_nth xs r i B L) as (E & _). rewrite E in I. exact (find_coord_at xs N _ x 0 I).
    - right. split; [exact (find_coord_missing _ _ I 0)|]. intros i L F. apply find_coord_sound in F as (k & K & F). cbn in K. subst k.
      apply I. destruct (part_nth xs r i B L) as (E & _). rewrite <- E in F. now apply nth_error_In in F.
  Qed.

  (** the effect of a file in the part, given its effect on the whole *)
  Lemma part_effect job e : effect pf whole read job = Ok e ->
    exists e', effect pf sub read job = Ok e' /\
      forall i j, (i < List.length rl)%nat -> (j < List.length rn)%nat -> forall m m',
        m' i j = m (nth i rl 0%nat) (nth j rn 0%nat) ->
        put m' e' i j = put m e (nth i rl 0%nat) (nth j rn 0%nat).
  Proof.
    unfold effect. destruct (parse_job pf job) as [[lat lon]|x]; cbn [bind fst snd].
    2:{ intros H. exists e. split; [exact H|]. destruct x; try discriminate H; apply Ok_inj in H; subst e; intros; cbn [put]; auto. }
    rewrite Sl, Sn.
    destruct (find_part (vd_lat whole) rl lat Nl Bl Ml) as [(a & La & Fa & Wa)|(Fa & Wa)].
    2:{ rewrite Fa. cbn [bind]. intros H. exists None. split; [reflexivity|]. intros i j Li Lj m m' Hm. cbn [put].
        destruct (find_coord (vd_lat whole) lat 0) as [a|x] eqn:A; cbn [bind] in H.
        - destruct (find_coord (vd_lon whole) lon 0) as [b|x] eqn:B; cbn [bind] in H.
          + destruct (fgt (vd_mask whole a b) (Some 0%R)).
            * destruct (read job) as [cs|x]; cbn [bind] in H.
              -- apply Ok_inj in H. subst e. cbn [put]. destruct (Nat.eqb_spec (nth i rl 0%nat) a) as [<-|]; [|exact Hm].
                 exfalso. exact (Wa i Li eq_refl).
              -- destruct x; try discriminate H; apply Ok_inj in H; subst e; exact Hm.
            * apply Ok_inj in H. subst e. exact Hm.
          + apply find_coord_err in B. subst x. apply Ok_inj in H. subst e. exact Hm.
        - apply find_coord_err in A. subst x. apply Ok_inj in H. subst e. exact Hm. }
    rewrite Fa, Wa. cbn [bind].
    destruct (find_part (vd_lon whole) rn lon Nn Bn Mn) as [(b & Lb & Fb & Wb)|(Fb & Wb)].
    2:{ rewrite Fb. cbn [bind]. intros H. exists None. split; [reflexivity|]. intros i j Li Lj m m' Hm. cbn [put].
        destruct (find_coord (vd_lon whole) lon 0) as [b|x] eqn:B; cbn [bind] in H.
        + destruct (fgt (vd_mask whole (nth a rl 0%nat) b) (Some 0%R)).
            * destruct (read job) as [cs|x]; cbn [bind] in H.
              -- apply Ok_inj in H. subst e. cbn [put]. destruct (Nat.eqb_spec (nth j rn 0%nat) b) as [<-|]; [|rewrite andb_false_r; exact Hm].
                 exfalso. exact (Wb j Lj eq_refl).
              -- destruct x; try discriminate H; apply Ok_inj in H; subst e; exact Hm.
            * apply Ok_inj in H. subst e. exact Hm.
        + apply find_coord_err in B. subst x. apply Ok_inj in H. subst e. exact Hm. }
    rewrite Fb, Wb. cbn [bind]. rewrite (Mk a b La Lb).
    destruct (fgt _ _).
    - destruct (read job) as [cs|x]; cbn [bind].
      + intros H. apply Ok_inj in H. subst e. exists (Some (a, b, cs)). split; [reflexivity|]. intros i j Li Lj m m' Hm. cbn [put].
        destruct (Nat.eqb_spec i a) as [->|Na]; [rewrite Nat.eqb_refl|].
        * destruct (Nat.eqb_spec j b) as [->|Nb]; [now rewrite Nat.eqb_refl|].
          destruct (Nat.eqb_spec (nth j rn 0%nat) (nth b rn 0%nat)) as [E|]; [|exact Hm].
          exfalso. apply Nb. exact (nodup_nth_inj rn j b Mn Lj Lb E).
        * destruct (Nat.eqb_spec (nth i rl 0%nat) (nth a rl 0%nat)) as [E|]; [|exact Hm].
          exfalso. apply Na. exact (nodup_nth_inj rl i a Ml Li La E).
      + intros H. exists e. split; [exact H|]. destruct x; try discriminate H; apply Ok_inj in H; subst e; intros; cbn [put]; auto.
    - intros H. apply Ok_inj in H. subst e. exists None. split; [reflexivity|]. intros; cbn [put]; auto.
  Qed.

  Lemma part_process jobs : forall es, mapM (effect pf whole read) jobs = Ok es ->
    exists es', mapM (effect pf sub read) jobs = Ok es' /\
      forall i j, (i < List.length rl)%nat -> (j < List.length rn)%nat -> forall m m',
        m' i j = m (nth i rl 0%nat) (nth j rn 0%nat) ->
        fold_left put es' m' i j = fold_left put es m (nth i rl 0%nat) (nth j rn 0%nat).
  Proof.
    induction jobs as [|job jobs IH]; intros es H; cbn [mapM] in H.
    - apply Ok_inj in H. subst es. exists []. split; [reflexivity|]. intros i j Li Lj m m' Hm. exact Hm.
    - destruct (effect pf whole read job) as [e|] eqn:E; [|discriminate]. cbn [bind] in H.
      destruct (mapM (effect pf whole read) jobs) as [es1|] eqn:M; [|discriminate]. cbn [bind] in H. apply Ok_inj in H. subst es.
      destruct (part_effect job e E) as (e' & E' & P). destruct (IH es1 eq_refl) as (es' & M' & Q).
      exists (e' :: es'). cbn [mapM]. rewrite E', M'. split; [reflexivity|]. intros i j Li Lj m m' Hm. cbn [fold_left].
      apply (Q i j Li Lj). now apply P.
  Qed.

  Theorem part_read jobs g : process_vic pf whole read jobs = Ok g ->
    exists g', process_vic pf sub read jobs = Ok g' /\
      forall i j, (i < List.length rl)%nat -> (j < List.length rn)%nat -> g' i j = g (nth i rl 0%nat) (nth j rn 0%nat).
  Proof.
    unfold process_vic. rewrite (process_fold pf whole read), (process_fold pf sub read).
    destruct (mapM (effect pf whole read) jobs) as [es|] eqn:M; cbn [bind]; [|discriminate]. intros H. apply Ok_inj in H. subst g.
    destruct (part_process jobs es M) as (es' & -> & Q). cbn [bind]. eexists. split; [reflexivity|]. intros i j Li Lj. apply (Q i j Li Lj). reflexivity.
  Qed.
End Part.

(** ** the worker of a slice *)
Definition along (ds : dict pyslice) (k : string) (n : nat) : list nat :=
  match dict_get ds k with Some s => slice_range s n | None => seq 0 n end.

Lemma along_nodup ds k n : NoDup (along ds k n).
Proof. unfold along. destruct (dict_get ds k) as [s|]; [unfold slice_range|]; apply seq_NoDup. Qed.
Lemma along_bound ds k n i : In i (along ds k n) -> (i < n)%nat.
Proof. apply range_bound. Qed.

Definition grid_of (g : met_grid (dict (list fl))) (names : list string) (n : nat) : cell -> dict (list fl) :=
  fun c => match c with [i; j] => vic_cell names n g i j | _ => [] end.

Lemma vic_cell_ext names n g g' i j i' j' : g i j = g' i' j' -> vic_cell names n g i j = vic_cell names n g' i' j'.
Proof. intros E. unfold vic_cell. now rewrite E. Qed.

Lemma mapM_ext {A B} (f f' : A -> res B) l : (forall x, In x l -> f x = f' x) -> mapM f l = mapM f' l.
Proof.
  induction l as [|x l IH]; intros H; [reflexivity|]. cbn [mapM]. rewrite (H x (or_introl eq_refl)), IH; [reflexivity|].
  intros y Y. apply H. now right.
Qed.

Lemma worker_with_ext inp inp' ds met met' :
  gi_axes inp' = gi_axes inp -> gi_mask inp' = gi_mask inp -> gi_lat inp' = gi_lat inp -> gi_lon inp' = gi_lon inp -> gi_elev inp' = gi_elev inp ->
  gi_dur inp' = gi_dur inp -> gi_tpk inp' = gi_tpk inp -> gi_state inp' = gi_state inp -> gi_start inp' = gi_start inp -> gi_stop inp' = gi_stop inp ->
  gi_days inp' = gi_days inp -> gi_setup inp' = gi_setup inp -> gi_out_vars inp' = gi_out_vars inp ->
  (forall l, In l (indices (map (@List.length nat) (axes_ranges (gi_axes inp) ds))) ->
     isel_met met' (locs_of (gi_axes inp) l) = isel_met met (locs_of (gi_axes inp) l)) ->
  worker_with inp' ds met' = worker_with inp ds met.
Proof.
  destruct inp as [ax mk la lo el du tp fo st sa so dy se ov], inp' as [ax' mk' la' lo' el' du' tp' fo' st' sa' so' dy' se' ov'].
  cbn [gi_axes gi_mask gi_lat gi_lon gi_elev gi_dur gi_tpk gi_state gi_start gi_stop gi_days gi_setup gi_out_vars].
  intros -> -> -> -> -> -> -> -> -> -> -> -> -> E. unfold worker_with. cbn [gi_axes gi_state gi_start gi_stop gi_days gi_mask gi_setup gi_out_vars].
  destruct (sel _ _) as [state|]; cbn [bind]; [|reflexivity].
  rewrite (mapM_ext _ (gather (mk_grid_inputs ax mk la lo el du tp fo st sa so dy se ov) ds met state));
    [reflexivity|].
  intros l I. unfold gather. cbn [gi_axes gi_lat gi_lon gi_elev gi_dur gi_tpk]. now rewrite (E l I).
Qed.

Section Worker.
  Variable pf : string -> option R.
  Variable read : string -> res (dict (list fl)).
  Variable names : list string.
  Variable n_days : nat.
  Variable jobs : list string.

  (** reading for a slice is cutting the slice out of what is read for the whole *)
  Theorem slice_of_whole inp g ds : lat_lon (gi_axes inp) ->
    process_vic pf (slice_vic_domain inp []) read jobs = Ok g ->
    vic_slice_worker pf read names n_days jobs inp ds =
    slice_worker (with_forcing inp (vic_nc names n_days (gi_axes inp) g)) ds.
  Proof.
    intros (la & lo & Na & No & _ & _ & Ax) G.
    set (rl := along ds "lat" (List.length la)). set (rn := along ds "lon" (List.length lo)).
    assert (Bl : forall k, In k rl -> (k < List.length la)%nat) by (intros k; apply along_bound).
    assert (Bn : forall k, In k rn -> (k < List.length lo)%nat) by (intros k; apply along_bound).
    assert (Sub : exists g', process_vic pf (slice_vic_domain inp ds) read jobs = Ok g' /\
      forall i j, (i < List.length rl)%nat -> (j < List.length rn)%nat -> g' i j = g (nth i rl 0%nat) (nth j rn 0%nat)).
    { apply (part_read _ pf read (slice_vic_domain inp []) (slice_vic_domain inp ds) rl rn) with (jobs := jobs) (g := g); try exact G;
        unfold slice_vic_domain; cbv zeta; rewrite ?whole_axes; cbn [vd_lat vd_lon vd_mask]; destruct Ax as [Ax|Ax]; rewrite ?Ax;
        try exact Na; try exact No; try apply along_nodup; try exact Bl; try exact Bn; try reflexivity.
      - intros i j Li Lj. f_equal. pose proof (Bl _ (nth_In rl 0%nat Li)). pose proof (Bn _ (nth_In rn 0%nat Lj)).
        unfold rl, rn, along in *. cbn. rewrite !seq_nth by assumption. reflexivity.
      - intros i j Li Lj. f_equal. pose proof (Bl _ (nth_In rl 0%nat Li)). pose proof (Bn _ (nth_In rn 0%nat Lj)).
        unfold rl, rn, along in *. cbn. rewrite !seq_nth by assumption. reflexivity. }
    destruct Sub as (g' & G' & E). unfold vic_slice_worker. rewrite G'. cbn [bind].
    unfold slice_worker. cbn [with_forcing gi_forcing gi_axes]. unfold sel. cbn [vic_nc nc_axes nc_at].
    assert (Sl : labels_of (gi_axes inp) "lat" = la /\ labels_of (gi_axes inp) "lon" = lo /\
      dict_get (slice_axes (gi_axes inp) ds) "lat" = Some (part la rl) /\ dict_get (slice_axes (gi_axes inp) ds) "lon" = Some (part lo rn)).
    { destruct Ax as [Ax|Ax]; rewrite Ax; repeat split. }
    destruct Sl as (S1 & S2 & S3 & S4). rewrite S1, S2. cbn [mapM]. unfold sel_axis at 1. cbn [fst snd]. rewrite S3, (positions_part la rl Na Bl). cbn [bind].
    unfold sel_axis. cbn [fst snd]. rewrite S4, (positions_part lo rn No Bn). cbn [bind map fst snd].
    symmetry. apply worker_with_ext; try reflexivity. intros l I. unfold isel_met, vic_nc. cbn [nc_axes nc_at].
    unfold labels_of. rewrite S3, S4. cbn [mapM]. unfold isel_axis. cbn [fst snd].
    destruct (dict_get (locs_of (gi_axes inp) l) "lat") as [i|]; cbn [bind]; [|reflexivity].
    destruct (Nat.ltb_spec i (List.length (part la rl))) as [Li|]; cbn [bind]; [|reflexivity].
    destruct (dict_get (locs_of (gi_axes inp) l) "lon") as [j|]; cbn [bind]; [|reflexivity].
    destruct (Nat.ltb_spec j (List.length (part lo rn))) as [Lj|]; cbn [bind]; [|reflexivity].
    unfold part in Li, Lj. rewrite map_length in Li, Lj. f_equal. cbn [globalize map combine fst snd].
    symmetry. apply vic_cell_ext. now apply E.
  Qed.
End Worker.
