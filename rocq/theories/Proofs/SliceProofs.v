From Coq Require Import ZArith Reals String List Bool Arith Lia Lra Permutation.
From Verif Require Import Model.Py Model.Fl Model.Params Model.Output Model.Cell Model.Machine Model.Run
  Spec.GridSpec Spec.CellSpec Proofs.Base Proofs.ChunkProofs Proofs.MachineProofs Proofs.CellBody.
Import ListNotations.
Local Open Scope list_scope.

(** ** one cell *)
Lemma set_location_twice p a b c a' b' c' :
  set_location (set_location p a b c) a' b' c' = set_location p a' b' c'.
Proof. reflexivity. Qed.

Lemma same_location p q a b c : same_settings p q -> set_location p a b c = set_location q a b c.
Proof.
  unfold same_settings. intros H.
  rewrite <- (set_location_twice p 0 0 0), H, set_location_twice. reflexivity.
Qed.

Lemma same_settings_ts p q : same_settings p q -> p_time_step p = p_time_step q.
Proof. intros H. apply (f_equal p_time_step) in H. exact H. Qed.

Lemma run_cell_same fuel p q c : same_settings p q -> run_cell fuel p c = run_cell fuel q c.
Proof.
  intros H. rewrite !run_cell_eq. rewrite (same_location p q _ _ _ H). reflexivity.
Qed.

Lemma same_set_location p q a b c : same_settings p q -> same_settings (set_location p a b c) q.
Proof. unfold same_settings. rewrite set_location_twice. auto. Qed.

Lemma run_cell_settings fuel p q c r p' :
  same_settings p q -> run_cell fuel p c = Some (r, p') -> same_settings p' q.
Proof.
  intros H E. rewrite run_cell_eq in E. cbv zeta in E.
  set (p0 := set_location p (cd_elev c) (cd_lat c) (cd_lon c)) in *.
  assert (H0 : same_settings p0 q) by (now apply same_set_location).
  match type of E with (match ?x with _ => _ end) = _ => destruct x as [[sg df]|] end.
  - destruct (run_method fuel df p0) as [[df'|]|]; try discriminate.
    + destruct (p_time_step p0 <? 1440)%Z; inversion E; subst; auto.
    + inversion E; subst; auto.
  - inversion E; subst; auto.
Qed.

Lemma cell_eqb_eq a b : cell_eqb a b = true <-> a = b.
Proof.
  revert b; induction a as [|x a IH]; intros [|y b]; simpl; split; try easy.
  - rewrite andb_true_iff, Nat.eqb_eq, IH. intros [-> ->]; auto.
  - intros [= -> ->]. rewrite Nat.eqb_refl. simpl. now apply IH.
Qed.
Lemma cell_eqb_refl a : cell_eqb a a = true.
Proof. now apply cell_eqb_eq. Qed.
Lemma cell_eqb_neq a b : a <> b -> cell_eqb a b = false.
Proof. intros H. destruct (cell_eqb a b) eqn:E; auto. apply cell_eqb_eq in E. congruence. Qed.

Lemma active_fgt m : fgt m (Some 0%R) = true <-> active m.
Proof.
  unfold fgt, flt, active. destruct m as [x|].
  - destruct (Rlt_dec 0 x) eqn:E; unfold Rltb; try rewrite E; split; intros; auto.
    + exists x; split; auto.
    + discriminate.
    + destruct H as (y & [= <-] & H). lra.
  - split; [discriminate|]. intros (x & H & _); discriminate.
Qed.

Definition active_dec m : {active m} + {~ active m}.
Proof.
  destruct (fgt m (Some 0%R)) eqn:E; [left; now apply active_fgt|].
  right. intros H. apply active_fgt in H. congruence.
Defined.

(** ** loop over the cells *)
Lemma run_cells_spec fuel ov mask data prm0 cells : forall prm out out' prm',
  same_settings prm prm0 ->
  run_cells fuel ov mask data cells prm out = Some (Ok out', prm') ->
  same_settings prm' prm0 /\
  (forall c, In c cells -> active (mask c) ->
     exists vs, cell_alone fuel ov prm0 (data c) vs /\ out' c = Some vs) /\
  (forall c, ~ (In c cells /\ active (mask c)) -> out' c = out c).
Proof.
  induction cells as [|c cells IH]; unfold run_cells; cbn [run_cells_by In]; fold (run_cells fuel); intros prm out out' prm' S E.
  - inversion E; subst. repeat split; auto. intros c [].
  - destruct (fgt (mask c) (Some 0%R)) eqn:M.
    + destruct (run_cell fuel prm (data c)) as [[[df|] p1]|] eqn:R; try discriminate.
      destruct (convert_outputs ov (p_time_step p1) df) as [vs|] eqn:C; [|discriminate].
      pose proof (run_cell_settings _ _ _ _ _ _ S R) as S1.
      destruct (IH _ _ _ _ S1 E) as (S' & A & B). split; [auto|].
      assert (AL : cell_alone fuel ov prm0 (data c) vs).
      { exists df, p1. rewrite <- (run_cell_same fuel prm prm0) by auto. split; auto.
        rewrite <- (same_settings_ts _ _ S1). auto. }
      split.
      * intros c' [->|I] Act; [|auto].
        destruct (in_dec (list_eq_dec Nat.eq_dec) c' cells) as [I|N]; [auto|].
        exists vs. split; auto. rewrite B by tauto. now rewrite cell_eqb_refl.
      * intros c' N. rewrite B by tauto.
        rewrite cell_eqb_neq; auto. intros ->. apply N. split; auto. now apply active_fgt.
    + destruct (IH _ _ _ _ S E) as (S' & A & B). split; [auto|]. split.
      * intros c' [->|I] Act; [|auto]. apply active_fgt in Act. congruence.
      * intros c' N. apply B. tauto.
Qed.

Theorem run_slice_spec fuel ov shape mask data prm0 prm out prm' :
  same_settings prm prm0 ->
  run_slice fuel ov shape mask data prm = Some (Ok out, prm') ->
  same_settings prm' prm0 /\
  (forall c, In c (indices shape) -> active (mask c) ->
     exists vs, cell_alone fuel ov prm0 (data c) vs /\ out c = Some vs) /\
  (forall c, ~ active (mask c) -> out c = None).
Proof.
  intros S E. destruct (run_cells_spec _ _ _ _ _ _ _ _ _ _ S E) as (A & B & C).
  split; [auto|split; [auto|]]. intros c N. rewrite C by tauto. reflexivity.
Qed.

(** the loop succeeds exactly when every active cell succeeds on its own *)
Lemma run_cells_total fuel ov mask data prm0 cells : forall prm out,
  same_settings prm prm0 ->
  (forall c, In c cells -> active (mask c) -> exists vs, cell_alone fuel ov prm0 (data c) vs) ->
  exists out' prm', run_cells fuel ov mask data cells prm out = Some (Ok out', prm').
Proof.
  induction cells as [|c cells IH]; unfold run_cells; cbn [run_cells_by In]; fold (run_cells fuel); intros prm out S H; [eauto|].
  destruct (fgt (mask c) (Some 0%R)) eqn:M; [|apply IH; auto].
  destruct (H c (or_introl eq_refl)) as (vs & df & p1 & R & C); [now apply active_fgt|].
  rewrite <- (run_cell_same fuel prm prm0) in R by auto. rewrite R.
  pose proof (run_cell_settings _ _ _ _ _ _ S R) as S1.
  rewrite (same_settings_ts _ _ S1), C. apply IH; auto.
Qed.

Lemma cell_alone_fun fuel ov prm c vs vs' :
  cell_alone fuel ov prm c vs -> cell_alone fuel ov prm c vs' -> vs = vs'.
Proof. intros (d & p & A & B) (d' & p' & A' & B'). congruence. Qed.

(** ** index arithmetic *)
Lemma indices_in shape l : In l (indices shape) <-> Forall2 (fun i n => i < n) l shape.
Proof.
  unfold indices.
  split; intros H; [apply product_length_elt in H | apply product_length_elt].
  - remember (map (fun n => seq 0 n) shape) as m. revert shape Heqm.
    induction H; intros [|n shape] E; simpl in E; try discriminate; constructor.
    + inversion E; subst. apply in_seq in H. lia.
    + inversion E; subst. auto.
  - induction H; simpl; constructor; auto. apply in_seq. lia.
Qed.

Lemma globalize_in ranges l : In l (indices (map (@List.length nat) ranges)) ->
  Forall2 (fun i r => In i r) (globalize ranges l) ranges.
Proof.
  rewrite indices_in. unfold globalize. revert l. induction ranges as [|r ranges IH]; simpl; intros l H.
  - inversion H; subst. constructor.
  - inversion H; subst. simpl. constructor; auto. now apply nth_In.
Qed.

Lemma globalize_onto ranges c : Forall2 (fun i r => In i r) c ranges ->
  exists l, In l (indices (map (@List.length nat) ranges)) /\ globalize ranges l = c.
Proof.
  intros H. assert (K : exists l, Forall2 (fun i n => i < n) l (map (@List.length nat) ranges) /\ globalize ranges l = c).
  { induction H as [|i r c ranges Hi H (l & A & B)].
    - exists []. split; [constructor|reflexivity].
    - apply (In_nth _ _ 0) in Hi as (k & Hk & Ek). exists (k :: l). split; [constructor; auto|].
      unfold globalize in *. simpl. congruence. }
  destruct K as (l & A & B). exists l. split; auto. now apply indices_in.
Qed.

(** ** a fold of conditional assignments *)
Lemma fold_assign {V} (c : cell) (val : cell -> V) (tg : list (cell * cell)) (a : option V) (x : V) :
  (forall g l, In (g, l) tg -> g = c -> val l = x) ->
  fold_left (fun acc gl => if cell_eqb c (fst gl) then Some (val (snd gl)) else acc) tg a
  = (if existsb (fun gl => cell_eqb c (fst gl)) tg then Some x else a).
Proof.
  revert a. induction tg as [|[g l] tg IH]; simpl; intros a H; [easy|].
  rewrite IH by (intros; eapply H; eauto).
  destruct (cell_eqb c g) eqn:E; simpl; [|easy].
  apply cell_eqb_eq in E. rewrite (H g l) by auto. now destruct (existsb _ tg).
Qed.

Lemma fold_assign_none {V} (c : cell) (val : cell -> V) (tg : list (cell * cell)) (a : option V) :
  (forall g l, In (g, l) tg -> g <> c) ->
  fold_left (fun acc gl => if cell_eqb c (fst gl) then Some (val (snd gl)) else acc) tg a = a.
Proof.
  revert a. induction tg as [|[g l] tg IH]; simpl; intros a H; [easy|].
  rewrite cell_eqb_neq by (intros ->; eapply H; eauto). apply IH. intros; eapply H; eauto.
Qed.

Lemma fold_fun_assign {V} (c : cell) (val : cell -> V) tg : forall (file : cell -> option V),
  fold_left (fun f gl c => if cell_eqb c (fst gl) then Some (val (snd gl)) else f c) tg file c
  = fold_left (fun acc gl => if cell_eqb c (fst gl) then Some (val (snd gl)) else acc) tg (file c).
Proof. induction tg as [|t tg IH]; simpl; intros file; [easy|]. now rewrite IH. Qed.

Lemma slice_payload_eq inp ds out f v c : slice_payload inp ds out f v c =
  match write_slice (ri_dims inp) ds with
  | Err _ => None
  | Ok ranges =>
      fold_left (fun acc gl => if cell_eqb c (fst gl) then Some (cell_records inp f v (out (snd gl))) else acc)
                (write_targets ranges) None
  end.
Proof.
  unfold slice_payload, write_values. destruct (write_slice _ _); cbn [bind]; auto.
  now rewrite (fold_fun_assign c (fun l => cell_records inp f v (out l))).
Qed.

(** ** slices and ranges *)
Lemma keys_combine {V} (ks : list string) (p : list V) :
  List.length ks = List.length p -> map fst (combine ks p) = ks.
Proof.
  revert p. induction ks as [|k ks IH]; intros [|x p]; simpl; try discriminate; auto.
  intros [= L]. f_equal. auto.
Qed.

Lemma slices_keys chunks dims ss ds :
  slices chunks dims = Ok ss -> In ds ss ->
  keys ds = match chunks with [] => keys dims | _ => keys chunks end.
Proof.
  unfold slices. destruct chunks as [|kc chunks].
  - intros [= <-] [<-|[]]. unfold keys. rewrite map_map. reflexivity.
  - unfold chunk_domain. intros E I.
    destruct (mapM _ (kc :: chunks)) as [sl|] eqn:M; [|discriminate].
    cbn [bind] in E. inversion E; subst; clear E.
    apply in_map_iff in I as (p & <- & Hp). apply product_length_elt in Hp.
    apply Forall2_len in Hp. apply mapM_inv in M. apply Forall2_len in M.
    unfold keys at 1.
    assert (L : List.length (keys (kc :: chunks)) = List.length p)
      by (unfold keys; rewrite map_length; lia).
    exact (keys_combine (keys (kc :: chunks)) p L).
Qed.

Lemma covers_keys chunks dims : covers chunks dims -> forall d, In d (keys dims) <-> In d (keys chunks).
Proof.
  intros (_ & P & _) d. split; intros H.
  - eapply Permutation_in; [apply Permutation_sym; exact P|exact H].
  - eapply Permutation_in; [exact P|exact H].
Qed.

Section Chunked.
Context (chunks : dict Z) (dims : dimlist) (ss : list (dict pyslice)).
Context (Cov : chunks = [] \/ covers chunks dims) (Pos : positive_sizes dims)
        (ND : NoDup (keys dims)) (E : slices chunks dims = Ok ss).

Lemma ds_keys ds : In ds ss -> NoDup (keys ds) /\ forall d, In d (keys dims) <-> In d (keys ds).
Proof.
  intros I. pose proof (slices_keys _ _ _ _ E I) as K. rewrite K.
  destruct chunks as [|kc ch]; [split; [auto|tauto]|].
  destruct Cov as [|C]; [discriminate|]. split; [apply C|]. apply covers_keys. exact C.
Qed.

Definition coord_of (c : cell) (d : string) : nat :=
  match dict_get (combine (keys dims) c) d with Some i => i | None => 0 end.

Definition in_slice (ds : dict pyslice) (c : cell) : Prop :=
  Forall2 (fun i r => In i r) c (isel_ranges dims ds).

Lemma isel_write ds : In ds ss -> write_slice dims ds = Ok (isel_ranges dims ds).
Proof.
  intros I. destruct (ds_keys ds I) as [_ K].
  unfold write_slice, isel_ranges. apply mapM_Ok. intros d Hd.
  unfold dict_getitem. destruct (dict_get_Some_key ds (fst d)) as [s Hs].
  - apply K. unfold keys. now apply in_map.
  - rewrite Hs. reflexivity.
Qed.

Lemma in_slice_grid ds c : in_slice ds c -> cell_in_grid dims c.
Proof.
  unfold in_slice, isel_ranges, cell_in_grid. clear. revert c.
  induction dims as [|d dl IH]; simpl; intros c H; inversion H as [|i r c' rs Hi Hr]; subst; constructor.
  - destruct (dict_get ds (fst d)); [eapply slice_range_bound; eauto|]. apply in_seq in Hi. lia.
  - auto.
Qed.

Lemma coord_in_grid c : cell_in_grid dims c -> in_grid dims (coord_of c).
Proof.
  intros G d n I. unfold coord_of.
  assert (K : forall dl c, NoDup (keys dl) -> cell_in_grid dl c -> In (d, n) dl ->
              exists i, dict_get (combine (keys dl) c) d = Some i /\ i < n).
  { clear. induction dl as [|[d' n'] dl IH]; intros c ND G I; [easy|].
    inversion G; subst. simpl in *. inversion ND; subst.
    destruct (String.eqb_spec d d') as [->|N].
    - destruct I as [I|I].
      + inversion I; subst. eauto.
      + exfalso. apply H1. change d' with (fst (d', n)). now apply in_map.
    - destruct I as [I|I]; [congruence|]. apply IH; auto. }
  destruct (K dims c ND G I) as (i & -> & L). exact L.
Qed.

Lemma in_slice_selects ds c : In ds ss -> cell_in_grid dims c ->
  (in_slice ds c <-> selectsb (coord_of c) ds = true).
Proof.
  intros I G. destruct (ds_keys ds I) as [NDs K].
  unfold selectsb. rewrite forallb_forall.
  (* per dimension *)
  assert (A : in_slice ds c <->
     forall d n, In (d, n) dims -> forall s, dict_get ds d = Some s -> slice_hasb s (coord_of c d) = true).
  { unfold in_slice, isel_ranges, coord_of.
    assert (Ex : forall d, In d (keys dims) -> exists s, dict_get ds d = Some s).
    { intros d Hd. apply dict_get_Some_key. now apply K. }
    revert Ex ND G. clear. revert c.
    induction dims as [|[d n] dl IH]; intros c Ex ND G.
    - inversion G; subst. simpl. split; [easy|constructor].
    - inversion G as [|i ? c' ? Hi G']; subst. inversion ND; subst. simpl in *.
      destruct (Ex d (or_introl eq_refl)) as [s Hs].
      specialize (IH c' (fun d' H => Ex d' (or_intror H)) H2 G').
      assert (Neq : forall d' n', In (d', n') dl -> (d' =? d)%string = false).
      { intros d' n' I. apply String.eqb_neq. intros ->. apply H1.
        change d with (fst (d, n')). now apply in_map. }
      split.
      + intros F. inversion F; subst. rewrite Hs in H4.
        intros d' n' [Eq|I] s' Hs'.
        * inversion Eq; subst. rewrite String.eqb_refl. rewrite Hs in Hs'. inversion Hs'; subst.
          now apply slice_range_has in H4.
        * rewrite (Neq d' n' I). eapply IH; eauto.
      + intros F. constructor.
        * rewrite Hs. apply slice_range_has. split; auto.
          specialize (F d n (or_introl eq_refl) s Hs). now rewrite String.eqb_refl in F.
        * apply IH. intros d' n' I s' Hs'. specialize (F d' n' (or_intror I) s' Hs').
          now rewrite (Neq d' n' I) in F. }
  rewrite A. split.
  - intros H [d s] Hds. simpl.
    assert (Hd : In d (keys dims)).
    { apply K. change d with (fst (d, s)). now apply in_map. }
    unfold keys in Hd. apply in_map_iff in Hd as ([d' n] & <- & Hd). simpl in *.
    eapply H; eauto. now apply dict_get_NoDup.
  - intros H d n Hd s Hs. apply dict_get_In in Hs. exact (H (d, s) Hs).
Qed.

(** every cell of the grid is in exactly one slice, by position *)
Lemma slice_of_cell c : cell_in_grid dims c ->
  exists w, w < List.length ss /\ in_slice (nth w ss []) c /\
    forall w', w' < List.length ss -> in_slice (nth w' ss []) c -> w' = w.
Proof.
  intros G.
  destruct (slices_tile chunks dims Cov Pos) as (ss' & E' & T).
  assert (ss' = ss) by congruence. subst ss'.
  destruct (T _ (coord_in_grid c G)) as [ds F].
  assert (P : forall ds', In ds' ss -> (in_slice ds' c <-> selectsb (coord_of c) ds' = true))
    by (intros; now apply in_slice_selects).
  assert (Gen : forall (l : list (dict pyslice)) p, filter p l = [ds] ->
     exists w, w < List.length l /\ p (nth w l []) = true /\
       forall w', w' < List.length l -> p (nth w' l []) = true -> w' = w).
  { clear. induction l as [|x l IH]; simpl; intros p F; [discriminate|].
    destruct (p x) eqn:Px.
    - injection F as Ex F'. subst x. exists 0. split; [lia|]. split; [auto|].
      intros [|w'] Hw Hp; auto. exfalso.
      assert (I : In (nth w' l []) (filter p l)) by (apply filter_In; split; auto; apply nth_In; lia).
      rewrite F' in I. destruct I.
    - destruct (IH p F) as (w & A & B & C). exists (S w). split; [lia|]. split; [auto|].
      intros [|w'] Hw Hp; [congruence|]. f_equal. apply C; auto. lia. }
  destruct (Gen ss _ F) as (w & A & B & C). exists w. split; auto. split.
  - apply P; auto. now apply nth_In.
  - intros w' Hw Hin. apply C; auto. apply P; auto. now apply nth_In.
Qed.

End Chunked.

(** ** the payload of a worker *)
Section Payload.
Context (fuel : nat) (inp : run_input) (chunks : dict Z) (ss : list (dict pyslice)) (outs : list slice_out).
Context (Cov : chunks = [] \/ covers chunks (ri_dims inp)) (Pos : positive_sizes (ri_dims inp))
        (ND : NoDup (keys (ri_dims inp))) (E : slices chunks (ri_dims inp) = Ok ss)
        (W : workers_ok fuel inp ss outs).
Context (proc_of : nat -> nat) (proc_first : nat -> bool).
Let S := run_system inp ss outs proc_of proc_first.

Lemma worker_spec w : w < List.length ss ->
  let ds := nth w ss [] in let out := nth w outs (fun _ => None) in
  (forall l, In l (indices (map (@List.length nat) (isel_ranges (ri_dims inp) ds))) ->
     active (ri_mask inp (globalize (isel_ranges (ri_dims inp) ds) l)) ->
     exists vs, cell_alone fuel (ri_out_vars inp) (ri_prm inp) (ri_data inp (globalize (isel_ranges (ri_dims inp) ds) l)) vs
       /\ out l = Some vs) /\
  (forall l, ~ active (ri_mask inp (globalize (isel_ranges (ri_dims inp) ds) l)) -> out l = None).
Proof.
  intros Hw ds out.
  assert (Q : exists prm0 prm1, same_settings prm0 (ri_prm inp) /\ worker_run fuel inp prm0 ds = Some (Ok out, prm1)).
  { unfold ds, out. unfold workers_ok in W. clear -W Hw. revert w Hw. induction W; simpl; intros w Hw; [lia|].
    destruct w; auto. apply IHf. auto. lia. }
  destruct Q as (prm0 & prm1 & Sm & R).
  destruct (run_slice_spec _ _ _ _ _ _ _ _ _ Sm R) as (_ & A & B). split; auto.
Qed.

Lemma payload_in w f v c : w < List.length ss -> in_slice (ri_dims inp) (nth w ss []) c ->
  exists x, payload S w f v c = Some x /\ right_records fuel inp f v c x.
Proof.
  intros Hw Hin. destruct (worker_spec w Hw) as [A B]. cbn zeta in *.
  unfold S, run_system. simpl. rewrite slice_payload_eq.
  rewrite (isel_write chunks _ ss Cov ND E) by (now apply nth_In).
  set (ranges := isel_ranges (ri_dims inp) (nth w ss [])) in *.
  set (out := nth w outs (fun _ => None)) in *.
  destruct (globalize_onto ranges c Hin) as (l0 & Hl0 & Eg).
  exists (cell_records inp f v (out l0)). split.
  - rewrite (fold_assign c (fun l => cell_records inp f v (out l)) _ None (cell_records inp f v (out l0))).
    + replace (existsb _ _) with true; auto. symmetry. apply existsb_exists.
      exists (c, l0). split; [|apply cell_eqb_refl]. unfold write_targets. apply in_map_iff. exists l0.
      rewrite Eg. auto.
    + intros g l I ->. unfold write_targets in I. apply in_map_iff in I as (l' & I1 & I2).
      injection I1 as H0 ->. f_equal.
      destruct (active_dec (ri_mask inp c)) as [Ac|Ac].
      * destruct (A l I2) as (vs & C1 & C2); [now rewrite H0|].
        destruct (A l0 Hl0) as (vs' & C1' & C2'); [now rewrite Eg|].
        rewrite H0 in C1. rewrite Eg in C1'. rewrite C2, C2'. f_equal. eapply cell_alone_fun; eauto.
      * rewrite (B l), (B l0); auto; [now rewrite Eg | now rewrite H0].
  - unfold right_records. destruct (active_dec (ri_mask inp c)) as [Ac|Ac].
    + left. split; auto. destruct (A l0 Hl0) as (vs' & C1' & C2'); [now rewrite Eg|].
      rewrite Eg in C1'. exists vs'. rewrite C2'. auto.
    + right. split; auto. rewrite (B l0); auto. now rewrite Eg.
Qed.

Lemma payload_out w f v c x : w < List.length ss -> payload S w f v c = Some x ->
  in_slice (ri_dims inp) (nth w ss []) c.
Proof.
  intros Hw. unfold S, run_system. simpl. rewrite slice_payload_eq.
  rewrite (isel_write chunks _ ss Cov ND E) by (now apply nth_In).
  set (ranges := isel_ranges (ri_dims inp) (nth w ss [])).
  intros Hp.
  destruct (existsb (fun gl : cell * cell => cell_eqb c (fst gl)) (write_targets ranges)) eqn:Ex.
  - apply existsb_exists in Ex as ([g l] & I & Eq). simpl in Eq. apply cell_eqb_eq in Eq. subst g.
    unfold write_targets in I. apply in_map_iff in I as (l' & I1 & I2). inversion I1; subst.
    unfold in_slice. fold ranges. now apply globalize_in.
  - rewrite (fold_assign_none c (fun l => cell_records inp f v (nth w outs (fun _ => None) l))) in Hp; [discriminate|].
    intros g l I ->. assert (T : existsb (fun gl : cell * cell => cell_eqb c (fst gl)) (write_targets ranges) = true).
    { apply existsb_exists. exists (c, l). split; auto. apply cell_eqb_refl. }
    congruence.
Qed.

Lemma run_disjoint : disjoint_payloads S.
Proof.
  intros w w' f v c x y Hw Hw' Hx Hy.
  assert (I : in_slice (ri_dims inp) (nth w ss []) c) by (eapply payload_out; eauto).
  assert (I' : in_slice (ri_dims inp) (nth w' ss []) c) by (eapply payload_out; eauto).
  pose proof (in_slice_grid _ _ _ I) as G.
  destruct (slice_of_cell chunks _ ss Cov Pos ND E c G) as (w0 & _ & _ & U).
  rewrite (U w), (U w'); auto.
Qed.

Theorem run_files old n s : exec S n (start S old) s -> finished S s ->
  forall f v c, f < List.length (ri_groups inp) -> v < List.length (ri_out_vars inp) ->
    (cell_in_grid (ri_dims inp) c -> exists x, disk s f v c = Some x /\ right_records fuel inp f v c x) /\
    (~ cell_in_grid (ri_dims inp) c -> disk s f v c = None).
Proof.
  intros X Fin f v c Hf Hv.
  destruct (final_content S run_disjoint old n s X Fin f v c Hf Hv) as [A B]. split.
  - intros G. destruct (slice_of_cell chunks _ ss Cov Pos ND E c G) as (w & Hw & I & _).
    destruct (payload_in w f v c Hw I) as (x & P & R). exists x. split; auto. eapply A; eauto.
  - intros N. apply B. intros w Hw. destruct (payload S w f v c) eqn:P; auto.
    exfalso. apply N. eapply in_slice_grid. eapply payload_out; eauto.
Qed.

Theorem run_crash old n s : exec S n (start S old) s ->
  forall f v c, f < List.length (ri_groups inp) ->
    disk s f v c = None \/ exists x, disk s f v c = Some x /\ right_records fuel inp f v c x.
Proof.
  intros X f v c Hf.
  destruct (intermediate_content S run_disjoint old n s X f v c Hf) as [|(w & x & Hw & P & D)]; auto.
  right. exists x. split; auto.
  destruct (payload_in w f v c Hw (payload_out _ _ _ _ _ Hw P)) as (x' & P' & R). congruence.
Qed.

End Payload.

Lemma right_records_fun fuel inp f v c x y :
  right_records fuel inp f v c x -> right_records fuel inp f v c y -> x = y.
Proof.
  intros [(A & vs & C & ->)|(A & ->)] [(A' & vs' & C' & ->)|(A' & ->)]; try tauto; auto.
  rewrite (cell_alone_fun _ _ _ _ _ _ C C'). auto.
Qed.

(** success does not depend on the chunking *)
Theorem workers_ok_any fuel inp chunks1 ss1 outs1 chunks2 ss2 :
  (chunks1 = [] \/ covers chunks1 (ri_dims inp)) -> (chunks2 = [] \/ covers chunks2 (ri_dims inp)) ->
  positive_sizes (ri_dims inp) -> NoDup (keys (ri_dims inp)) ->
  slices chunks1 (ri_dims inp) = Ok ss1 -> slices chunks2 (ri_dims inp) = Ok ss2 ->
  workers_ok fuel inp ss1 outs1 -> exists outs2, workers_ok fuel inp ss2 outs2.
Proof.
  intros C1 C2 Pos ND E1 E2 W1.
  assert (All : forall c, cell_in_grid (ri_dims inp) c -> active (ri_mask inp c) ->
     exists vs, cell_alone fuel (ri_out_vars inp) (ri_prm inp) (ri_data inp c) vs).
  { intros c G A. destruct (slice_of_cell chunks1 _ ss1 C1 Pos ND E1 c G) as (w & Hw & I & _).
    destruct (globalize_onto _ _ I) as (l & Hl & Eg).
    destruct (worker_spec fuel inp ss1 outs1 W1 w Hw) as [S1 _].
    destruct (S1 l Hl) as (vs & Q & _); [now rewrite Eg|]. rewrite Eg in Q. eauto. }
  clear - All. induction ss2 as [|ds ss2 (outs & IH)]; [exists []; constructor|].
  destruct (run_cells_total fuel (ri_out_vars inp)
     (fun l => ri_mask inp (globalize (isel_ranges (ri_dims inp) ds) l))
     (fun l => ri_data inp (globalize (isel_ranges (ri_dims inp) ds) l)) (ri_prm inp)
     (indices (map (@List.length nat) (isel_ranges (ri_dims inp) ds))) (ri_prm inp) (fun _ => None))
     as (o & p & R).
  - reflexivity.
  - intros l Hl A. apply All; auto. eapply in_slice_grid. unfold in_slice. apply globalize_in. exact Hl.
  - exists (o :: outs). constructor; auto. exists (ri_prm inp), p. split; [reflexivity|exact R].
Qed.

(** ** chunk dictionaries that do not match the mask *)
Lemma missing_dim_write_fails {V} (dims : dimlist) ds d n (vals : cell -> V) file :
  In (d, n) dims -> ~ In d (keys ds) -> write_values dims ds vals file = Err KeyError.
Proof.
  intros I N. unfold write_values.
  assert (E : write_slice dims ds = Err KeyError); [|now rewrite E].
  unfold write_slice. apply mapM_Err_kind with (x := (d, n)); auto.
  - simpl. unfold dict_getitem. apply dict_get_None in N. now rewrite N.
  - intros [d' n'] e _. simpl. unfold dict_getitem. destruct (dict_get ds d'); simpl; congruence.
Qed.

Theorem partial_chunks_fail {V} (chunks : dict Z) (dims : dimlist) ss ds d n (vals : cell -> V) file :
  chunks <> [] -> In (d, n) dims -> ~ In d (keys chunks) ->
  slices chunks dims = Ok ss -> In ds ss -> write_values dims ds vals file = Err KeyError.
Proof.
  intros NE I N E Ids. eapply missing_dim_write_fails; eauto.
  rewrite (slices_keys _ _ _ _ E Ids). destruct chunks; [congruence|auto].
Qed.

Theorem partial_chunks_payload chunks inp ss outs pr pf d n :
  chunks <> [] -> In (d, n) (ri_dims inp) -> ~ In d (keys chunks) ->
  slices chunks (ri_dims inp) = Ok ss ->
  forall w f v c, w < List.length ss -> payload (run_system inp ss outs pr pf) w f v c = None.
Proof.
  intros NE I N E w f v c Hw. simpl. rewrite slice_payload_eq.
  assert (W : write_slice (ri_dims inp) (nth w ss []) = Err KeyError).
  { pose proof (partial_chunks_fail (V:=unit) chunks (ri_dims inp) ss (nth w ss []) d n (fun _ => tt) (fun _ => None)
                  NE I N E (nth_In _ _ Hw)) as K.
    unfold write_values in K. destruct (write_slice _ _); cbn [bind] in K; congruence. }
  now rewrite W.
Qed.

Theorem unknown_chunk_dim_fails (chunks : dict Z) (dims : dimlist) d c :
  In (d, c) chunks -> ~ In d (keys dims) ->
  (forall d c, In (d, c) chunks -> (0 < c)%Z) -> positive_sizes dims ->
  slices chunks dims = Err KeyError.
Proof.
  intros I N Pos PosD.
  assert (E : chunk_domain chunks dims = Err KeyError).
  { unfold chunk_domain.
    match goal with |- bind (mapM ?f ?l) _ = _ => assert (M : mapM f l = Err KeyError) end; [|now rewrite M].
    apply mapM_Err_kind with (x := (d, c)); auto.
    - simpl. unfold dict_getitem. apply dict_get_None in N. now rewrite N.
    - intros [d' c'] e I'. simpl. unfold dict_getitem. destruct (dict_get dims d') as [n|] eqn:G; cbn [bind].
      + rewrite dim_slices_eq; [discriminate| |].
        * eapply Pos; eauto.
        * apply dict_get_In in G. specialize (PosD _ _ G). lia.
      + congruence. }
  unfold slices. destruct chunks; [destruct I|exact E].
Qed.

Theorem no_payload_no_write {cell value} (S : system cell value) old n s :
  (forall w f v c, w < nworkers S -> payload S w f v c = None) ->
  exec S n (start S old) s -> forall f v c, f < nfiles S -> disk s f v c = None.
Proof.
  intros P X f v c Hf.
  assert (D : disjoint_payloads S).
  { intros w w' f' v' c' x y Hw Hw' Hx. rewrite P in Hx by auto. discriminate. }
  destruct (intermediate_content S D old n s X f v c Hf) as [|(w & x & Hw & Px & _)]; auto.
  rewrite P in Px by auto. discriminate.
Qed.

(** ** storage chunk sizes *)
Theorem storage_chunk_legal (chunks : dict Z) d n :
  0 < n -> (forall d c, In (d, c) chunks -> (0 < c)%Z) ->
  (1 <= storage_chunk chunks (d, n) <= Z.of_nat n)%Z /\
  (forall c, dict_get chunks d = Some c -> (c <= Z.of_nat n)%Z -> storage_chunk chunks (d, n) = c) /\
  (dict_get chunks d = None -> storage_chunk chunks (d, n) = Z.of_nat n).
Proof.
  intros Hn Pos. unfold storage_chunk. simpl.
  destruct (dict_get chunks d) as [c|] eqn:G.
  - assert (0 < c)%Z by (apply dict_get_In in G; eapply Pos; eauto).
    destruct (Z.leb_spec c (Z.of_nat n)); split; try lia; split; try congruence.
    + intros c' [= <-] ?; lia.
  - rewrite Z.leb_refl. split; [lia|]. split; [discriminate|auto].
Qed.

(** ** a finishing schedule exists from every reachable state *)
Theorem can_finish {cell value} (S : system cell value) (D : disjoint_payloads S) old n s :
  exec S n (start S old) s -> exists m s', n <= m /\ exec S m (start S old) s' /\ finished S s'.
Proof.
  intros X.
  remember (nworkers S * (nfiles S * (6 + nvars S)) - n) as k eqn:Ek.
  revert n s X Ek. induction k as [k IH] using lt_wf_ind. intros n s X Ek.
  assert (Dec : finished S s \/ ~ finished S s).
  { assert (Gen : forall m, (forall w, w < m -> nfiles S <= w_file (ws s w)) \/ ~ (forall w, w < m -> nfiles S <= w_file (ws s w))).
    { induction m as [|m [IHm|IHm]].
      - left; intros; lia.
      - destruct (le_lt_dec (nfiles S) (w_file (ws s m))).
        + left. intros w Hw. destruct (Nat.eq_dec w m) as [->|]; auto. apply IHm; lia.
        + right. intros H. specialize (H m ltac:(lia)). lia.
      - right. intros H. apply IHm. intros; apply H; lia. }
    exact (Gen (nworkers S)). }
  destruct Dec as [F|F]; [eauto|].
  destruct (progress S D old n s X F) as (w & s' & St).
  pose proof (exec_step S _ _ _ _ _ X St) as X'.
  pose proof (steps_bounded S old _ _ X') as B.
  destruct (IH (nworkers S * (nfiles S * (6 + nvars S)) - (n + 1)) ltac:(lia) (n + 1) s' X' eq_refl)
    as (m & s'' & L & X'' & F''). exists m, s''. split; [lia|auto].
Qed.
