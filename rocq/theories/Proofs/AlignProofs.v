(** Selection by coordinates: C99. *)
From Coq Require Import ZArith Reals String List Bool Arith Lia.
From Verif Require Import Model.Py Model.Fl Model.Params Model.Reader Model.Output Model.Validate Model.Cell Model.Worker Model.Align
  Spec.GridSpec Spec.CellSpec Spec.AlignSpec Proofs.Base Proofs.SliceProofs Proofs.HeaderProofs Proofs.SettingsProofs.
Import ListNotations.
Local Open Scope string_scope.
Local Open Scope list_scope.

(** ** labels *)
Lemma find_coord_sound xs x : forall k n, find_coord xs x k = Ok n -> exists i, n = (k + i)%nat /\ nth_error xs i = Some x.
Proof.
  induction xs as [|y xs IH]; intros k n H; cbn in H; [discriminate|].
  destruct (Req_EM_T x y) as [->|].
  - apply ok_inj in H. subst. exists 0%nat. split; [lia|reflexivity].
  - destruct (IH _ _ H) as (i & -> & N). exists (S i). split; [lia|exact N].
Qed.

Lemma find_coord_total xs x : In x xs -> forall k, exists n, find_coord xs x k = Ok n.
Proof.
  induction xs as [|y xs IH]; intros I k; [easy|]. cbn. destruct (Req_EM_T x y); [eauto|].
  destruct I as [->|I]; [contradiction|]. now apply IH.
Qed.

Lemma find_coord_missing xs x : ~ In x xs -> forall k, find_coord xs x k = Err KeyError.
Proof.
  induction xs as [|y xs IH]; intros I k; [easy|]. cbn. destruct (Req_EM_T x y) as [->|]; [exfalso; apply I; now left|].
  apply IH. intros J. apply I. now right.
Qed.

Lemma distinct_nodup l : distinct l = true <-> NoDup l.
Proof.
  induction l as [|x l IH]; cbn; [split; constructor|]. rewrite andb_true_iff, negb_true_iff, IH. split.
  - intros [A B]. constructor; [|exact B]. intros I. assert (T : existsb (fun y => if Req_EM_T x y then true else false) l = true); [|congruence].
    apply existsb_exists. exists x. split; [exact I|]. destruct (Req_EM_T x x); [reflexivity|contradiction].
  - intros H. inversion H as [|? ? N1 N2]. subst. split; [|exact N2].
    destruct (existsb _ l) eqn:E; [|reflexivity]. exfalso. apply existsb_exists in E as (y & I & Y). destruct (Req_EM_T x y) as [->|]; [contradiction|discriminate].
Qed.

Lemma positions_sound have want ps : positions have want = Ok ps -> Forall2 (fun x n => nth_error have n = Some x) want ps.
Proof.
  unfold positions. destruct (distinct have); [|discriminate]. intros H. apply mapM_inv in H.
  induction H as [|x n l l' P Q IH]; constructor; auto. destruct (find_coord_sound _ _ _ _ P) as (i & -> & N). exact N.
Qed.

Lemma positions_total have want : NoDup have -> incl want have -> exists ps, positions have want = Ok ps.
Proof.
  intros ND I. unfold positions. rewrite (proj2 (distinct_nodup _) ND).
  induction want as [|x want IH]; [exists []; reflexivity|]. cbn [mapM].
  destruct (find_coord_total have x (I x (or_introl eq_refl)) 0) as (n & ->). cbn [bind].
  destruct IH as (ps & ->); [intros y Y; apply I; now right|]. cbn [bind]. eauto.
Qed.

Lemma positions_missing have want : NoDup have -> ~ incl want have -> positions have want = Err KeyError.
Proof.
  intros ND I. unfold positions. rewrite (proj2 (distinct_nodup _) ND).
  induction want as [|x want IH]; [exfalso; apply I; intros y []|]. cbn [mapM].
  destruct (in_dec Req_EM_T x have) as [J|J].
  - destruct (find_coord_total have x J 0) as (n & ->). cbn [bind]. rewrite IH; [reflexivity|].
    intros K. apply I. intros y [<-|Y]; auto.
  - now rewrite (find_coord_missing have x J).
Qed.

(** ** points by name *)
Lemma forall2_at {A B} (P : A -> B -> Prop) l m i x y : Forall2 P l m -> nth_error l i = Some x -> nth_error m i = Some y -> P x y.
Proof.
  intros F. revert i. induction F; intros [|i] X Y; cbn in *; try discriminate; [congruence|eauto].
Qed.

Lemma locs_get dom l k want : on_grid dom l -> dict_get dom k = Some want ->
  exists i n, dict_get (locs_of dom l) k = Some n /\ (n < List.length want)%nat /\ nth_error dom i = Some (k, want) /\ nth_error l i = Some n.
Proof.
  unfold locs_of, on_grid, keys. intros G. induction G as [|n [k' lab] l dom L G IH]; intros H; [discriminate|].
  cbn [map combine dict_get fst snd] in *. destruct (String.eqb_spec k k') as [->|Ne].
  - injection H as ->. exists 0%nat, n. auto.
  - destruct (IH H) as (i & m & A & B & C & D). exists (S i), m. auto.
Qed.

Lemma sel_points axes dom l pa : mapM (sel_axis dom) axes = Ok pa -> on_grid dom l -> incl (keys axes) (keys dom) ->
  exists q, mapM (isel_axis (locs_of dom l)) (map snd pa) = Ok q /\
    Forall2 (fun n a => exists x, nth_error (snd a) n = Some x /\ has_coord dom l (fst a) x) (globalize (map fst pa) q) axes.
Proof.
  intros M G. apply mapM_inv in M. induction M as [|[k have] [ps a] axes pa P M IH]; intros I; [exists []; split; constructor|].
  destruct IH as (q & Q & F); [intros y Y; apply I; now right|].
  destruct (dict_get_Some_key dom k) as [want W]; [apply I; now left|].
  unfold sel_axis in P. cbn [fst snd] in P. rewrite W in P. apply bind_inv in P as (ps' & P1 & P2). apply ok_inj in P2. injection P2 as <- <-.
  destruct (locs_get _ _ _ _ G W) as (i & n & L1 & L2 & L3 & L4).
  exists (n :: q). cbn [map snd mapM]. unfold isel_axis at 1. cbn [fst snd]. rewrite L1, (proj2 (Nat.ltb_lt _ _) L2). cbn [bind]. rewrite Q. cbn [bind].
  split; [reflexivity|]. unfold globalize. cbn [map combine fst snd]. constructor; [|exact F].
  apply positions_sound in P1. destruct (nth_error want n) as [x|] eqn:X; [|apply nth_error_None in X; lia].
  assert (Lp : (n < List.length ps')%nat) by (rewrite <- (Forall2_len _ _ _ P1); exact L2).
  destruct (nth_error ps' n) as [j|] eqn:J; [|apply nth_error_None in J; lia].
  rewrite (nth_error_nth _ _ 0%nat J). exists x. split; [exact (forall2_at _ _ _ _ _ _ P1 X J)|].
  exists i, want, n. auto.
Qed.

Lemma place_of_points axes p dom c :
  Forall2 (fun n a => exists x, nth_error (snd a) n = Some x /\ has_coord dom c (fst a) x) p axes -> at_place axes p dom c.
Proof.
  intros F. split.
  - induction F as [|n a p axes (x & X & _) F IH]; constructor; auto. apply nth_error_Some. congruence.
  - intros k x (i & labels & n & A & N & X). destruct (forall2_at _ _ _ _ _ _ F N A) as (y & Y & H). cbn [fst snd] in *. congruence.
Qed.

Lemma sel_isel {V} (ds sub : nc V) dom l : incl (keys (nc_axes ds)) (keys dom) -> sel ds dom = Ok sub -> on_grid dom l ->
  exists p, isel_met sub (locs_of dom l) = Ok (nc_at ds p) /\ at_place (nc_axes ds) p dom l.
Proof.
  intros I H G. unfold sel in H. apply bind_inv in H as (pa & M & H). apply ok_inj in H. subst sub.
  destruct (sel_points _ _ _ _ M G I) as (q & Q & F). exists (globalize (map fst pa) q).
  split; [|now apply place_of_points]. unfold isel_met. cbn [nc_axes nc_at]. now rewrite Q.
Qed.

Lemma sel_names {V} (ds sub : nc V) dom : sel ds dom = Ok sub -> keys (nc_axes sub) = keys (nc_axes ds).
Proof.
  intros H. unfold sel in H. apply bind_inv in H as (pa & M & H). apply ok_inj in H. subst sub. cbn [nc_axes].
  apply mapM_inv in M. unfold keys. induction M as [|[k have] [ps a] axes pa P M IH]; [reflexivity|]. cbn [map fst snd]. f_equal; [|exact IH].
  unfold sel_axis in P. cbn [fst snd] in P. destruct (dict_get dom k).
  - apply bind_inv in P as (ps' & _ & P2). apply ok_inj in P2. injection P2 as <- <-. reflexivity.
  - apply ok_inj in P. now injection P as <- <-.
Qed.

(** ** a place has one point *)
Lemma has_coord_fun dom c k x y : NoDup (keys dom) -> has_coord dom c k x -> has_coord dom c k y -> x = y.
Proof.
  intros ND (i & la & n & A & B & C) (j & lb & m & D & E & F).
  assert (i = j).
  { apply (proj1 (NoDup_nth_error (keys dom)) ND).
    - apply nth_error_Some. unfold keys. rewrite nth_error_map, A. discriminate.
    - unfold keys. rewrite !nth_error_map, A, D. reflexivity. }
  subst j. congruence.
Qed.

Lemma place_unique axes dom p p' c : readable axes dom -> NoDup (keys dom) -> at_place axes p dom c -> at_place axes p' dom c -> p = p'.
Proof.
  intros Rd ND (G & H) (G' & H').
  assert (X : forall i n n', nth_error p i = Some n -> nth_error p' i = Some n' -> n = n').
  { intros i n n' N N'. assert (Li : (i < List.length axes)%nat) by (rewrite <- (Forall2_len _ _ _ G); apply nth_error_Some; congruence).
    destruct (nth_error axes i) as [[k labels]|] eqn:A; [|apply nth_error_None in A; lia].
    pose proof (forall2_at _ _ _ _ _ _ G N A) as L. pose proof (forall2_at _ _ _ _ _ _ G' N' A) as L'. cbn [snd] in *.
    destruct (nth_error labels n) as [x|] eqn:Ex; [|apply nth_error_None in Ex; lia].
    destruct (nth_error labels n') as [x'|] eqn:Ex'; [|apply nth_error_None in Ex'; lia].
    assert (E : x = x').
    { apply (has_coord_fun dom c k x x' ND); [apply H; exists i, labels, n|apply H'; exists i, labels, n']; auto. }
    subst x'. apply (proj1 (NoDup_nth_error labels)); [|exact L|congruence].
    eapply rd_labels; [exact Rd|]. eapply nth_error_In. exact A. }
  assert (Ln : List.length p = List.length p') by (rewrite (Forall2_len _ _ _ G), (Forall2_len _ _ _ G'); reflexivity).
  clear - X Ln. revert p' Ln X. induction p as [|n p IH]; intros [|n' p'] L X; try discriminate; [reflexivity|].
  f_equal; [apply (X 0%nat); reflexivity|]. apply IH; [now injection L|]. intros i. apply (X (S i)).
Qed.

(** ** slices of the domain *)
Lemma ranges_len axes ds : List.length (axes_ranges axes ds) = List.length axes.
Proof. unfold axes_ranges, isel_ranges, axes_dims. now rewrite !map_length. Qed.

Lemma slice_axes_cons a axes ds : slice_axes (a :: axes) ds =
  (fst a, map (fun i => nth i (snd a) 0%R) (match dict_get ds (fst a) with Some s => slice_range s (List.length (snd a)) | None => seq 0 (List.length (snd a)) end))
  :: slice_axes axes ds.
Proof. reflexivity. Qed.

Lemma slice_keys axes ds : keys (slice_axes axes ds) = keys axes.
Proof. induction axes as [|a axes IH]; [reflexivity|]. rewrite slice_axes_cons. unfold keys in *. cbn [map fst]. now rewrite IH. Qed.

Lemma slice_locs axes ds l : locs_of (slice_axes axes ds) l = locs_of axes l.
Proof. unfold locs_of. now rewrite slice_keys. Qed.

Lemma range_bound ds k n i : In i (match dict_get ds k with Some s => slice_range s n | None => seq 0 n end) -> (i < n)%nat.
Proof.
  destruct (dict_get ds k); intros H; [now apply ChunkProofs.slice_range_bound in H|]. apply in_seq in H. lia.
Qed.

Lemma slice_on_grid axes ds l : In l (indices (map (@List.length nat) (axes_ranges axes ds))) -> on_grid (slice_axes axes ds) l.
Proof.
  rewrite indices_in. unfold on_grid. revert l. induction axes as [|a axes IH]; intros l H; inversion H; subst; constructor.
  - cbn [snd]. rewrite map_length. assumption.
  - now apply IH.
Qed.

Lemma global_on_grid axes ds l : In l (indices (map (@List.length nat) (axes_ranges axes ds))) -> on_grid axes (globalize (axes_ranges axes ds) l).
Proof.
  intros H. apply globalize_in in H. revert H. generalize (globalize (axes_ranges axes ds) l). unfold on_grid.
  induction axes as [|a axes IH]; intros c H; inversion H as [|i r c' rs Hi Hr]; subst; constructor.
  - eapply range_bound. exact Hi.
  - now apply IH.
Qed.

Lemma slice_coords axes ds l k x : In l (indices (map (@List.length nat) (axes_ranges axes ds))) ->
  has_coord (slice_axes axes ds) l k x <-> has_coord axes (globalize (axes_ranges axes ds) l) k x.
Proof.
  rewrite indices_in. revert l. induction axes as [|a axes IH]; intros l H; inversion H as [|n m l' ms Hn Hl]; subst.
  - split; intros (i & la & n & A & _); destruct i; discriminate.
  - set (r := match dict_get ds (fst a) with Some s => slice_range s (List.length (snd a)) | None => seq 0 (List.length (snd a)) end) in *.
    assert (Eg : globalize (axes_ranges (a :: axes) ds) (n :: l') = nth n r 0%nat :: globalize (axes_ranges axes ds) l') by reflexivity.
    rewrite Eg, slice_axes_cons. fold r.
    assert (Hn' : (n < List.length r)%nat) by exact Hn.
    assert (Bd : (nth n r 0 < List.length (snd a))%nat) by (eapply range_bound; apply nth_In; exact Hn').
    specialize (IH l' Hl). split.
    + intros ([|i] & la & m & A & B & C).
      * cbn in A, B. injection A as <- <-. injection B as <-. exists 0%nat, (snd a), (nth n r 0%nat). cbn. rewrite <- surjective_pairing. split; [reflexivity|]. split; [reflexivity|].
        rewrite nth_error_map, (nth_error_nth' r 0%nat Hn') in C. cbn in C. injection C as <-. now apply nth_error_nth'.
      * destruct (proj1 IH) as (i' & la' & m' & A' & B' & C'); [exists i, la, m; auto|]. exists (S i'), la', m'. auto.
    + intros ([|i] & la & m & A & B & C).
      * cbn in A, B. injection A as A. injection B as <-. exists 0%nat, (map (fun i => nth i (snd a) 0%R) r), n. cbn. subst a. cbn [fst snd] in *. split; [reflexivity|]. split; [reflexivity|].
        rewrite nth_error_map, (nth_error_nth' r 0%nat Hn'). cbn. f_equal. now apply nth_error_nth.
      * destruct (proj2 IH) as (i' & la' & m' & A' & B' & C'); [exists i, la, m; auto|]. exists (S i'), la', m'. auto.
Qed.

Lemma slice_place axes dom ds p l : In l (indices (map (@List.length nat) (axes_ranges dom ds))) ->
  at_place axes p (slice_axes dom ds) l -> at_place axes p dom (globalize (axes_ranges dom ds) l).
Proof. intros H (G & P). split; [exact G|]. intros k x C. apply slice_coords; auto. Qed.

Lemma place_holds {V} (ds : nc V) dom c p : readable (nc_axes ds) dom -> NoDup (keys dom) -> at_place (nc_axes ds) p dom c ->
  holds_at ds dom c (nc_at ds p).
Proof. intros Rd ND P. split; [eauto|]. intros q Q. now rewrite (place_unique _ _ p q c Rd ND P Q). Qed.

Lemma holds_fun {V} (ds : nc V) dom c v w : holds_at ds dom c v -> holds_at ds dom c w -> v = w.
Proof. intros ((p & P) & A) (_ & B). now rewrite (A p P), (B p P). Qed.

(** ** what a slice holds at its cells *)
Lemma slice_holds {V} (ds sub : nc V) dom sl l : readable (nc_axes ds) dom -> NoDup (keys dom) ->
  sel ds (slice_axes dom sl) = Ok sub -> In l (indices (map (@List.length nat) (axes_ranges dom sl))) ->
  exists v, isel_met sub (locs_of dom l) = Ok v /\ holds_at ds dom (globalize (axes_ranges dom sl) l) v.
Proof.
  intros Rd ND S I. destruct (sel_isel _ _ _ l ltac:(rewrite slice_keys; apply Rd) S (slice_on_grid _ _ _ I)) as (p & P1 & P2).
  rewrite slice_locs in P1. exists (nc_at ds p). split; [exact P1|]. apply place_holds; auto. now apply slice_place.
Qed.

(** ** whether a slice can be read *)
Lemma sel_axis_total axes dom a : readable axes dom -> labels_cover axes dom -> In a axes -> exists y, sel_axis dom a = Ok y.
Proof.
  intros Rd Cv I. unfold sel_axis. destruct a as [k have]. cbn [fst snd]. destruct (dict_get dom k) as [want|] eqn:W; [|eauto].
  destruct (positions_total have want) as (ps & ->).
  - eapply rd_labels; eauto.
  - eapply Cv; [|exact W]. apply dict_get_NoDup; [apply Rd|exact I].
  - cbn [bind]. eauto.
Qed.

Lemma mapM_each {A B} (f : A -> res B) l : (forall x, In x l -> exists y, f x = Ok y) -> exists ys, mapM f l = Ok ys.
Proof.
  induction l as [|x l IH]; intros H; [exists []; reflexivity|]. cbn [mapM]. destruct (H x (or_introl eq_refl)) as (y & ->). cbn [bind].
  destruct IH as (ys & ->); [intros z Z; apply H; now right|]. cbn [bind]. eauto.
Qed.

Lemma sel_total {V} (ds : nc V) dom : readable (nc_axes ds) dom -> labels_cover (nc_axes ds) dom -> exists sub, sel ds dom = Ok sub.
Proof.
  intros Rd Cv. destruct (mapM_each (sel_axis dom) (nc_axes ds)) as (pa & E); [intros a I; eapply sel_axis_total; eauto|].
  unfold sel. rewrite E. cbn [bind]. eauto.
Qed.

(** the only exception of a selection with proper labels *)
Lemma sel_axis_error axes dom a e : readable axes dom -> In a axes -> sel_axis dom a = Err e -> e = KeyError.
Proof.
  intros Rd Hin E. destruct a as [k' have']. unfold sel_axis in E. cbn [fst snd] in E. destruct (dict_get dom k') as [want'|]; [|discriminate].
  unfold positions in E. rewrite (proj2 (distinct_nodup have')) in E by (eapply rd_labels; eauto).
  destruct (mapM _ want') eqn:M; cbn [bind] in E; [discriminate|]. injection E as <-. clear - M.
  induction want' as [|y w IH]; cbn [mapM] in M; [discriminate|].
  destruct (find_coord have' y 0) as [n|e'] eqn:F; cbn [bind] in M.
  - destruct (mapM (fun x => find_coord have' x 0) w) eqn:M'; cbn [bind] in M; [discriminate|]. injection M as <-. now apply IH.
  - injection M as <-. destruct (in_dec Req_EM_T y have') as [J|J].
    + destruct (find_coord_total have' y J 0) as (n & Q). congruence.
    + rewrite (find_coord_missing _ _ J) in F. congruence.
Qed.

Lemma sel_missing {V} (ds : nc V) dom k have want x : readable (nc_axes ds) dom ->
  dict_get (nc_axes ds) k = Some have -> dict_get dom k = Some want -> In x want -> ~ In x have -> sel ds dom = Err KeyError.
Proof.
  intros Rd H W I N. unfold sel. rewrite (mapM_Err_kind (sel_axis dom) (nc_axes ds) (k, have) KeyError); [reflexivity| | |].
  - now apply dict_get_In.
  - unfold sel_axis. cbn [fst snd]. rewrite W, positions_missing; [reflexivity| |].
    + eapply rd_labels; [exact Rd|]. eapply dict_get_In. exact H.
    + intros J. apply N, J, I.
  - intros a e Hin E. eapply sel_axis_error; eauto.
Qed.

Lemma mapM_err_in {A B} (f : A -> res B) l e : mapM f l = Err e -> exists x, In x l /\ f x = Err e.
Proof.
  induction l as [|x l IH]; cbn [mapM]; [discriminate|]. destruct (f x) as [y|e'] eqn:F; cbn [bind].
  - destruct (mapM f l); cbn [bind]; [discriminate|]. intros H. injection H as ->. destruct (IH eq_refl) as (z & Z & Q). exists z. split; [now right|exact Q].
  - intros H. injection H as ->. exists x. split; [now left|exact F].
Qed.

Lemma sel_error {V} (ds : nc V) dom e : readable (nc_axes ds) dom -> sel ds dom = Err e -> e = KeyError.
Proof.
  intros Rd H. unfold sel in H. destruct (mapM _ _) eqn:M; cbn [bind] in H; [discriminate|]. injection H as <-.
  apply mapM_err_in in M as (a & I & E). eapply sel_axis_error; eauto.
Qed.

Lemma slice_get dom sl k want' : dict_get (slice_axes dom sl) k = Some want' -> exists want, dict_get dom k = Some want /\ incl want' want.
Proof.
  induction dom as [|[k' lab] dom IH]; intros H; [discriminate|]. rewrite slice_axes_cons in H. cbn [dict_get fst snd] in *.
  destruct (k =? k') eqn:E; [|auto]. injection H as <-. exists lab. split; [reflexivity|].
  intros x X. apply in_map_iff in X as (i & <- & I). apply nth_In. eapply range_bound. exact I.
Qed.

Lemma slice_cover axes dom sl : labels_cover axes dom -> labels_cover axes (slice_axes dom sl).
Proof.
  intros C k have want H W. destruct (slice_get _ _ _ _ W) as (w & W' & I). intros x X. eapply C; eauto.
Qed.

Lemma slice_readable axes dom sl : readable axes dom -> readable axes (slice_axes dom sl).
Proof. intros [A B C]. constructor; auto. now rewrite slice_keys. Qed.

(** ** the cells of a worker *)
Lemma gather_total inp sl met state l : good_files inp ->
  sel (gi_forcing inp) (slice_axes (gi_axes inp) sl) = Ok met -> sel (gi_state inp) (slice_axes (gi_axes inp) sl) = Ok state ->
  In l (indices (map (@List.length nat) (axes_ranges (gi_axes inp) sl))) ->
  exists r, gather inp sl met state l = Ok r /\ own_inputs inp (globalize (axes_ranges (gi_axes inp) sl) l) r.
Proof.
  intros G SF SS I. set (c := globalize (axes_ranges (gi_axes inp) sl) l).
  destruct (slice_holds _ _ _ _ _ (gf_forcing _ G) (gf_names _ G) SF I) as (v & F1 & F2).
  destruct (slice_holds _ _ _ _ _ (gf_state _ G) (gf_names _ G) SS I) as (w & S1 & S2). fold c in F2, S2.
  unfold gather. fold c. rewrite F1. cbn [bind]. unfold isel_state.
  replace (forallb _ _) with true.
  - rewrite S1. cbn [bind]. destruct w as [[sp sn] sx]. eexists. split; [reflexivity|]. now constructor.
  - symmetry. apply forallb_forall. intros k K. apply mem_keys.
    rewrite (sel_names _ _ _ SS). apply (gf_state_dims _ G). unfold locs_of, keys in K. apply in_map_iff in K as ([k' n] & <- & K).
    now apply in_combine_l in K.
Qed.

Theorem worker_inputs inp sl w : good_files inp -> slice_worker inp sl = Ok w ->
  List.length (wk_cells w) = List.length (indices (wk_shape w)) /\
  forall i l r, nth_error (indices (wk_shape w)) i = Some l -> nth_error (wk_cells w) i = Some r ->
    let c := globalize (axes_ranges (gi_axes inp) sl) l in
    on_grid (gi_axes inp) c /\ wk_mask w l = gi_mask inp c /\ own_inputs inp c r.
Proof.
  intros G H. unfold slice_worker, worker_with in H. apply bind_inv in H as (met & SF & H). apply bind_inv in H as (state & SS & H).
  apply bind_inv in H as (cells & M & H). apply ok_inj in H. subst w. cbn [wk_cells wk_shape wk_mask]. apply mapM_inv in M.
  split; [symmetry; exact (Forall2_len _ _ _ M)|]. intros i l r L C. pose proof (nth_error_In _ _ L) as I.
  split; [now apply global_on_grid|]. split; [reflexivity|].
  destruct (gather_total _ _ _ _ _ G SF SS I) as (r' & A & B). pose proof (forall2_at _ _ _ _ _ _ M L C) as E. cbn beta in E.
  rewrite A in E. apply ok_inj in E. now subst r'.
Qed.

Theorem worker_readable inp sl : good_files inp -> labels_cover (nc_axes (gi_forcing inp)) (gi_axes inp) -> labels_cover (nc_axes (gi_state inp)) (gi_axes inp) ->
  exists w, slice_worker inp sl = Ok w.
Proof.
  intros G CF CS.
  destruct (sel_total (gi_forcing inp) (slice_axes (gi_axes inp) sl)) as (met & SF); [apply slice_readable, G|now apply slice_cover|].
  destruct (sel_total (gi_state inp) (slice_axes (gi_axes inp) sl)) as (state & SS); [apply slice_readable, G|now apply slice_cover|].
  unfold slice_worker, worker_with. rewrite SF, SS. cbn [bind].
  destruct (mapM_each (gather inp sl met state) (indices (map (@List.length nat) (axes_ranges (gi_axes inp) sl)))) as (cells & ->).
  - intros l I. destruct (gather_total _ _ _ _ _ G SF SS I) as (r & A & _). eauto.
  - cbn [bind]. eauto.
Qed.

(** ** a state without one of the dimensions *)
Lemma in_combine_nth {A B} (l : list A) : forall (l' : list B) i a b, nth_error l i = Some a -> nth_error l' i = Some b -> In (a, b) (combine l l').
Proof.
  induction l as [|x l IH]; intros [|y l'] [|i] a b H H'; cbn in *; try discriminate.
  - left. congruence.
  - right. eapply IH; eauto.
Qed.

Theorem state_dimension inp sl l k : NoDup (keys (gi_axes inp)) ->
  readable (nc_axes (gi_forcing inp)) (gi_axes inp) -> readable (nc_axes (gi_state inp)) (gi_axes inp) ->
  labels_cover (nc_axes (gi_forcing inp)) (gi_axes inp) -> labels_cover (nc_axes (gi_state inp)) (gi_axes inp) ->
  In k (keys (gi_axes inp)) -> ~ In k (keys (nc_axes (gi_state inp))) ->
  In l (indices (map (@List.length nat) (axes_ranges (gi_axes inp) sl))) ->
  active (gi_mask inp (globalize (axes_ranges (gi_axes inp) sl) l)) ->
  slice_worker inp sl = Err ValueError.
Proof.
  intros Nd RF RS CF CS K NK I _.
  destruct (sel_total (gi_forcing inp) (slice_axes (gi_axes inp) sl)) as (met & SF); [now apply slice_readable|now apply slice_cover|].
  destruct (sel_total (gi_state inp) (slice_axes (gi_axes inp) sl)) as (state & SS); [now apply slice_readable|now apply slice_cover|].
  unfold slice_worker, worker_with. rewrite SF, SS. cbn [bind].
  assert (Each : forall c, In c (indices (map (@List.length nat) (axes_ranges (gi_axes inp) sl))) -> gather inp sl met state c = Err ValueError).
  { intros c C. destruct (slice_holds _ _ _ _ _ RF Nd SF C) as (v & F1 & _). unfold gather. rewrite F1. cbn [bind]. unfold isel_state.
    destruct (forallb _ _) eqn:B; [exfalso|reflexivity]. apply NK. rewrite <- (sel_names _ _ _ SS). apply mem_keys. rewrite forallb_forall in B. apply B.
    pose proof (Forall2_len _ _ _ (slice_on_grid _ _ _ C)) as L. unfold slice_axes in L. rewrite map_length, combine_length, ranges_len in L.
    apply in_map_iff in K as ([k' labels] & E & K). cbn in E. subst k'. apply In_nth_error in K as (i & N).
    assert (Hi : (i < List.length (gi_axes inp))%nat) by (apply nth_error_Some; congruence).
    destruct (nth_error c i) as [j|] eqn:J; [|apply nth_error_None in J; lia].
    unfold locs_of, keys. apply in_map_iff. exists (k, j). split; [reflexivity|]. apply (in_combine_nth _ _ i); [|exact J]. now rewrite nth_error_map, N. }
  destruct (indices _) as [|c cs]; [destruct I|]. cbn [mapM]. rewrite (Each c (or_introl eq_refl)). reflexivity.
Qed.

(** ** labels that are absent *)
Lemma grid_point (axes : dict (list R)) k want j : dict_get axes k = Some want -> (j < List.length want)%nat ->
  (forall k' labels, In (k', labels) axes -> labels <> []) -> NoDup (keys axes) ->
  exists c, on_grid axes c /\ forall x, nth_error want j = Some x -> has_coord axes c k x.
Proof.
  intros W J Pos ND. exists (map (fun a : string * list R => if fst a =? k then j else 0%nat) axes). split.
  - unfold on_grid. assert (All : forall a, In a axes -> ((if (fst a =? k)%string then j else 0) < List.length (snd a))%nat).
    { intros [k' l] I. cbn [fst snd]. destruct (String.eqb_spec k' k) as [->|].
      - pose proof (dict_get_NoDup _ _ _ ND I) as Q. unfold fl in *. assert (l = want) by congruence. now subst.
      - pose proof (Pos k' l I). destruct l; [congruence|cbn; lia]. }
    clear - All. induction axes as [|a axes IH]; cbn [map]; constructor; [apply All; now left|]. apply IH. intros b I. apply All. now right.
  - intros x X. pose proof (dict_get_In _ _ _ W) as I. apply In_nth_error in I as (i & I). exists i, want, j. split; [exact I|].
    split; [|exact X]. rewrite nth_error_map, I. cbn [option_map fst]. now rewrite String.eqb_refl.
Qed.

Theorem missing_refused inp chunks ss k have want x :
  good_files inp -> (chunks = [] \/ covers chunks (axes_dims (gi_axes inp))) -> slices chunks (axes_dims (gi_axes inp)) = Ok ss ->
  dict_get (nc_axes (gi_forcing inp)) k = Some have \/ dict_get (nc_axes (gi_state inp)) k = Some have ->
  dict_get (gi_axes inp) k = Some want -> In x want -> ~ In x have ->
  exists ds, In ds ss /\ slice_worker inp ds = Err KeyError.
Proof.
  intros G Cv E H W I N. apply In_nth_error in I as (j & Xj).
  assert (Lj : (j < List.length want)%nat) by (apply nth_error_Some; congruence).
  destruct (grid_point _ _ _ _ W Lj (gf_sizes _ G) (gf_names _ G)) as (c & On & Hc). specialize (Hc x Xj).
  assert (Gc : cell_in_grid (axes_dims (gi_axes inp)) c).
  { unfold cell_in_grid, axes_dims. clear - On. induction On as [|n a c axes P Q IH]; constructor; auto. }
  assert (Pos : positive_sizes (axes_dims (gi_axes inp))).
  { intros d n I. apply in_map_iff in I as ([k' l] & Q & I). injection Q as <- <-. cbn [snd]. pose proof (gf_sizes _ G k' l I). destruct l; [congruence|cbn; lia]. }
  assert (Nm : NoDup (keys (axes_dims (gi_axes inp)))) by (unfold keys, axes_dims; rewrite map_map; apply G).
  destruct (slice_of_cell chunks _ ss Cv Pos Nm E c Gc) as (w & Hw & In_s & _).
  destruct (globalize_onto _ _ In_s) as (l & Hl & Eg). set (ds := nth w ss []) in *. fold (axes_ranges (gi_axes inp) ds) in Hl, Eg.
  exists ds. split; [now apply nth_In|].
  rewrite <- Eg in Hc. apply (slice_coords _ _ _ _ _ Hl) in Hc. destruct Hc as (i & want' & m & A & B & C).
  assert (W' : dict_get (slice_axes (gi_axes inp) ds) k = Some want').
  { apply dict_get_NoDup; [rewrite slice_keys; apply G|]. eapply nth_error_In. exact A. }
  apply nth_error_In in C. unfold slice_worker, worker_with. destruct H as [H|H].
  - rewrite (sel_missing (gi_forcing inp) _ k have want' x); auto. apply slice_readable, G.
  - destruct (sel (gi_forcing inp) _) as [met|e] eqn:F; cbn [bind].
    + rewrite (sel_missing (gi_state inp) _ k have want' x); auto. apply slice_readable, G.
    + f_equal. apply (sel_error _ _ _ (slice_readable _ _ _ (gf_forcing _ G)) F).
Qed.

(** ** forcing passed in memory *)
Lemma whole_axes dom : slice_axes dom [] = dom.
Proof.
  induction dom as [|[k l] dom IH]; [reflexivity|]. rewrite slice_axes_cons, IH. cbn [fst snd dict_get]. f_equal. f_equal.
  clear. induction l as [|x l IH]; [reflexivity|]. cbn [List.length seq map]. f_equal. rewrite <- seq_shift, map_map. cbn [nth]. exact IH.
Qed.

Lemma whole_ranges dom : map (@List.length nat) (axes_ranges dom []) = map (fun a => List.length (snd a)) dom.
Proof. unfold axes_ranges, isel_ranges, axes_dims. rewrite !map_map. apply map_ext. intros a. cbn. apply seq_length. Qed.

Lemma isel_axis_at dom l a n : NoDup (keys dom) -> on_grid dom l -> isel_axis (locs_of dom l) a = Ok n ->
  (forall want, dict_get dom (fst a) = Some want -> want = snd a) -> exists x, nth_error (snd a) n = Some x /\ has_coord dom l (fst a) x.
Proof.
  intros ND On H Same. unfold isel_axis in H. destruct (dict_get (locs_of dom l) (fst a)) as [i|] eqn:L; [|discriminate].
  destruct (Nat.ltb_spec i (List.length (snd a))) as [Hi|]; [|discriminate]. injection H as <-.
  destruct (nth_error (snd a) i) as [x|] eqn:X; [|apply nth_error_None in X; lia]. exists x. split; [reflexivity|].
  apply dict_get_In in L. unfold locs_of in L. apply In_nth_error in L as (j & L).
  assert (Cb : nth_error (keys dom) j = Some (fst a) /\ nth_error l j = Some i).
  { clear - L. revert l j L. generalize (keys dom). induction l as [|y ks IH]; intros [|m l] [|j] L; try discriminate; cbn in *; [injection L as -> ->; auto|now apply IH]. }
  destruct Cb as (K & Lj). unfold keys in K. rewrite nth_error_map in K. destruct (nth_error dom j) as [[k want]|] eqn:D; [|discriminate].
  cbn in K. injection K as ->. pose proof (Same want (dict_get_NoDup _ _ _ ND (nth_error_In _ _ D))) as ->. exists j, (snd a), i. auto.
Qed.

Theorem memory_same {V} (ds : nc V) dom l v : readable (nc_axes ds) dom -> NoDup (keys dom) ->
  (forall k have, In (k, have) (nc_axes ds) -> dict_get dom k = Some have) -> on_grid dom l ->
  memory_cell ds dom [] l = Ok v -> holds_at ds dom l v.
Proof.
  intros Rd ND Same On H. unfold memory_cell in H. rewrite whole_axes in H. apply bind_inv in H as (sub & O & H).
  unfold overwrite in O. apply bind_inv in O as (axes' & O & S). apply ok_inj in S. subst sub.
  assert (Ax : axes' = nc_axes ds).
  { apply mapM_inv in O. clear H. revert Same O. generalize (nc_axes ds). intros axes Same O. induction O as [|a b axes axes' P Q IH]; [reflexivity|]. f_equal.
    - destruct a as [k have]. unfold overwrite_axis in P. cbn [fst snd] in P. destruct (str_in _ _); [|apply ok_inj in P; now subst].
      rewrite (Same k have (or_introl eq_refl)), Nat.eqb_refl in P. apply ok_inj in P. now subst.
    - apply IH. intros k have I. apply Same. now right. }
  subst axes'. unfold isel_met in H. apply bind_inv in H as (p & P & H). cbn [nc_axes nc_at] in *. apply ok_inj in H. subst v. apply place_holds; auto.
  apply place_of_points. apply mapM_inv in P. clear O.
  assert (X : forall a n, In a (nc_axes ds) -> isel_axis (locs_of dom l) a = Ok n -> exists x, nth_error (snd a) n = Some x /\ has_coord dom l (fst a) x).
  { intros a n I Q. apply (isel_axis_at dom l a n ND On Q). intros want W. destruct a as [k have]. specialize (Same k have I). cbn [fst snd] in *. congruence. }
  revert X P. generalize (nc_axes ds). intros axes X P. induction P as [|a n axes p P Q IH]; constructor; [apply X; [now left|exact P]|].
  apply IH. intros b m I. apply X. now right.
Qed.

Theorem memory_total {V} (ds : nc V) dom l : readable (nc_axes ds) dom -> NoDup (keys dom) ->
  (forall k have, In (k, have) (nc_axes ds) -> dict_get dom k = Some have) -> on_grid dom l -> exists v, memory_cell ds dom [] l = Ok v.
Proof.
  intros Rd ND Same On. unfold memory_cell. rewrite whole_axes. unfold overwrite.
  assert (Ax : mapM (overwrite_axis dom) (nc_axes ds) = Ok (nc_axes ds)).
  { revert Same. generalize (nc_axes ds). intros axes Same. induction axes as [|[k have] axes IH]; [reflexivity|]. cbn [mapM].
    unfold overwrite_axis at 1. cbn [fst snd]. rewrite (Same k have (or_introl eq_refl)), Nat.eqb_refl. rewrite IH by (intros k' h' I; apply Same; now right).
    destruct (str_in k ["lat"; "lon"]); reflexivity. }
  rewrite Ax. cbn [bind]. unfold isel_met. cbn [nc_axes nc_at].
  destruct (mapM_each (isel_axis (locs_of dom l)) (nc_axes ds)) as (p & ->); [|cbn [bind]; eauto].
  intros [k have] I. specialize (Same k have I). unfold isel_axis. cbn [fst snd].
  destruct (locs_get dom l k have On Same) as (j & i & -> & Hi & _). apply Nat.ltb_lt in Hi. rewrite Hi. eauto.
Qed.

Theorem memory_labels {V} (ds : nc V) dom l : readable (nc_axes ds) dom -> NoDup (keys dom) ->
  (forall k have, In (k, have) (nc_axes ds) -> dict_get dom k = Some have) -> on_grid dom l ->
  exists v, memory_cell ds dom [] l = Ok v /\ holds_at ds dom l v.
Proof. intros A B C D. destruct (memory_total ds dom l A B C D) as (v & E). exists v. split; [exact E|]. now apply memory_same. Qed.

Theorem memory_chunked {V} (ds : nc V) dom sl l k have want : In (k, have) (nc_axes ds) -> In k ["lat"; "lon"] ->
  dict_get (slice_axes dom sl) k = Some want -> List.length want <> List.length have -> memory_cell ds dom sl l = Err ValueError.
Proof.
  intros I K W L. unfold memory_cell, overwrite. rewrite (mapM_Err_kind (overwrite_axis (slice_axes dom sl)) (nc_axes ds) (k, have) ValueError); [reflexivity|exact I| |].
  - unfold overwrite_axis. cbn [fst snd]. rewrite (proj2 (str_in_iff _ _) K), W. destruct (Nat.eqb_spec (List.length want) (List.length have)); [contradiction|reflexivity].
  - intros a e _ E. clear W. unfold overwrite_axis in E. destruct (str_in (fst a) _); [|discriminate].
    destruct (dict_get (slice_axes dom sl) (fst a)) as [w|]; [|discriminate].
    destruct (Nat.eqb_spec (List.length w) (List.length (snd a))); [discriminate|]. now injection E.
Qed.
