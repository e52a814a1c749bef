(** Dimensions without coordinates: C112. *)
From Coq Require Import ZArith Reals String List Bool Arith Lia Lra.
From Verif Require Import Model.Py Model.Reader Model.Output Model.Align Model.Unlabelled
  Spec.GridSpec Spec.AlignSpec Spec.PlainSpec Proofs.Base Proofs.SliceProofs Proofs.HeaderProofs Proofs.ConfigProofs Proofs.SettingsProofs Proofs.AlignProofs.
Import ListNotations.
Local Open Scope string_scope.
Local Open Scope list_scope.

Lemma take_reals ps l : reals (take_labels ps l) = map (fun i => nth i (reals l) 0%R) ps.
Proof.
  destruct l as [zs|xs]; cbn [take_labels reals]; [|reflexivity]. rewrite map_map. apply map_ext. intros i.
  change 0%R with (IZR 0). now rewrite map_nth.
Qed.

Lemma slice_reals D sl : label_reals (slice_labels D sl) = slice_axes (label_reals D) sl.
Proof.
  induction D as [|[k d] D IH]; [reflexivity|].
  set (r := match dict_get sl k with Some s => slice_range s (List.length (reals d)) | None => seq 0 (List.length (reals d)) end).
  change (slice_labels ((k, d) :: D) sl) with ((k, take_labels r d) :: slice_labels D sl).
  change (label_reals ((k, take_labels r d) :: slice_labels D sl)) with ((k, reals (take_labels r d)) :: label_reals (slice_labels D sl)).
  now rewrite IH, take_reals.
Qed.

Lemma reals_keys D : keys (label_reals D) = keys D.
Proof. unfold keys, label_reals. now rewrite map_map. Qed.

Lemma numbered_keys dom : keys (number_axes dom) = keys dom.
Proof. unfold keys, number_axes. now rewrite map_map. Qed.

Lemma slice_get D sl : forall l k want, In l (indices (map (@List.length nat) (axes_ranges (label_reals D) sl))) ->
  dict_get (slice_labels D sl) k = Some want ->
  exists i d n m r, nth_error D i = Some (k, d) /\ dict_get (combine (keys D) l) k = Some n /\
    nth_error (globalize (axes_ranges (label_reals D) sl) l) i = Some m /\ (n < List.length r)%nat /\ m = nth n r 0%nat /\
    (m < List.length (reals d))%nat /\ want = take_labels r d.
Proof.
  induction D as [|[k' d] D IH]; intros l k want I H; [discriminate|]. apply indices_in in I.
  change (axes_ranges (label_reals ((k', d) :: D)) sl) with
    ((match dict_get sl k' with Some s => slice_range s (List.length (reals d)) | None => seq 0 (List.length (reals d)) end) :: axes_ranges (label_reals D) sl) in *.
  set (r := match dict_get sl k' with Some s => slice_range s (List.length (reals d)) | None => seq 0 (List.length (reals d)) end) in *.
  inversion I as [|n b l' bs Hn Hl]; subst.
  change (slice_labels ((k', d) :: D) sl) with ((k', take_labels r d) :: slice_labels D sl) in H. cbn [dict_get] in H.
  destruct (String.eqb_spec k k') as [->|Ne].
  - injection H as <-. exists 0%nat, d, n, (nth n r 0%nat), r. unfold keys. cbn [map fst combine dict_get]. rewrite String.eqb_refl.
    do 3 (split; [reflexivity|]). split; [exact Hn|]. split; [reflexivity|]. split; [|reflexivity].
    eapply (range_bound sl k'). apply nth_In. exact Hn.
  - destruct (IH l' k want) as (i & d' & n' & m & r' & A & B & C & E & F & G & W); [now apply indices_in|exact H|].
    exists (S i), d', n', m, r'. unfold keys in *. cbn [map fst combine dict_get nth_error]. rewrite (proj2 (String.eqb_neq _ _) Ne). auto 10.
Qed.

Lemma slice_get_key D sl k : In k (keys D) -> exists want, dict_get (slice_labels D sl) k = Some want.
Proof.
  intros I. apply dict_get_Some_key. rewrite <- reals_keys, slice_reals, slice_keys, reals_keys. exact I.
Qed.

Lemma nth_numbered dom i k d : nth_error (number_axes dom) i = Some (k, d) -> exists a, nth_error dom i = Some (k, a) /\ d = number_axis a.
Proof.
  unfold number_axes. rewrite nth_error_map. destruct (nth_error dom i) as [[k' a]|]; [|discriminate]. cbn. intros [= <- <-]. eauto.
Qed.

Lemma label_at_reals l n x : nth_error (reals l) n = Some x <-> label_at l n x.
Proof.
  destruct l as [zs|xs]; cbn; [|reflexivity]. rewrite nth_error_map. destruct (nth_error zs n) as [z|]; cbn.
  - split; [intros [= <-]; eauto|intros (? & [= ->] & ->); reflexivity].
  - split; [discriminate|intros (? & [=] & _)].
Qed.

Lemma as_position_spec n z j : as_position n z = Ok j ->
  (j < n)%nat /\ (Z.of_nat j = z \/ (z < 0 /\ Z.of_nat j = Z.of_nat n + z)%Z).
Proof.
  unfold as_position. destruct ((0 <=? z) && (z <? Z.of_nat n))%Z eqn:A.
  - intros H. apply ok_inj in H. subst. apply andb_true_iff in A as [A B]. apply Z.leb_le in A. apply Z.ltb_lt in B. lia.
  - destruct ((- Z.of_nat n <=? z) && (z <? 0))%Z eqn:B; [|discriminate]. intros H. apply ok_inj in H. subst.
    apply andb_true_iff in B as [B C]. apply Z.leb_le in B. apply Z.ltb_lt in C. lia.
Qed.

(** one axis: the position taken for the domain position [m] *)
Lemma axis_taken dom_axis r (a : axis) ps n :
  (match ax_labels a with
   | Some have => positions (reals have) (reals (take_labels r (number_axis dom_axis)))
   | None => as_positions (ax_size a) (take_labels r (number_axis dom_axis)) end) = Ok ps ->
  whole_axis a -> (n < List.length r)%nat -> (nth n r 0 < List.length (reals (number_axis dom_axis)))%nat ->
  (nth n ps 0 < ax_size a)%nat /\ taken dom_axis (nth n r 0%nat) a (nth n ps 0%nat).
Proof.
  intros H Wa Ln Lm. set (m := nth n r 0%nat) in *. set (w := number_axis dom_axis) in *.
  assert (Len : List.length (reals (take_labels r w)) = List.length r) by (rewrite take_reals; apply map_length).
  assert (Lab : nth_error (reals (take_labels r w)) n = nth_error (reals w) m).
  { rewrite take_reals, nth_error_map, (nth_error_nth' r 0%nat Ln). cbn. symmetry. now apply nth_error_nth'. }
  destruct (nth_error (reals w) m) as [x|] eqn:X; [|apply nth_error_None in X; lia].
  destruct (ax_labels a) as [have|] eqn:Ha.
  - apply positions_sound in H. assert (Lp : (n < List.length ps)%nat) by (rewrite <- (Forall2_len _ _ _ H); lia).
    pose proof (forall2_at _ _ _ _ _ _ H Lab (nth_error_nth' ps 0%nat Lp)) as P. split.
    + assert (Q : (nth n ps 0 < List.length (reals have))%nat) by (apply nth_error_Some; congruence).
      unfold whole_axis in Wa. rewrite Ha in Wa. destruct have as [zs|xs]; cbn [reals] in Q; rewrite ?map_length in Q; lia.
    + unfold taken. rewrite Ha. unfold w, number_axis in X. destruct (ax_labels dom_axis) as [want|].
      * destruct want as [zs|xs]; exists x; split; now apply label_at_reals.
      * cbn [reals] in X. rewrite map_map, nth_error_map in X. apply label_at_reals.
        assert (Hm : (m < ax_size dom_axis)%nat).
        { destruct (Nat.lt_ge_cases m (ax_size dom_axis)) as [|G]; [assumption|]. exfalso.
          rewrite (proj2 (nth_error_None (seq 0 (ax_size dom_axis)) m)) in X; [discriminate|now rewrite seq_length]. }
        rewrite (nth_error_nth' (seq 0 (ax_size dom_axis)) 0%nat), seq_nth in X by (rewrite ?seq_length; lia).
        cbn in X. injection X as <-. rewrite <- INR_IZR_INZ in P. exact P.
  - unfold taken. rewrite Ha. unfold as_positions in H. unfold w, number_axis in *. destruct (ax_labels dom_axis) as [[zs|xs]|].
    + cbn [take_labels] in H. apply mapM_inv in H. cbn [reals] in X. rewrite nth_error_map in X. destruct (nth_error zs m) as [z|] eqn:Z; [|discriminate].
      assert (Y : nth_error (map (fun i => nth i zs 0%Z) r) n = Some z).
      { rewrite nth_error_map, (nth_error_nth' r 0%nat Ln). cbn. f_equal. now apply nth_error_nth. }
      assert (Lp : (n < List.length ps)%nat) by (rewrite <- (Forall2_len _ _ _ H), map_length; exact Ln).
      pose proof (forall2_at _ _ _ _ _ _ H Y (nth_error_nth' ps 0%nat Lp)) as P. apply as_position_spec in P as [P1 P2]. split; [exact P1|]. eauto.
    + discriminate.
    + cbn [take_labels] in H. apply mapM_inv in H. cbn [reals] in Lm. rewrite !map_length, seq_length in Lm.
      assert (Y : nth_error (map (fun i => nth i (map Z.of_nat (seq 0 (ax_size dom_axis))) 0%Z) r) n = Some (Z.of_nat m)).
      { rewrite nth_error_map, (nth_error_nth' r 0%nat Ln). cbn. f_equal. change 0%Z with (Z.of_nat 0). rewrite map_nth, seq_nth; [reflexivity|exact Lm]. }
      assert (Lp : (n < List.length ps)%nat) by (rewrite <- (Forall2_len _ _ _ H), map_length; exact Ln).
      pose proof (forall2_at _ _ _ _ _ _ H Y (nth_error_nth' ps 0%nat Lp)) as P. apply as_position_spec in P as [P1 P2]. split; [exact P1|]. lia.
Qed.

Lemma take_len r d : List.length (reals (take_labels r d)) = List.length r.
Proof. rewrite take_reals. apply map_length. Qed.

Lemma plain_points dom sl l axes pa : In l (indices (map (@List.length nat) (axes_ranges (label_reals (number_axes dom)) sl))) ->
  incl (keys axes) (keys dom) -> (forall k a, In (k, a) axes -> whole_axis a) ->
  mapM (sel_any (slice_labels (number_axes dom) sl)) axes = Ok pa ->
  exists q, mapM (isel_axis (locs_of (label_reals (number_axes dom)) l)) (map snd pa) = Ok q /\
    Forall2 (fun n ka => (n < ax_size (snd ka))%nat /\
       exists d m, stands_at dom (globalize (axes_ranges (label_reals (number_axes dom)) sl) l) (fst ka) d m /\ taken d m (snd ka) n)
      (globalize (map fst pa) q) axes.
Proof.
  intros Il. intros I W M. apply mapM_inv in M. induction M as [|[k a] [ps b] axes pa P M IH]; [exists []; split; constructor|].
  destruct IH as (q & Q & F); [intros y Y; apply I; now right|intros k' a' J; apply (W k'); now right|].
  destruct (slice_get_key (number_axes dom) sl k) as [want Wk]; [rewrite numbered_keys; apply I; now left|].
  unfold sel_any in P. cbn [fst snd] in P. rewrite Wk in P. apply bind_inv in P as (ps' & P1 & P2). apply ok_inj in P2. injection P2 as <- <-.
  destruct (slice_get _ _ _ _ _ Il Wk) as (i & d & n & m & r & A & B & C & E & G & J & K).
  apply nth_numbered in A as (da & A & Ed). subst d want.
  exists (n :: q). cbn [map snd mapM]. unfold isel_axis at 1. cbn [fst snd]. unfold locs_of at 1. rewrite reals_keys, B, take_len, (proj2 (Nat.ltb_lt _ _) E). cbn [bind].
  rewrite Q. cbn [bind]. split; [reflexivity|]. unfold globalize at 1. cbn [map combine fst snd]. constructor; [|exact F]. cbn [fst snd].
  subst m. destruct (axis_taken da r a ps' n P1 (W k a (or_introl eq_refl)) E J) as [X Y]. split; [exact X|]. exists da, (nth n r 0%nat). split; [|exact Y].
  exists i. auto.
Qed.

(** what is read is at the position the table of [taken] gives *)
Lemma plain_taken {V} (ds : plain V) dom sl l v :
  In l (indices (map (@List.length nat) (axes_ranges (label_reals (number_axes dom)) sl))) ->
  incl (keys (pl_axes ds)) (keys dom) -> (forall k a, In (k, a) (pl_axes ds) -> whole_axis a) ->
  plain_cell ds dom sl l = Ok v ->
  exists p, v = pl_at ds p /\
    Forall2 (fun n ka => (n < ax_size (snd ka))%nat /\
       exists d m, stands_at dom (globalize (axes_ranges (label_reals (number_axes dom)) sl) l) (fst ka) d m /\ taken d m (snd ka) n) p (pl_axes ds).
Proof.
  intros Il I W H. unfold plain_cell in H. apply bind_inv in H as (sub & S & H). unfold sel_plain in S. apply bind_inv in S as (pa & M & S). apply ok_inj in S. subst sub.
  destruct (plain_points dom sl l _ _ Il I W M) as (q & Q & F). unfold isel_met in H. cbn [nc_axes nc_at] in H. rewrite Q in H. cbn [bind] in H. apply ok_inj in H. subst v.
  eauto.
Qed.

(** ** nothing has labels *)
Lemma as_positions_total n r size : (forall i, In i r -> (i < size)%nat) -> (size <= n)%nat ->
  exists ps, as_positions n (take_labels r (Ints (map Z.of_nat (seq 0 size)))) = Ok ps.
Proof.
  intros B L. cbn [take_labels as_positions]. induction r as [|i r IH]; [exists []; reflexivity|]. cbn [map mapM].
  destruct IH as (ps & E); [intros j J; apply B; now right|].
  assert (Li : (i < size)%nat) by (apply B; now left).
  replace (nth i (map Z.of_nat (seq 0 size)) 0%Z) with (Z.of_nat i).
  2:{ change 0%Z with (Z.of_nat 0). now rewrite map_nth, seq_nth. }
  assert (T : ((0 <=? Z.of_nat i) && (Z.of_nat i <? Z.of_nat n))%Z = true).
  { apply andb_true_iff. split; [apply Z.leb_le; lia|apply Z.ltb_lt; lia]. }
  unfold as_position at 1. rewrite T. cbn [bind]. rewrite E. cbn [bind]. eauto.
Qed.

Lemma slice_get_bound D sl k want : dict_get (slice_labels D sl) k = Some want ->
  exists d r, In (k, d) D /\ want = take_labels r d /\ forall i, In i r -> (i < List.length (reals d))%nat.
Proof.
  induction D as [|[k' d] D IH]; intros H; [discriminate|].
  set (r := match dict_get sl k' with Some s => slice_range s (List.length (reals d)) | None => seq 0 (List.length (reals d)) end).
  change (slice_labels ((k', d) :: D) sl) with ((k', take_labels r d) :: slice_labels D sl) in H. cbn [dict_get] in H.
  destruct (String.eqb_spec k k') as [->|Ne].
  - injection H as <-. exists d, r. split; [now left|]. split; [reflexivity|]. intros i J. eapply (range_bound sl k'). exact J.
  - destruct (IH H) as (d' & r' & A & B & C). exists d', r'. split; [now right|]. auto.
Qed.

Lemma bare_axis a : ax_labels a = None -> number_axis a = Ints (map Z.of_nat (seq 0 (ax_size a))).
Proof. unfold number_axis. now intros ->. Qed.

Lemma bare_sel dom sl axes : bare dom -> bare axes -> NoDup (keys dom) ->
  (forall k a, In (k, a) axes -> exists d, In (k, d) dom /\ (ax_size d <= ax_size a)%nat) ->
  exists pa, mapM (sel_any (slice_labels (number_axes dom) sl)) axes = Ok pa.
Proof.
  intros Bd Ba ND Sz. induction axes as [|[k a] axes IH]; [exists []; reflexivity|].
  destruct IH as (pa & E); [intros k' a' J; apply (Ba k'); now right|intros k' a' J; apply Sz; now right|].
  cbn [mapM]. unfold sel_any at 1. cbn [fst snd].
  destruct (Sz k a (or_introl eq_refl)) as (d & Id & Ls).
  destruct (slice_get_key (number_axes dom) sl k) as [want Wk]; [rewrite numbered_keys; change k with (fst (k, d)); now apply in_map|].
  rewrite Wk. destruct (slice_get_bound _ _ _ _ Wk) as (d' & r & A & -> & B).
  unfold number_axes in A. apply in_map_iff in A as ([k' d''] & [= -> <-] & A). cbn [fst snd] in *.
  assert (Same : d'' = d).
  { pose proof (proj2 (dict_get_In_iff dom k d ND) Id) as X. pose proof (proj2 (dict_get_In_iff dom k d'' ND) A) as Y. congruence. }
  subst d''. rewrite (Ba k a (or_introl eq_refl)). rewrite (bare_axis d (Bd k d Id)) in *.
  destruct (as_positions_total (ax_size a) r (ax_size d)) as (ps & Ep); [|exact Ls|].
  { intros i J. specialize (B i J). cbn [reals] in B. now rewrite !map_length, seq_length in B. }
  rewrite Ep. cbn [bind]. rewrite E. cbn [bind]. eauto.
Qed.

Lemma stands_axis dom c k a n : stands_at dom c k a n -> In (k, a) dom.
Proof. intros (i & A & _). eapply nth_error_In. exact A. Qed.

Lemma by_position {V} (ds : plain V) dom sl l :
  bare dom -> bare (pl_axes ds) -> NoDup (keys dom) ->
  (forall k a, In (k, a) (pl_axes ds) -> exists d, In (k, d) dom /\ (ax_size d <= ax_size a)%nat) ->
  In l (indices (map (@List.length nat) (axes_ranges (label_reals (number_axes dom)) sl))) ->
  exists p, plain_cell ds dom sl l = Ok (pl_at ds p) /\
    Forall2 (fun n ka => exists d, stands_at dom (globalize (axes_ranges (label_reals (number_axes dom)) sl) l) (fst ka) d n) p (pl_axes ds).
Proof.
  intros Bd Ba ND Sz Il. destruct (bare_sel dom sl _ Bd Ba ND Sz) as (pa & M).
  assert (I : incl (keys (pl_axes ds)) (keys dom)).
  { intros k J. unfold keys in J. apply in_map_iff in J as ([k' a] & <- & J). destruct (Sz _ _ J) as (d & Id & _).
    change (fst (k', a)) with (fst (k', d)). now apply in_map. }
  assert (W : forall k a, In (k, a) (pl_axes ds) -> whole_axis a) by (intros k a J; unfold whole_axis; now rewrite (Ba k a J)).
  destruct (plain_points dom sl l _ _ Il I W M) as (q & Q & F). exists (globalize (map fst pa) q). split.
  - unfold plain_cell, sel_plain. rewrite M. cbn [bind]. unfold isel_met. cbn [nc_axes nc_at]. rewrite Q. reflexivity.
  - clear - F Bd Ba. revert Ba. induction F as [|n [k a] p axes (_ & d & m & X & Y) F IH]; intros Ba; constructor.
    + cbn [fst snd] in *. exists d. unfold taken in Y. rewrite (Bd k d (stands_axis _ _ _ _ _ X)), (Ba k a (or_introl eq_refl)) in Y. now subst.
    + apply IH. intros k' a' J. apply (Ba k'). now right.
Qed.

(** ** one side has labels *)
Lemma degrees_read : map (plain_cell bare_file degree_axes []) (indices [3; 2]%nat) = map Ok [20; 21; 0; 1; 10; 11]%nat.
Proof. reflexivity. Qed.

Lemma bare_read : map (plain_cell bare_file bare_axes []) (indices [3; 2]%nat) = map Ok [0; 1; 10; 11; 20; 21]%nat.
Proof. reflexivity. Qed.

Ltac decide_reals := repeat match goal with |- context [Req_EM_T ?a ?b] => destruct (Req_EM_T a b); try (exfalso; lra) end; cbn [bind].

Lemma falling_read : plain_cell falling_file bare_axes [] [0; 0]%nat = Ok 20%nat.
Proof.
  assert (E : positions [2; 1; 0]%R [0; 1; 2]%R = Ok [2; 1; 0]%nat).
  { unfold positions. assert (D : distinct [2; 1; 0]%R = true).
    { cbn [distinct existsb]. decide_reals. reflexivity. }
    rewrite D. cbn [mapM find_coord]. decide_reals.
    reflexivity. }
  unfold plain_cell, sel_plain, falling_file. cbn [pl_axes mapM]. unfold sel_any at 1. cbn [fst snd ax_labels].
  change (dict_get (slice_labels (number_axes bare_axes) []) "lat") with (Some (Ints [0; 1; 2]%Z)). cbn [reals map]. rewrite E. reflexivity.
Qed.

(** real labels are no positions *)
Lemma slice_get_has D sl k d : NoDup (keys D) -> In (k, d) D -> exists r, dict_get (slice_labels D sl) k = Some (take_labels r d).
Proof.
  intros ND I. destruct (slice_get_key D sl k) as [w W]; [change k with (fst (k, d)); now apply in_map|].
  destruct (slice_get_bound _ _ _ _ W) as (d' & r & A & -> & _).
  pose proof (proj2 (dict_get_In_iff D k d ND) I) as X. pose proof (proj2 (dict_get_In_iff D k d' ND) A) as Y. exists r. congruence.
Qed.

Lemma real_labels {V} (ds : plain V) dom sl l k a d xs : NoDup (keys dom) ->
  In (k, a) (pl_axes ds) -> ax_labels a = None -> In (k, d) dom -> ax_labels d = Some (Reals xs) ->
  exists e, plain_cell ds dom sl l = Err e.
Proof.
  intros ND Ia Na Id Ld. destruct (plain_cell ds dom sl l) as [v|e] eqn:H; [|eauto]. exfalso.
  unfold plain_cell in H. apply bind_inv in H as (sub & S & _). unfold sel_plain in S. apply bind_inv in S as (pa & M & _).
  apply mapM_inv in M. clear - M ND Ia Na Id Ld. induction M as [|b y axes pa P M IH]; [easy|]. destruct Ia as [->|Ia]; [|auto].
  unfold sel_any in P. cbn [fst snd] in P.
  destruct (slice_get_has (number_axes dom) sl k (Reals xs)) as (r & W); [now rewrite numbered_keys| |].
  { unfold number_axes. apply in_map_iff. exists (k, d). split; [|exact Id]. cbn. unfold number_axis. now rewrite Ld. }
  rewrite W, Na in P. discriminate.
Qed.

(** a row of whole degrees is read from another place *)
Lemma degrees_elsewhere : exists (ds : plain nat) dom l v n m d a,
  bare (pl_axes ds) /\ map (fun x => (fst x, ax_size (snd x))) (pl_axes ds) = map (fun x => (fst x, ax_size (snd x))) dom /\
  (forall k b, In (k, b) dom -> whole_axis b) /\
  (forall c, In c (indices (map (fun x => ax_size (snd x)) dom)) -> exists w, plain_cell ds dom [] c = Ok w) /\
  plain_cell ds dom [] l = Ok v /\ stands_at dom l "lat" d m /\ (exists p, v = pl_at ds p /\ stands_at (pl_axes ds) p "lat" a n) /\ n <> m /\
  forall p, v = pl_at ds p -> List.length p = 2%nat -> (nth 1 p 0 < 2)%nat -> nth 0 p 0%nat <> m.
Proof.
  exists bare_file, degree_axes, [0; 1]%nat, 21%nat, 2%nat, 0%nat, (mk_axis 3 (Some (Ints [-1; 0; 1]%Z))), (mk_axis 3 None).
  split; [intros k a [[= <- <-]|[[= <- <-]|[]]]; reflexivity|]. split; [reflexivity|].
  split; [intros k a [[= <- <-]|[[= <- <-]|[]]]; [reflexivity|exact I]|].
  split.
  { intros c H. change (map (fun x => ax_size (snd x)) degree_axes) with [3; 2]%nat in H. apply (in_map (plain_cell bare_file degree_axes [])) in H.
    rewrite degrees_read in H. apply in_map_iff in H as (w & <- & _). eauto. }
  split; [reflexivity|]. split; [exists 0%nat; split; reflexivity|]. split; [exists [2; 1]%nat; split; [reflexivity|exists 0%nat; split; reflexivity]|].
  split; [discriminate|]. intros [|i [|j [|? ?]]] H L B; try discriminate L. cbn in *. lia.
Qed.

Lemma falling_elsewhere : exists (ds : plain nat) dom l v,
  bare dom /\ map (fun x => (fst x, ax_size (snd x))) (pl_axes ds) = map (fun x => (fst x, ax_size (snd x))) dom /\
  (forall k b, In (k, b) (pl_axes ds) -> whole_axis b) /\
  plain_cell ds dom [] l = Ok v /\ v <> pl_at ds l.
Proof.
  exists falling_file, bare_axes, [0; 0]%nat, 20%nat.
  split; [intros k a [[= <- <-]|[[= <- <-]|[]]]; reflexivity|]. split; [reflexivity|].
  split; [intros k a [[= <- <-]|[[= <- <-]|[]]]; [reflexivity|exact I]|]. split; [exact falling_read|discriminate].
Qed.
