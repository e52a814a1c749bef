From Coq Require Import ZArith String List Bool Arith Lia Permutation.
From Verif Require Import Model.Py Model.Fl Model.Calendar Model.Output Spec.GridSpec Proofs.Base.
Import ListNotations.
Local Open Scope list_scope.

(** ** one dimension *)
Lemma zrange_length a s n : List.length (zrange a s n) = Z.to_nat n.
Proof. unfold zrange. now rewrite map_length, seq_length. Qed.

Definition n_chunks (c n : Z) : nat := Z.to_nat (- ((0 - n) / c)).

Lemma n_chunks_spec c n : (0 < c)%Z -> (0 < n)%Z ->
  (0 < Z.of_nat (n_chunks c n))%Z /\
  ((Z.of_nat (n_chunks c n) - 1) * c < n)%Z /\ (n <= Z.of_nat (n_chunks c n) * c)%Z.
Proof.
  intros Hc Hn. unfold n_chunks.
  pose proof (Z.div_mod (0 - n) c ltac:(lia)).
  pose proof (Z.mod_pos_bound (0 - n) c Hc).
  assert ((0 - n) / c < 0)%Z by (apply Z.div_lt_upper_bound; lia).
  rewrite Z2Nat.id by lia. repeat split; nia.
Qed.

Lemma right_count c n : (0 < c)%Z ->
  Z.to_nat (- ((c - (n + c)) / c)) = n_chunks c n.
Proof. intros. unfold n_chunks. f_equal. f_equal. f_equal. lia. Qed.

(** k-th slice of a dimension *)
Definition kth_slice (c n : Z) (k : nat) : pyslice :=
  mkslice (Some (Z.to_nat (Z.of_nat k * c)))
          (Some (Z.to_nat (if (S k =? n_chunks c n)%nat then n + 1 else (Z.of_nat k + 1) * c))).

Lemma map_seq_last {A} (f : nat -> A) m v :
  removelast (map f (seq 0 (S m))) ++ [v] = map (fun k => if (S k =? S m)%nat then v else f k) (seq 0 (S m)).
Proof.
  rewrite seq_S, !map_app, removelast_app by (simpl; congruence). simpl.
  rewrite app_nil_r. f_equal.
  - apply map_ext_in. intros k Hk. apply in_seq in Hk.
    destruct (Nat.eqb_spec k m); [lia|easy].
  - now rewrite Nat.eqb_refl.
Qed.

Lemma set_last_seq {A} (f : nat -> A) m v :
  set_last (map f (seq 0 (S m))) v
  = Ok (map (fun k => if (S k =? S m)%nat then v else f k) (seq 0 (S m))).
Proof. rewrite <- map_seq_last. reflexivity. Qed.


Lemma dim_slices_eq c n : (0 < c)%Z -> (0 < n)%Z ->
  dim_slices c n = Ok (map (kth_slice c n) (seq 0 (n_chunks c n))).
Proof.
  intros Hc Hn.
  unfold dim_slices, chunk_left, chunk_right, arangeZ.
  replace (c =? 0)%Z with false by lia. cbn [bind].
  destruct (n_chunks_spec c n Hc Hn) as (P & _ & _).
  unfold zrange. rewrite right_count by easy. fold (n_chunks c n).
  destruct (n_chunks c n) as [|m] eqn:E; [lia|].
  rewrite set_last_seq. cbn [bind]. rewrite combine_map, map_map.
  f_equal. apply map_ext. intros k. unfold kth_slice. rewrite E. cbn [fst snd].
  f_equal; f_equal. destruct (S k =? S m)%nat; [easy|]. f_equal. lia.
Qed.

Lemma kth_slice_has c n k i : (0 < c)%Z -> (0 < n)%Z ->
  (k < n_chunks c n)%nat -> (i < Z.to_nat n)%nat ->
  slice_hasb (kth_slice c n k) i = (k =? Z.to_nat (Z.of_nat i / c))%nat.
Proof.
  intros Hc Hn Hk Hi.
  destruct (n_chunks_spec c n Hc Hn) as (P & P1 & P2).
  pose proof (Z.div_mod (Z.of_nat i) c ltac:(lia)) as D.
  pose proof (Z.mod_pos_bound (Z.of_nat i) c Hc) as M.
  set (q := (Z.of_nat i / c)%Z) in *.
  assert (0 <= q)%Z by (apply Z.div_pos; lia).
  unfold slice_hasb, kth_slice. cbn [sl_start sl_stop].
  destruct (Nat.eqb_spec (S k) (n_chunks c n)).
  - apply Bool.eq_iff_eq_true. rewrite andb_true_iff, Nat.leb_le, Nat.ltb_lt, Nat.eqb_eq.
    split; intros.
    + assert (Z.of_nat k * c <= Z.of_nat i)%Z by lia.
      assert (Z.of_nat k <= q)%Z by nia. 
      assert (q < Z.of_nat (n_chunks c n))%Z by nia. lia.
    + subst k. split; [|lia]. rewrite Z2Nat.id by lia. nia.
  - apply Bool.eq_iff_eq_true. rewrite andb_true_iff, Nat.leb_le, Nat.ltb_lt, Nat.eqb_eq.
    split; intros.
    + assert (Z.of_nat k * c <= Z.of_nat i)%Z by lia.
      assert (Z.of_nat i < (Z.of_nat k + 1) * c)%Z by lia.
      assert (Z.of_nat k <= q)%Z by nia. assert (q <= Z.of_nat k)%Z by nia. lia.
    + subst k. rewrite Z2Nat.id by lia. split; nia.
Qed.

Lemma filter_seq_eq m q : (q < m)%nat -> filter (fun k => k =? q)%nat (seq 0 m) = [q].
Proof.
  intro H. replace m with (q + S (m - q - 1))%nat by lia.
  rewrite seq_app, filter_app. simpl.
  rewrite Nat.eqb_refl.
  assert (Z : forall a b, (forall x, In x (seq a b) -> x <> q) ->
              filter (fun k => k =? q)%nat (seq a b) = []).
  { intros a b Hx. induction (seq a b) as [|y l IH]; simpl; [easy|].
    destruct (Nat.eqb_spec y q); [exfalso; apply (Hx y); simpl; auto|].
    apply IH. intros; apply Hx; simpl; auto. }
  rewrite !Z; [easy| |]; intros x Hx; apply in_seq in Hx; lia.
Qed.


Lemma dim_slices_unique c n i : (0 < c)%Z -> (0 < n)%Z -> (i < Z.to_nat n)%nat ->
  exists ss, dim_slices c n = Ok ss /\
    filter (fun s => slice_hasb s i) ss = [kth_slice c n (Z.to_nat (Z.of_nat i / c))].
Proof.
  intros Hc Hn Hi. eexists. split; [now apply dim_slices_eq|].
  rewrite filter_map.
  erewrite filter_ext_in; [|intros k Hk; apply in_seq in Hk; apply kth_slice_has; auto; lia].
  rewrite filter_seq_eq; [easy|].
  destruct (n_chunks_spec c n Hc Hn) as (P & P1 & P2).
  pose proof (Z.div_lt_upper_bound (Z.of_nat i) c (Z.of_nat (n_chunks c n)) Hc ltac:(nia)).
  pose proof (Z.div_pos (Z.of_nat i) c ltac:(lia) Hc). lia.
Qed.

(** ** products *)

Lemma filter_product {A} (ps : list (A -> bool)) (ls : list (list A)) :
  List.length ps = List.length ls ->
  filter (fun p => forallb (fun px => fst px (snd px)) (combine ps p)) (product ls)
  = product (map (fun pl => filter (fst pl) (snd pl)) (combine ps ls)).
Proof.
  revert ps; induction ls as [|l ls IH]; intros [|p ps]; simpl; try discriminate; [easy|].
  intros [= L]. rewrite <- (IH ps L). clear IH.
  induction l as [|x l IHl]; simpl; [easy|].
  rewrite filter_app, IHl. clear IHl. rewrite filter_map. cbn [combine forallb fst snd].
  destruct (p x); simpl.
  - f_equal.
  - now rewrite filter_false.
Qed.

Lemma product_singletons {A} (l : list A) : product (map (fun x => [x]) l) = [l].
Proof. induction l; simpl; [easy|]. rewrite IHl. easy. Qed.

Lemma product_length_elt {A} (ls : list (list A)) p :
  In p (product ls) <-> Forall2 (fun x l => In x l) p ls.
Proof.
  revert p; induction ls as [|l ls IH]; simpl; intro p.
  - split; [intros [<-|[]]; constructor | intros H; inversion H; auto].
  - rewrite in_flat_map. split.
    + intros (x & Hx & Hp). apply in_map_iff in Hp as (q & <- & Hq).
      constructor; auto. now apply IH.
    + intros H. inversion H; subst. exists x. split; auto. apply in_map. now apply IH.
Qed.

(** ** C01 *)
Lemma selectsb_combine coord ks ss :
  List.length ks = List.length ss ->
  selectsb coord (combine ks ss)
  = forallb (fun px => fst px (snd px)) (combine (map (fun k s => slice_hasb s (coord k)) ks) ss).
Proof.
  revert ss; induction ks as [|k ks IH]; intros [|s ss]; simpl; try discriminate; [easy|].
  intros [= L]. unfold selectsb in *. simpl. rewrite IH by easy. easy.
Qed.

Theorem chunk_domain_tiles (chunks : dict Z) (dims : dimlist) :
  covers chunks dims -> positive_sizes dims ->
  exists ss, chunk_domain chunks dims = Ok ss /\
    forall coord, in_grid dims coord -> exists ds, filter (selectsb coord) ss = [ds].
Proof.
  intros (ND & Perm & Pos) PosD.
  assert (Dim : forall d c, In (d, c) chunks -> exists n, dict_get dims d = Some n /\ 0 < n /\ (0 < c)%Z /\ In (d, n) dims).
  { intros d c I. assert (K : In d (keys dims)).
    { eapply Permutation_in; [exact Perm|]. change d with (fst (d, c)). now apply in_map. }
    destruct (dict_get_Some_key _ _ K) as [n Hn]. pose proof (dict_get_In _ _ _ Hn).
    exists n. repeat split; auto. eapply PosD; eauto. eapply Pos; eauto. }
  set (g := fun kc : string * Z => match dict_get dims (fst kc) with
              | Some n => map (kth_slice (snd kc) (Z.of_nat n)) (seq 0 (n_chunks (snd kc) (Z.of_nat n)))
              | None => [] end).
  exists (map (fun p => combine (keys chunks) p) (product (map g chunks))).
  split.
  - unfold chunk_domain. rewrite (mapM_Ok _ g); [easy|].
    intros [d c] I. destruct (Dim d c I) as (n & E & Hn & Hc & _).
    unfold g, dict_getitem. simpl. rewrite E. simpl. apply dim_slices_eq; lia.
  - intros coord Hg. rewrite filter_map.
    assert (Len : List.length (keys chunks) = List.length (map g chunks))
      by (unfold keys; now rewrite !map_length).
    erewrite filter_ext_in.
    2:{ intros p Hp. rewrite selectsb_combine; [reflexivity|].
        apply product_length_elt in Hp. apply Forall2_len in Hp. congruence. }
    rewrite filter_product by (rewrite map_length; auto).
    unfold keys. rewrite map_map, combine_map, map_map. cbn [fst snd].
    rewrite (map_ext_in _ (fun kc => [match dict_get dims (fst kc) with
                 | Some n => kth_slice (snd kc) (Z.of_nat n) (Z.to_nat (Z.of_nat (coord (fst kc)) / snd kc))
                 | None => mkslice None None end])).
    + rewrite <- (map_map _ (fun x => [x])), product_singletons. simpl. eauto.
    + intros [d c] I. destruct (Dim d c I) as (n & E & Hn & Hc & In2).
      cbn [fst snd]. unfold g. cbn [fst snd]. rewrite E.
      destruct (dim_slices_unique c (Z.of_nat n) (coord d)) as (ss & E2 & F); try lia.
      { rewrite Nat2Z.id. now apply Hg. }
      rewrite dim_slices_eq in E2 by lia. inversion E2; subst. exact F.
Qed.

Theorem slices_tile (chunks : dict Z) (dims : dimlist) :
  (chunks = [] \/ covers chunks dims) -> positive_sizes dims ->
  exists ss, slices chunks dims = Ok ss /\
    forall coord, in_grid dims coord -> exists ds, filter (selectsb coord) ss = [ds].
Proof.
  intros H P. destruct chunks as [|kc chunks].
  - simpl. eexists. split; [reflexivity|]. intros coord Hg. simpl.
    replace (selectsb coord (map (fun d : string * nat => (fst d, mkslice None None)) dims)) with true; [eauto|].
    symmetry. unfold selectsb. clear. induction dims; simpl; auto.
  - destruct H; [discriminate|]. unfold slices. now apply chunk_domain_tiles.
Qed.

(** every slice of every chunking selects, after clamping, a non-empty set
    of positions inside the dimension *)
Lemma slice_range_bound s n i : In i (slice_range s n) -> i < n.
Proof.
  unfold slice_range, slice_lo, slice_hi. intros H. apply in_seq in H.
  destruct (sl_start s), (sl_stop s); lia.
Qed.

Lemma slice_range_has s n i : In i (slice_range s n) <-> (i < n /\ slice_hasb s i = true).
Proof.
  unfold slice_range, slice_lo, slice_hi, slice_hasb. rewrite in_seq.
  rewrite andb_true_iff. destruct (sl_start s), (sl_stop s);
  rewrite ?Nat.leb_le, ?Nat.ltb_lt; split; intros; repeat split; try easy; try lia.
Qed.

Theorem chunk_slices_nonempty (chunks : dict Z) (dims : dimlist) ss ds d s n :
  covers chunks dims -> positive_sizes dims -> chunk_domain chunks dims = Ok ss ->
  In ds ss -> In (d, s) ds -> In (d, n) dims ->
  slice_range s n <> [] /\ (forall i, In i (slice_range s n) -> i < n).
Proof.
  intros (ND & Perm & Pos) PosD E I1 I2 I3. split; [|intros; eapply slice_range_bound; eauto].
  unfold chunk_domain in E.
  destruct (mapM _ chunks) as [sls|] eqn:M; [|discriminate]. simpl in E. inversion E; subst; clear E.
  apply mapM_inv in M. apply in_map_iff in I1 as (p & <- & Hp).
  apply product_length_elt in Hp.
  assert (NDd : NoDup (keys dims)) by (eapply Permutation_NoDup; eauto).
  revert I2 Hp M Pos. clear ND Perm. unfold keys. revert p sls.
  induction chunks as [|[k c] chunks IH]; intros p sls I2 Hp M Pos; simpl in *; [easy|].
  inversion M; subst. inversion Hp; subst. simpl in I2. destruct I2 as [E|I2].
  - inversion E; subst. simpl in H1.
    unfold dict_getitem in H1. rewrite (dict_get_NoDup _ _ _ NDd I3) in H1. simpl in H1.
    assert (0 < n) by (eapply PosD; eauto). assert (0 < c)%Z by (eapply (Pos d); auto).
    rewrite dim_slices_eq in H1 by lia. inversion H1; subst.
    match goal with X : In s (map _ _) |- _ => apply in_map_iff in X as (j & <- & Hj) end. apply in_seq in Hj.
    assert (In (Z.to_nat (Z.of_nat j * c)) (slice_range (kth_slice c (Z.of_nat n) j) n)) as HH.
    { apply slice_range_has. destruct (n_chunks_spec c (Z.of_nat n)) as (P & P1 & P2); try lia.
      assert (Z.of_nat j * c < Z.of_nat n)%Z by nia. split; [lia|].
      rewrite kth_slice_has; try lia. rewrite Z2Nat.id by nia. rewrite Z.div_mul by lia.
      rewrite Nat2Z.id. apply Nat.eqb_refl. }
    intro E0. now rewrite E0 in HH.
  - eapply IH; eauto.
Qed.
