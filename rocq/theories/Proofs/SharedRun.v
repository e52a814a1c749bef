(** The files of a run whose groups may share names: C113. *)
From Coq Require Import ZArith Reals String List Bool Arith Lia.
From Verif Require Import Model.Py Model.Fl Model.Np Model.Params Model.Disagg Model.Units Model.Output Model.Cell Model.Machine Model.Run Model.Shared
  Spec.TimeSpec Spec.SeriesSpec Spec.GridSpec Spec.WriterSpec Spec.CellSpec Spec.SharedSpec
  Proofs.Base Proofs.HeaderProofs Proofs.SettingsProofs Proofs.SliceProofs Proofs.EndToEnd Proofs.FileProofs Proofs.SharedProofs.
Import ListNotations.
Local Open Scope string_scope.
Local Open Scope list_scope.

(** ** numbers of names *)
Lemma first_index_spec names x : In x names -> nth_error names (first_index names x) = Some x.
Proof.
  induction names as [|y names IH]; intros I; [easy|]. cbn. destruct (String.eqb_spec y x) as [->|N]; [reflexivity|].
  destruct I as [->|I]; [contradiction|]. now apply IH.
Qed.

Lemma same_number names t t' f : nth_error names t = Some f -> (t' < List.length names)%nat ->
  (name_number names t' = name_number names t <-> nth_error names t' = Some f).
Proof.
  intros H L. unfold name_number. rewrite (nth_error_nth _ _ "" H).
  destruct (nth_error names t') as [f'|] eqn:H'; [|apply nth_error_None in H'; lia]. rewrite (nth_error_nth _ _ "" H'). split.
  - intros E. apply nth_error_In in H, H'. apply first_index_spec in H, H'. rewrite E in H'. congruence.
  - now intros [= ->].
Qed.

(** ** the worker of a cell *)
Definition in_sliceb (dims : dimlist) (ds : dict pyslice) (c : cell) : bool :=
  (List.length c =? List.length (isel_ranges dims ds))%nat &&
  forallb (fun p => existsb (Nat.eqb (fst p)) (snd p)) (combine c (isel_ranges dims ds)).

Lemma in_sliceb_spec dims ds c : in_sliceb dims ds c = true <-> in_slice dims ds c.
Proof.
  unfold in_sliceb, in_slice. generalize (isel_ranges dims ds) as rs. intros rs. rewrite andb_true_iff, Nat.eqb_eq. revert rs.
  induction c as [|i c IH]; intros [|r rs]; cbn.
  - split; auto.
  - split; [intros [H _]; discriminate|intros H; inversion H].
  - split; [intros [H _]; discriminate|intros H; inversion H].
  - rewrite andb_true_iff, existsb_exists. split.
    + intros (L & (j & J & E) & F). apply Nat.eqb_eq in E. subst j. constructor; [exact J|]. apply IH. split; [now injection L|exact F].
    + intros H. inversion H as [|? ? ? ? J F]. subst. destruct (proj2 (IH rs) F) as [L B]. split; [now f_equal|]. split; [|exact B].
      exists i. split; [exact J|apply Nat.eqb_refl].
Qed.

Fixpoint owner_index (dims : dimlist) (ss : list (dict pyslice)) (c : cell) : nat :=
  match ss with [] => 0 | ds :: r => if in_sliceb dims ds c then 0 else S (owner_index dims r c) end.

Lemma owner_first dims ss c w : (w < List.length ss)%nat -> in_slice dims (nth w ss []) c ->
  (owner_index dims ss c < List.length ss)%nat /\ in_slice dims (nth (owner_index dims ss c) ss []) c.
Proof.
  revert w. induction ss as [|ds ss IH]; intros w L I; [cbn in L; lia|]. cbn [owner_index]. destruct (in_sliceb dims ds c) eqn:B.
  - apply in_sliceb_spec in B. cbn. split; [lia|exact B].
  - destruct w as [|w]; cbn in I; [apply in_sliceb_spec in I; congruence|]. destruct (IH w) as [A C]; [cbn in L; lia|exact I|]. cbn. split; [lia|exact C].
Qed.

(** ** the header that is left *)
Lemma get_app {V} (d e : dict V) k : dict_get (d ++ e) k = match dict_get d k with Some v => Some v | None => dict_get e k end.
Proof. induction d as [|[a x] d IH]; [reflexivity|]. cbn. destruct (String.eqb k a); auto. Qed.

Lemma last_entry {V} (e : dict V) k g : dict_get (rev e) k = Some g ->
  exists t, nth_error e t = Some (k, g) /\ forall t' x, (t < t')%nat -> nth_error e t' = Some (k, x) -> False.
Proof.
  induction e as [|[a y] e IH]; intros H; [discriminate|]. cbn [rev] in H. rewrite get_app in H. destruct (dict_get (rev e) k) as [v|] eqn:D.
  - destruct (IH H) as (t & A & B). exists (S t). split; [exact A|]. intros [|t'] x L N; [lia|]. apply (B t' x); [lia|exact N].
  - cbn in H. destruct (String.eqb_spec k a) as [->|]; [|discriminate]. injection H as ->. exists 0%nat. split; [reflexivity|].
    intros [|t'] x L N; [lia|]. cbn in N. apply nth_error_In in N. assert (I : In a (keys (rev e))).
    { unfold keys. rewrite map_rev, <- in_rev. apply in_map_iff. exists (a, x). auto. }
    apply dict_get_Some_key in I as [v Hv]. congruence.
Qed.

Lemma nth_combine {A B} (l : list A) (m : list B) t x y : nth_error (combine l m) t = Some (x, y) <-> nth_error l t = Some x /\ nth_error m t = Some y.
Proof.
  revert m t. induction l as [|a l IH]; intros [|b m] [|t]; cbn; try (split; [discriminate|intros [? ?]; discriminate]).
  - split; [intros [= <- <-]; auto|intros [[= <-] [= <-]]; auto].
  - apply IH.
Qed.

Lemma last_header dir prefix groups names files f g : file_names dir prefix groups = Ok names -> write_headers dir prefix groups = Ok files ->
  dict_get files f = Some g -> exists t, nth_error names t = Some f /\ nth_error groups t = Some g /\
    forall t', (t < t')%nat -> nth_error names t' <> Some f.
Proof.
  intros N H D. unfold write_headers in H. rewrite N in H. cbn [bind] in H. apply ok_inj in H. subst files. unfold dict_of in D. rewrite update_get in D.
  destruct (dict_get (rev (combine names groups)) f) as [g'|] eqn:R; [|discriminate]. injection D as ->.
  destruct (last_entry _ _ _ R) as (t & A & B). apply nth_combine in A as [A1 A2]. exists t. split; [exact A1|]. split; [exact A2|].
  intros t' L C. assert (Lg : (t' < List.length groups)%nat).
  { pose proof (Forall2_len _ _ _ (names_of _ _ _ _ N)) as Ln. rewrite Ln. apply nth_error_Some. congruence. }
  destruct (nth_error groups t') as [g'|] eqn:G; [|apply nth_error_None in G; lia]. apply (B t' g' L). apply nth_combine. auto.
Qed.

Section Run.
Context (fuel : nat) (inp : run_input) (chunks : dict Z) (ss : list (dict pyslice)) (outs : list slice_out).
Context (Cov : chunks = [] \/ covers chunks (ri_dims inp)) (Pos : positive_sizes (ri_dims inp))
        (ND : NoDup (keys (ri_dims inp))) (E : slices chunks (ri_dims inp) = Ok ss)
        (W : workers_ok fuel inp ss outs).
Context (pr : nat -> nat) (pf : nat -> bool).
Let T := record_system inp ss outs pr pf.

Definition cell_owner (p : cell * nat) : nat := owner_index (ri_dims inp) ss (fst p).

Lemma owner_unique w c : (w < List.length ss)%nat -> in_slice (ri_dims inp) (nth w ss []) c -> w = owner_index (ri_dims inp) ss c.
Proof.
  intros Hw I. pose proof (in_slice_grid _ _ _ I) as G. destruct (slice_of_cell chunks _ ss Cov Pos ND E c G) as (w0 & _ & _ & U).
  destruct (owner_first _ _ _ _ Hw I) as [A B]. rewrite (U w Hw I). symmetry. now apply U.
Qed.

Lemma record_payload w t v c k : payload T w t v (c, k) =
  match payload (run_system inp ss outs pr pf) w t v c with Some x => nth_error x k | None => None end.
Proof. reflexivity. Qed.

Lemma records_owned : owned T cell_owner.
Proof.
  intros w t v [c k] x Hw P. rewrite record_payload in P. destruct (payload (run_system inp ss outs pr pf) w t v c) as [y|] eqn:Py; [|discriminate].
  apply owner_unique; [exact Hw|]. exact (payload_out inp chunks ss outs Cov ND E pr pf w t v c y Hw Py).
Qed.

Lemma grid_owner c : cell_in_grid (ri_dims inp) c ->
  (owner_index (ri_dims inp) ss c < List.length ss)%nat /\ in_slice (ri_dims inp) (nth (owner_index (ri_dims inp) ss c) ss []) c.
Proof.
  intros G. destruct (slice_of_cell chunks _ ss Cov Pos ND E c G) as (w & A & B & _). exact (owner_first _ _ _ _ A B).
Qed.
End Run.

Local Open Scope Z_scope.

(** what is left in a shared file *)
Theorem shared_files_hold fuel inp chunks ss outs freq st n pe dir prefix names pr pf :
  (chunks = [] \/ covers chunks (ri_dims inp)) -> positive_sizes (ri_dims inp) -> NoDup (keys (ri_dims inp)) ->
  slices chunks (ri_dims inp) = Ok ss -> workers_ok fuel inp ss outs -> NoDup (keys (ri_out_vars inp)) ->
  let ts := p_time_step (ri_prm inp) in
  legal_time_step ts -> (ts < 1440 \/ forall c df prm' name col, cell_in_grid (ri_dims inp) c -> run_cell fuel (ri_prm inp) (ri_data inp c) = Some (Ok df, prm') ->
    dict_get df name = Some col -> List.length col = n) -> (1 <= n)%nat -> match freq with Some bin => monotone_bins bin | None => True end ->
  output_axis st (st + (Z.of_nat n - 1) * 1440) ts pe = Ok (ri_axis inp) ->
  get_output_times freq st (st + (Z.of_nat n - 1) * 1440) ts pe = Ok (ri_groups inp) ->
  file_names dir prefix (ri_groups inp) = Ok names ->
  (forall c, cell_in_grid (ri_dims inp) c -> List.length (dl_doy (cd_daily (ri_data inp c))) = n) ->
  let S := record_system inp ss outs pr pf in let num := name_number names in
  forall old s, exec_named S num (start_named S num old) s -> finished S s ->
  forall t0 f v name unit c k, nth_error names t0 = Some f -> nth_error (ri_out_vars inp) v = Some (name, unit) -> cell_in_grid (ri_dims inp) c ->
  (forall t g stamp, nth_error names t = Some f -> nth_error (ri_groups inp) t = Some g -> nth_error g k = Some stamp ->
     (forall t' g', (t < t')%nat -> nth_error names t' = Some f -> nth_error (ri_groups inp) t' = Some g' -> nth_error g' k = None) ->
     exists i, stamp = st + (Z.of_nat i + (if pe then 1 else 0)) * ts /\
      (active (ri_mask inp c) -> exists df prm' conv col y, run_cell fuel (ri_prm inp) (ri_data inp c) = Some (Ok df, prm') /\
         converter_for name unit = Ok conv /\ dict_get df name = Some col /\ nth_error col i = Some y /\ disk s (num t0) v (c, k) = Some (conv y ts)) /\
      (~ active (ri_mask inp c) -> disk s (num t0) v (c, k) = Some None)) /\
  ((forall t g, nth_error names t = Some f -> nth_error (ri_groups inp) t = Some g -> nth_error g k = None) -> disk s (num t0) v (c, k) = None).
Proof.
  intros Cov Pos ND E W NV ts L Lt Hn Mb Ax Gr Nm Dn S num old s X Fin t0 f v name unit c k Hf Hv Hc.
  pose proof (Forall2_len _ _ _ (names_of _ _ _ _ Nm)) as Ln.
  destruct (grid_owner inp chunks ss Cov Pos ND E c Hc) as [Ho Hi]. set (o := owner_index (ri_dims inp) ss c) in *.
  assert (Lv : (v < List.length (ri_out_vars inp))%nat) by (apply nth_error_Some; congruence).
  assert (Lt0 : (t0 < List.length (ri_groups inp))%nat) by (rewrite Ln; apply nth_error_Some; congruence).
  assert (Last := shared_content S num (cell_owner inp ss) (records_owned inp chunks ss outs Cov Pos ND E pr pf) old s X Fin t0 v (c, k) Lt0 Lv Ho).
  change (cell_owner inp ss (c, k)) with o in Last.
  assert (Rec : forall t g, nth_error (ri_groups inp) t = Some g -> exists x, payload S o t v (c, k) = nth_error x k /\ List.length x = List.length g /\ right_records fuel inp t v c x).
  { intros t g Hg. destruct (payload_in fuel inp chunks ss outs Cov ND E W pr pf o t v c Ho Hi) as (x & P & R). exists x.
    split; [unfold S; rewrite record_payload, P; reflexivity|]. split; [|exact R].
    exact (proj1 (right_values fuel inp freq st n pe NV L Lt Hn Mb Ax Gr Dn t g v name unit c x Hg Hv Hc R)). }
  assert (Same : forall t, (t < nfiles S)%nat -> (num t = num t0 <-> nth_error names t = Some f)).
  { intros t Ht. apply same_number; [exact Hf|]. rewrite <- Ln. exact Ht. }
  assert (None_at : forall (A : Type) (x : list A) (g : list Z), List.length x = List.length g -> (nth_error g k = None <-> nth_error x k = None)).
  { intros A x g Lx. rewrite !nth_error_None, Lx. reflexivity. }
  split.
  - intros t g stamp Ht Hg Hs Lst.
    assert (Tn : (t < nfiles S)%nat) by (change (t < List.length (ri_groups inp))%nat; apply nth_error_Some; congruence).
    destruct (Rec t g Hg) as (x & Px & Lx & Rx).
    destruct (nth_error x k) as [z|] eqn:Z; [|apply (None_at _ _ _ Lx) in Z; congruence].
    assert (Dz : disk s (num t0) v (c, k) = Some z).
    { destruct Last as [(t1 & y & A & B & C & D & F)|(A & B)].
      - apply Same in B; [|exact A]. assert (t1 = t).
        { destruct (Nat.lt_trichotomy t1 t) as [Q|[Q|Q]]; [|exact Q|].
          - rewrite (F t Q Tn) in Px; [discriminate|]. now apply Same.
          - destruct (nth_error (ri_groups inp) t1) as [g1|] eqn:G1; [|apply nth_error_None in G1; change (t1 < List.length (ri_groups inp))%nat in A; lia].
            destruct (Rec t1 g1 G1) as (x1 & P1 & L1 & _). rewrite (proj1 (None_at _ _ _ L1) (Lst t1 g1 Q B G1)) in P1. congruence. }
        subst t1. congruence.
      - rewrite (B t Tn) in Px; [discriminate|]. now apply Same. }
    destruct (right_values fuel inp freq st n pe NV L Lt Hn Mb Ax Gr Dn t g v name unit c x Hg Hv Hc Rx) as [_ V].
    destruct (V k stamp Hs) as (i & I & Va & Vn). exists i. split; [exact I|]. rewrite Dz, <- Z. split; [|exact Vn].
    intros Ac. destruct (Va Ac) as (df & prm' & conv & col & y & R1 & R2 & R3 & R4 & R5). exists df, prm', conv, col, y. auto.
  - intros No. destruct Last as [(t1 & y & A & B & C & D & F)|(A & B)]; [|exact A]. exfalso. apply Same in B; [|exact A].
    destruct (nth_error (ri_groups inp) t1) as [g1|] eqn:G1; [|apply nth_error_None in G1; change (t1 < List.length (ri_groups inp))%nat in A; lia].
    destruct (Rec t1 g1 G1) as (x1 & P1 & L1 & _). rewrite (proj1 (None_at _ _ _ L1) (No t1 g1 B G1)) in P1. congruence.
Qed.

(** the records of a file belong to the time axis in its header *)
Theorem headers_match fuel inp chunks ss outs freq st n pe dir prefix names files pr pf :
  (chunks = [] \/ covers chunks (ri_dims inp)) -> positive_sizes (ri_dims inp) -> NoDup (keys (ri_dims inp)) ->
  slices chunks (ri_dims inp) = Ok ss -> workers_ok fuel inp ss outs -> NoDup (keys (ri_out_vars inp)) ->
  let ts := p_time_step (ri_prm inp) in
  legal_time_step ts -> (ts < 1440 \/ forall c df prm' name col, cell_in_grid (ri_dims inp) c -> run_cell fuel (ri_prm inp) (ri_data inp c) = Some (Ok df, prm') ->
    dict_get df name = Some col -> List.length col = n) -> (1 <= n)%nat -> match freq with Some bin => monotone_bins bin | None => True end ->
  output_axis st (st + (Z.of_nat n - 1) * 1440) ts pe = Ok (ri_axis inp) ->
  get_output_times freq st (st + (Z.of_nat n - 1) * 1440) ts pe = Ok (ri_groups inp) ->
  file_names dir prefix (ri_groups inp) = Ok names -> write_headers dir prefix (ri_groups inp) = Ok files ->
  (forall c, cell_in_grid (ri_dims inp) c -> List.length (dl_doy (cd_daily (ri_data inp c))) = n) ->
  let S := record_system inp ss outs pr pf in let num := name_number names in
  forall old s, exec_named S num (start_named S num old) s -> finished S s ->
  forall t0 f g v name unit c k stamp, nth_error names t0 = Some f -> dict_get files f = Some g -> nth_error g k = Some stamp ->
    nth_error (ri_out_vars inp) v = Some (name, unit) -> cell_in_grid (ri_dims inp) c ->
    exists i, stamp = st + (Z.of_nat i + (if pe then 1 else 0)) * ts /\
      (active (ri_mask inp c) -> exists df prm' conv col y, run_cell fuel (ri_prm inp) (ri_data inp c) = Some (Ok df, prm') /\
         converter_for name unit = Ok conv /\ dict_get df name = Some col /\ nth_error col i = Some y /\ disk s (num t0) v (c, k) = Some (conv y ts)) /\
      (~ active (ri_mask inp c) -> disk s (num t0) v (c, k) = Some None).
Proof.
  intros Cov Pos ND E W NV ts L Lt Hn Mb Ax Gr Nm Hd Dn S num old s X Fin t0 f g v name unit c k stamp Hf Hg Hk Hv Hc.
  destruct (last_header _ _ _ _ _ _ _ Nm Hd Hg) as (t & A & B & C).
  refine (proj1 (shared_files_hold fuel inp chunks ss outs freq st n pe dir prefix names pr pf Cov Pos ND E W NV L Lt Hn Mb Ax Gr Nm Dn old s X Fin t0 f v name unit c k Hf Hv Hc) t g stamp A B Hk _).
  intros t' g' Lt' N' _. exfalso. exact (C t' Lt' N').
Qed.

(** no records beyond the header when no group of the name is longer than the
    last one *)
Theorem no_surplus fuel inp chunks ss outs freq st n pe dir prefix names files pr pf :
  (chunks = [] \/ covers chunks (ri_dims inp)) -> positive_sizes (ri_dims inp) -> NoDup (keys (ri_dims inp)) ->
  slices chunks (ri_dims inp) = Ok ss -> workers_ok fuel inp ss outs -> NoDup (keys (ri_out_vars inp)) ->
  let ts := p_time_step (ri_prm inp) in
  legal_time_step ts -> (ts < 1440 \/ forall c df prm' name col, cell_in_grid (ri_dims inp) c -> run_cell fuel (ri_prm inp) (ri_data inp c) = Some (Ok df, prm') ->
    dict_get df name = Some col -> List.length col = n) -> (1 <= n)%nat -> match freq with Some bin => monotone_bins bin | None => True end ->
  output_axis st (st + (Z.of_nat n - 1) * 1440) ts pe = Ok (ri_axis inp) ->
  get_output_times freq st (st + (Z.of_nat n - 1) * 1440) ts pe = Ok (ri_groups inp) ->
  file_names dir prefix (ri_groups inp) = Ok names -> write_headers dir prefix (ri_groups inp) = Ok files ->
  (forall c, cell_in_grid (ri_dims inp) c -> List.length (dl_doy (cd_daily (ri_data inp c))) = n) ->
  let S := record_system inp ss outs pr pf in let num := name_number names in
  forall old s, exec_named S num (start_named S num old) s -> finished S s ->
  forall t0 f g v name unit c, nth_error names t0 = Some f -> dict_get files f = Some g ->
    nth_error (ri_out_vars inp) v = Some (name, unit) -> cell_in_grid (ri_dims inp) c ->
    (forall k, (List.length g <= k)%nat -> disk s (num t0) v (c, k) = None) <->
    (forall t g', nth_error names t = Some f -> nth_error (ri_groups inp) t = Some g' -> (List.length g' <= List.length g)%nat).
Proof.
  intros Cov Pos ND E W NV ts L Lt Hn Mb Ax Gr Nm Hd Dn S num old s X Fin t0 f g v name unit c Hf Hg Hv Hc.
  pose proof (shared_files_hold fuel inp chunks ss outs freq st n pe dir prefix names pr pf Cov Pos ND E W NV L Lt Hn Mb Ax Gr Nm Dn old s X Fin t0 f v name unit c) as Q.
  fold S num in Q. split.
  - intros No t g' Ht Hg'. destruct (Nat.le_gt_cases (List.length g') (List.length g)) as [A|A]; [exact A|]. exfalso.
    set (k := List.length g) in *. destruct (Q k Hf Hv Hc) as [Some_case _].
    (* the last group of the name that reaches [k] *)
    assert (La : exists t1 g1, nth_error names t1 = Some f /\ nth_error (ri_groups inp) t1 = Some g1 /\ (k < List.length g1)%nat /\
      forall t' g', (t1 < t')%nat -> nth_error names t' = Some f -> nth_error (ri_groups inp) t' = Some g' -> nth_error g' k = None).
    { assert (Gen : forall j t g', (List.length (ri_groups inp) - t <= j)%nat -> nth_error names t = Some f -> nth_error (ri_groups inp) t = Some g' -> (k < List.length g')%nat ->
        exists t1 g1, nth_error names t1 = Some f /\ nth_error (ri_groups inp) t1 = Some g1 /\ (k < List.length g1)%nat /\
        forall t' g', (t1 < t')%nat -> nth_error names t' = Some f -> nth_error (ri_groups inp) t' = Some g' -> nth_error g' k = None).
      { clear t g' Ht Hg' A. induction j as [|j IH]; intros t g' Hj Ht Hg' A.
        - assert ((t < List.length (ri_groups inp))%nat) by (apply nth_error_Some; congruence). lia.
        - destruct (Classical_Prop.classic (exists t' g'', (t < t')%nat /\ nth_error names t' = Some f /\ nth_error (ri_groups inp) t' = Some g'' /\ (k < List.length g'')%nat))
            as [(t' & g'' & B1 & B2 & B3 & B4)|B].
          + apply (IH t' g''); auto. assert ((t' < List.length (ri_groups inp))%nat) by (apply nth_error_Some; congruence). lia.
          + exists t, g'. split; [exact Ht|]. split; [exact Hg'|]. split; [exact A|]. intros t' g'' C1 C2 C3. apply nth_error_None.
            destruct (Nat.le_gt_cases (List.length g'') k) as [C|C]; [exact C|]. exfalso. apply B. exists t', g''. auto. }
      exact (Gen _ t g' (le_n _) Ht Hg' A). }
    destruct La as (t1 & g1 & A1 & A2 & A3 & A4). destruct (nth_error g1 k) as [stamp|] eqn:K; [|apply nth_error_None in K; lia].
    destruct (Some_case t1 g1 stamp A1 A2 K A4) as (i & _ & Ac & In). specialize (No k (le_n _)). unfold fl in *.
    destruct (Classical_Prop.classic (active (ri_mask inp c))) as [M|M].
    + destruct (Ac M) as (df & prm' & conv & col & y & _ & _ & _ & _ & D). congruence.
    + specialize (In M). congruence.
  - intros Lg k Hk. apply (proj2 (Q k Hf Hv Hc)). intros t g' Ht Hg'. apply nth_error_None. specialize (Lg t g' Ht Hg'). lia.
Qed.
