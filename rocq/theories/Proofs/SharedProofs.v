(** Files that several groups share: C113. *)
From Coq Require Import List Bool Arith Lia.
From Verif Require Import Model.Machine Model.Shared Spec.SharedSpec Proofs.MachineProofs.
Import ListNotations.

Section M.
Context {cell value : Type}.
Context (S : system cell value) (name_of : nat -> nat) (owner : cell -> nat).
Context (Own : owned S owner).
Notation state := (state cell value).

Fixpoint last (w n f v : nat) (c : cell) : option value :=
  match n with
  | 0 => None
  | Datatypes.S n => if name_of n =? f then match payload S w n v c with Some x => Some x | None => last w n f v c end
                     else last w n f v c
  end.

Lemma last_spec w n f v c : last_written S name_of w n f v c (last w n f v c).
Proof.
  induction n as [|n IH]; [right; split; [reflexivity|lia]|]. cbn [last].
  destruct (Nat.eqb_spec (name_of n) f) as [E|N].
  - destruct (payload S w n v c) as [y|] eqn:P.
    + left. exists n, y. split; [lia|]. split; [exact E|]. split; [exact P|]. split; [reflexivity|]. intros t' A B. lia.
    + destruct IH as [(t & y & A & B & C & D & F)|(A & B)].
      * left. exists t, y. split; [lia|]. split; [exact B|]. split; [exact C|]. split; [exact D|]. intros t' T1 T2 T3.
        destruct (Nat.eq_dec t' n) as [->|]; [exact P|]. apply F; auto. lia.
      * right. split; [exact A|]. intros t T1 T2. destruct (Nat.eq_dec t n) as [->|]; [exact P|]. apply B; auto. lia.
  - destruct IH as [(t & y & A & B & C & D & F)|(A & B)].
    + left. exists t, y. split; [lia|]. split; [exact B|]. split; [exact C|]. split; [exact D|]. intros t' T1 T2 T3.
      destruct (Nat.eq_dec t' n) as [->|]; [contradiction|]. apply F; auto. lia.
    + right. split; [exact A|]. intros t T1 T2. destruct (Nat.eq_dec t n) as [->|]; [contradiction|]. apply B; auto. lia.
Qed.

Lemma last_other w n f v c : name_of n <> f -> last w (n + 1) f v c = last w n f v c.
Proof. intros N. rewrite Nat.add_1_r. cbn [last]. destruct (Nat.eqb_spec (name_of n) f); congruence. Qed.

(** ** locks *)
Definition holds (x : wstate (cell:=cell) (value:=value)) : bool :=
  match w_phase x with
  | Idle => false
  | Half => negb (proc_first S (name_of (w_file x)))
  | Locked | Writing _ _ | Closed => true
  | Half2 => proc_first S (name_of (w_file x))
  end.

Definition locked (s : state) : Prop :=
  forall f w, file_lock s f = Some w <-> (w < nworkers S /\ name_of (w_file (ws s w)) = f /\ holds (ws s w) = true).

Lemma mutex s w w' : locked s -> w < nworkers S -> w' < nworkers S ->
  name_of (w_file (ws s w)) = name_of (w_file (ws s w')) -> holds (ws s w) = true -> holds (ws s w') = true -> w = w'.
Proof.
  intros L Hw Hw' F H H'.
  assert (A : file_lock s (name_of (w_file (ws s w))) = Some w) by (apply L; auto).
  assert (B : file_lock s (name_of (w_file (ws s w))) = Some w') by (apply L; auto). congruence.
Qed.

(** the number of groups a worker has finished with *)
Definition past (x : wstate (cell:=cell) (value:=value)) : nat :=
  w_file x + match w_phase x with Closed | Half2 => 1 | _ => 0 end.
Definition writing (x : wstate (cell:=cell) (value:=value)) (f : nat) : Prop :=
  exists k buf, w_phase x = Writing k buf /\ name_of (w_file x) = f.

Definition on_disk (s : state) : Prop := forall f v c, In f (map name_of (seq 0 (nfiles S))) -> v < nvars S ->
  let x := ws s (owner c) in
  disk s f v c = last (owner c) (past x) f v c \/ (writing x f /\ disk s f v c = last (owner c) (past x + 1) f v c).

Definition in_buffer (s : state) : Prop := forall u k buf, u < nworkers S -> w_phase (ws s u) = Writing k buf ->
  forall v c, v < nvars S -> let t := w_file (ws s u) in let f := name_of t in
  (owner c = u -> buf v c = last u (if v <? k then t + 1 else t) f v c) /\
  (owner c <> u -> buf v c = last (owner c) (past (ws s (owner c))) f v c).

Definition resting (s : state) : Prop := forall w, nworkers S <= w -> ws s w = mkw 0 Idle.

Definition ok (s : state) : Prop := locked s /\ on_disk s /\ in_buffer s /\ resting s.

Lemma ok_start old : ok (start_named S name_of old).
Proof.
  split; [|split; [|split]].
  - intros f w. cbn. split; [discriminate|]. intros (_ & _ & H). discriminate H.
  - intros f v c Hf Hv. left. cbn. apply in_map_iff in Hf as (t & E & I).
    assert (X : existsb (fun t => name_of t =? f) (seq 0 (nfiles S)) = true) by (apply existsb_exists; exists t; split; [exact I|now apply Nat.eqb_eq]).
    now rewrite X.
  - intros u k buf Hu E. discriminate E.
  - intros w _. reflexivity.
Qed.

(** a step of [w] that neither changes a file nor opens or closes one *)
Lemma same_content s s' w x' : on_disk s -> in_buffer s -> resting s -> w < nworkers S ->
  disk s' = disk s -> ws s' = upd_nat (ws s) w x' -> past x' = past (ws s w) ->
  (forall k buf, w_phase x' <> Writing k buf) -> (forall k buf, w_phase (ws s w) <> Writing k buf) ->
  on_disk s' /\ in_buffer s' /\ resting s'.
Proof.
  intros D B R Hw E1 E2 P N N'.
  assert (Pa : forall o, past (ws s' o) = past (ws s o)).
  { intros o. rewrite E2. destruct (Nat.eq_dec o w) as [->|Ne]; [now rewrite upd_same|now rewrite upd_other]. }
  assert (Wr : forall o f, writing (ws s o) f -> ws s' o = ws s o).
  { intros o f (k & buf & A & _). rewrite E2. destruct (Nat.eq_dec o w) as [->|Ne]; [now apply N' in A|now rewrite upd_other]. }
  split; [|split].
  - intros f v c Hf Hv. cbn zeta. rewrite E1, Pa. destruct (D f v c Hf Hv) as [H|[H1 H2]]; [now left|right].
    split; [|exact H2]. now rewrite (Wr _ _ H1).
  - intros u k buf Hu E v c Hv. cbn zeta. rewrite E2 in E. destruct (Nat.eq_dec u w) as [->|Ne].
    + rewrite upd_same in E. now apply N in E.
    + rewrite upd_other in E by exact Ne. rewrite Pa. rewrite E2, upd_other by exact Ne. exact (B u k buf Hu E v c Hv).
  - intros w' Hw'. rewrite E2, upd_other by lia. now apply R.
Qed.

Lemma lock_take s w (proc : bool) x' : locked s -> w < nworkers S ->
  let f := name_of (w_file (ws s w)) in part_free S s w f proc = true -> w_file x' = w_file (ws s w) ->
  holds x' = (if proc then holds (ws s w) else true) -> locked (set_w (take S s w f proc) w x').
Proof.
  intros L Hw f PF Hx HF. unfold part_free in PF. destruct proc; cbn [take] in *.
  - intros g w'. cbn. rewrite (L g w'). destruct (Nat.eq_dec w' w) as [->|N]; [rewrite upd_same, Hx, HF; tauto|now rewrite upd_other].
  - destruct (file_lock s f) eqn:E; [discriminate|]. intros g w'. cbn. unfold upd_nat at 1. destruct (Nat.eqb_spec g f) as [->|N].
    + split.
      * intros [= <-]. rewrite upd_same, Hx, HF. auto.
      * intros (A & B & C). destruct (Nat.eq_dec w' w) as [->|N]; [reflexivity|]. rewrite upd_other in B, C by exact N.
        assert (F : file_lock s f = Some w') by (apply L; auto). congruence.
    + rewrite (L g w'). destruct (Nat.eq_dec w' w) as [->|N']; [rewrite upd_same, Hx|now rewrite upd_other].
      split; intros (A & B & C); exfalso; apply N; unfold f; congruence.
Qed.

Lemma lock_drop s w (proc : bool) x' : locked s -> w < nworkers S ->
  let f := name_of (w_file (ws s w)) in (proc = false -> holds (ws s w) = true) ->
  holds x' = (if proc then holds (ws s w) else false) -> (w_file x' = w_file (ws s w) \/ holds x' = false) ->
  locked (set_w (drop_part S s w f proc) w x').
Proof.
  intros L Hw f HH HF Hx. destruct proc; cbn [drop_part] in *.
  - intros g w'. cbn. rewrite (L g w'). destruct (Nat.eq_dec w' w) as [->|N]; [|now rewrite upd_other].
    rewrite upd_same, HF. destruct Hx as [->|Hx]; [tauto|]. rewrite HF in Hx. rewrite Hx. split; intros (_ & _ & C); discriminate.
  - intros g w'. cbn. unfold upd_nat at 1. destruct (Nat.eqb_spec g f) as [->|N].
    + split; [discriminate|]. intros (A & B & C). destruct (Nat.eq_dec w' w) as [->|N]; [rewrite upd_same in C; congruence|].
      rewrite upd_other in B, C by exact N. assert (X : file_lock s f = Some w') by (apply L; auto).
      assert (Y : file_lock s f = Some w) by (apply L; auto). congruence.
    + rewrite (L g w'). destruct (Nat.eq_dec w' w) as [->|N']; [rewrite upd_same, HF|now rewrite upd_other].
      split; intros (A & B & C); [exfalso; apply N; unfold f; congruence|discriminate].
Qed.

Lemma lock_same s s' w x' : locked s -> file_lock s' = file_lock s -> ws s' = upd_nat (ws s) w x' -> w_file x' = w_file (ws s w) ->
  holds x' = holds (ws s w) -> locked s'.
Proof.
  intros L E1 E2 A B f w'. rewrite E1, E2, (L f w'). destruct (Nat.eq_dec w' w) as [->|N]; [rewrite upd_same, A, B; tauto|now rewrite upd_other].
Qed.

Lemma named_file t : t < nfiles S -> In (name_of t) (map name_of (seq 0 (nfiles S))).
Proof. intros H. apply in_map. apply in_seq. lia. Qed.

(** nobody else has the file of [w] open *)
Lemma alone s w : ok s -> w < nworkers S -> holds (ws s w) = true -> forall o, o <> w -> ~ writing (ws s o) (name_of (w_file (ws s w))).
Proof.
  intros (L & _ & _ & R) Hw Hh o No (k & buf & A & B). destruct (Nat.lt_ge_cases o (nworkers S)) as [Ho|Ho].
  - apply No. apply (mutex s); auto. unfold holds. now rewrite A.
  - rewrite (R o Ho) in A. discriminate.
Qed.

Lemma ok_step s w s' : ok s -> step_named S name_of s w = Some s' -> ok s'.
Proof.
  intros K E. pose proof K as (L & D & B & R). unfold step_named in E.
  destruct ((nworkers S <=? w) || (nfiles S <=? w_file (ws s w))) eqn:G; [discriminate|].
  apply orb_false_iff in G as [G1 G2]. apply Nat.leb_gt in G1. apply Nat.leb_gt in G2.
  assert (Al := alone s w K G1).
  destruct (w_phase (ws s w)) as [| | |k buf| |] eqn:Ph.
  - (* Idle *)
    destruct (part_free S s w _ _) eqn:PF; [|discriminate]. injection E as <-. split.
    + apply lock_take; auto. unfold holds. cbn. rewrite Ph. destruct (proc_first S _); reflexivity.
    + apply (same_content s _ w (mkw (w_file (ws s w)) Half)); auto.
      * unfold take. destruct (proc_first S _); reflexivity.
      * cbn. unfold take. destruct (proc_first S _); reflexivity.
      * unfold past. cbn. now rewrite Ph.
      * cbn. discriminate.
      * rewrite Ph. discriminate.
  - (* Half *)
    destruct (part_free S s w _ _) eqn:PF; [|discriminate]. injection E as <-. split.
    + apply lock_take; auto. unfold holds. cbn. rewrite Ph. destruct (proc_first S _); reflexivity.
    + apply (same_content s _ w (mkw (w_file (ws s w)) Locked)); auto.
      * unfold take. destruct (negb (proc_first S _)); reflexivity.
      * cbn. unfold take. destruct (negb (proc_first S _)); reflexivity.
      * unfold past. cbn. now rewrite Ph.
      * cbn. discriminate.
      * rewrite Ph. discriminate.
  - (* opening *)
    injection E as <-. set (t := w_file (ws s w)) in *. set (x' := mkw t (Writing 0 (disk s (name_of t)))).
    assert (Hh : holds (ws s w) = true) by (unfold holds; now rewrite Ph). specialize (Al Hh).
    assert (Pw : past (ws s w) = t) by (unfold past; rewrite Ph; fold t; lia).
    assert (Pa : forall o, past (ws (set_w s w x') o) = past (ws s o)).
    { intros o. cbn. destruct (Nat.eq_dec o w) as [->|Ne]; [rewrite upd_same, Pw; unfold past, x'; cbn; lia|now rewrite upd_other]. }
    split; [|split; [|split]].
    + apply (lock_same s _ w x'); auto.
    + intros f v c Hf Hv. cbn zeta. rewrite Pa. cbn [disk set_w]. destruct (D f v c Hf Hv) as [H|[H1 H2]]; [now left|right].
      split; [|exact H2]. destruct H1 as (k & b & A1 & A2). cbn. destruct (Nat.eq_dec (owner c) w) as [Eo|Ne].
      * rewrite Eo, Ph in A1. discriminate.
      * rewrite upd_other by exact Ne. exists k, b. auto.
    + intros u k buf Hu E v c Hv. cbn zeta. rewrite Pa. cbn [ws set_w] in E |- *. destruct (Nat.eq_dec u w) as [->|Ne].
      * rewrite upd_same in E |- *. unfold x' in E. cbn in E. injection E as <- <-. unfold x'. cbn [w_file].
        assert (Hf : In (name_of t) (map name_of (seq 0 (nfiles S)))) by (now apply named_file).
        split; intros Ho.
        -- destruct (D _ v c Hf Hv) as [H|[(k & b & A1 & _) _]]; [|rewrite Ho, Ph in A1; discriminate]. rewrite H, Ho, Pw. reflexivity.
        -- destruct (D _ v c Hf Hv) as [H|[H1 _]]; [exact H|]. now apply Al in H1.
      * rewrite upd_other in E |- * by exact Ne. exact (B u k buf Hu E v c Hv).
    + intros w' Hw'. cbn. rewrite upd_other by lia. now apply R.
  - assert (Hh : holds (ws s w) = true) by (unfold holds; now rewrite Ph). specialize (Al Hh).
    set (t := w_file (ws s w)) in *. assert (Pw : past (ws s w) = t) by (unfold past; rewrite Ph; fold t; lia).
    destruct (Nat.ltb_spec k (nvars S)) as [Hk|Hk]; injection E as <-.
    + (* assignment *)
      set (x' := mkw t (Writing (k + 1) (assign S w t k buf))).
      assert (Pa : forall o, past (ws (set_w s w x') o) = past (ws s o)).
      { intros o. cbn. destruct (Nat.eq_dec o w) as [->|Ne]; [rewrite upd_same, Pw; unfold past, x'; cbn; lia|now rewrite upd_other]. }
      split; [|split; [|split]].
      * apply (lock_same s _ w x'); auto.
      * intros f v c Hf Hv. cbn zeta. rewrite Pa. cbn [disk set_w]. destruct (D f v c Hf Hv) as [H|[H1 H2]]; [now left|right].
        split; [|exact H2]. destruct H1 as (k0 & b & A1 & A2). cbn. destruct (Nat.eq_dec (owner c) w) as [Eo|Ne].
        -- rewrite Eo, upd_same. exists (k + 1), (assign S w t k buf). split; [reflexivity|]. unfold x'. cbn. rewrite Eo in A2. exact A2.
        -- rewrite upd_other by exact Ne. exists k0, b. auto.
      * intros u k0 b Hu E v c Hv. cbn zeta. rewrite Pa. cbn [ws set_w] in E |- *. destruct (Nat.eq_dec u w) as [->|Ne].
        -- rewrite upd_same in E |- *. unfold x' in E. cbn in E. injection E as <- <-. unfold x'. cbn [w_file].
           destruct (B w k buf Hu Ph v c Hv) as [B1 B2]. fold t in B1, B2. unfold assign. split; intros Ho.
           ++ specialize (B1 Ho). destruct (Nat.eqb_spec v k) as [->|Nv].
              ** rewrite (proj2 (Nat.ltb_lt k (k + 1))) by lia. rewrite Nat.ltb_irrefl in B1. rewrite Nat.add_1_r. cbn [last]. rewrite Nat.eqb_refl, <- B1. reflexivity.
              ** rewrite B1. replace (v <? k + 1) with (v <? k); [reflexivity|].
                 destruct (Nat.ltb_spec v k), (Nat.ltb_spec v (k + 1)); try reflexivity; lia.
           ++ specialize (B2 Ho). destruct (Nat.eqb_spec v k) as [->|Nv]; [|exact B2].
              destruct (payload S w t k c) as [y|] eqn:Py; [|exact B2]. exfalso. apply Ho. symmetry. exact (Own w t k c y Hu Py).
        -- rewrite upd_other in E |- * by exact Ne. exact (B u k0 b Hu E v c Hv).
      * intros w' Hw'. cbn. rewrite upd_other by lia. now apply R.
    + (* close *)
      set (x' := mkw t Closed (cell:=cell) (value:=value)).
      assert (Pn : past x' = t + 1) by reflexivity.
      assert (Nw : forall g, ~ writing x' g) by (intros g (k0 & b & A & _); discriminate).
      split; [|split; [|split]].
      * apply (lock_same s _ w x'); auto.
      * intros g v c Hg Hv. cbn zeta. cbn [disk set_w set_disk ws].
        destruct (Nat.eq_dec (owner c) w) as [Eo|Ne]; [rewrite Eo, (upd_same (ws s)), Pn|rewrite (upd_other (ws s)) by exact Ne].
        -- left. unfold upd_nat. destruct (Nat.eqb_spec g (name_of t)) as [->|Ng].
           ++ destruct (B w k buf G1 Ph v c Hv) as [B1 _]. rewrite (B1 Eo). fold t. rewrite (proj2 (Nat.ltb_lt v k)) by lia. reflexivity.
           ++ rewrite last_other by auto. destruct (D g v c Hg Hv) as [H|[(k0 & b & _ & A2) _]].
              ** rewrite H, Eo, Pw. reflexivity.
              ** exfalso. apply Ng. rewrite Eo in A2. symmetry. exact A2.
        -- unfold upd_nat. destruct (Nat.eqb_spec g (name_of t)) as [->|Ng]; [|exact (D g v c Hg Hv)].
           left. destruct (B w k buf G1 Ph v c Hv) as [_ B2]. exact (B2 Ne).
      * intros u k0 b Hu E v c Hv. cbn zeta. cbn [ws set_w set_disk] in E |- *. destruct (Nat.eq_dec u w) as [->|Ne]; [rewrite upd_same in E; discriminate|].
        rewrite (upd_other (ws s) w x' u Ne) in E |- *. destruct (B u k0 b Hu E v c Hv) as [B1 B2]. split; [exact B1|]. intros Ho. specialize (B2 Ho).
        destruct (Nat.eq_dec (owner c) w) as [Eo|No]; [|now rewrite upd_other].
        rewrite Eo, upd_same, Pn, last_other; [rewrite B2, Eo, Pw; reflexivity|].
        intros X. apply (Al u Ne). exists k0, b. auto.
      * intros w' Hw'. cbn. rewrite upd_other by lia. now apply R.
  - (* first release *)
    injection E as <-. split.
    + apply lock_drop; auto; unfold holds; cbn; rewrite ?Ph; auto. destruct (proc_first S _); reflexivity.
    + apply (same_content s _ w (mkw (w_file (ws s w)) Half2)); auto.
      * unfold drop_part. destruct (proc_first S _); reflexivity.
      * cbn. unfold drop_part. destruct (proc_first S _); reflexivity.
      * unfold past. cbn. now rewrite Ph.
      * cbn. discriminate.
      * rewrite Ph. discriminate.
  - (* second release *)
    injection E as <-. split.
    + apply lock_drop; auto; unfold holds; cbn; rewrite ?Ph; auto; destruct (proc_first S _); auto; discriminate.
    + apply (same_content s _ w (mkw (w_file (ws s w) + 1) Idle)); auto.
      * unfold drop_part. destruct (negb (proc_first S _)); reflexivity.
      * cbn. unfold drop_part. destruct (negb (proc_first S _)); reflexivity.
      * unfold past. cbn. rewrite Ph. lia.
      * cbn. discriminate.
      * rewrite Ph. discriminate.
Qed.

Lemma ok_flush s s' : ok s -> flush_named S name_of s s' -> ok s'.
Proof.
  intros (L & D & B & R) F. destruct F as [s w t k buf v0 p Ew Hw]. split; [|split; [|split]].
  - intros f w'. exact (L f w').
  - intros f v c Hf Hv. cbn zeta. cbn [disk set_disk ws]. unfold upd_nat. destruct (Nat.eqb_spec f (name_of t)) as [->|N]; [|exact (D f v c Hf Hv)].
    destruct ((v =? v0) && p c); [|exact (D (name_of t) v c Hf Hv)].
    destruct (B w k buf Hw ltac:(rewrite Ew; reflexivity) v c Hv) as [B1 B2]. rewrite Ew in B1, B2. cbn [w_file] in B1, B2.
    destruct (Nat.eq_dec (owner c) w) as [Eo|Ne].
    + rewrite (B1 Eo), Eo, Ew. unfold past. cbn [w_file w_phase]. rewrite Nat.add_0_r. destruct (v <? k); [right|now left].
      split; [|reflexivity]. exists k, buf. auto.
    + left. exact (B2 Ne).
  - exact B.
  - exact R.
Qed.

Lemma ok_exec s s' : ok s -> exec_named S name_of s s' -> ok s'.
Proof.
  intros K H. induction H as [s|s w s' s'' H IH E|s s' s'' H IH F]; auto.
  - eapply ok_step; [apply IH; exact K|exact E].
  - eapply ok_flush; [apply IH; exact K|exact F].
Qed.

(** workers stop after the last group *)
Lemma past_bound s s' : exec_named S name_of s s' -> (forall w, w < nworkers S -> w_file (ws s w) <= nfiles S) -> forall w, w < nworkers S -> w_file (ws s' w) <= nfiles S.
Proof.
  intros H Z. induction H as [s|s w s' s'' H IH E|s s' s'' H IH F]; auto.
  - specialize (IH Z). unfold step_named in E.
    destruct ((nworkers S <=? w) || (nfiles S <=? w_file (ws s' w))) eqn:G; [discriminate|].
    apply orb_false_iff in G as [G1 G2]. apply Nat.leb_gt in G1. apply Nat.leb_gt in G2.
    intros u Hu. specialize (IH u Hu).
    destruct (w_phase (ws s' w));
      repeat match type of E with (if ?b then _ else _) = _ => destruct b; try discriminate E end;
      injection E as <-; cbn; unfold take, drop_part;
      repeat match goal with |- context [if ?b then set_plock _ _ _ else _] => destruct b end; cbn;
      (destruct (Nat.eq_dec u w) as [->|Ne]; [rewrite upd_same; cbn; lia|rewrite upd_other by exact Ne; exact IH]).
  - specialize (IH Z). destruct F as [s' w t k buf v0 p Ew Hw]. exact IH.
Qed.

Theorem shared_content old s : exec_named S name_of (start_named S name_of old) s ->
  (forall w, w < nworkers S -> nfiles S <= w_file (ws s w)) ->
  forall t v c, t < nfiles S -> v < nvars S -> owner c < nworkers S ->
  last_written S name_of (owner c) (nfiles S) (name_of t) v c (disk s (name_of t) v c).
Proof.
  intros X Fin t v c Ht Hv Ho. pose proof (ok_exec _ _ (ok_start old) X) as (L & D & B & R).
  assert (Wf : w_file (ws s (owner c)) = nfiles S).
  { apply Nat.le_antisymm; [|now apply Fin]. apply (past_bound _ _ X); [cbn; lia|exact Ho]. }
  assert (Q : w_phase (ws s (owner c)) = Idle).
  { clear - X Wf Ho. revert Wf. enough (Y : nfiles S <= w_file (ws s (owner c)) -> w_phase (ws s (owner c)) = Idle) by (intros W; apply Y; lia).
    remember (start_named S name_of old) as s0. revert Heqs0. induction X as [s|s w s' s'' H IH E|s s' s'' H IH F]; intros ->.
    - reflexivity.
    - specialize (IH eq_refl). unfold step_named in E.
      destruct ((nworkers S <=? w) || (nfiles S <=? w_file (ws s' w))) eqn:G; [discriminate|].
      apply orb_false_iff in G as [G1 G2]. apply Nat.leb_gt in G1. apply Nat.leb_gt in G2.
      destruct (w_phase (ws s' w));
        repeat match type of E with (if ?b then _ else _) = _ => destruct b; try discriminate E end;
        injection E as <-; cbn; unfold take, drop_part;
        repeat match goal with |- context [if ?b then set_plock _ _ _ else _] => destruct b end; cbn;
        (destruct (Nat.eq_dec (owner c) w) as [->|Ne]; [rewrite upd_same; cbn; try reflexivity; intros; lia|rewrite upd_other by exact Ne; exact IH]).
    - specialize (IH eq_refl). destruct F as [s' w t k buf v0 p Ew Hw]. exact IH. }
  destruct (D (name_of t) v c (named_file t Ht) Hv) as [H|[(k & b & A & _) _]]; [|rewrite Q in A; discriminate].
  rewrite H. unfold past. rewrite Wf, Q, Nat.add_0_r. apply last_spec.
Qed.

(** ** no deadlock *)
Definition holdsp (x : wstate (cell:=cell) (value:=value)) : bool :=
  match w_phase x with
  | Idle => false
  | Half => proc_first S (name_of (w_file x))
  | Locked | Writing _ _ | Closed => true
  | Half2 => negb (proc_first S (name_of (w_file x)))
  end.

Definition plocked (s : state) : Prop :=
  forall p w, proc_lock s p = Some w <-> (w < nworkers S /\ proc_of S w = p /\ holdsp (ws s w) = true).

Lemma plock_keep s s' w x' : plocked s -> proc_lock s' = proc_lock s -> ws s' = upd_nat (ws s) w x' -> holdsp x' = holdsp (ws s w) -> plocked s'.
Proof.
  intros L E1 E2 A p w'. rewrite E1, E2, (L p w'). destruct (Nat.eq_dec w' w) as [->|N]; [rewrite upd_same, A; tauto|now rewrite upd_other].
Qed.

Lemma plock_take s s' w x' : plocked s -> w < nworkers S -> proc_lock s (proc_of S w) = None ->
  proc_lock s' = upd_nat (proc_lock s) (proc_of S w) (Some w) -> ws s' = upd_nat (ws s) w x' -> holdsp x' = true -> plocked s'.
Proof.
  intros L Hw F E1 E2 A p w'. rewrite E1, E2. unfold upd_nat at 1. destruct (Nat.eqb_spec p (proc_of S w)) as [->|N].
  - split.
    + intros [= <-]. now rewrite upd_same.
    + intros (B & C & D). destruct (Nat.eq_dec w' w) as [->|N]; [reflexivity|]. rewrite upd_other in D by exact N.
      assert (X : proc_lock s (proc_of S w) = Some w') by (apply L; auto). congruence.
  - rewrite (L p w'). destruct (Nat.eq_dec w' w) as [->|N']; [|now rewrite upd_other].
    split; intros (B & C & D); congruence.
Qed.

Lemma plock_drop s s' w x' : plocked s -> w < nworkers S -> holdsp (ws s w) = true ->
  proc_lock s' = upd_nat (proc_lock s) (proc_of S w) None -> ws s' = upd_nat (ws s) w x' -> holdsp x' = false -> plocked s'.
Proof.
  intros L Hw F E1 E2 A p w'. rewrite E1, E2. unfold upd_nat at 1. destruct (Nat.eqb_spec p (proc_of S w)) as [->|N].
  - split; [discriminate|]. intros (B & C & D). destruct (Nat.eq_dec w' w) as [->|N]; [rewrite upd_same in D; congruence|].
    rewrite upd_other in D by exact N. assert (X : proc_lock s (proc_of S w) = Some w') by (apply L; auto).
    assert (Y : proc_lock s (proc_of S w) = Some w) by (apply L; auto). congruence.
  - rewrite (L p w'). destruct (Nat.eq_dec w' w) as [->|N']; [|now rewrite upd_other].
    split; intros (B & C & D); congruence.
Qed.

Lemma plocked_step s w s' : plocked s -> step_named S name_of s w = Some s' -> plocked s'.
Proof.
  intros L E. unfold step_named in E.
  destruct ((nworkers S <=? w) || (nfiles S <=? w_file (ws s w))) eqn:G; [discriminate|].
  apply orb_false_iff in G as [G1 _]. apply Nat.leb_gt in G1.
  set (t := w_file (ws s w)) in *. destruct (proc_first S (name_of t)) eqn:Pf; destruct (w_phase (ws s w)) as [| | |k buf| |] eqn:Ph; cbn [negb] in E.
  all: try (destruct (part_free S s w _ _) eqn:PF; [|discriminate]); try (destruct (k <? nvars S)); injection E as <-; cbn [take drop_part].
  all: try (unfold part_free in PF; destruct (proc_lock s (proc_of S w)) eqn:Fr; [discriminate|]).
  all: first [ eapply plock_keep; [exact L|reflexivity|reflexivity|]; unfold holdsp; cbn [w_phase w_file]; fold t; rewrite ?Ph, ?Pf; reflexivity
             | eapply plock_take; [exact L|exact G1|exact Fr|reflexivity|reflexivity|]; unfold holdsp; cbn [w_phase w_file]; fold t; rewrite ?Ph, ?Pf; reflexivity
             | eapply plock_drop; [exact L|exact G1| |reflexivity|reflexivity|]; unfold holdsp; cbn [w_phase w_file]; fold t; rewrite ?Ph, ?Pf; reflexivity ].
Qed.

Lemma plocked_exec s s' : plocked s -> exec_named S name_of s s' -> plocked s'.
Proof.
  intros L H. induction H as [s|s w s' s'' H IH E|s s' s'' H IH F]; auto.
  - eapply plocked_step; [apply IH; exact L|exact E].
  - specialize (IH L). destruct F as [s' w t k buf v0 p Ew Hw]. exact IH.
Qed.

Lemma named_total s w s' : bounded S s -> step_named S name_of s w = Some s' ->
  bounded S s' /\ total S s' (nworkers S) = total S s (nworkers S) + 1.
Proof.
  intros B E. unfold step_named in E.
  destruct ((nworkers S <=? w) || (nfiles S <=? w_file (ws s w))) eqn:G; [discriminate|].
  apply orb_false_iff in G as [G1 G2]. apply Nat.leb_gt in G1. apply Nat.leb_gt in G2.
  assert (K : exists x', ws s' = upd_nat (ws s) w x' /\ done_of S x' = done_of S (ws s w) + 1 /\
     ((w_file x' < nfiles S /\ pos S (w_phase x') <= 5 + nvars S /\
       (forall k b, w_phase x' = Writing k b -> k <= nvars S)) \/
      (w_file x' = nfiles S /\ w_phase x' = Idle))).
  { destruct (B w G1) as [(B1 & B2 & B3)|(B1 & _)]; [|lia].
    unfold done_of. destruct (ws s w) as [f ph]. cbn [w_file w_phase] in *.
    destruct ph as [| | |k buf| |]; simpl in E;
      repeat match type of E with
             | (if ?b then _ else _) = _ => destruct b eqn:?; [|discriminate || idtac]
             end; inversion E; subst; clear E; simpl; unfold take, drop_part;
      try (destruct (proc_first S (name_of f))); simpl; eexists; (split; [reflexivity|]); simpl;
      try match goal with
          | H : (_ <? _) = true |- _ => apply Nat.ltb_lt in H
          | H : (_ <? _) = false |- _ => apply Nat.ltb_ge in H
          end;
      try (specialize (B3 _ _ eq_refl));
      try (split; [lia|]; left; repeat split; [lia|lia|]; intros; try discriminate;
           match goal with H : _ = _ |- _ => inversion H; subst; lia end).
    all: split; [lia|]. all: destruct (Nat.eq_dec (f + 1) (nfiles S)); [right; auto|].
    all: left; repeat split; [lia|lia|]; intros; discriminate. }
  destruct K as (x' & E1 & E2 & E3). split.
  - intros w' Hw'. rewrite E1. destruct (Nat.eq_dec w' w) as [->|N]; [now rewrite upd_same|rewrite upd_other by exact N; now apply B].
  - rewrite (total_upd S s s' w).
    + apply Nat.ltb_lt in G1. now rewrite G1.
    + intros w' N. rewrite E1. now apply upd_other.
    + rewrite E1, upd_same. auto.
Qed.

Lemma bounded_exec s s' : bounded S s -> exec_named S name_of s s' -> bounded S s'.
Proof.
  intros B H. induction H as [s|s w s' s'' H IH E|s s' s'' H IH F]; auto.
  - exact (proj1 (named_total _ _ _ (IH B) E)).
  - specialize (IH B). destruct F as [s' w t k buf v0 p Ew Hw]. exact IH.
Qed.

Lemma bounded_start old : bounded S (start_named S name_of old).
Proof.
  intros w Hw. simpl. destruct (Nat.eq_dec (nfiles S) 0); [right; auto|left]. repeat split; try lia. discriminate.
Qed.

Lemma moves s w : w < nworkers S -> w_file (ws s w) < nfiles S ->
  match w_phase (ws s w) with Idle | Half => false | _ => true end = true -> exists s', step_named S name_of s w = Some s'.
Proof.
  intros Hw Hf Hb. unfold step_named. rewrite (proj2 (Nat.leb_gt _ _) Hw), (proj2 (Nat.leb_gt _ _) Hf). cbn [orb].
  destruct (w_phase (ws s w)); try discriminate; eauto. destruct (_ <? _); eauto.
Qed.

Lemma open_worker s w : bounded S s -> w < nworkers S -> w_phase (ws s w) <> Idle -> w_file (ws s w) < nfiles S.
Proof. intros B Hw N. destruct (B w Hw) as [(A & _)|(_ & A)]; [exact A|contradiction]. Qed.

Theorem named_progress old s : exec_named S name_of (start_named S name_of old) s -> ~ finished S s ->
  exists w s', step_named S name_of s w = Some s'.
Proof.
  intros X NF. pose proof (ok_exec _ _ (ok_start old) X) as (L & _ & _ & _).
  assert (P0 : plocked (start_named S name_of old)) by (intros p w; cbn; split; [discriminate|intros (_ & _ & H); discriminate H]).
  pose proof (plocked_exec _ _ P0 X) as LP. pose proof (bounded_exec _ _ (bounded_start old) X) as B.
  assert (Unf : exists w, w < nworkers S /\ w_file (ws s w) < nfiles S).
  { assert (Dec : forall m, (forall w, w < m -> nfiles S <= w_file (ws s w)) \/ exists w, w < m /\ w_file (ws s w) < nfiles S).
    { induction m as [|m [IH|(w & A & C)]].
      - left; intros; lia.
      - destruct (le_lt_dec (nfiles S) (w_file (ws s m))).
        + left. intros w Hw. destruct (Nat.eq_dec w m) as [->|]; auto. apply IH; lia.
        + right. eauto.
      - right. exists w. split; auto. }
    destruct (Dec (nworkers S)); auto. exfalso; apply NF; auto. }
  (* a worker that holds something and waits for the file *)
  assert (FileCase : forall w, w < nworkers S -> w_phase (ws s w) = Half -> proc_first S (name_of (w_file (ws s w))) = true ->
            exists w' s', step_named S name_of s w' = Some s').
  { intros w Hw Ph Pf. assert (Hf : w_file (ws s w) < nfiles S) by (apply open_worker; auto; congruence).
    destruct (file_lock s (name_of (w_file (ws s w)))) as [w'|] eqn:Ef.
    - apply L in Ef as (A & C & D). exists w'. apply moves; [exact A| |].
      + apply open_worker; auto. intros I. unfold holds in D. rewrite I in D. discriminate.
      + unfold holds in D. rewrite C, Pf in D. destruct (w_phase (ws s w')); auto; discriminate.
    - exists w. unfold step_named. rewrite (proj2 (Nat.leb_gt _ _) Hw), (proj2 (Nat.leb_gt _ _) Hf). cbn [orb].
      rewrite Ph, Pf. unfold part_free. cbn [negb]. rewrite Ef. eauto. }
  assert (HalfCase : forall w, w < nworkers S -> w_phase (ws s w) = Half -> exists w' s', step_named S name_of s w' = Some s').
  { intros w Hw Ph. destruct (proc_first S (name_of (w_file (ws s w)))) eqn:Pf; [exact (FileCase w Hw Ph Pf)|].
    assert (Hf : w_file (ws s w) < nfiles S) by (apply open_worker; auto; congruence).
    destruct (proc_lock s (proc_of S w)) as [w'|] eqn:Ep.
    - apply LP in Ep as (A & C & D). assert (N : w_phase (ws s w') <> Idle) by (intros I; unfold holdsp in D; rewrite I in D; discriminate).
      destruct (w_phase (ws s w')) eqn:Ph'; try (exists w'; apply moves; [exact A|apply open_worker; auto; congruence|now rewrite Ph']).
      apply (FileCase w' A Ph'). unfold holdsp in D. now rewrite Ph' in D.
    - exists w. unfold step_named. rewrite (proj2 (Nat.leb_gt _ _) Hw), (proj2 (Nat.leb_gt _ _) Hf). cbn [orb].
      rewrite Ph, Pf. unfold part_free. cbn [negb]. rewrite Ep. eauto. }
  destruct Unf as (w & Hw & Hf). destruct (w_phase (ws s w)) eqn:Ph.
  - (* wants its first part *)
    destruct (part_free S s w (name_of (w_file (ws s w))) (proc_first S (name_of (w_file (ws s w))))) eqn:PF.
    + exists w. unfold step_named. rewrite (proj2 (Nat.leb_gt _ _) Hw), (proj2 (Nat.leb_gt _ _) Hf). cbn [orb]. rewrite Ph, PF. eauto.
    + assert (H : exists w', w' < nworkers S /\ w_phase (ws s w') <> Idle).
      { unfold part_free in PF. destruct (proc_first S (name_of (w_file (ws s w)))).
        - destruct (proc_lock s (proc_of S w)) as [w'|] eqn:Ep; [|discriminate]. apply LP in Ep as (A & _ & D). exists w'. split; [exact A|].
          intros I. unfold holdsp in D. rewrite I in D. discriminate.
        - destruct (file_lock s (name_of (w_file (ws s w)))) as [w'|] eqn:Ep; [|discriminate]. apply L in Ep as (A & _ & D). exists w'. split; [exact A|].
          intros I. unfold holds in D. rewrite I in D. discriminate. }
      destruct H as (w' & A & N). destruct (w_phase (ws s w')) eqn:Ph'; try (exists w'; apply moves; [exact A|apply open_worker; auto; congruence|now rewrite Ph']).
      exact (HalfCase w' A Ph').
  - exact (HalfCase w Hw Ph).
  - exists w. apply moves; auto. now rewrite Ph.
  - exists w. apply moves; auto. now rewrite Ph.
  - exists w. apply moves; auto. now rewrite Ph.
  - exists w. apply moves; auto. now rewrite Ph.
Qed.

Theorem named_finish old s : exec_named S name_of (start_named S name_of old) s ->
  exists s', exec_named S name_of s s' /\ finished S s'.
Proof.
  intros X. assert (Gen : forall s1, exec_named S name_of (start_named S name_of old) s1 -> exec_named S name_of s s1 ->
    exists s', exec_named S name_of s s' /\ finished S s'); [|exact (Gen s X (named_refl _ _ _))].
  intros s1 X1. remember (nworkers S * (nfiles S * (6 + nvars S)) - total S s1 (nworkers S)) as k eqn:Ek.
  revert s1 X1 Ek. induction k as [k IH] using lt_wf_ind. intros s1 X1 Ek Y.
  assert (Dec : finished S s1 \/ ~ finished S s1).
  { assert (Gen : forall m, (forall w, w < m -> nfiles S <= w_file (ws s1 w)) \/ ~ (forall w, w < m -> nfiles S <= w_file (ws s1 w))).
    { induction m as [|m [IHm|IHm]].
      - left; intros; lia.
      - destruct (le_lt_dec (nfiles S) (w_file (ws s1 m))).
        + left. intros w Hw. destruct (Nat.eq_dec w m) as [->|]; auto. apply IHm; lia.
        + right. intros H. specialize (H m ltac:(lia)). lia.
      - right. intros H. apply IHm. intros; apply H; lia. }
    exact (Gen (nworkers S)). }
  destruct Dec as [F|F]; [eauto|]. destruct (named_progress old s1 X1 F) as (w & s' & St).
  pose proof (bounded_exec _ _ (bounded_start old) X1) as B. destruct (named_total _ _ _ B St) as [B' T'].
  pose proof (total_bound S s' (nworkers S) B' (le_n _)) as Bd.
  apply (IH (nworkers S * (nfiles S * (6 + nvars S)) - total S s' (nworkers S)) ltac:(lia) s'); [|reflexivity|].
  - eapply named_step; [exact X1|exact St].
  - eapply named_step; [exact Y|exact St].
Qed.

(** an execution takes a limited number of steps of the workers *)
Theorem named_limit old m s : takes S name_of m (start_named S name_of old) s -> m <= nworkers S * (nfiles S * (6 + nvars S)).
Proof.
  intros X. assert (G : bounded S s /\ m + total S (start_named S name_of old) (nworkers S) <= total S s (nworkers S)).
  { remember (start_named S name_of old) as s0 eqn:E0. induction X as [s|m s w s1 s2 X IH St|m s s1 s2 X IH Fl]; subst.
    - split; [apply bounded_start|lia].
    - destruct (IH eq_refl) as [B T]. destruct (named_total _ _ _ B St) as [B' T']. split; [exact B'|]. rewrite T'. lia.
    - destruct (IH eq_refl) as [B T]. destruct Fl as [s w t k buf v0 is_c0 Hw Lw]. split; [exact B|]. etransitivity; [exact T|]. apply Nat.eq_le_incl. symmetry. now apply total_ws. }
  destruct G as [B T]. pose proof (total_bound S s (nworkers S) B (le_n _)). lia.
Qed.
End M.
