From Coq Require Import List Bool Arith Lia.
From Verif Require Import Model.Machine.
Import ListNotations.

Section M.
Context {cell value : Type}.
Context (S : system cell value).
Notation state := (state cell value).

Definition disjoint_payloads : Prop :=
  forall w w' f v c x y, w < nworkers S -> w' < nworkers S ->
    payload S w f v c = Some x -> payload S w' f v c = Some y -> w = w'.
Context (Disj : disjoint_payloads).

Definition holds_proc (x : wstate (cell:=cell) (value:=value)) : bool :=
  match w_phase x with
  | Idle => false
  | Half => proc_first S (w_file x)
  | Locked | Writing _ _ | Closed => true
  | Half2 => negb (proc_first S (w_file x))
  end.
Definition holds_file (x : wstate (cell:=cell) (value:=value)) : bool :=
  match w_phase x with
  | Idle => false
  | Half => negb (proc_first S (w_file x))
  | Locked | Writing _ _ | Closed => true
  | Half2 => proc_first S (w_file x)
  end.

Definition locks_ok (s : state) : Prop :=
  (forall p w, proc_lock s p = Some w <->
     (w < nworkers S /\ proc_of S w = p /\ holds_proc (ws s w) = true)) /\
  (forall f w, file_lock s f = Some w <->
     (w < nworkers S /\ w_file (ws s w) = f /\ holds_file (ws s w) = true)).

Definition passed (s : state) (w f : nat) : Prop :=
  f < w_file (ws s w) \/
  (w_file (ws s w) = f /\ (w_phase (ws s w) = Closed \/ w_phase (ws s w) = Half2)).
Definition opened (s : state) (w f : nat) : Prop :=
  exists k buf, ws s w = mkw f (Writing k buf).

Definition disk_ok (s : state) : Prop :=
  forall f v c, f < nfiles S ->
    (forall w x, w < nworkers S -> v < nvars S -> passed s w f ->
       payload S w f v c = Some x -> disk s f v c = Some x) /\
    (forall x, disk s f v c = Some x ->
       exists w, w < nworkers S /\ (passed s w f \/ opened s w f) /\ payload S w f v c = Some x).

Definition buf_ok (s : state) : Prop :=
  forall w f k buf v c, w < nworkers S -> f < nfiles S -> ws s w = mkw f (Writing k buf) ->
    (forall w' x, w' < nworkers S -> v < nvars S -> passed s w' f ->
       payload S w' f v c = Some x -> buf v c = Some x) /\
    (forall x, v < k -> payload S w f v c = Some x -> buf v c = Some x) /\
    (forall x, buf v c = Some x ->
       exists w', w' < nworkers S /\ (passed s w' f \/ w' = w) /\ payload S w' f v c = Some x).

Definition inv (s : state) : Prop := locks_ok s /\ disk_ok s /\ buf_ok s.

Lemma upd_same {A} (g : nat -> A) k v : upd_nat g k v k = v.
Proof. unfold upd_nat. now rewrite Nat.eqb_refl. Qed.
Lemma upd_other {A} (g : nat -> A) k v x : x <> k -> upd_nat g k v x = g x.
Proof. unfold upd_nat. destruct (Nat.eqb_spec x k); congruence. Qed.

Lemma inv_start old : inv (start S old).
Proof.
  split; [|split].
  - split; intros; simpl; unfold holds_proc, holds_file; simpl; split; intros; try easy; destruct H as (?&?&?); easy.
  - intros f v c Hf. simpl. unfold setup_disk. apply Nat.ltb_lt in Hf. rewrite Hf.
    split; [|easy]. intros w x Hw Hv [H|[H [H1|H1]]]; simpl in *; try lia; discriminate.
  - intros w f k buf v c Hw Hf E. simpl in E. discriminate.
Qed.

(** mutual exclusion *)
Lemma file_mutex s w w' f : locks_ok s -> w < nworkers S -> w' < nworkers S ->
  w_file (ws s w) = f -> w_file (ws s w') = f ->
  holds_file (ws s w) = true -> holds_file (ws s w') = true -> w = w'.
Proof.
  intros [_ L] Hw Hw' F F' H H'.
  assert (A : file_lock s f = Some w) by (apply L; auto).
  assert (B : file_lock s f = Some w') by (apply L; auto). congruence.
Qed.

Ltac upd_tac :=
  repeat match goal with
  | |- context [upd_nat ?g ?k ?v ?k] => rewrite (upd_same g)
  | H : context [upd_nat ?g ?k ?v ?k] |- _ => rewrite (upd_same g) in H
  | H : ?x <> ?k |- context [upd_nat ?g ?k ?v ?x] => rewrite (upd_other g) by exact H
  | H : ?x <> ?k, H' : context [upd_nat ?g ?k ?v ?x] |- _ => rewrite (upd_other g) in H' by exact H
  | |- context [upd_nat ?g ?k ?v ?x] =>
      destruct (Nat.eq_dec x k) as [->|]; [rewrite (upd_same g) | rewrite (upd_other g) by assumption]
  | H : context [upd_nat ?g ?k ?v ?x] |- _ =>
      destruct (Nat.eq_dec x k) as [->|]; [rewrite (upd_same g) in H | rewrite (upd_other g) in H by assumption]
  end.

(** locks: a step that takes or drops one part *)
Lemma locks_take (s : state) w f (proc : bool) x' :
  locks_ok s -> w < nworkers S -> w_file (ws s w) = f ->
  part_free S s w f proc = true ->
  w_file x' = f ->
  holds_proc x' = (if proc then true else holds_proc (ws s w)) ->
  holds_file x' = (if proc then holds_file (ws s w) else true) ->
  locks_ok (set_w (take S s w f proc) w x').
Proof.
  intros [LP LF] Hw Hf PF Hx HP HF. unfold part_free in PF.
  destruct proc; simpl in *.
  - destruct (proc_lock s (proc_of S w)) eqn:E; [discriminate|].
    split; simpl.
    + intros p w'. unfold upd_nat at 1. destruct (Nat.eqb_spec p (proc_of S w)) as [->|N].
      * split.
        -- intros [= <-]. rewrite upd_same. auto.
        -- intros (A & B & C). upd_tac; [easy|].
           assert (proc_lock s (proc_of S w) = Some w') by (apply LP; auto). congruence.
      * rewrite LP. split; intros (A & B & C); repeat split; auto; upd_tac; auto; congruence.
    + intros g w'. rewrite LF. split; intros (A & B & C); repeat split; auto; upd_tac; auto; congruence.
  - destruct (file_lock s f) eqn:E; [discriminate|].
    split; simpl.
    + intros p w'. rewrite LP. split; intros (A & B & C); repeat split; auto; upd_tac; auto; congruence.
    + intros g w'. unfold upd_nat at 1. destruct (Nat.eqb_spec g f) as [->|N].
      * split.
        -- intros [= <-]. rewrite upd_same. auto.
        -- intros (A & B & C). upd_tac; [easy|].
           assert (file_lock s f = Some w') by (apply LF; auto). congruence.
      * rewrite LF. split; intros (A & B & C); repeat split; auto; upd_tac; auto; congruence.
Qed.

Lemma locks_same s s' w x' :
  locks_ok s -> proc_lock s' = proc_lock s -> file_lock s' = file_lock s ->
  ws s' = upd_nat (ws s) w x' -> w_file x' = w_file (ws s w) ->
  holds_proc x' = holds_proc (ws s w) -> holds_file x' = holds_file (ws s w) -> locks_ok s'.
Proof.
  intros [LP LF] E1 E2 E3 A B C. split; intros; rewrite ?E1, ?E2, E3.
  - rewrite LP. upd_tac; [rewrite B|]; tauto.
  - rewrite LF. upd_tac; [rewrite A, C|]; tauto.
Qed.

Lemma locks_drop (s : state) w f (proc : bool) x' :
  locks_ok s -> w < nworkers S -> w_file (ws s w) = f ->
  (if proc then holds_proc (ws s w) else holds_file (ws s w)) = true ->
  holds_proc x' = (if proc then false else holds_proc (ws s w)) ->
  holds_file x' = (if proc then holds_file (ws s w) else false) ->
  (w_file x' = f \/ holds_file x' = false) ->
  locks_ok (set_w (drop_part S s w f proc) w x').
Proof.
  intros [LP LF] Hw Hf HH HP HF Hx.
  destruct proc; simpl in *.
  - split; simpl.
    + intros p w'. unfold upd_nat at 1. destruct (Nat.eqb_spec p (proc_of S w)) as [->|N].
      * split; [easy|]. intros (A & B & C). upd_tac; [congruence|].
        assert (proc_lock s (proc_of S w) = Some w') by (apply LP; auto).
        assert (proc_lock s (proc_of S w) = Some w) by (apply LP; auto). congruence.
      * rewrite LP. split; intros (A & B & C); repeat split; auto; upd_tac; auto; try congruence.
    + intros g w'. rewrite LF. split; intros (A & B & C); repeat split; auto; upd_tac; auto; try congruence;
      destruct Hx; congruence.
  - split; simpl.
    + intros p w'. rewrite LP. split; intros (A & B & C); repeat split; auto; upd_tac; auto; try congruence.
    + intros g w'. unfold upd_nat at 1. destruct (Nat.eqb_spec g f) as [->|N].
      * split; [easy|]. intros (A & B & C). upd_tac; [congruence|].
        assert (file_lock s f = Some w') by (apply LF; auto).
        assert (file_lock s f = Some w) by (apply LF; auto). congruence.
      * rewrite LF. split; intros (A & B & C); repeat split; auto; upd_tac; auto; try congruence.
Qed.

(** content: a step of [w] that changes neither disk nor any buffer nor the
    set of workers that passed a file *)
Lemma content_same s s' w x' :
  disk_ok s -> buf_ok s -> disk s' = disk s -> ws s' = upd_nat (ws s) w x' ->
  (forall f, passed s' w f <-> passed s w f) ->
  (forall f, opened s w f -> opened s' w f) ->
  (forall f k buf, x' = mkw f (Writing k buf) -> ws s w = x') ->
  disk_ok s' /\ buf_ok s'.
Proof.
  intros D B E1 E2 P O W.
  assert (P' : forall w' f, passed s' w' f <-> passed s w' f).
  { intros w' f. destruct (Nat.eq_dec w' w) as [->|N]; [apply P|].
    unfold passed. rewrite E2, upd_other by auto. tauto. }
  assert (O' : forall w' f, opened s w' f -> opened s' w' f).
  { intros w' f. destruct (Nat.eq_dec w' w) as [->|N]; [apply O|].
    unfold opened. rewrite E2, upd_other by auto. tauto. }
  split.
  - intros f v c Hf. rewrite E1. destruct (D f v c Hf) as [D1 D2]. split.
    + intros w' x Hw Hv Hp. apply P' in Hp. eauto.
    + intros x Hx. destruct (D2 x Hx) as (w' & A & [A1|A1] & A2); exists w'; repeat split; auto.
      left. now apply P'.
  - intros w' f k buf v c Hw Hf E.
    assert (E' : ws s w' = mkw f (Writing k buf)).
    { rewrite E2 in E. upd_tac; auto. rewrite (W _ _ _ E). auto. }
    destruct (B w' f k buf v c Hw Hf E') as (B1 & B2 & B3). repeat split; auto.
    + intros w'' x Hw'' Hv Hp. apply P' in Hp. eauto.
    + intros x Hx. destruct (B3 x Hx) as (w'' & A & [A1|A1] & A2); exists w''; repeat split; auto.
      left. now apply P'.
Qed.

Lemma inv_step s w s' : inv s -> step S s w = Some s' -> inv s'.
Proof.
  intros (L & D & B) E. unfold step in E.
  destruct ((nworkers S <=? w) || (nfiles S <=? w_file (ws s w))) eqn:G; [discriminate|].
  apply orb_false_iff in G as [G1 G2]. apply Nat.leb_gt in G1. apply Nat.leb_gt in G2.
  destruct (ws s w) as [f ph] eqn:Ew. cbn [w_file w_phase] in *.
  destruct ph as [| | |k buf| |].
  - (* Idle *)
    destruct (part_free S s w f (proc_first S f)) eqn:PF; [|discriminate]. inversion E; subst; clear E.
    split.
    + apply locks_take; auto; try (rewrite Ew; auto); unfold holds_proc, holds_file; rewrite ?Ew; simpl;
      destruct (proc_first S f); auto.
    + apply content_same with (s := s) (w := w) (x' := mkw f Half); auto.
      * destruct (proc_first S f); reflexivity.
      * simpl. unfold take. destruct (proc_first S f); reflexivity.
      * intros g. unfold passed. simpl. rewrite upd_same, Ew. simpl. 
        split; intros [H|[H [H'|H']]]; auto; discriminate.
      * intros g (k & b & H). rewrite Ew in H. discriminate.
      * intros; discriminate.
  - (* Half *)
    destruct (part_free S s w f (negb (proc_first S f))) eqn:PF; [|discriminate]. inversion E; subst; clear E.
    split.
    + apply locks_take; auto; try (rewrite Ew; auto); unfold holds_proc, holds_file; rewrite ?Ew; simpl;
      destruct (proc_first S f); auto.
    + apply content_same with (s := s) (w := w) (x' := mkw f Locked); auto.
      * destruct (proc_first S f); reflexivity.
      * simpl. unfold take. destruct (proc_first S f); reflexivity.
      * intros g. unfold passed. simpl. rewrite upd_same, Ew. simpl. 
        split; intros [H|[H [H'|H']]]; auto; discriminate.
      * intros g (k & b & H). rewrite Ew in H. discriminate.
      * intros; discriminate.
  - (* Locked -> Writing 0 *)
    inversion E; subst; clear E.
    assert (P' : forall w' g, passed (set_w s w (mkw f (Writing 0 (disk s f)))) w' g <-> passed s w' g).
    { intros w' g. unfold passed. simpl. destruct (Nat.eq_dec w' w) as [->|N].
      - rewrite upd_same, Ew. simpl. split; intros [H|[H [H'|H']]]; auto; discriminate.
      - now rewrite upd_other by auto. }
    split; [|split].
    + eapply locks_same with (s := s) (w := w); try reflexivity; auto; simpl; rewrite ?Ew; auto.
    + intros g v c Hg. destruct (D g v c Hg) as [D1 D2]. simpl. split.
      * intros w' x Hw Hv Hp. apply P' in Hp. eauto.
      * intros x Hx. destruct (D2 x Hx) as (w' & A & [A1|A1] & A2); exists w'; repeat split; auto.
        -- left. now apply P'.
        -- right. destruct A1 as (k & b & A1). unfold opened. simpl.
           destruct (Nat.eq_dec w' w) as [->|N]; [rewrite Ew in A1; discriminate|].
           rewrite upd_other by auto. eauto.
    + intros w' g k buf v c Hw Hg E. simpl in E. upd_tac.
      * inversion E; subst. destruct (D g v c Hg) as [D1 D2]. repeat split.
        -- intros w' x Hw' Hv Hp. apply P' in Hp. eauto.
        -- intros; lia.
        -- intros x Hx. destruct (D2 x Hx) as (w' & A & [A1|A1] & A2).
           ++ exists w'; repeat split; auto. left; now apply P'.
           ++ exfalso. destruct A1 as (k & b & A1).
              assert (w = w').
              { apply (file_mutex s w w' g); auto; rewrite ?Ew, ?A1; auto. }
              subst. rewrite Ew in A1. discriminate.
      * destruct (B w' g k buf v c Hw Hg E) as (B1 & B2 & B3). repeat split; auto.
        -- intros w'' x Hw'' Hv Hp. apply P' in Hp. eauto.
        -- intros x Hx. destruct (B3 x Hx) as (w'' & A & [A1|A1] & A2); exists w''; repeat split; auto.
           left. now apply P'.
  - (* Writing *)
    destruct (Nat.ltb_spec k (nvars S)).
    + (* assign *)
      inversion E; subst; clear E.
      set (x' := mkw f (Writing (k + 1) (assign S w f k buf))).
      assert (P' : forall w' g, passed (set_w s w x') w' g <-> passed s w' g).
      { intros w' g. unfold passed. simpl. destruct (Nat.eq_dec w' w) as [->|N].
        - rewrite upd_same, Ew. simpl. split; intros [H'|[H' [H''|H'']]]; auto; discriminate.
        - now rewrite upd_other by auto. }
      split; [|split].
      * eapply locks_same with (s := s) (w := w); try reflexivity; auto; simpl; rewrite ?Ew; auto.
      * intros g v c Hg. destruct (D g v c Hg) as [D1 D2]. simpl. split.
        -- intros w' x Hw Hv Hp. apply P' in Hp. eauto.
        -- intros x Hx. destruct (D2 x Hx) as (w' & A & [A1|A1] & A2); exists w'; repeat split; auto.
           ++ left. now apply P'.
           ++ right. destruct A1 as (k' & b & A1). unfold opened. simpl.
              destruct (Nat.eq_dec w' w) as [->|N]; [|rewrite upd_other by auto; eauto].
              rewrite upd_same. rewrite Ew in A1. inversion A1; subst. unfold x'. eauto.
      * intros w' g k' buf' v c Hw Hg E. simpl in E. upd_tac.
        -- unfold x' in E. inversion E; subst; clear E.
           destruct (B w g k buf v c Hw Hg Ew) as (B1 & B2 & B3). repeat split.
           ++ intros w' x Hw' Hv Hp. apply P' in Hp. intros Hx. unfold assign.
              destruct (Nat.eqb_spec v k); [|eauto].
              destruct (payload S w g v c) eqn:Pl; [|eauto].
              assert (w = w') by (eapply Disj; eauto). subst. congruence.
           ++ intros x Hv Hx. unfold assign. destruct (Nat.eqb_spec v k).
              ** now rewrite Hx.
              ** apply B2; auto. lia.
           ++ intros x. unfold assign. destruct (Nat.eqb_spec v k).
              ** destruct (payload S w g v c) eqn:Pl.
                 --- intros [= <-]. exists w. auto.
                 --- intros Hx. destruct (B3 x Hx) as (w' & A & [A1|A1] & A2); exists w'; repeat split; auto.
                     left; now apply P'.
              ** intros Hx. destruct (B3 x Hx) as (w' & A & [A1|A1] & A2); exists w'; repeat split; auto.
                 left; now apply P'.
        -- destruct (B w' g k' buf' v c Hw Hg E) as (B1 & B2 & B3). repeat split; auto.
           ++ intros w'' x Hw'' Hv Hp. apply P' in Hp. eauto.
           ++ intros x Hx. destruct (B3 x Hx) as (w'' & A & [A1|A1] & A2); exists w''; repeat split; auto.
              left. now apply P'.
    + (* close *)
      inversion E; subst; clear E.
      assert (Mut : forall w', w' < nworkers S -> holds_file (ws s w') = true -> w_file (ws s w') = f -> w' = w).
      { intros w' Hw' Hh Hf. symmetry. apply (file_mutex s w w' f); auto; rewrite Ew; auto. }
      set (s' := set_w (set_disk s f buf) w (mkw f Closed)).
      assert (P' : forall w' g, passed s' w' g <-> (passed s w' g \/ (w' = w /\ g = f))).
      { intros w' g. unfold passed, s'. simpl. destruct (Nat.eq_dec w' w) as [->|N].
        - rewrite upd_same, Ew. simpl. split.
          + intros [H'|[H' _]]; auto.
          + intros [[H'|[H' [H''|H'']]]|[_ ->]]; auto; discriminate.
        - rewrite upd_other by auto. tauto. }
      split; [|split].
      * eapply locks_same with (s := s) (w := w); try reflexivity; auto; simpl; rewrite ?Ew; auto.
      * intros g v c Hg. unfold s' at 2 3. simpl.
        destruct (Nat.eq_dec g f) as [->|N].
        -- rewrite upd_same. destruct (B w f k buf v c G1 Hg Ew) as (B1 & B2 & B3). split.
           ++ intros w' x Hw Hv Hp. apply P' in Hp as [Hp|[-> _]]; [eauto|].
              intros. apply B2; auto. lia.
           ++ intros x Hx. destruct (B3 x Hx) as (w' & A & [A1| ->] & A2).
              ** exists w'; repeat split; auto. left. apply P'; auto.
              ** exists w; repeat split; auto. left. apply P'; auto.
        -- rewrite upd_other by auto. destruct (D g v c Hg) as [D1 D2]. split.
           ++ intros w' x Hw Hv Hp. apply P' in Hp as [Hp|[-> ->]]; [eauto|congruence].
           ++ intros x Hx. destruct (D2 x Hx) as (w' & A & [A1|A1] & A2); exists w'; repeat split; auto.
              ** left. apply P'; auto.
              ** right. destruct A1 as (k' & b & A1). unfold opened, s'. simpl.
                 rewrite upd_other; eauto. intros ->. rewrite Ew in A1. congruence.
      * intros w' g k' buf' v c Hw Hg E. unfold s' in E. simpl in E. upd_tac; [discriminate|].
        assert (g <> f).
        { intros ->. apply n. apply Mut; auto; rewrite E; auto. }
        destruct (B w' g k' buf' v c Hw Hg E) as (B1 & B2 & B3). repeat split; auto.
        -- intros w'' x Hw'' Hv Hp. apply P' in Hp as [Hp|[-> ->]]; [eauto|congruence].
        -- intros x Hx. destruct (B3 x Hx) as (w'' & A & [A1|A1] & A2); exists w''; repeat split; auto.
           left. apply P'; auto.
  - (* Closed -> Half2 *)
    inversion E; subst; clear E. split.
    + apply locks_drop; auto; rewrite ?Ew; auto; unfold holds_proc, holds_file; rewrite ?Ew; simpl;
      destruct (proc_first S f); auto.
    + apply content_same with (s := s) (w := w) (x' := mkw f Half2); auto.
      * unfold drop_part. destruct (proc_first S f); reflexivity.
      * simpl. unfold drop_part. destruct (proc_first S f); reflexivity.
      * intros g. unfold passed. simpl. rewrite upd_same, Ew. simpl. tauto.
      * intros g (k & b & H). rewrite Ew in H. discriminate.
      * intros; discriminate.
  - (* Half2 -> next file *)
    inversion E; subst; clear E. split.
    + apply locks_drop; auto; rewrite ?Ew; auto; unfold holds_proc, holds_file; rewrite ?Ew; simpl;
      destruct (proc_first S f); auto.
    + apply content_same with (s := s) (w := w) (x' := mkw (f + 1) Idle); auto.
      * unfold drop_part. destruct (proc_first S f); reflexivity.
      * simpl. unfold drop_part. destruct (proc_first S f); reflexivity.
      * intros g. unfold passed. simpl. rewrite upd_same, Ew. simpl. split.
        -- intros [H|[H [H'|H']]]; try discriminate.
           destruct (Nat.eq_dec g f); [right; auto | left; lia].
        -- intros [H|[H _]]; left; lia.
      * intros g (k & b & H). rewrite Ew in H. discriminate.
      * intros; discriminate.
Qed.

Lemma inv_flush s s' : inv s -> flush S s s' -> inv s'.
Proof.
  intros (L & D & B) F. destruct F as [s w f k buf v0 p Ew Hw].
  split; [|split].
  - destruct L as [LP LF]. split; intros; simpl; auto.
  - intros g v c Hg. simpl.
    destruct (D g v c Hg) as [D1 D2].
    destruct (Nat.eq_dec g f) as [->|N]; [rewrite upd_same|rewrite upd_other by auto; split; auto].
    destruct (B w f k buf v c Hw Hg Ew) as (B1 & B2 & B3).
    destruct ((v =? v0) && p c).
    + split; [exact B1|]. intros x Hx. destruct (B3 x Hx) as (w' & A & [A1| ->] & A2).
      * exists w'; repeat split; auto.
      * exists w; repeat split; auto. right. exists k, buf. exact Ew.
    + split; auto.
  - intros w' g k' buf' v c Hw' Hg E. exact (B w' g k' buf' v c Hw' Hg E).
Qed.

Lemma inv_exec n s s' : inv s -> exec S n s s' -> inv s'.
Proof.
  intros I H. induction H as [|n s w s' s'' H IH E|n s s' s'' H IH F]; auto.
  - eapply inv_step; [apply IH; auto|eauto].
  - eapply inv_flush; [apply IH; auto|eauto].
Qed.

(** ** final content *)
Theorem final_content old n s :
  exec S n (start S old) s -> finished S s ->
  forall f v c, f < nfiles S -> v < nvars S ->
    (forall w x, w < nworkers S -> payload S w f v c = Some x -> disk s f v c = Some x) /\
    ((forall w, w < nworkers S -> payload S w f v c = None) -> disk s f v c = None).
Proof.
  intros H Fin f v c Hf Hv. pose proof (inv_exec _ _ _ (inv_start old) H) as (L & D & B).
  destruct (D f v c Hf) as [D1 D2]. split.
  - intros w x Hw Hx. eapply D1; eauto. left. specialize (Fin w Hw). lia.
  - intros HN. destruct (disk s f v c) eqn:E; auto.
    destruct (D2 _ eq_refl) as (w & A & _ & A2). rewrite HN in A2 by auto. discriminate.
Qed.

(** ** every intermediate content *)
Theorem intermediate_content old n s :
  exec S n (start S old) s ->
  forall f v c, f < nfiles S ->
    disk s f v c = None \/
    exists w x, w < nworkers S /\ payload S w f v c = Some x /\ disk s f v c = Some x.
Proof.
  intros H f v c Hf. pose proof (inv_exec _ _ _ (inv_start old) H) as (L & D & B).
  destruct (disk s f v c) eqn:E; auto. right.
  destruct (D f v c Hf) as [_ D2]. destruct (D2 _ E) as (w & A & _ & A2). eauto.
Qed.

(** files that are not part of the run are never touched *)
Lemma files_only n s s' : exec S n s s' ->
  (forall w, w < nworkers S -> w_file (ws s w) <= nfiles S) ->
  (forall w k buf, w < nworkers S -> w_phase (ws s w) = Writing k buf -> w_file (ws s w) < nfiles S) ->
  (forall w k buf, w < nworkers S -> w_phase (ws s' w) = Writing k buf -> w_file (ws s' w) < nfiles S) /\
  (forall f, nfiles S <= f -> disk s' f = disk s f).
Proof.
  intros H _ W. induction H as [s|n s w s' s'' H IH E|n s s' s'' H IH F].
  - auto.
  - destruct (IH W) as [IH1 IH2]. unfold step in E.
    destruct ((nworkers S <=? w) || (nfiles S <=? w_file (ws s' w))) eqn:G; [discriminate|].
    apply orb_false_iff in G as [G1 G2]. apply Nat.leb_gt in G1. apply Nat.leb_gt in G2.
    destruct (w_phase (ws s' w)) eqn:Ph;
      repeat match type of E with
             | (if ?b then _ else _) = _ => destruct b; [|discriminate || idtac]
             end; inversion E; subst; clear E;
      try (split; [intros w' k' b' Hw' HH; simpl in *; unfold take, drop_part in *;
                   repeat match goal with
                   | H : context [if ?b then set_plock _ _ _ else _] |- _ => destruct b
                   | |- context [if ?b then set_plock _ _ _ else _] => destruct b
                   end; simpl in *; upd_tac; simpl in *; eauto; discriminate
                  | intros f Hf; simpl; unfold take, drop_part;
                   repeat match goal with
                   | |- context [if ?b then set_plock _ _ _ else _] => destruct b
                   end; simpl; upd_tac; eauto; try lia]).
  - destruct (IH W) as [IH1 IH2]. destruct F as [s' w f k buf v0 p Ew Hw]. split; auto.
    intros g Hg. simpl. upd_tac; auto.
    assert (w_file (ws s' w) < nfiles S) by (eapply IH1; eauto; rewrite Ew; reflexivity).
    rewrite Ew in *. simpl in *. lia.
Qed.

Theorem other_files_untouched old n s :
  exec S n (start S old) s -> forall f, nfiles S <= f -> disk s f = old f.
Proof.
  intros H f Hf. destruct (files_only _ _ _ H) as [_ E].
  - intros; simpl; lia.
  - intros; simpl in *; discriminate.
  - rewrite E by auto. simpl. unfold setup_disk. destruct (Nat.ltb_spec f (nfiles S)); [lia|easy].
Qed.

(** ** progress *)
Definition can_step (s : state) (w : nat) : Prop := exists s', step S s w = Some s'.

Definition busy (s : state) (w : nat) : bool :=
  match w_phase (ws s w) with Idle | Half => false | _ => true end.

Lemma busy_can_step s w : w < nworkers S -> w_file (ws s w) < nfiles S -> busy s w = true -> can_step s w.
Proof.
  intros Hw Hf Hb. unfold can_step, step, busy in *.
  replace (nworkers S <=? w) with false by (symmetry; apply Nat.leb_gt; auto).
  replace (nfiles S <=? w_file (ws s w)) with false by (symmetry; apply Nat.leb_gt; auto).
  simpl. destruct (w_phase (ws s w)); try discriminate; eauto.
  destruct (k <? nvars S); eauto.
Qed.

(** a worker waiting for its second lock part *)
Lemma half_progress s w : locks_ok s -> w < nworkers S -> w_file (ws s w) < nfiles S ->
  (forall w', w' < nworkers S -> w_phase (ws s w') <> Idle -> w_file (ws s w') < nfiles S) ->
  w_phase (ws s w) = Half -> exists w', can_step s w'.
Proof.
  intros L Hw Hf Bd Ph. destruct L as [LP LF].
  assert (FileCase : forall w, w < nworkers S -> w_file (ws s w) < nfiles S ->
            w_phase (ws s w) = Half -> proc_first S (w_file (ws s w)) = true -> exists w', can_step s w').
  { clear w Hw Hf Ph. intros w Hw Hf Ph Pf.
    destruct (file_lock s (w_file (ws s w))) as [w'|] eqn:E.
    - pose proof E as E0. apply LF in E as (A & B & C). exists w'. apply busy_can_step; auto.
      + rewrite B; auto.
      + unfold busy. unfold holds_file in C. rewrite B in C.
        destruct (w_phase (ws s w')); auto. rewrite Pf in C. discriminate.
    - exists w. unfold can_step, step.
      replace (nworkers S <=? w) with false by (symmetry; apply Nat.leb_gt; auto).
      replace (nfiles S <=? w_file (ws s w)) with false by (symmetry; apply Nat.leb_gt; auto).
      simpl. rewrite Ph, Pf. unfold part_free. simpl. rewrite E. eauto. }
  destruct (proc_first S (w_file (ws s w))) eqn:Pf; [eauto|].
  destruct (proc_lock s (proc_of S w)) as [w'|] eqn:E.
  - pose proof E as E0. apply LP in E as (A & B & C).
    destruct (w_phase (ws s w')) eqn:Ph'; unfold holds_proc in C; rewrite Ph' in C; try discriminate.
    + apply (FileCase w'); auto. apply Bd; auto. congruence.
    + exists w'. apply busy_can_step; auto; [apply Bd; auto; congruence | unfold busy; rewrite Ph'; auto].
    + exists w'. apply busy_can_step; auto; [apply Bd; auto; congruence | unfold busy; rewrite Ph'; auto].
    + exists w'. apply busy_can_step; auto; [apply Bd; auto; congruence | unfold busy; rewrite Ph'; auto].
    + exists w'. apply busy_can_step; auto; [apply Bd; auto; congruence | unfold busy; rewrite Ph'; auto].
  - exists w. unfold can_step, step.
    replace (nworkers S <=? w) with false by (symmetry; apply Nat.leb_gt; auto).
    replace (nfiles S <=? w_file (ws s w)) with false by (symmetry; apply Nat.leb_gt; auto).
    simpl. rewrite Ph, Pf. unfold part_free. simpl. rewrite E. eauto.
Qed.

(** workers between files are Idle *)
Definition between_ok (s : state) : Prop :=
  forall w, w < nworkers S -> w_phase (ws s w) <> Idle -> w_file (ws s w) < nfiles S.

Lemma between_exec n s s' : exec S n s s' -> between_ok s -> between_ok s'.
Proof.
  intros H B. induction H as [|n s w s' s'' H IH E|n s s' s'' H IH F]; auto.
  - specialize (IH B). intros w' Hw' Hp. unfold step in E.
    destruct ((nworkers S <=? w) || (nfiles S <=? w_file (ws s' w))) eqn:G; [discriminate|].
    apply orb_false_iff in G as [G1 G2]. apply Nat.leb_gt in G1. apply Nat.leb_gt in G2.
    destruct (w_phase (ws s' w)) eqn:Ph;
      repeat match type of E with
             | (if ?b then _ else _) = _ => destruct b; [|discriminate || idtac]
             end; inversion E; subst; clear E; simpl in *; unfold take, drop_part in *;
      repeat match goal with
             | H : context [if ?b then set_plock _ _ _ else _] |- _ => destruct b
             | |- context [if ?b then set_plock _ _ _ else _] => destruct b
             end; simpl in *; upd_tac; simpl in *; auto; congruence.
  - specialize (IH B). destruct F. intros w' Hw' Hp. simpl in *. auto.
Qed.

Lemma locks_progress s : locks_ok s -> between_ok s -> ~ finished S s -> exists w, can_step s w.
Proof.
  intros I Bt NF.
  (* some worker is unfinished *)
  assert (U : exists w, w < nworkers S /\ w_file (ws s w) < nfiles S).
  { assert (Dec : forall m, (forall w, w < m -> nfiles S <= w_file (ws s w)) \/
                            exists w, w < m /\ w_file (ws s w) < nfiles S).
    { induction m as [|m [IH|IH]].
      - left; intros; lia.
      - destruct (le_lt_dec (nfiles S) (w_file (ws s m))).
        + left. intros w Hw. destruct (Nat.eq_dec w m) as [->|]; auto. apply IH; lia.
        + right. eauto.
      - right. destruct IH as (w & A & B). exists w; split; auto. }
    destruct (Dec (nworkers S)); auto. exfalso; apply NF; auto. }
  (* is some worker of the run not Idle? *)
  assert (Dec : forall m, m <= nworkers S ->
     (forall w, w < m -> w_phase (ws s w) = Idle) \/
     exists w, w < m /\ w_phase (ws s w) <> Idle).
  { induction m as [|m IH]; intros Hm.
    - left; intros; lia.
    - destruct IH as [IH|(w & A & B)]; [lia| |right; eauto].
      assert (w_phase (ws s m) = Idle \/ w_phase (ws s m) <> Idle) as [E|E]
        by (destruct (w_phase (ws s m)); auto; right; congruence).
      + left. intros w Hw. destruct (Nat.eq_dec w m) as [->|]; auto. apply IH; lia.
      + right; eauto. }
  destruct (Dec (nworkers S) (le_n _)) as [AllIdle|(w & Hw & Hn)].
  - destruct U as (w & Hw & Hf). exists w. unfold can_step, step.
    replace (nworkers S <=? w) with false by (symmetry; apply Nat.leb_gt; auto).
    replace (nfiles S <=? w_file (ws s w)) with false by (symmetry; apply Nat.leb_gt; auto).
    simpl. rewrite (AllIdle w Hw).
    destruct I as [LP LF].
    unfold part_free. destruct (proc_first S (w_file (ws s w))).
    + destruct (proc_lock s (proc_of S w)) as [w'|] eqn:E; [|eauto].
      apply LP in E as (A & _ & C). unfold holds_proc in C. rewrite (AllIdle w' A) in C. discriminate.
    + destruct (file_lock s (w_file (ws s w))) as [w'|] eqn:E; [|eauto].
      apply LF in E as (A & _ & C). unfold holds_file in C. rewrite (AllIdle w' A) in C. discriminate.
  - destruct (w_phase (ws s w)) eqn:Ph; try congruence.
    + eapply half_progress; eauto. apply Bt; auto. congruence.
    + exists w. apply busy_can_step; auto; [apply Bt; auto; congruence | unfold busy; rewrite Ph; auto].
    + exists w. apply busy_can_step; auto; [apply Bt; auto; congruence | unfold busy; rewrite Ph; auto].
    + exists w. apply busy_can_step; auto; [apply Bt; auto; congruence | unfold busy; rewrite Ph; auto].
    + exists w. apply busy_can_step; auto; [apply Bt; auto; congruence | unfold busy; rewrite Ph; auto].
Qed.

Theorem progress old n s :
  exec S n (start S old) s -> ~ finished S s -> exists w, can_step s w.
Proof.
  intros H. apply locks_progress; [exact (proj1 (inv_exec _ _ _ (inv_start old) H))|].
  eapply between_exec; [exact H|]. intros w Hw Hp. simpl in Hp. congruence.
Qed.

(** ** bound on the number of program steps *)
Definition pos (p : phase (cell:=cell) (value:=value)) : nat :=
  match p with
  | Idle => 0 | Half => 1 | Locked => 2 | Writing k _ => 3 + k
  | Closed => 4 + nvars S | Half2 => 5 + nvars S
  end.
Definition done_of (x : wstate (cell:=cell) (value:=value)) : nat :=
  w_file x * (6 + nvars S) + pos (w_phase x).
Fixpoint total (s : state) (m : nat) : nat :=
  match m with O => 0 | Datatypes.S m' => total s m' + done_of (ws s m') end.

Definition bounded (s : state) : Prop :=
  forall w, w < nworkers S ->
    (w_file (ws s w) < nfiles S /\ pos (w_phase (ws s w)) <= 5 + nvars S /\
       (forall k b, w_phase (ws s w) = Writing k b -> k <= nvars S)) \/
    (w_file (ws s w) = nfiles S /\ w_phase (ws s w) = Idle).

Lemma total_upd s s' w : (forall w', w' <> w -> ws s' w' = ws s w') ->
  done_of (ws s' w) = done_of (ws s w) + 1 ->
  forall m, total s' m = total s m + (if w <? m then 1 else 0).
Proof.
  intros O E. induction m; simpl; [easy|]. rewrite IHm.
  destruct (Nat.eq_dec m w) as [->|N].
  - rewrite E. destruct (Nat.ltb_spec w w); [lia|]. destruct (Nat.ltb_spec w (Datatypes.S w)); lia.
  - rewrite O by auto. destruct (Nat.ltb_spec w m), (Nat.ltb_spec w (Datatypes.S m)); lia.
Qed.

Lemma total_ws s s' : ws s' = ws s -> forall m, total s' m = total s m.
Proof. intros E. induction m; simpl; rewrite ?E; auto. Qed.

Lemma step_total s w s' : bounded s -> step S s w = Some s' ->
  bounded s' /\ total s' (nworkers S) = total s (nworkers S) + 1.
Proof.
  intros B E. unfold step in E.
  destruct ((nworkers S <=? w) || (nfiles S <=? w_file (ws s w))) eqn:G; [discriminate|].
  apply orb_false_iff in G as [G1 G2]. apply Nat.leb_gt in G1. apply Nat.leb_gt in G2.
  assert (K : exists x', ws s' = upd_nat (ws s) w x' /\ done_of x' = done_of (ws s w) + 1 /\
     ((w_file x' < nfiles S /\ pos (w_phase x') <= 5 + nvars S /\
       (forall k b, w_phase x' = Writing k b -> k <= nvars S)) \/
      (w_file x' = nfiles S /\ w_phase x' = Idle))).
  { destruct (B w G1) as [(B1 & B2 & B3)|(B1 & _)]; [|lia].
    unfold done_of.
    destruct (ws s w) as [f ph]. cbn [w_file w_phase] in *.
    destruct ph as [| | |k buf| |]; simpl in E;
      repeat match type of E with
             | (if ?b then _ else _) = _ => destruct b eqn:?; [|discriminate || idtac]
             end; inversion E; subst; clear E; simpl; unfold take, drop_part;
      try (destruct (proc_first S f)); simpl; eexists; (split; [reflexivity|]); simpl;
      try match goal with
          | H : (_ <? _) = true |- _ => apply Nat.ltb_lt in H
          | H : (_ <? _) = false |- _ => apply Nat.ltb_ge in H
          end;
      try (specialize (B3 _ _ eq_refl));
      try (split; [lia|]; left; repeat split; [lia|lia|]; intros; try discriminate;
           match goal with H : _ = _ |- _ => inversion H; subst; lia end).
    all: split; [lia|]. all: destruct (Nat.eq_dec (f + 1) (nfiles S)); [right; auto|].
    all: left; repeat split; [lia|lia|]; intros; discriminate. }
  destruct K as (x' & E1 & E2 & E3). split.
  - intros w' Hw'. rewrite E1. upd_tac; auto.
  - rewrite (total_upd s s' w).
    + apply Nat.ltb_lt in G1. now rewrite G1.
    + intros w' N. rewrite E1. now apply upd_other.
    + rewrite E1, upd_same. auto.
Qed.

Lemma exec_total n s s' : exec S n s s' -> bounded s ->
  bounded s' /\ total s' (nworkers S) = total s (nworkers S) + n.
Proof.
  intros H B. induction H as [|n s w s' s'' H IH E|n s s' s'' H IH F].
  - split; auto.
  - destruct (IH B) as [B' T]. destruct (step_total _ _ _ B' E) as [B'' T']. split; auto. lia.
  - destruct (IH B) as [B' T]. destruct F as [s' w f k buf v0 p Ew Hw]. split; [exact B'|].
    rewrite (total_ws s'); auto.
Qed.

Lemma total_bound s m : bounded s -> m <= nworkers S -> total s m <= m * (nfiles S * (6 + nvars S)).
Proof.
  intros B. induction m; intros Hm; simpl; [lia|].
  specialize (IHm ltac:(lia)). destruct (B m ltac:(lia)) as [(B1 & B2 & _)|(B1 & B2)];
  unfold done_of.
  - assert (w_file (ws s m) * (6 + nvars S) + (6 + nvars S) <= nfiles S * (6 + nvars S)) by nia. lia.
  - rewrite B1, B2. simpl. lia.
Qed.

Theorem steps_bounded old n s :
  exec S n (start S old) s -> n <= nworkers S * (nfiles S * (6 + nvars S)).
Proof.
  intros H.
  assert (B0 : bounded (start S old)).
  { intros w Hw. simpl. destruct (Nat.eq_dec (nfiles S) 0); [right; auto|left].
    repeat split; try lia. discriminate. }
  destruct (exec_total _ _ _ H B0) as [B T].
  pose proof (total_bound s (nworkers S) B (le_n _)). 
  assert (Z0 : forall m, total (start S old) m = 0).
  { induction m; simpl; auto. rewrite IHm. unfold done_of. simpl. lia. }
  rewrite Z0 in T. lia.
Qed.

End M.
