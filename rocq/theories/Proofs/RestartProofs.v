From Coq Require Import List Bool Arith Lia.
From Verif Require Import Model.Machine Model.Restart Spec.WriterSpec Proofs.MachineProofs Proofs.SliceProofs Proofs.WriterProofs.
Import ListNotations.

Section R.
Context {cell value : Type}.
Context (S : system cell value).
Context (Disj : disjoint_owners S).
Notation state := (state cell value).

Ltac upd_tac :=
  repeat match goal with
  | |- context [upd_nat ?g ?k ?v ?k] => rewrite (upd_same g)
  | H : context [upd_nat ?g ?k ?v ?k] |- _ => rewrite (upd_same g) in H
  | H : ?x <> ?k |- context [upd_nat ?g ?k ?v ?x] => rewrite (upd_other g) by exact H
  | H : ?x <> ?k, H' : context [upd_nat ?g ?k ?v ?x] |- _ => rewrite (upd_other g) in H' by exact H
  | |- context [upd_nat ?g ?k ?v ?x] =>
      destruct (Nat.eq_dec x k) as [->|]; [rewrite (upd_same g) | rewrite (upd_other g) by assumption]
  | H : context [upd_nat ?g ?k ?v ?x] |- _ =>
      destruct (Nat.eq_dec x k) as [->|]; [rewrite (upd_same g) in H | rewrite (upd_other g) in H by assumption]
  end.

(** a worker that holds the lock of a file is its holder *)
Definition file_safe (s : state) : Prop :=
  forall w, w < nworkers S -> holds_file S (ws s w) = true -> file_lock s (w_file (ws s w)) = Some w.

Definition disk_safe (s : state) : Prop :=
  forall f v c, f < nfiles S ->
    (forall w x, w < nworkers S -> v < nvars S -> passed s w f -> payload S w f v c = Some x -> disk s f v c = Some x) /\
    (forall x, disk s f v c = Some x -> exists w, w < nworkers S /\ payload S w f v c = Some x).

Definition buf_safe (s : state) : Prop :=
  forall w f k buf v c, w < nworkers S -> f < nfiles S -> ws s w = mkw f (Writing k buf) ->
    (forall w' x, w' < nworkers S -> v < nvars S -> passed s w' f -> payload S w' f v c = Some x -> buf v c = Some x) /\
    (forall x, v < k -> payload S w f v c = Some x -> buf v c = Some x) /\
    (forall x, buf v c = Some x -> exists w', w' < nworkers S /\ payload S w' f v c = Some x).

Definition safe (s : state) : Prop := file_safe s /\ disk_safe s /\ buf_safe s.

Lemma safe_start old : safe (start S old).
Proof.
  destruct (inv_start S old) as (_ & D & B). split; [|split].
  - intros w Hw H. discriminate.
  - intros f v c Hf. destruct (D f v c Hf) as [D1 D2]. split; [exact D1|]. intros x X. destruct (D2 x X) as (w & A & _ & P). eauto.
  - intros w f k buf v c Hw Hf E. discriminate.
Qed.

Lemma file_same s s' w x' : file_safe s -> file_lock s' = file_lock s -> ws s' = upd_nat (ws s) w x' ->
  (holds_file S x' = true -> w_file x' = w_file (ws s w) /\ holds_file S (ws s w) = true) -> file_safe s'.
Proof.
  intros F E1 E2 H w' Hw' Hh. rewrite E1. rewrite E2 in *. upd_tac.
  - destruct (H Hh) as [-> H']. auto.
  - auto.
Qed.

Lemma file_take s w f x' : file_safe s -> file_lock s f = None -> w_file x' = f ->
  file_safe (set_w (set_flock s f (Some w)) w x').
Proof.
  intros F N E w' Hw' Hh. simpl in *. destruct (Nat.eq_dec w' w) as [->|Nw].
  - rewrite upd_same, E. apply upd_same.
  - rewrite (upd_other (ws s)) in * by auto. specialize (F w' Hw' Hh). destruct (Nat.eq_dec (w_file (ws s w')) f) as [E'|N']; [congruence|].
    rewrite (upd_other (file_lock s)) by exact N'. exact F.
Qed.

Lemma file_drop s w x' : w < nworkers S -> file_safe s -> holds_file S (ws s w) = true -> holds_file S x' = false ->
  file_safe (set_w (set_flock s (w_file (ws s w)) None) w x').
Proof.
  intros Hw F H N w' Hw' Hh. simpl in *. destruct (Nat.eq_dec w' w) as [->|Nw]; [rewrite upd_same in Hh; congruence|].
  rewrite (upd_other (ws s)) in * by auto. pose proof (F w' Hw' Hh) as A. destruct (Nat.eq_dec (w_file (ws s w')) (w_file (ws s w))) as [E'|N'].
  - rewrite E' in A. rewrite (F w Hw H) in A. congruence.
  - now rewrite upd_other.
Qed.

Lemma file_step s w s' : file_safe s -> step S s w = Some s' -> file_safe s'.
Proof.
  intros F E. unfold step in E.
  destruct ((nworkers S <=? w) || (nfiles S <=? w_file (ws s w))) eqn:G; [discriminate|].
  apply orb_false_iff in G as [G1 G2]. apply Nat.leb_gt in G1. apply Nat.leb_gt in G2.
  destruct (ws s w) as [f ph] eqn:Ew. cbn [w_file w_phase] in *.
  assert (Hf : f = w_file (ws s w)) by now rewrite Ew.
  destruct ph as [| | |k buf| |].
  - destruct (part_free S s w f (proc_first S f)) eqn:PF; [|discriminate]. inversion E; subst s'; clear E. unfold part_free in PF.
    destruct (proc_first S f) eqn:Pf; cbn [take].
    + apply (file_same s _ w (mkw f Half) F); [reflexivity|reflexivity|]. unfold holds_file. cbn. rewrite Pf. discriminate.
    + apply file_take; auto. destruct (file_lock s f); [discriminate|reflexivity].
  - destruct (part_free S s w f (negb (proc_first S f))) eqn:PF; [|discriminate]. inversion E; subst s'; clear E. unfold part_free in PF.
    destruct (proc_first S f) eqn:Pf; cbn [negb take].
    + apply file_take; auto. cbn [negb] in PF. destruct (file_lock s f); [discriminate|reflexivity].
    + apply (file_same s _ w (mkw f Locked) F); [reflexivity|reflexivity|]. intros _. rewrite Ew. unfold holds_file. cbn. now rewrite Pf.
  - inversion E; subst s'; clear E. apply (file_same s _ w (mkw f (Writing 0 (disk s f))) F); [reflexivity|reflexivity|]. intros _. now rewrite Ew.
  - destruct (k <? nvars S); inversion E; subst s'; clear E.
    + apply (file_same s _ w (mkw f (Writing (k + 1) (assign S w f k buf))) F); [reflexivity|reflexivity|]. intros _. now rewrite Ew.
    + apply (file_same s _ w (mkw f Closed) F); [reflexivity|reflexivity|]. intros _. now rewrite Ew.
  - inversion E; subst s'; clear E. destruct (proc_first S f) eqn:Pf; cbn [drop_part].
    + apply (file_same s _ w (mkw f Half2) F); [reflexivity|reflexivity|]. intros _. now rewrite Ew.
    + rewrite Hf at 1. apply file_drop; auto; now rewrite Ew.
  - inversion E; subst s'; clear E. destruct (proc_first S f) eqn:Pf; cbn [negb drop_part].
    + rewrite Hf at 1. apply file_drop; auto. rewrite Ew. unfold holds_file. cbn. exact Pf.
    + apply (file_same s _ w (mkw (f + 1) Idle) F); [reflexivity|reflexivity|]. discriminate.
Qed.

Lemma safe_same s s' w x' : disk_safe s -> buf_safe s -> disk s' = disk s -> ws s' = upd_nat (ws s) w x' ->
  (forall f, passed s' w f -> passed s w f) -> (forall f k buf, x' = mkw f (Writing k buf) -> ws s w = x') -> disk_safe s' /\ buf_safe s'.
Proof.
  intros D B E1 E2 P W.
  assert (P' : forall w' f, passed s' w' f -> passed s w' f).
  { intros w' f. destruct (Nat.eq_dec w' w) as [->|N]; [apply P|]. unfold passed. rewrite E2, upd_other by auto. tauto. }
  split.
  - intros f v c Hf. rewrite E1. destruct (D f v c Hf) as [D1 D2]. split; [|exact D2]. intros w' x Hw Hv Hp. apply P' in Hp. eauto.
  - intros w' f k buf v c Hw Hf E.
    assert (E' : ws s w' = mkw f (Writing k buf)) by (rewrite E2 in E; upd_tac; auto; now rewrite (W _ _ _ E)).
    destruct (B w' f k buf v c Hw Hf E') as (B1 & B2 & B3). split; [|split; auto]. intros w'' x Hw'' Hv Hp. apply P' in Hp. eauto.
Qed.

Lemma safe_step s w s' : safe s -> step S s w = Some s' -> safe s'.
Proof.
  intros (F & D & B) E. split; [eapply file_step; eauto|]. unfold step in E.
  destruct ((nworkers S <=? w) || (nfiles S <=? w_file (ws s w))) eqn:G; [discriminate|].
  apply orb_false_iff in G as [G1 G2]. apply Nat.leb_gt in G1. apply Nat.leb_gt in G2.
  destruct (ws s w) as [f ph] eqn:Ew. cbn [w_file w_phase] in *.
  destruct ph as [| | |k buf| |].
  - destruct (part_free S s w f (proc_first S f)); [|discriminate]. inversion E; subst s'; clear E.
    apply (safe_same s _ w (mkw f Half) D B); try (destruct (proc_first S f); reflexivity); [|discriminate].
    intros g. unfold passed. destruct (proc_first S f); cbn; rewrite upd_same, Ew; cbn; intros [H|[H [H'|H']]]; auto; discriminate.
  - destruct (part_free S s w f (negb (proc_first S f))); [|discriminate]. inversion E; subst s'; clear E.
    apply (safe_same s _ w (mkw f Locked) D B); try (destruct (proc_first S f); reflexivity); [|discriminate].
    intros g. unfold passed. destruct (proc_first S f); cbn; rewrite upd_same, Ew; cbn; intros [H|[H [H'|H']]]; auto; discriminate.
  - inversion E; subst s'; clear E. set (x' := mkw f (Writing 0 (disk s f))).
    assert (P' : forall w' g, passed (set_w s w x') w' g -> passed s w' g).
    { intros w' g. unfold passed. simpl. upd_tac; [rewrite Ew; cbn; intros [H|[H [H'|H']]]; auto; discriminate|auto]. }
    split.
    + intros g v c Hg. destruct (D g v c Hg) as [D1 D2]. split; [|exact D2]. intros w' x Hw Hv Hp. apply P' in Hp. eauto.
    + intros w' g k buf v c Hw Hg E. simpl in E. upd_tac.
      * unfold x' in E. inversion E; subst. destruct (D g v c Hg) as [D1 D2]. split; [|split; [lia|exact D2]].
        intros w' x Hw' Hv Hp. apply P' in Hp. eauto.
      * destruct (B w' g k buf v c Hw Hg E) as (B1 & B2 & B3). split; [|split; auto]. intros w'' x Hw'' Hv Hp. apply P' in Hp. eauto.
  - destruct (Nat.ltb_spec k (nvars S)) as [L|L]; inversion E; subst s'; clear E.
    + set (x' := mkw f (Writing (k + 1) (assign S w f k buf))).
      assert (P' : forall w' g, passed (set_w s w x') w' g -> passed s w' g).
      { intros w' g. unfold passed. simpl. upd_tac; [rewrite Ew; cbn; intros [H|[H [H'|H']]]; auto; discriminate|auto]. }
      split.
      * intros g v c Hg. destruct (D g v c Hg) as [D1 D2]. split; [|exact D2]. intros w' x Hw Hv Hp. apply P' in Hp. eauto.
      * intros w' g k' buf' v c Hw Hg E. simpl in E. upd_tac.
        -- unfold x' in E. inversion E; subst; clear E. destruct (B w g k buf v c Hw Hg Ew) as (B1 & B2 & B3). split; [|split].
           ++ intros w' x Hw' Hv Hp. apply P' in Hp. intros Hx. unfold assign. destruct (Nat.eqb_spec v k); [|eauto].
              destruct (payload S w g v c) eqn:Pl; [|eauto]. assert (w = w') by (eapply Disj; eauto). subst. congruence.
           ++ intros x Hv Hx. unfold assign. destruct (Nat.eqb_spec v k); [now rewrite Hx|]. apply B2; auto. lia.
           ++ intros x. unfold assign. destruct (Nat.eqb_spec v k); [|apply B3]. destruct (payload S w g v c) eqn:Pl; [|apply B3].
              intros X. injection X as <-. eauto.
        -- destruct (B w' g k' buf' v c Hw Hg E) as (B1 & B2 & B3). split; [|split; auto]. intros w'' x Hw'' Hv Hp. apply P' in Hp. eauto.
    + assert (Mut : forall w', w' < nworkers S -> holds_file S (ws s w') = true -> w_file (ws s w') = f -> w' = w).
      { intros w' Hw' Hh Hf. pose proof (F w' Hw' Hh) as A. assert (A' : file_lock s f = Some w).
        { pose proof (F w G1) as A'. rewrite Ew in A'. now apply A'. } rewrite Hf in A. congruence. }
      set (s' := set_w (set_disk s f buf) w (mkw f Closed)).
      assert (P' : forall w' g, passed s' w' g -> passed s w' g \/ (w' = w /\ g = f)).
      { intros w' g. unfold passed, s'. simpl. upd_tac; [rewrite Ew; cbn; intros [H|[H _]]; auto|auto]. }
      split.
      * intros g v c Hg. destruct (Nat.eq_dec g f) as [->|N].
        -- replace (disk s' f) with buf by (unfold s'; cbn; now rewrite upd_same).
           destruct (B w f k buf v c G1 Hg Ew) as (B1 & B2 & B3). split; [|exact B3].
           intros w' x Hw Hv Hp. apply P' in Hp as [Hp|[-> _]]; [eauto|]. intros. apply B2; auto. lia.
        -- replace (disk s' g) with (disk s g) by (unfold s'; cbn; now rewrite upd_other).
           destruct (D g v c Hg) as [D1 D2]. split; [|exact D2]. intros w' x Hw Hv Hp. apply P' in Hp as [Hp|[-> ->]]; [eauto|congruence].
      * intros w' g k' buf' v c Hw Hg E. unfold s' in E. simpl in E. upd_tac; [discriminate|].
        assert (g <> f) by (intros ->; apply n; apply Mut; auto; rewrite E; auto).
        destruct (B w' g k' buf' v c Hw Hg E) as (B1 & B2 & B3). split; [|split; auto].
        intros w'' x Hw'' Hv Hp. apply P' in Hp as [Hp|[-> ->]]; [eauto|congruence].
  - inversion E; subst s'; clear E.
    apply (safe_same s _ w (mkw f Half2) D B); try (destruct (proc_first S f); reflexivity); [|discriminate].
    intros g. unfold passed. destruct (proc_first S f); cbn; rewrite upd_same, Ew; cbn; intros [H|[H _]]; auto.
  - inversion E; subst s'; clear E.
    apply (safe_same s _ w (mkw (f + 1) Idle) D B); try (destruct (proc_first S f); reflexivity); [|discriminate].
    intros g. unfold passed. destruct (proc_first S f); cbn; rewrite upd_same, Ew; cbn; intros [H|[H [H'|H']]]; try discriminate;
      (destruct (Nat.eq_dec g f); [right; auto|left; lia]).
Qed.

Lemma safe_flush s s' : safe s -> flush S s s' -> safe s'.
Proof.
  intros (F & D & B) X. destruct X as [s w f k buf v0 p Ew Hw]. split; [exact F|]. split; [|exact B].
  intros g v c Hg. simpl. destruct (D g v c Hg) as [D1 D2]. destruct (Nat.eq_dec g f) as [->|N]; [rewrite upd_same|rewrite upd_other by auto; split; auto].
  destruct (B w f k buf v c Hw Hg Ew) as (B1 & B2 & B3). destruct ((v =? v0) && p c); split; auto.
Qed.

Lemma without_other w lock k h : lock k = Some h -> h <> w -> without w lock k = Some h.
Proof. intros E N. unfold without. rewrite E. destruct (Nat.eqb_spec h w); congruence. Qed.

Lemma safe_restart freed s w : safe s -> safe (restart freed s w).
Proof.
  intros (F & D & B). split.
  - intros w' Hw' Hh. simpl in *. upd_tac; [discriminate|]. specialize (F w' Hw' Hh). destruct freed; [|exact F]. now apply without_other.
  - apply (safe_same s _ w (mkw 0 Idle) D B); try reflexivity; [|discriminate].
    intros g. unfold passed. cbn. rewrite upd_same. cbn. intros [H|[_ [H|H]]]; [lia|discriminate|discriminate].
Qed.

Lemma safe_again freed n k s s' : safe s -> exec_again S freed n k s s' -> safe s'.
Proof.
  intros I H. induction H as [|n k s w s' s'' H IH E|n k s s' s'' H IH X|n k s w s' H IH Hw]; auto.
  - eapply safe_step; [apply IH; auto|eauto].
  - eapply safe_flush; [apply IH; auto|eauto].
  - apply safe_restart. auto.
Qed.

Theorem again_correct freed old n k s : exec_again S freed n k (start S old) s -> finished S s ->
  forall f v c, f < nfiles S -> v < nvars S -> point_correct S s f v c.
Proof.
  intros H Fin f v c Hf Hv. destruct (safe_again _ _ _ _ _ (safe_start old) H) as (_ & D & _).
  destruct (D f v c Hf) as [D1 D2]. split.
  - intros w x Hw Hx. eapply D1; eauto. left. specialize (Fin w Hw). lia.
  - intros HN. destruct (disk s f v c) eqn:E; auto. destruct (D2 _ eq_refl) as (w & A & A2). rewrite HN in A2 by auto. discriminate.
Qed.

Theorem again_crash freed old n k s : exec_again S freed n k (start S old) s ->
  forall f v c, f < nfiles S -> disk s f v c = None \/ exists w x, w < nworkers S /\ payload S w f v c = Some x /\ disk s f v c = Some x.
Proof.
  intros H f v c Hf. destruct (safe_again _ _ _ _ _ (safe_start old) H) as (_ & D & _).
  destruct (disk s f v c) eqn:E; auto. right. destruct (proj2 (D f v c Hf) _ E) as (w & A & A2). eauto.
Qed.

(** the files are those of an undisturbed run *)
Theorem again_same freed old n k s old' n' s' : exec_again S freed n k (start S old) s -> finished S s ->
  exec S n' (start S old') s' -> finished S s' -> forall f v c, f < nfiles S -> v < nvars S -> disk s f v c = disk s' f v c.
Proof.
  intros X F X' F' f v c Hf Hv. destruct (again_correct _ _ _ _ _ X F f v c Hf Hv) as [A B].
  destruct (final_content S Disj _ _ _ X' F' f v c Hf Hv) as [A' B'].
  assert (Dec : (exists w x, w < nworkers S /\ payload S w f v c = Some x) \/ (forall w, w < nworkers S -> payload S w f v c = None)).
  { generalize (nworkers S). induction n0 as [|m [(w & x & I1 & I2)|IH]]; [right; intros; lia|left; exists w, x; auto|].
    destruct (payload S m f v c) as [x|] eqn:P; [left; exists m, x; auto|].
    right. intros w Hw. destruct (Nat.eq_dec w m) as [->|]; auto. apply IH; lia. }
  destruct Dec as [(w & x & Hw & P)|N]; [rewrite (A w x), (A' w x); auto|rewrite B, B'; auto].
Qed.

(** ** locks that are freed *)
Lemma locks_step s w s' : locks_ok S s -> step S s w = Some s' -> locks_ok S s'.
Proof.
  intros L E. unfold step in E.
  destruct ((nworkers S <=? w) || (nfiles S <=? w_file (ws s w))) eqn:G; [discriminate|].
  apply orb_false_iff in G as [G1 G2]. apply Nat.leb_gt in G1. apply Nat.leb_gt in G2.
  destruct (ws s w) as [f ph] eqn:Ew. cbn [w_file w_phase] in *.
  destruct ph as [| | |k buf| |].
  - destruct (part_free S s w f (proc_first S f)) eqn:PF; [|discriminate]. inversion E; subst; clear E.
    apply locks_take; auto; try (rewrite Ew; auto); unfold holds_proc, holds_file; rewrite ?Ew; simpl; destruct (proc_first S f); auto.
  - destruct (part_free S s w f (negb (proc_first S f))) eqn:PF; [|discriminate]. inversion E; subst; clear E.
    apply locks_take; auto; try (rewrite Ew; auto); unfold holds_proc, holds_file; rewrite ?Ew; simpl; destruct (proc_first S f); auto.
  - inversion E; subst; clear E. eapply locks_same with (s := s) (w := w); try reflexivity; auto; simpl; rewrite ?Ew; auto.
  - destruct (k <? nvars S); inversion E; subst; clear E; eapply locks_same with (s := s) (w := w); try reflexivity; auto; simpl; rewrite ?Ew; auto.
  - inversion E; subst; clear E. apply locks_drop; auto; rewrite ?Ew; auto; unfold holds_proc, holds_file; rewrite ?Ew; simpl; destruct (proc_first S f); auto.
  - inversion E; subst; clear E. apply locks_drop; auto; rewrite ?Ew; auto; unfold holds_proc, holds_file; rewrite ?Ew; simpl; destruct (proc_first S f); auto.
Qed.

Lemma without_some w lock k h : without w lock k = Some h <-> lock k = Some h /\ h <> w.
Proof.
  unfold without. destruct (lock k) as [h'|]; [|split; [discriminate|intros [? _]; discriminate]].
  destruct (Nat.eqb_spec h' w); split; intros H; [discriminate|destruct H; congruence|split; congruence|tauto].
Qed.

Lemma locks_restart s w : locks_ok S s -> locks_ok S (restart true s w).
Proof.
  intros [LP LF]. split; simpl; intros a h; rewrite without_some; [rewrite LP|rewrite LF]; (destruct (Nat.eq_dec h w) as [->|N];
    [rewrite upd_same; unfold holds_proc, holds_file; cbn; split; [tauto|intros (_ & _ & X); discriminate]|rewrite upd_other by exact N; tauto]).
Qed.

Definition steady (s : state) : Prop := between_ok S s /\ bounded S s.

Lemma steady_start old : steady (start S old).
Proof.
  split; [intros w Hw Hp; simpl in Hp; congruence|]. intros w Hw. simpl. destruct (Nat.eq_dec (nfiles S) 0); [right; auto|left]. repeat split; try lia. discriminate.
Qed.

Lemma restart_total freed s w m : total S (restart freed s w) m + (if w <? m then done_of S (ws s w) else 0) = total S s m.
Proof.
  induction m as [|m IH]; [reflexivity|]. cbn [total]. destruct (Nat.eq_dec m w) as [->|N].
  - cbn [restart ws]. rewrite upd_same. destruct (Nat.ltb_spec w w); [lia|]. destruct (Nat.ltb_spec w (Datatypes.S w)); [|lia].
    unfold done_of at 1. cbn. lia.
  - cbn [restart ws]. rewrite upd_other by exact N. destruct (Nat.ltb_spec w m), (Nat.ltb_spec w (Datatypes.S m)); cbn [restart ws] in *; lia.
Qed.

Lemma done_bound s w : bounded S s -> w < nworkers S -> done_of S (ws s w) <= nfiles S * (6 + nvars S).
Proof.
  intros B Hw. destruct (B w Hw) as [(B1 & B2 & _)|(B1 & B2)]; unfold done_of.
  - assert (w_file (ws s w) * (6 + nvars S) + (6 + nvars S) <= nfiles S * (6 + nvars S)) by nia. lia.
  - rewrite B1, B2. simpl. lia.
Qed.

Lemma steady_again freed n k s s' : exec_again S freed n k s s' -> steady s ->
  steady s' /\ total S s (nworkers S) + n <= total S s' (nworkers S) + k * (nfiles S * (6 + nvars S)).
Proof.
  intros H [Bt0 B0]. induction H as [s|n k s w s' s'' H IH E|n k s s' s'' H IH F|n k s w s' H IH Hw].
  - split; [split; auto|lia].
  - destruct (IH Bt0 B0) as [[Bt B] T]. destruct (step_total S _ _ _ B E) as [B' T']. split; [split; [|exact B']|lia].
    exact (between_exec S 1 s' s'' (exec_step S 0 s' w s' s'' (exec_refl S s') E) Bt).
  - destruct (IH Bt0 B0) as [[Bt B] T]. split.
    + split; [exact (between_exec S 0 s' s'' (exec_flush S 0 s' s' s'' (exec_refl S s') F) Bt)|]. destruct F. exact B.
    + destruct F. rewrite (total_ws S s0 (set_disk s0 f _)) by reflexivity. exact T.
  - destruct (IH Bt0 B0) as [[Bt B] T]. split.
    + split.
      * intros w' Hw' Hp. cbn [restart ws] in *. upd_tac; [cbn in Hp; congruence|auto].
      * intros w' Hw'. cbn [restart ws]. upd_tac; [|auto]. cbn. destruct (Nat.eq_dec (nfiles S) 0); [right; auto|left]. repeat split; try lia. discriminate.
    + pose proof (restart_total freed s' w (nworkers S)) as R. pose proof (done_bound s' w B Hw) as Db.
      destruct (Nat.ltb_spec w (nworkers S)); [|lia]. nia.
Qed.

Theorem again_bounded freed old n k s : exec_again S freed n k (start S old) s -> n <= (nworkers S + k) * (nfiles S * (6 + nvars S)).
Proof.
  intros H. destruct (steady_again _ _ _ _ _ H (steady_start old)) as [[_ B] T]. pose proof (total_bound S s (nworkers S) B (le_n _)). nia.
Qed.

Lemma locks_again n k s s' : locks_ok S s -> exec_again S true n k s s' -> locks_ok S s'.
Proof.
  intros I H. induction H as [|n k s w s' s'' H IH E|n k s s' s'' H IH X|n k s w s' H IH Hw]; auto.
  - eapply locks_step; [apply IH; auto|eauto].
  - specialize (IH I). destruct X. exact IH.
  - apply locks_restart. auto.
Qed.

Theorem again_progress old n k s : exec_again S true n k (start S old) s -> ~ finished S s -> exists w s', step S s w = Some s'.
Proof.
  intros H NF. destruct (steady_again _ _ _ _ _ H (steady_start old)) as [[Bt _] _].
  exact (locks_progress S s (locks_again _ _ _ _ (proj1 (inv_start S old)) H) Bt NF).
Qed.

Lemma finished_dec (s : state) : finished S s \/ ~ finished S s.
Proof.
  unfold finished. generalize (nworkers S) as m. induction m as [|m [IH|IH]].
  - left. intros; lia.
  - destruct (le_lt_dec (nfiles S) (w_file (ws s m))) as [L|L].
    + left. intros w Hw. destruct (Nat.eq_dec w m) as [->|]; auto. apply IH; lia.
    + right. intros X. specialize (X m ltac:(lia)). lia.
  - right. intros X. apply IH. intros w Hw. apply X. lia.
Qed.

Theorem again_can_finish old n k s : exec_again S true n k (start S old) s ->
  exists m s', n <= m /\ exec_again S true m k (start S old) s' /\ finished S s'.
Proof.
  remember ((nworkers S + k) * (nfiles S * (6 + nvars S)) - n) as left eqn:E. revert n s E. induction left as [left IH] using lt_wf_ind.
  intros n s E X. destruct (finished_dec s) as [F|F]; [eauto|]. destruct (again_progress _ _ _ _ X F) as (w & s' & St).
  pose proof (again_step S true n k _ w s s' X St) as X'. pose proof (again_bounded _ _ _ _ _ X') as Bd.
  destruct (IH ((nworkers S + k) * (nfiles S * (6 + nvars S)) - (n + 1)) ltac:(lia) (n + 1) s' eq_refl X') as (m & s'' & L & Y & F').
  exists m, s''. split; [lia|auto].
Qed.

(** ** a lock that is not freed *)
Definition kept (w f : nat) (s : state) : Prop :=
  file_lock s f = Some w /\ w_file (ws s w) <= f /\
  (w_file (ws s w) = f -> w_phase (ws s w) = Idle \/ (w_phase (ws s w) = Half /\ proc_first S f = true)).

Lemma kept_step w f s u s' : safe s -> kept w f s -> step S s u = Some s' -> kept w f s'.
Proof.
  intros (F & _ & _) (K1 & K2 & K3) E. unfold step in E.
  destruct ((nworkers S <=? u) || (nfiles S <=? w_file (ws s u))) eqn:G; [discriminate|].
  apply orb_false_iff in G as [G1 G2]. apply Nat.leb_gt in G1. apply Nat.leb_gt in G2.
  destruct (ws s u) as [g ph] eqn:Ew. cbn [w_file w_phase] in *.
  assert (Own : holds_file S (ws s u) = true -> g = f -> u = w).
  { intros Hh ->. pose proof (F u G1 Hh) as A. rewrite Ew in A. cbn in A. congruence. }
  destruct (Nat.eq_dec u w) as [->|N].
  - rewrite Ew in *. cbn [w_file w_phase] in *.
    destruct ph as [| | |k buf| |].
    + destruct (part_free S s w g (proc_first S g)) eqn:PF; [|discriminate]. inversion E; subst s'; clear E. unfold part_free in PF.
      destruct (proc_first S g) eqn:Pf; unfold kept; cbn; rewrite upd_same; cbn.
      * split; [exact K1|]. split; [exact K2|]. intros ->. auto.
      * destruct (Nat.eq_dec g f) as [->|Ng]; [rewrite K1 in PF; discriminate|]. rewrite upd_other by auto. split; [exact K1|]. split; [exact K2|]. intros; congruence.
    + destruct (part_free S s w g (negb (proc_first S g))) eqn:PF; [|discriminate]. inversion E; subst s'; clear E. unfold part_free in PF.
      destruct (Nat.eq_dec g f) as [->|Ng].
      * destruct (K3 eq_refl) as [X|[_ X]]; [discriminate|]. rewrite X in PF. cbn in PF. rewrite K1 in PF. discriminate.
      * destruct (proc_first S g); unfold kept; cbn; rewrite upd_same; cbn; rewrite ?upd_other by auto; (split; [exact K1|]); (split; [exact K2|]); intros; congruence.
    + destruct (Nat.eq_dec g f) as [->|Ng]; [destruct (K3 eq_refl) as [X|[X _]]; discriminate|]. inversion E; subst s'; clear E.
      unfold kept; cbn; rewrite upd_same; cbn. split; [exact K1|]. split; [exact K2|]. intros; congruence.
    + destruct (Nat.eq_dec g f) as [->|Ng]; [destruct (K3 eq_refl) as [X|[X _]]; discriminate|].
      destruct (k <? nvars S); inversion E; subst s'; clear E; unfold kept; cbn; rewrite upd_same; cbn; (split; [exact K1|]); (split; [exact K2|]); intros; congruence.
    + destruct (Nat.eq_dec g f) as [->|Ng]; [destruct (K3 eq_refl) as [X|[X _]]; discriminate|]. inversion E; subst s'; clear E.
      destruct (proc_first S g); unfold kept; cbn; rewrite upd_same; cbn; rewrite ?upd_other by auto; (split; [exact K1|]); (split; [exact K2|]); intros; congruence.
    + destruct (Nat.eq_dec g f) as [->|Ng]; [destruct (K3 eq_refl) as [X|[X _]]; discriminate|]. inversion E; subst s'; clear E.
      destruct (proc_first S g); unfold kept; cbn; rewrite upd_same; cbn; rewrite ?upd_other by auto; (split; [exact K1|]); (split; [lia|]); auto.
  - assert (Lock : file_lock s' f = Some w).
    { destruct ph as [| | |k buf| |].
      - destruct (part_free S s u g (proc_first S g)) eqn:PF; [|discriminate]. inversion E; subst s'; clear E. unfold part_free in PF.
        destruct (proc_first S g) eqn:Pf; cbn; [exact K1|]. destruct (Nat.eq_dec g f) as [->|Ng]; [rewrite K1 in PF; discriminate|]. now rewrite upd_other by auto.
      - destruct (part_free S s u g (negb (proc_first S g))) eqn:PF; [|discriminate]. inversion E; subst s'; clear E. unfold part_free in PF.
        destruct (proc_first S g) eqn:Pf; cbn in *; [|exact K1]. destruct (Nat.eq_dec g f) as [->|Ng]; [rewrite K1 in PF; discriminate|]. now rewrite upd_other by auto.
      - inversion E; subst s'; clear E. exact K1.
      - destruct (k <? nvars S); inversion E; subst s'; clear E; exact K1.
      - inversion E; subst s'; clear E. destruct (proc_first S g) eqn:Pf; cbn; [exact K1|].
        destruct (Nat.eq_dec g f) as [->|Ng]; [destruct N; apply Own; auto; rewrite Ew; reflexivity|]. now rewrite upd_other by auto.
      - inversion E; subst s'; clear E. destruct (proc_first S g) eqn:Pf; cbn; [|exact K1].
        destruct (Nat.eq_dec g f) as [->|Ng]; [destruct N; apply Own; auto; rewrite Ew; unfold holds_file; cbn; exact Pf|]. now rewrite upd_other by auto. }
    assert (Ws : ws s' w = ws s w).
    { destruct ph as [| | |k buf| |]; repeat match type of E with (if ?b then _ else _) = _ => destruct b; [|discriminate || idtac] end;
        inversion E; subst s'; unfold take, drop_part; repeat match goal with |- context [if ?b then set_plock _ _ _ else _] => destruct b end;
        cbn; apply upd_other; auto. }
    unfold kept. rewrite Ws. auto.
Qed.

Lemma kept_again w f n k s s' : safe s -> kept w f s -> exec_again S false n k s s' -> kept w f s'.
Proof.
  intros I K H. induction H as [|n k s u s' s'' H IH E|n k s s' s'' H IH X|n k s u s' H IH Hu]; auto.
  - eapply kept_step; [exact (safe_again _ _ _ _ _ I H)|apply IH; auto|exact E].
  - specialize (IH I K). destruct X. exact IH.
  - destruct (IH I K) as (K1 & K2 & K3). unfold kept. cbn. split; [exact K1|]. destruct (Nat.eq_dec w u) as [->|N].
    + rewrite upd_same. cbn. split; [lia|auto].
    + rewrite upd_other by exact N. auto.
Qed.

Theorem kept_lock old n k s w f n' k' s' : exec_again S false n k (start S old) s -> w < nworkers S -> f < nfiles S -> file_lock s f = Some w ->
  exec_again S false n' k' (restart false s w) s' -> ~ finished S s'.
Proof.
  intros X Hw Hf Hl Y Fin. pose proof (safe_again _ _ _ _ _ (safe_start old) X) as I.
  assert (K : kept w f (restart false s w)) by (unfold kept; cbn; rewrite upd_same; cbn; split; [exact Hl|]; split; [lia|auto]).
  destruct (kept_again _ _ _ _ _ _ (safe_restart false s w I) K Y) as (_ & L & _). specialize (Fin w Hw). lia.
Qed.

(** ** other files *)
Definition writes_inside (s : state) : Prop :=
  forall w k buf, w < nworkers S -> w_phase (ws s w) = Writing k buf -> w_file (ws s w) < nfiles S.

Lemma others_again freed n k s s' : exec_again S freed n k s s' -> steady s -> writes_inside s ->
  writes_inside s' /\ forall f, nfiles S <= f -> disk s' f = disk s f.
Proof.
  intros H St W. induction H as [s|n k s w s' s'' H IH E|n k s s' s'' H IH F|n k s w s' H IH Hw]; auto.
  - destruct (IH St W) as [W1 D1]. destruct (files_only S 1 s' s'' (exec_step S 0 s' w s' s'' (exec_refl S s') E)) as [W2 D2]; auto.
    + intros u Hu. destruct (steady_again _ _ _ _ _ H St) as [[_ B] _]. destruct (B u Hu) as [(L & _)|(L & _)]; lia.
    + split; [exact W2|]. intros f Hf. rewrite D2 by exact Hf. auto.
  - destruct (IH St W) as [W1 D1]. destruct (files_only S 0 s' s'' (exec_flush S 0 s' s' s'' (exec_refl S s') F)) as [W2 D2]; auto.
    + intros u Hu. destruct (steady_again _ _ _ _ _ H St) as [[_ B] _]. destruct (B u Hu) as [(L & _)|(L & _)]; lia.
    + split; [exact W2|]. intros f Hf. rewrite D2 by exact Hf. auto.
  - destruct (IH St W) as [W1 D1]. split; [|exact D1]. intros w' j buf Hw' P. cbn [restart ws] in *. upd_tac; [discriminate|eauto].
Qed.

Theorem again_others freed old n k s : exec_again S freed n k (start S old) s -> forall f, nfiles S <= f -> disk s f = old f.
Proof.
  intros H f Hf. destruct (others_again _ _ _ _ _ H (steady_start old)) as [_ E]; [intros ? ? ? ? X; discriminate|].
  rewrite E by exact Hf. cbn. unfold setup_disk. destruct (Nat.ltb_spec f (nfiles S)); [lia|easy].
Qed.

(** ** a worker that dies with the locks of the first file in hand *)
Lemma taken old w : w < nworkers S -> 0 < nfiles S -> proc_first S 0 = true ->
  exists s, (forall freed, exec_again S freed 2 0 (start S old) s) /\ file_lock s 0 = Some w.
Proof.
  intros Hw Hf P.
  assert (G : (nworkers S <=? w) || (nfiles S <=? 0) = false)
    by (apply orb_false_iff; split; apply Nat.leb_gt; assumption).
  assert (E1 : exists s1, step S (start S old) w = Some s1 /\ ws s1 w = mkw 0 Half /\ file_lock s1 0 = None).
  { unfold step. cbn [start ws w_file w_phase]. rewrite G. unfold part_free. rewrite P. cbn. eexists. split; [reflexivity|]. cbn. rewrite upd_same. auto. }
  destruct E1 as (s1 & E1 & W1 & L1).
  assert (E2 : exists s2, step S s1 w = Some s2 /\ file_lock s2 0 = Some w).
  { unfold step. rewrite W1. cbn [w_file w_phase]. rewrite G. unfold part_free. rewrite P. cbn. rewrite L1. eexists. split; [reflexivity|]. reflexivity. }
  destruct E2 as (s2 & E2 & L2). exists s2. split; [|exact L2]. intros freed.
  exact (again_step S freed 1 0 _ w s1 s2 (again_step S freed 0 0 _ w _ s1 (again_refl S freed _) E1) E2).
Qed.

Theorem taken_never_finishes old w : w < nworkers S -> 0 < nfiles S -> proc_first S 0 = true ->
  exists s, exec_again S false 2 0 (start S old) s /\ forall n k s', exec_again S false n k (restart false s w) s' -> ~ finished S s'.
Proof.
  intros Hw Hf P. destruct (taken old w Hw Hf P) as (s & X & L). exists s. split; [apply X|].
  intros n k s' Y. exact (kept_lock _ _ _ _ _ _ _ _ _ (X false) Hw Hf L Y).
Qed.

Theorem taken_finishes old w f v c x w' f' v' c' x' : w < nworkers S -> 0 < nfiles S -> proc_first S 0 = true ->
  f < nfiles S -> v < nvars S -> w' < nworkers S -> f' < nfiles S -> v' < nvars S ->
  payload S w f v c = Some x -> payload S w' f' v' c' = Some x' ->
  exists s n s', exec_again S true 2 0 (start S old) s /\ file_lock s 0 = Some w /\
  exec_again S true n 1 (start S old) s' /\ finished S s' /\ disk s' f v c = Some x /\ disk s' f' v' c' = Some x'.
Proof.
  intros Hw Hf0 P Hf Hv Hw' Hf' Hv' X1 X2. destruct (taken old w Hw Hf0 P) as (s & X & L).
  destruct (again_can_finish _ _ _ _ (again_restart S true 2 0 _ w s (X true) Hw)) as (n & s' & _ & Y & F).
  exists s, n, s'. split; [apply X|]. split; [exact L|]. split; [exact Y|]. split; [exact F|]. split.
  - exact (proj1 (again_correct _ _ _ _ _ Y F f v c Hf Hv) w x Hw X1).
  - exact (proj1 (again_correct _ _ _ _ _ Y F f' v' c' Hf' Hv') w' x' Hw' X2).
Qed.
End R.
