(** General lemmas on the Python vocabulary and lists. *)
From Coq Require Import ZArith String List Bool Arith Lia.
From Verif Require Import Model.Py.
Import ListNotations.
Local Open Scope list_scope.

Lemma Forall2_len {A B} (P : A -> B -> Prop) l r : Forall2 P l r -> List.length l = List.length r.
Proof. induction 1; simpl; congruence. Qed.

(** ** dictionaries *)
Lemma dict_get_In {V} (d : dict V) k v : dict_get d k = Some v -> In (k, v) d.
Proof.
  induction d as [|[k' v'] d IH]; simpl; [discriminate|].
  destruct (String.eqb_spec k k'); [intros [= <-]; subst; auto | auto].
Qed.

Lemma dict_get_NoDup {V} (d : dict V) k v :
  NoDup (keys d) -> In (k, v) d -> dict_get d k = Some v.
Proof.
  induction d as [|[k' v'] d IH]; simpl; [easy|].
  intros ND [E | I].
  - inversion E; subst. now rewrite String.eqb_refl.
  - inversion ND; subst. destruct (String.eqb_spec k k') as [->|]; [|auto].
    exfalso. apply H1. change k' with (fst (k', v)). now apply in_map.
Qed.

Lemma dict_get_None {V} (d : dict V) k : ~ In k (keys d) <-> dict_get d k = None.
Proof.
  induction d as [|[k' v'] d IH]; simpl; [tauto|].
  destruct (String.eqb_spec k k'); subst; split; intro H; try easy.
  - exfalso; auto.
  - apply IH; tauto.
  - intros [E|E]; [congruence | apply IH in H; tauto].
Qed.

Lemma dict_get_Some_key {V} (d : dict V) k : In k (keys d) -> exists v, dict_get d k = Some v.
Proof.
  intro H. destruct (dict_get d k) eqn:E; [eauto|]. now apply dict_get_None in E.
Qed.

(** ** mapM *)
Lemma mapM_Ok {A B} (f : A -> res B) (g : A -> B) l :
  (forall x, In x l -> f x = Ok (g x)) -> mapM f l = Ok (map g l).
Proof.
  induction l as [|x l IH]; simpl; intros H; [easy|].
  rewrite H by auto. simpl. rewrite IH by auto. easy.
Qed.

Lemma mapM_inv {A B} (f : A -> res B) l r :
  mapM f l = Ok r -> Forall2 (fun x y => f x = Ok y) l r.
Proof.
  revert r; induction l as [|x l IH]; simpl; intros r H.
  - inversion H; constructor.
  - destruct (f x) as [y|] eqn:E; simpl in H; [|discriminate].
    destruct (mapM f l) as [ys|] eqn:E2; simpl in H; [|discriminate].
    inversion H; subst. constructor; auto.
Qed.

Lemma mapM_Forall2 {A B} (f : A -> res B) l r :
  Forall2 (fun x y => f x = Ok y) l r -> mapM f l = Ok r.
Proof.
  induction 1; simpl; [easy|]. rewrite H. simpl. rewrite IHForall2. easy.
Qed.

Lemma mapM_Err {A B} (f : A -> res B) l x e :
  In x l -> f x = Err e -> exists e', mapM f l = Err e'.
Proof.
  induction l as [|y l IH]; simpl; [easy|].
  intros [->|I] H.
  - rewrite H. simpl. eauto.
  - destruct (f y); simpl; [|eauto]. destruct (IH I H) as [e' ->]. simpl. eauto.
Qed.

Lemma mapM_Err_kind {A B} (f : A -> res B) l x e :
  In x l -> f x = Err e -> (forall y e', In y l -> f y = Err e' -> e' = e) ->
  mapM f l = Err e.
Proof.
  induction l as [|y l IH]; simpl; [easy|].
  intros I H K. destruct (f y) as [b|e'] eqn:E; simpl.
  - destruct I as [->|I]; [congruence|]. rewrite IH; auto.
    intros z e' Hz He. apply (K z e'); auto.
  - f_equal. apply (K y e'); auto.
Qed.

Lemma filter_map {A B} (f : A -> B) (p : B -> bool) l :
  filter p (map f l) = map f (filter (fun x => p (f x)) l).
Proof. induction l; simpl; [easy|]. rewrite IHl. destruct (p (f a)); easy. Qed.

Lemma combine_map {A B C} (f : A -> B) (g : A -> C) l :
  combine (map f l) (map g l) = map (fun x => (f x, g x)) l.
Proof. induction l; simpl; congruence. Qed.

Lemma filter_false {A} (l : list A) : filter (fun _ => false) l = [].
Proof. induction l; auto. Qed.

