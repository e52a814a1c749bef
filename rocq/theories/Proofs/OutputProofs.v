From Coq Require Import ZArith String Ascii List Bool Arith Lia Sorting.Sorted.
From Verif Require Import Model.Py Model.Calendar Model.Datetime Model.Output Model.Validate
  Spec.TimeSpec Proofs.Base Proofs.ChunkProofs.
Import ListNotations.
Local Open Scope list_scope.
Local Open Scope Z_scope.

(** ** time axis *)
Lemma zrange_nth a s n k : (k < Z.to_nat n)%nat ->
  nth_error (zrange a s n) k = Some (a + Z.of_nat k * s).
Proof.
  intros H. unfold zrange. rewrite nth_error_map.
  rewrite (nth_error_nth' _ 0%nat) by (rewrite seq_length; auto).
  rewrite seq_nth by auto. reflexivity.
Qed.

Lemma zrange_sorted a s n : 0 < s -> StronglySorted Z.lt (zrange a s n).
Proof.
  intros Hs. unfold zrange.
  assert (G : forall b m, StronglySorted Z.lt (map (fun i => a + Z.of_nat i * s) (seq b m))).
  { intros b m. revert b. induction m as [|m IH]; intros b; simpl; constructor; auto.
    apply Forall_forall. intros x Hx. apply in_map_iff in Hx as (i & <- & Hi). apply in_seq in Hi. nia. }
  apply G.
Qed.

Lemma mod0_div n m : 0 < m -> n mod m = 0 -> n = m * (n / m).
Proof. intros. pose proof (Z.div_mod n m ltac:(lia)). lia. Qed.

Theorem output_axis_exact start n ts (pe : bool) :
  legal_time_step ts -> 1 <= n ->
  exists axis, output_axis start (start + (n - 1) * 1440) ts pe = Ok axis /\
    List.length axis = Z.to_nat (n * (1440 / ts)) /\
    (forall k, (k < List.length axis)%nat ->
       nth_error axis k = Some (start + (Z.of_nat k + (if pe then 1 else 0)) * ts)) /\
    StronglySorted Z.lt axis.
Proof.
  intros (P & D & R) Hn. unfold output_axis.
  set (off := if pe then ts else 0).
  set (delta := if ts <? 1440 then 1440 - ts else 0).
  unfold pd_date_range. replace (ts =? 0) with false by lia.
  pose proof (mod0_div _ _ P D) as E. set (q := 1440 / ts) in *.
  assert (Cnt : (start + (n - 1) * 1440 + off + delta - (start + off)) / ts + 1 = n * q).
  { replace (start + (n - 1) * 1440 + off + delta - (start + off)) with ((n - 1) * 1440 + delta) by lia.
    assert (delta = 1440 - ts). { unfold delta. destruct (Z.ltb_spec ts 1440); lia. }
    replace ((n - 1) * 1440 + delta) with ((n * q - 1) * ts) by (rewrite H; nia).
    rewrite Z.div_mul by lia. lia. }
  rewrite Cnt. eexists. split; [reflexivity|]. rewrite zrange_length. split; [reflexivity|]. split.
  - intros k Hk. rewrite zrange_nth by auto. f_equal. unfold off. destruct pe; lia.
  - now apply zrange_sorted.
Qed.

(** ** groups *)
Definition in_bin (bin : Z -> Z) (b t : Z) : bool := bin t =? b.

Lemma group_flat (bin : Z -> Z) (ts : list Z) : forall n b0,
  StronglySorted (fun t t' => bin t <= bin t') ts ->
  (forall t, In t ts -> b0 <= bin t < b0 + Z.of_nat n) ->
  concat (map (fun b => filter (fun t => bin t =? b) ts) (zrange b0 1 (Z.of_nat n))) = ts.
Proof.
  (* split the list by the first bin *)
  intros n. revert ts. induction n as [|n IH]; intros ts b0 S H.
  - destruct ts as [|t ts]; [reflexivity|]. specialize (H t (or_introl eq_refl)). lia.
  - assert (Z1 : zrange b0 1 (Z.of_nat (Datatypes.S n)) = b0 :: zrange (b0 + 1) 1 (Z.of_nat n)).
    { unfold zrange. rewrite !Nat2Z.id. simpl. rewrite <- seq_shift, map_map. f_equal; [lia|].
      apply map_ext. intros; lia. }
    rewrite Z1. simpl.
    (* ts = those in b0 ++ the others *)
    assert (Sp : ts = filter (fun t => bin t =? b0) ts ++ filter (fun t => negb (bin t =? b0)) ts).
    { clear IH Z1. induction S as [|t ts S IHS F]; [reflexivity|]. simpl.
      destruct (Z.eqb_spec (bin t) b0) as [E|E]; simpl.
      - f_equal. apply IHS. intros; apply H; now right.
      - assert (N : filter (fun t => bin t =? b0) ts = []).
        { clear IHS. induction ts as [|t' ts' IHt]; [reflexivity|]. simpl.
          inversion F; subst. pose proof (H t (or_introl eq_refl)).
          destruct (Z.eqb_spec (bin t') b0); [lia|]. apply IHt; auto.
          - now inversion S.
          - intros x [<-|Hx]; apply H; simpl; auto. }
        rewrite N. simpl. f_equal. rewrite <- (app_nil_l (filter _ ts)). rewrite <- N at 1.
        apply IHS. intros; apply H; now right. }
    etransitivity; [|symmetry; exact Sp]. f_equal.
    etransitivity; [|apply (IH (filter (fun t => negb (bin t =? b0)) ts) (b0 + 1))].
    + f_equal. apply map_ext_in. intros b Hb.
      assert (b <> b0).
      { unfold zrange in Hb. apply in_map_iff in Hb as (i & <- & _). lia. }
      clear - H0. induction ts as [|t ts IHt]; simpl; [reflexivity|].
      destruct (Z.eqb_spec (bin t) b); subst; simpl.
      * destruct (Z.eqb_spec (bin t) b0); [lia|]. simpl. rewrite Z.eqb_refl. now rewrite IHt.
      * destruct (Z.eqb_spec (bin t) b0); simpl; auto.
        destruct (Z.eqb_spec (bin t) b); [lia|]. auto.
    + clear - S. induction S as [|t ts S IH F]; simpl; [constructor|].
      destruct (negb (bin t =? b0)); auto. constructor; auto.
      rewrite Forall_forall in *. intros x Hx. apply filter_In in Hx. apply F, Hx.
    + intros t Ht. apply filter_In in Ht as [Ht Hb]. apply negb_true_iff in Hb. apply Z.eqb_neq in Hb.
      specialize (H t Ht). lia.
Qed.

Lemma last_In {A} (l : list A) d x : l <> [] -> last l d = x -> In x l.
Proof.
  revert d. induction l as [|a l IH]; intros d N E; [congruence|].
  destruct l as [|b l]; simpl in *; [auto|]. right. apply (IH d); [congruence|auto].
Qed.

Lemma sorted_last (R : Z -> Z -> Prop) l d : (forall x, R x x) -> StronglySorted R l -> l <> [] ->
  forall x, In x l -> R x (last l d).
Proof.
  intros Rf S. induction S as [|a l S IH F]; intros N x Hx; [congruence|].
  destruct l as [|b l].
  - destruct Hx as [->|[]]. apply Rf.
  - destruct Hx as [->|Hx].
    + rewrite Forall_forall in F. apply F. apply (last_In _ d); [congruence|reflexivity].
    + apply IH; [congruence|auto].
Qed.

Theorem groups_concat (bin : Z -> Z) (times : list Z) :
  monotone_bins bin -> StronglySorted Z.lt times -> concat (group_times bin times) = times.
Proof.
  intros Mono S. unfold group_times. destruct times as [|t0 r] eqn:E; [reflexivity|].
  rewrite <- E in *. assert (NE : times <> []) by congruence.
  assert (Sb : StronglySorted (fun t t' => bin t <= bin t') times).
  { clear - S Mono. induction S as [|t l S IH F]; constructor; auto.
    rewrite Forall_forall in *. intros x Hx. apply Mono. specialize (F x Hx). lia. }
  set (b0 := bin t0). set (b1 := bin (last times t0)).
  assert (Hlo : forall t, In t times -> b0 <= bin t).
  { intros t Ht. rewrite E in Ht. destruct Ht as [<-|Ht]; [unfold b0; lia|].
    rewrite E in Sb. inversion Sb as [|? ? ? F]; subst. rewrite Forall_forall in F. now apply F. }
  assert (Hhi : forall t, In t times -> bin t <= b1).
  { intros t Ht. unfold b1. apply (sorted_last (fun t t' => bin t <= bin t')); auto. lia. }
  assert (b0 <= b1). { apply Hlo. apply (last_In _ t0); auto. }
  replace (b1 - b0 + 1) with (Z.of_nat (Z.to_nat (b1 - b0 + 1))) by lia.
  apply group_flat; auto. intros t Ht. specialize (Hlo t Ht). specialize (Hhi t Ht). lia.
Qed.

Lemma group_member bin times g t :
  In g (group_times bin times) -> In t g -> In t times /\ forall t', In t' times -> (In t' g <-> bin t' = bin t).
Proof.
  unfold group_times. destruct times as [|t0 r] eqn:E; [easy|]. rewrite <- E in *.
  intros Hg Ht. apply in_map_iff in Hg as (b & <- & _).
  apply filter_In in Ht as [Ht Hb]. apply Z.eqb_eq in Hb. split; auto.
  intros t' Ht'. rewrite filter_In, Z.eqb_eq. subst b. tauto.
Qed.

(** each stamp is in exactly one group (positions in the list of files) *)
Theorem groups_unique bin times t : monotone_bins bin -> StronglySorted Z.lt times -> In t times ->
  exists i, (i < List.length (group_times bin times))%nat /\ In t (nth i (group_times bin times) []) /\
    forall j, (j < List.length (group_times bin times))%nat ->
      In t (nth j (group_times bin times) []) -> j = i.
Proof.
  intros Mono S Ht.
  assert (HC : In t (concat (group_times bin times))) by (now rewrite groups_concat).
  apply in_concat in HC as (g & Hg & Htg).
  apply (In_nth _ _ []) in Hg as (i & Hi & Eg). exists i. rewrite Eg. split; auto. split; auto.
  intros j Hj Htj.
  (* the bins are different for different positions *)
  unfold group_times in *. destruct times as [|t0 r] eqn:E; [easy|]. rewrite <- E in *.
  set (n := (bin (last times t0) - bin t0 + 1)) in *.
  rewrite map_length, zrange_length in *.
  assert (Nth : forall k, (k < Z.to_nat n)%nat ->
     nth k (map (fun b => filter (fun t => bin t =? b) times) (zrange (bin t0) 1 n)) []
     = filter (fun t => bin t =? bin t0 + Z.of_nat k * 1) times).
  { intros k Hk. apply nth_error_nth. rewrite nth_error_map, zrange_nth by auto. reflexivity. }
  rewrite Nth in Htj by auto. rewrite Nth in Eg by auto. subst g.
  apply filter_In in Htg as [_ A]. apply filter_In in Htj as [_ B]. lia.
Qed.

(** ** records of a group *)
Lemma filter_ext_In {A} (f g : A -> bool) l : (forall x, In x l -> f x = g x) -> filter f l = filter g l.
Proof. intros H. induction l as [|x l IH]; simpl; [reflexivity|]. rewrite H by (now left). rewrite IH; auto. intros; apply H; now right. Qed.

(** selecting by first and last stamp of the group selects exactly the
    stamps of the group *)
Lemma group_range bin times g : monotone_bins bin -> StronglySorted Z.lt times ->
  In g (group_times bin times) -> forall t0 r, g = t0 :: r ->
  forall t, In t times -> ((t0 <=? t) && (t <=? last g t0))%bool = true <-> In t g.
Proof.
  intros Mono S Hg t0 r E t Ht. rewrite andb_true_iff, !Z.leb_le.
  assert (I0 : In t0 g) by (rewrite E; now left).
  destruct (group_member bin times g t0 Hg I0) as [It0 M].
  assert (IL : In (last g t0) g) by (apply (last_In _ t0); congruence).
  pose proof (proj1 (M (last g t0) (proj1 (group_member bin times g _ Hg IL))) IL) as BL.
  assert (Sg : StronglySorted Z.le g).
  { unfold group_times in Hg. destruct times as [|h tl]; [easy|].
    apply in_map_iff in Hg as (b & <- & _). clear - S.
    induction S as [|x l S IH F]; simpl; [constructor|]. destruct (bin x =? b); auto.
    constructor; auto. rewrite Forall_forall in *. intros y Hy. apply filter_In in Hy as [Hy _].
    specialize (F y Hy). lia. }
  split.
  - intros [A B]. apply M; auto.
    pose proof (Mono t0 t A). pose proof (Mono t (last g t0) B). lia.
  - intros I. split.
    + rewrite E in Sg, I. inversion Sg as [|? ? ? F]; subst. destruct I as [->|I]; [lia|].
      rewrite Forall_forall in F. now apply F.
    + apply (sorted_last Z.le); auto; [lia | congruence].
Qed.

Lemma nth_error_filter_map {A B} (p : A -> bool) (l : list A) : forall (v : list B),
  List.length l = List.length v ->
  forall k i a, nth_error (filter p l) k = Some a -> NoDup l ->
  nth_error l i = Some a ->
  nth_error (map snd (filter (fun x => p (fst x)) (combine l v))) k = nth_error v i.
Proof.
  induction l as [|x l IH]; intros [|y v]; simpl; try discriminate.
  - intros _ [|k] i a; discriminate.
  - intros [= L] k i a Hk ND Hi. inversion ND; subst.
    destruct (p x) eqn:P.
    + destruct k as [|k]; simpl in *.
      * inversion Hk; subst a. destruct i as [|i]; [reflexivity|]. simpl in Hi.
        apply nth_error_In in Hi. contradiction.
      * destruct i as [|i]; simpl in *.
        -- inversion Hi; subst a. apply nth_error_In, filter_In in Hk. tauto.
        -- eapply IH; eauto.
    + destruct i as [|i]; simpl in *.
      * inversion Hi; subst a. apply nth_error_In, filter_In in Hk. tauto.
      * eapply IH; eauto.
Qed.

Lemma sorted_NoDup l : StronglySorted Z.lt l -> NoDup l.
Proof.
  induction 1 as [|x l S IH F]; constructor; auto. intros I. rewrite Forall_forall in F.
  specialize (F x I). lia.
Qed.

Lemma filter_combine_length {A B} (p : A -> bool) (l : list A) : forall (v : list B),
  List.length v = List.length l ->
  List.length (filter (fun x => p (fst x)) (combine l v)) = List.length (filter p l).
Proof.
  induction l as [|x l IH]; intros [|y v]; simpl; try discriminate; auto.
  intros [= L]. destruct (p x); simpl; rewrite IH; auto.
Qed.

Theorem records_match {A} (bin : Z -> Z) axis (values : list A) g :
  monotone_bins bin -> StronglySorted Z.lt axis -> List.length values = List.length axis ->
  In g (group_times bin axis) ->
  List.length (file_records axis values g) = List.length g /\
  forall k i t, nth_error g k = Some t -> nth_error axis i = Some t ->
    nth_error (file_records axis values g) k = nth_error values i.
Proof.
  intros Mono S L Hg. unfold file_records.
  destruct g as [|t0 r] eqn:E; [split; [reflexivity|intros [|k]; discriminate]|]. rewrite <- E in *.
  set (p := fun t => ((t0 <=? t) && (t <=? last g t0))%bool).
  assert (Fg : filter p axis = g).
  { assert (Gf : exists b, g = filter (fun t => bin t =? b) axis).
    { unfold group_times in Hg. destruct axis; [easy|].
      apply in_map_iff in Hg as (b & <- & _). exists b. reflexivity. }
    destruct Gf as (b & Gf). etransitivity; [|symmetry; exact Gf]. apply filter_ext_In. intros t Ht.
    pose proof (group_range bin axis g Mono S Hg t0 r E t Ht) as R. fold (p t) in R.
    assert (Q : In t g <-> (bin t =? b) = true) by (rewrite Gf, filter_In; tauto).
    destruct (p t), (bin t =? b); auto; exfalso.
    - assert (false = true) by tauto. discriminate.
    - assert (false = true) by tauto. discriminate. }
  split.
  - transitivity (List.length (filter p axis)); [|now rewrite Fg]. rewrite map_length.
    change (List.length (filter (fun x => p (fst x)) (combine axis values)) = List.length (filter p axis)).
    apply filter_combine_length. auto.
  - intros k i t Hk Hi.
    apply (nth_error_filter_map p axis values) with (a := t); auto.
    + now rewrite Fg.
    + now apply sorted_NoDup.
Qed.

(** ** time step check *)
Lemma accept_time_step s : validate_setup s = Ok tt ->
  (1440 mod v_time_step s = 0) /\ (v_time_step s <= 360 \/ v_time_step s = 1440) /\ v_time_step s <> 0.
Proof.
  unfold validate_setup. intros H. destruct (Z.eqb_spec (v_time_step s) 0); [discriminate|].
  match type of H with match ?e with _ => _ end = _ => destruct e eqn:E; [|discriminate] end.
  repeat match type of E with _ ++ _ = [] => apply app_eq_nil in E; destruct E as [?X E] end.
  match goal with X : check (negb (time_step_rejected _)) _ = [] |- _ => rename X into T end.
  unfold check in T. destruct (negb (time_step_rejected (v_time_step s))) eqn:N; [|discriminate].
  apply negb_true_iff in N. unfold time_step_rejected in N. apply orb_false_iff in N as [N1 N2].
  apply negb_false_iff in N1. apply andb_false_iff in N2. split; [lia|]. split; [|auto].
  destruct N2 as [N2|N2]; [left; lia|right]. apply negb_false_iff in N2. lia.
Qed.
