(** C61, C62, C70 *)
From Coq Require Import ZArith String List Bool Lia.
From Verif Require Import Model.Py Model.Units Model.Globals Spec.GlobalsSpec Proofs.Base Proofs.StateProofs Proofs.ConfigProofs.
Import ListNotations.
Local Open Scope string_scope.
Local Open Scope list_scope.

(** ** C61 *)
Lemma attr_params h kr h' : update_unit_attr h kr = Ok h' -> h_params h' = h_params h /\ h_out_vars h' = h_out_vars h.
Proof.
  destruct kr as [k r]. unfold update_unit_attr. destruct (deref h r) as [v|]; [|discriminate]. cbn [bind].
  assert (S : forall u h1, set_units h r u = h1 -> h_params h1 = h_params h /\ h_out_vars h1 = h_out_vars h).
  { intros u h1 <-. unfold set_units. destruct r; [destruct (dict_get (h_avail h) n)|destruct (dict_get (h_user h) n)]; auto. }
  destruct (ov_units v).
  - destruct (dict_getitem converters k) as [cs|]; [|discriminate]. cbn [bind]. destruct (dict_mem cs s).
    + destruct (dict_mem (h_attrs h) k); [|discriminate]. intros E. injection E as <-. auto.
    + destruct (avail_units h k); [|discriminate]. cbn [bind]. intros E. injection E as E. eauto.
  - destruct (avail_units h k); [|discriminate]. cbn [bind]. intros E. injection E as E. eauto.
Qed.
Lemma attrs_params ovs : forall h h', update_unit_attrs h ovs = Ok h' -> h_params h' = h_params h /\ h_out_vars h' = h_out_vars h.
Proof.
  induction ovs as [|kr ovs IH]; intros h h'; cbn [update_unit_attrs]; [intros E; injection E as <-; auto|].
  destruct (update_unit_attr h kr) as [h1|] eqn:E; [|discriminate]. cbn [bind]. intros H.
  apply IH in H. apply attr_params in E. intuition congruence.
Qed.

Lemma construct_params h given ovs h' : construct h given ovs = Ok h' -> h_params h' = dict_update (h_params h) given.
Proof. unfold construct. destruct ovs as [[u r]|]; intros H; apply attrs_params in H; apply H. Qed.

Theorem construct_reads h given ovs h' k : NoDup (keys given) -> construct h given ovs = Ok h' ->
  read_param h' k = match dict_get given k with Some v => Some v | None => read_param h k end.
Proof. intros ND H. unfold read_param. rewrite (construct_params _ _ _ _ H). now apply dict_get_update. Qed.

Definition built (h : heap) given := match construct h given None with Ok h' => h' | Err _ => h end.

Theorem params_leak : exists defaults given1 given2 h1 h2 k,
  construct (initial_heap defaults) given1 None = Ok h1 /\ construct h1 given2 None = Ok h2 /\
  dict_get given2 k = None /\ read_param h2 k <> dict_get defaults k.
Proof.
  exists [("method", "mtclim"); ("prec_type", "uniform")], [("prec_type", "triangle")], [].
  exists (built (initial_heap [("method", "mtclim"); ("prec_type", "uniform")]) [("prec_type", "triangle")]).
  exists (built (built (initial_heap [("method", "mtclim"); ("prec_type", "uniform")]) [("prec_type", "triangle")]) []).
  exists "prec_type". split; [vm_compute; reflexivity|]. split; [vm_compute; reflexivity|].
  split; [reflexivity|vm_compute; discriminate].
Qed.
Theorem params_shared : exists defaults given1 given2 h1 h2 k,
  construct (initial_heap defaults) given1 None = Ok h1 /\ construct h1 given2 None = Ok h2 /\
  dict_get given1 k <> None /\ read_param h2 k <> read_param h1 k.
Proof.
  exists [("method", "mtclim"); ("prec_type", "uniform")], [("prec_type", "triangle")], [("prec_type", "mix")].
  exists (built (initial_heap [("method", "mtclim"); ("prec_type", "uniform")]) [("prec_type", "triangle")]).
  exists (built (built (initial_heap [("method", "mtclim"); ("prec_type", "uniform")]) [("prec_type", "triangle")]) [("prec_type", "mix")]).
  exists "prec_type". split; [vm_compute; reflexivity|]. split; [vm_compute; reflexivity|]. split; vm_compute; discriminate.
Qed.

(** ** C62 *)
Definition avail_default (h : heap) : Prop :=
  forall k, option_map ov_units (dict_get (h_avail h) k) = option_map Some (dict_get default_units k).

Lemma getitem_get {V} (d : dict V) k v : dict_getitem d k = Ok v <-> dict_get d k = Some v.
Proof. unfold dict_getitem. destruct (dict_get d k); split; congruence. Qed.

Lemma avail_units_default h k u : avail_default h -> (avail_units h k = Ok u <-> dict_get default_units k = Some u).
Proof.
  intros A. specialize (A k). unfold avail_units, dict_getitem. destruct (dict_get (h_avail h) k) as [v|]; cbn [bind option_map] in *.
  - destruct (dict_get default_units k); [|discriminate]. injection A as A. rewrite A. split; congruence.
  - destruct (dict_get default_units k); [discriminate|]. split; congruence.
Qed.

Lemma defaults_supported k u : dict_get default_units k = Some u -> exists cs, dict_get converters k = Some cs /\ dict_mem cs u = true.
Proof.
  intros H. apply dict_get_In in H. cbn in H.
  repeat (destruct H as [H|H]; [injection H as <- <-; eexists; split; reflexivity|]). destruct H.
Qed.

Lemma supported_mem k u cs : dict_get converters k = Some cs -> (supported k u <-> dict_mem cs u = true).
Proof.
  intros H. unfold supported, converter_for, dict_getitem. rewrite H. cbn [bind]. unfold dict_mem.
  destruct (dict_get cs u) as [c|]; split; intros A; auto; [now exists c|destruct A; discriminate|discriminate].
Qed.

(** what one iteration does to entries of its own and of other names *)
Lemma attr_step h k r h' : avail_default h -> (r = RAvail k \/ r = RUser k) -> update_unit_attr h (k, r) = Ok h' ->
  avail_default h' /\
  (forall k', k' <> k -> dict_get (h_attrs h') k' = dict_get (h_attrs h) k' /\ deref h' (RUser k') = deref h (RUser k')) /\
  (forall k', option_map ov_name (dict_get (h_avail h') k') = option_map ov_name (dict_get (h_avail h) k')) /\
  exists v v' u, deref h r = Ok v /\ deref h' r = Ok v' /\ ov_units v' = Some u /\ supported k u /\
    ((ov_units v = Some u /\ dict_get (h_attrs h') k = Some u) \/
     (match ov_units v with Some x => ~ supported k x | None => True end /\ r = RUser k /\
      dict_get default_units k = Some u /\ h_attrs h' = h_attrs h)).
Proof.
  intros A R. unfold update_unit_attr. destruct (deref h r) as [v|] eqn:D; [|discriminate]. cbn [bind].
  assert (Hav : r = RAvail k -> exists u, ov_units v = Some u /\ dict_get default_units k = Some u).
  { intros ->. cbn [deref] in D. apply getitem_get in D. pose proof (A k) as Ak. rewrite D in Ak. cbn [option_map] in Ak.
    destruct (dict_get default_units k) as [u|]; [|discriminate]. injection Ak as Ak. eauto. }
  assert (Sd : forall d, avail_units h k = Ok d -> match ov_units v with Some x => ~ supported k x | None => True end -> set_units h r d = h' -> 
    avail_default h' /\
    (forall k', k' <> k -> dict_get (h_attrs h') k' = dict_get (h_attrs h) k' /\ deref h' (RUser k') = deref h (RUser k')) /\
    (forall k', option_map ov_name (dict_get (h_avail h') k') = option_map ov_name (dict_get (h_avail h) k')) /\
    exists w v' u, Ok v = Ok w /\ deref h' r = Ok v' /\ ov_units v' = Some u /\ supported k u /\
    ((ov_units w = Some u /\ dict_get (h_attrs h') k = Some u) \/
     (match ov_units w with Some x => ~ supported k x | None => True end /\ r = RUser k /\
      dict_get default_units k = Some u /\ h_attrs h' = h_attrs h))).
  { intros d Hd Hv <-. apply avail_units_default in Hd; auto.
    destruct (defaults_supported _ _ Hd) as (cs & Hcs & Hm). apply (supported_mem _ _ _ Hcs) in Hm.
    destruct R as [->| ->].
    - destruct Hav as (u & Hu & Hu'); auto. rewrite Hu in Hv. rewrite Hd in Hu'. injection Hu' as <-. contradiction.
    - cbn [deref set_units] in *. apply getitem_get in D. rewrite D. cbn [h_attrs h_avail h_user].
      split; [exact A|]. split; [|split; [reflexivity|]].
      + intros k' N. split; auto. unfold dict_getitem. rewrite dict_get_set.
        destruct (String.eqb_spec k' k); [contradiction|reflexivity].
      + exists v, (mk_outvar (ov_name v) (Some d)), d. split; [reflexivity|]. split; [|split; [reflexivity|split; [auto|right; auto]]].
        apply getitem_get. rewrite dict_get_set, String.eqb_refl. reflexivity. }
  destruct (ov_units v) as [u|] eqn:U.
  - destruct (dict_getitem converters k) as [cs|] eqn:C; [|discriminate]. cbn [bind]. apply getitem_get in C.
    destruct (dict_mem cs u) eqn:M.
    + destruct (dict_mem (h_attrs h) k); [|discriminate]. intros E. injection E as <-. cbn [h_avail h_attrs set_attr].
      split; [exact A|]. split; [|split; [reflexivity|]].
      * intros k' N. rewrite dict_get_set. destruct (String.eqb_spec k' k); [contradiction|]. split; reflexivity.
      * exists v, v, u. split; [reflexivity|]. split; [destruct r; exact D|]. split; [auto|].
        split; [now apply (supported_mem _ _ _ C)|]. left. split; auto. rewrite dict_get_set, String.eqb_refl. reflexivity.
    + destruct (avail_units h k) as [d|] eqn:Ad; [|discriminate]. cbn [bind]. intros E. apply res_inj in E.
      eapply Sd; eauto. intros S. apply (supported_mem _ _ _ C) in S. congruence.
  - destruct (avail_units h k) as [d|] eqn:Ad; [|discriminate]. cbn [bind]. intros E. apply res_inj in E.
    eapply Sd; eauto.
Qed.

Lemma deref_avail_units h h' k v v' : avail_default h -> avail_default h' ->
  deref h (RAvail k) = Ok v -> deref h' (RAvail k) = Ok v' -> ov_units v' = ov_units v.
Proof.
  intros A A'. cbn [deref]. intros H H'. apply getitem_get in H. apply getitem_get in H'.
  specialize (A k). specialize (A' k). rewrite H in A. rewrite H' in A'. cbn [option_map] in *.
  destruct (dict_get default_units k); congruence.
Qed.

Lemma deref_avail_some h h' k v : avail_default h -> avail_default h' -> deref h (RAvail k) = Ok v -> exists v', deref h' (RAvail k) = Ok v'.
Proof.
  intros A A'. cbn [deref]. intros H. apply getitem_get in H. specialize (A k). specialize (A' k). rewrite H in A. cbn [option_map] in A.
  unfold dict_getitem. destruct (dict_get (h_avail h') k); [eauto|]. cbn [option_map] in A'. destruct (dict_get default_units k); discriminate.
Qed.

Lemma attrs_loop refs : forall h h', avail_default h -> own_refs refs -> update_unit_attrs h refs = Ok h' ->
  avail_default h' /\
  (forall k, ~ In k (keys refs) -> dict_get (h_attrs h') k = dict_get (h_attrs h) k /\ deref h' (RUser k) = deref h (RUser k)) /\
  (forall k, option_map ov_name (dict_get (h_avail h') k) = option_map ov_name (dict_get (h_avail h) k)) /\
  forall k r, In (k, r) refs -> exists v v' u, deref h r = Ok v /\ deref h' r = Ok v' /\ ov_units v' = Some u /\ supported k u /\
    ((ov_units v = Some u /\ dict_get (h_attrs h') k = Some u) \/
     (match ov_units v with Some x => ~ supported k x | None => True end /\ r = RUser k /\
      dict_get default_units k = Some u /\ dict_get (h_attrs h') k = dict_get (h_attrs h) k)).
Proof.
  induction refs as [|[k r] refs IH]; intros h h' A [ND Own]; cbn [update_unit_attrs].
  - intros E. apply res_inj in E. subst h'. split; [auto|]. split; [auto|]. split; [auto|]. intros k r [].
  - destruct (update_unit_attr h (k, r)) as [h1|] eqn:E; [|discriminate]. cbn [bind]. intros H.
    cbn [keys map fst] in ND. inversion ND as [|? ? N ND']; subst.
    apply attr_step in E as (A1 & Oth & Nm & Here); auto; [|apply Own; now left].
    apply IH in H as (A' & Oth' & Nm' & Rest); [|auto|split; [auto|intros; apply Own; now right]].
    split; [auto|]. split; [|split].
    + intros k' N'. cbn [keys map fst] in N'. destruct (Oth' k') as [B C]; [intros Q; apply N'; now right|].
      destruct (Oth k') as [B1 C1]; [intros Q; apply N'; now left|]. rewrite B, C. auto.
    + intros k'. rewrite Nm'. auto.
    + intros k' r' [Q|Q].
      * injection Q as <- <-. destruct Here as (v & v1 & u & D & D1 & U & S & Cs).
        destruct (Oth' k N) as [B C].
        assert (exists v', deref h' r = Ok v' /\ ov_units v' = Some u) as (v' & D' & U').
        { destruct (Own k r) as [->| ->]; [now left| |].
          - destruct (deref_avail_some _ h' _ _ A1 A' D1) as (v' & D'). exists v'. split; auto.
            rewrite (deref_avail_units _ _ _ _ _ A1 A' D1 D'). exact U.
          - exists v1. rewrite C. auto. }
        exists v, v', u. split; [auto|]. split; [auto|]. split; [auto|]. split; [auto|]. rewrite B.
        destruct Cs as [Cs|(X & Y & Z & W)]; [left; exact Cs|right]. rewrite W. auto.
      * assert (Hk : k' <> k). { intros ->. apply N. apply in_map_iff. exists (k, r'). auto. }
        destruct (Rest _ _ Q) as (v1 & v' & u & D1 & D' & U & S & Cs). destruct (Oth k' Hk) as [B C]. rewrite B in Cs.
        destruct (Own k' r') as [->| ->]; [now right| |].
        -- destruct (deref_avail_some _ h _ _ A1 A D1) as (v & D). exists v, v', u.
           rewrite (deref_avail_units _ _ _ _ _ A A1 D D1) in Cs. auto 10.
        -- exists v1, v', u. rewrite <- C. auto 10.
Qed.

Lemma initial_avail defaults : avail_default (initial_heap defaults).
Proof.
  intros k. unfold initial_heap. cbn [h_avail]. 
  assert (G : forall d : dict string, dict_get (map (fun nu => (fst nu, mk_outvar (fst nu) (Some (snd nu)))) d) k = option_map (fun u => mk_outvar k (Some u)) (dict_get d k)).
  { induction d as [|[a x] d IH]; cbn; auto. destruct (String.eqb_spec k a); subst; auto. }
  rewrite G. destruct (dict_get default_units k); reflexivity.
Qed.

Lemma default_outputs_own : own_refs (map (fun n => (n, RAvail n)) default_outputs).
Proof.
  split.
  - cbn. repeat constructor; cbn; intuition discriminate.
  - intros k r H. apply in_map_iff in H as (n & E & _). injection E as <- <-. auto.
Qed.

Lemma set_out_name_avail h n out : avail_default h -> avail_default (set_out_name h n out).
Proof.
  intros A k. unfold set_out_name. destruct (dict_get (h_avail h) n) as [v|] eqn:E; [|apply A]. cbn [h_avail].
  rewrite dict_get_set. destruct (String.eqb_spec k n); [|apply A]. subst k. rewrite <- A, E. reflexivity.
Qed.
Lemma set_out_name_rest h n out : h_out_vars (set_out_name h n out) = h_out_vars h /\ h_attrs (set_out_name h n out) = h_attrs h
  /\ h_params (set_out_name h n out) = h_params h.
Proof. unfold set_out_name. destruct (dict_get (h_avail h) n); auto. Qed.
Lemma ini_renames_inv renames : forall h h', ini_renames h renames = Ok h' -> avail_default h ->
  avail_default h' /\ h_out_vars h' = h_out_vars h.
Proof.
  induction renames as [|[n out] rs IH]; intros h h'; cbn [ini_renames]; [intros E; apply res_inj in E; subst; auto|].
  destruct (dict_getitem (h_avail h) n); [|discriminate]. cbn [bind]. intros H A.
  apply IH in H as [B C]; [|now apply set_out_name_avail]. rewrite C. split; [auto|]. apply set_out_name_rest.
Qed.

Lemma history_inv defaults h : history defaults h -> avail_default h /\ own_refs (h_out_vars h).
Proof.
  induction 1 as [|h given ovs h' _ [A O] Hr H|h names renames h' refs _ [A O] H].
  - split; [apply initial_avail|apply default_outputs_own].
  - unfold construct in H. destruct ovs as [[user refs]|].
    + assert (A' : avail_default (mkheap (dict_update (h_params h) given) refs (h_attrs h) (h_avail h) user)) by exact A.
      pose proof (attrs_params _ _ _ H) as [_ P]. apply attrs_loop in H as (B & _); auto. split; auto. rewrite P. exact Hr.
    + assert (A' : avail_default (update_params h given)) by exact A.
      pose proof (attrs_params _ _ _ H) as [_ P]. apply attrs_loop in H as (B & _); auto. split; auto. rewrite P. exact O.
  - unfold read_ini_out_vars in H. destruct (mapM _ names); [|discriminate]. cbn [bind] in H.
    destruct (ini_renames h renames) as [h1|] eqn:E; [|discriminate]. cbn [bind] in H. injection H as <- _.
    apply ini_renames_inv in E as [B C]; auto. split; auto. rewrite C. exact O.
Qed.

Section Units.
Variables (defaults : dict string) (h : heap) (given : dict string) (user : dict outvar) (refs : dict ref) (h' : heap).
Hypothesis (Hist : history defaults h) (Own : own_refs refs) (H : construct h given (Some (user, refs)) = Ok h').

Lemma units_after k r : In (k, r) refs -> exists v u,
  deref (mkheap (dict_update (h_params h) given) refs (h_attrs h) (h_avail h) user) r = Ok v /\
  applied_units h' k = Ok u /\ supported k u /\
    ((ov_units v = Some u /\ recorded_units h' k = Ok u) \/
     (match ov_units v with Some x => ~ supported k x | None => True end /\ r = RUser k /\
      dict_get default_units k = Some u /\ recorded_units h' k = dict_getitem (h_attrs h) k)).
Proof.
  intros Hin. pose proof (history_inv _ _ Hist) as [A _].
  unfold construct in H. pose proof (attrs_params _ _ _ H) as [_ P]. cbn [h_out_vars] in P, H.
  pose proof H as L. apply attrs_loop in L as (_ & _ & _ & L); [|exact A|auto].
  destruct (L _ _ Hin) as (v & v' & u & D & D' & U & S & Cs).
  exists v, u. split; [auto|]. split; [|split; [auto|]].
  - unfold applied_units. rewrite P. unfold dict_getitem. rewrite (dict_get_NoDup _ _ r); [|apply Own|auto]. cbn [bind].
    rewrite D'. cbn [bind]. now rewrite U.
  - unfold recorded_units. destruct Cs as [[a b]|(a & b & c & d)]; [left|right]; [split; auto; now apply getitem_get|].
    repeat split; auto. cbn [h_attrs] in d. unfold dict_getitem. now rewrite d.
Qed.

(** shared entries and entries with a unit that can be converted to *)
Theorem units_match k r : In (k, r) refs ->
  (r = RAvail k \/ exists v u, dict_get user k = Some v /\ ov_units v = Some u /\ supported k u) ->
  exists u, recorded_units h' k = Ok u /\ applied_units h' k = Ok u /\ supported k u.
Proof.
  intros Hin Cs. destruct (units_after _ _ Hin) as (v & u & D & Ap & S & [[a b]|(a & b & c & d)]); [eauto|].
  exfalso. destruct Cs as [->|(v1 & u1 & Dv & Hu & Hs)]; [discriminate|]. subst r. cbn [deref h_user] in D.
  apply getitem_get in D. rewrite Dv in D. injection D as <-. rewrite Hu in a. contradiction.
Qed.

(** the unit is the requested one *)
Theorem units_requested k v u : In (k, RUser k) refs -> dict_get user k = Some v -> ov_units v = Some u -> supported k u ->
  recorded_units h' k = Ok u /\ applied_units h' k = Ok u.
Proof.
  intros Hin Dv Hu Hs. destruct (units_after _ _ Hin) as (v1 & u1 & D & Ap & S & [[a b]|(a & b & c & d)]);
    cbn [deref h_user] in D; apply getitem_get in D; rewrite Dv in D; injection D as <-; rewrite Hu in a.
  - injection a as <-. auto.
  - contradiction.
Qed.

(** an entry without convertible unit is right as long as no earlier object
    changed the attribute *)
Theorem units_fallback k r : In (k, r) refs -> dict_get (h_attrs h) k = dict_get default_units k ->
  exists u, recorded_units h' k = Ok u /\ applied_units h' k = Ok u /\ supported k u.
Proof.
  intros Hin Cs. destruct (units_after _ _ Hin) as (v & u & D & Ap & S & [[a b]|(a & b & c & d)]); [eauto|].
  exists u. split; [|auto]. rewrite d. apply getitem_get. rewrite Cs. exact c.
Qed.
End Units.

Theorem stale_units : exists h1 h2 user1 user2,
  construct (initial_heap []) [] (Some (user1, [("temp", RUser "temp")])) = Ok h1 /\
  construct h1 [] (Some (user2, [("temp", RUser "temp")])) = Ok h2 /\
  recorded_units h2 "temp" = Ok "K" /\ applied_units h2 "temp" = Ok "C".
Proof.
  eexists. eexists. exists [("temp", mk_outvar "temp" (Some "K"))], [("temp", mk_outvar "temp" None)].
  split; [reflexivity|]. split; [reflexivity|]. split; reflexivity.
Qed.

(** ** C70 *)
Lemma ini_names renames : forall h h' k, ini_renames h renames = Ok h' ->
  option_map ov_name (dict_get (h_avail h') k) =
  match dict_get (rev renames) k with
  | Some n => option_map (fun _ => n) (dict_get (h_avail h) k)
  | None => option_map ov_name (dict_get (h_avail h) k) end.
Proof.
  assert (Last : forall (l : list (string * string)) k x v, dict_get (l ++ [(k, x)]) v = match dict_get l v with Some y => Some y | None => if v =? k then Some x else None end).
  { induction l as [|[a y] l IH]; intros k x v; cbn; auto. destruct (v =? a); auto. }
  induction renames as [|[n out] rs IH]; intros h h' k; cbn [ini_renames]; [intros E; apply res_inj in E; subst; reflexivity|].
  unfold dict_getitem. destruct (dict_get (h_avail h) n) as [v|] eqn:E; [|discriminate]. cbn [bind]. intros H.
  rewrite (IH _ _ _ H). cbn [rev]. rewrite Last.
  unfold set_out_name. rewrite E. cbn [h_avail]. rewrite dict_get_set.
  destruct (String.eqb_spec k n) as [->|N]; destruct (dict_get (rev rs) _); try rewrite E; reflexivity.
Qed.

Lemma ini_read_names h names renames h' refs ns k : read_ini_out_vars h names renames = Ok (h', refs) ->
  out_names h' refs = Ok ns -> In k (names ++ map fst renames) ->
  dict_get ns k = match dict_get (rev renames) k with Some n => Some n | None => option_map ov_name (dict_get (h_avail h) k) end.
Proof.
  unfold read_ini_out_vars. destruct (mapM _ names); [|discriminate]. cbn [bind].
  destruct (ini_renames h renames) as [h1|] eqn:E; [|discriminate]. cbn [bind]. intros H. injection H as <- <-.
  intros Hn Hin. set (l := names ++ map fst renames) in *.
  assert (G : exists r, In (k, r) (dict_of (map (fun n => (n, RAvail n)) l)) /\
              forall k r, In (k, r) (dict_of (map (fun n => (n, RAvail n)) l)) -> r = RAvail k).
  { assert (I : forall l (d : dict ref), (forall k r, In (k, r) d -> r = RAvail k) ->
       let d' := fold_left (fun d kv => dict_set d (fst kv) (snd kv)) (map (fun n => (n, RAvail n)) l) d in
       (forall k r, In (k, r) d' -> r = RAvail k) /\ (In k l \/ In k (keys d) -> In k (keys d'))).
    { clear. induction l as [|x l IH]; intros d P; cbn [map fold_left fst snd]; [split; [auto|intros [[]|Q]; auto]|].
      assert (Q : forall k r, In (k, r) (dict_set d x (RAvail x)) -> r = RAvail k).
      { intros k0 r Hin. clear IH. induction d as [|[a y] d IHd]; cbn [dict_set] in Hin.
        - destruct Hin as [Hin|[]]. now injection Hin as <- <-.
        - destruct (String.eqb_spec x a).
          + destruct Hin as [Hin|Hin]; [injection Hin as <- <-; now subst|apply P; now right].
          + destruct Hin as [Hin|Hin]; [injection Hin as <- <-; apply P; now left|].
            apply IHd; auto. intros; apply P; now right. }
      destruct (IH _ Q) as [B C]. split; [exact B|]. intros Hk. apply C.
      assert (S : In k (x :: keys d) -> In k (keys (dict_set d x (RAvail x)))).
      { clear. induction d as [|[a y] d IHd]; cbn [dict_set keys map fst]; [auto|].
        intros Hk. destruct (String.eqb_spec x a); [subst; cbn; destruct Hk as [->|Hk]; cbn; auto|].
        cbn. destruct Hk as [->|[->|Hk]]; auto; right; apply IHd; [now left|now right]. }
      destruct Hk as [[->|Hk]|Hk]; [right; apply S; now left|now left|right; apply S; now right]. }
    destruct (I l []) as [B C]; [intros ? ? []|]. fold (dict_update ([] : dict ref) (map (fun n => (n, RAvail n)) l)) in B, C.
    fold (dict_of (map (fun n => (n, RAvail n)) l)) in B, C.
    specialize (C (or_introl Hin)). apply in_map_iff in C as ([k0 r] & <- & C). exists r. auto. }
  destruct G as (r & Hr & All). pose proof (All _ _ Hr) as ->.
  assert (W : dict_get ns k = option_map ov_name (dict_get (h_avail h1) k)).
  { revert Hn Hr All. generalize (dict_of (map (fun n => (n, RAvail n)) l)) as d. clear. intros d. revert ns.
    induction d as [|[a r] d IH]; intros ns Hn Hr All; [destruct Hr|]. unfold out_names in Hn. cbn [mapM fst snd] in Hn.
    rewrite (All a r (or_introl eq_refl)) in Hn. cbn [deref] in Hn. destruct (dict_getitem (h_avail h1) a) as [v|] eqn:D; [|discriminate].
    cbn [bind] in Hn.
    match type of Hn with bind (mapM ?f d) _ = _ => change (mapM f d) with (out_names h1 d) in Hn end.
    destruct (out_names h1 d) as [ys|] eqn:Y; [|discriminate]. cbn [bind] in Hn. apply res_inj in Hn. subst ns. cbn [dict_get].
    destruct (String.eqb_spec k a) as [->|N].
    - apply getitem_get in D. rewrite D. reflexivity.
    - apply IH; auto; [destruct Hr as [Hr|Hr]; [injection Hr as -> _; contradiction|auto]|intros; apply All; now right]. }
  rewrite W, (ini_names _ _ _ k E). destruct (dict_get (rev renames) k) eqn:R; auto.
  destruct (dict_get (h_avail h) k) eqn:X; [reflexivity|].
  assert (Y := ini_names _ _ _ k E). rewrite R, X in Y. cbn in Y. rewrite Y in W. 
  exfalso. revert Hn Hr All Y. clear. generalize (dict_of (map (fun n => (n, RAvail n)) l)) as d. intros d. revert ns.
  induction d as [|[a r] d IH]; intros ns Hn Hr All Y; [destruct Hr|]. unfold out_names in Hn. cbn [mapM fst snd] in Hn.
  rewrite (All a r (or_introl eq_refl)) in Hn. cbn [deref] in Hn. destruct (dict_getitem (h_avail h1) a) as [v|] eqn:D; [|discriminate].
  cbn [bind] in Hn.
  match type of Hn with bind (mapM ?f d) _ = _ => change (mapM f d) with (out_names h1 d) in Hn end.
  destruct (out_names h1 d) as [ys|] eqn:Q; [|discriminate].
  destruct Hr as [Hr|Hr].
  - injection Hr as -> _. apply getitem_get in D. rewrite D in Y. discriminate.
  - eapply IH; eauto. intros; apply All; now right.
Qed.

(** names renamed by the configuration itself, and all names as long as no
    configuration read earlier renamed anything *)
Theorem renamed_names h names renames h' refs ns k n : read_ini_out_vars h names renames = Ok (h', refs) ->
  out_names h' refs = Ok ns -> In (k, n) renames -> dict_get ns k = Some (wanted_name renames k).
Proof.
  intros H Hn Hin. rewrite (ini_read_names _ _ _ _ _ _ k H Hn).
  - unfold wanted_name. destruct (dict_get (rev renames) k) eqn:E; auto. exfalso.
    apply in_rev in Hin. revert Hin E. generalize (rev renames). clear. induction l as [|[a x] l IH]; [intros []|]; intros [Q|Q]; cbn [dict_get].
    + injection Q as -> ->. rewrite String.eqb_refl. discriminate.
    + destruct (k =? a); [discriminate|]. auto.
  - apply in_or_app. right. apply in_map_iff. exists (k, n). auto.
Qed.

Theorem fresh_names defaults names renames h' refs ns k : read_ini_out_vars (initial_heap defaults) names renames = Ok (h', refs) ->
  out_names h' refs = Ok ns -> In k (names ++ map fst renames) -> In k (keys default_units) -> dict_get ns k = Some (wanted_name renames k).
Proof.
  intros H Hn Hin Hk. rewrite (ini_read_names _ _ _ _ _ _ k H Hn Hin). unfold wanted_name.
  destruct (dict_get (rev renames) k); auto. unfold initial_heap. cbn [h_avail].
  apply in_map_iff in Hk as ([k0 u] & <- & Hk).
  revert Hk. generalize default_units. clear. induction d as [|[a x] d IH]; [intros []|]; intros [Q|Q]; cbn [map fst snd dict_get].
  - injection Q as -> ->. cbn [fst]. rewrite String.eqb_refl. reflexivity.
  - destruct (String.eqb_spec k0 a); [subst; reflexivity|auto].
Qed.

Theorem rename_leaks : exists h1 r1 h2 r2 ns,
  read_ini_out_vars (initial_heap []) [] [("temp", "tas")] = Ok (h1, r1) /\
  read_ini_out_vars h1 ["temp"] [] = Ok (h2, r2) /\ out_names h2 r2 = Ok ns /\
  dict_get ns "temp" = Some "tas" /\ wanted_name [] "temp" = "temp".
Proof.
  do 5 eexists. split; [reflexivity|]. split; [reflexivity|]. split; [reflexivity|]. split; reflexivity.
Qed.

(** the outputs of a first object *)
Theorem first_outputs defaults given h : construct (initial_heap defaults) given None = Ok h ->
  keys (h_out_vars h) = ["temp"; "prec"; "shortwave"; "longwave"; "vapor_pressure"; "rel_humid"] /\
  forall k u, In (k, u) [("temp", "C"); ("prec", "mm timestep-1"); ("shortwave", "W m-2"); ("longwave", "W m-2");
                         ("vapor_pressure", "Pa"); ("rel_humid", "%")] ->
    recorded_units h k = Ok u /\ applied_units h k = Ok u /\
    exists v, dict_get (h_avail h) k = Some v /\ ov_name v = k.
Proof.
  intros H. unfold construct, update_params, initial_heap in H. cbn in H. injection H as <-. split; [reflexivity|].
  intros k u I. cbn in I. repeat (destruct I as [I|I]; [injection I as <- <-; repeat split; eexists; split; reflexivity|]). destruct I.
Qed.
