(** Variable mapping, configuration files, time stamps, constants. *)
From Coq Require Import ZArith Reals String Ascii List Bool Arith Lia Lra.
From Verif Require Import Model.Py Model.Fl Model.Np Model.Config Model.Reader Spec.ReaderSpec
  Proofs.Base Proofs.StateProofs.
Import ListNotations.
Local Open Scope string_scope.
Local Open Scope list_scope.

(** ** dictionaries *)
Lemma dict_get_set {V} (d : dict V) k v k' :
  dict_get (dict_set d k v) k' = if k' =? k then Some v else dict_get d k'.
Proof.
  induction d as [|[a x] d IH]; cbn [dict_set dict_get]; [auto|].
  destruct (String.eqb_spec k a); cbn [dict_get]; destruct (String.eqb_spec k' a), (String.eqb_spec k' k); subst; try congruence; auto.
Qed.

Lemma dict_get_update {V} (e : dict V) : forall d k, NoDup (keys e) ->
  dict_get (dict_update d e) k = match dict_get e k with Some v => Some v | None => dict_get d k end.
Proof.
  unfold dict_update. induction e as [|[a x] e IH]; intros d k ND; [reflexivity|].
  cbn [fold_left fst snd dict_get]. inversion ND as [|? ? N ND']; subst. rewrite IH by auto. rewrite dict_get_set.
  destruct (String.eqb_spec k a); auto. subst.
  apply dict_get_None in N. now rewrite N.
Qed.

Lemma dict_set_new {V} (d : dict V) k v : ~ In k (keys d) -> dict_set d k v = d ++ [(k, v)].
Proof.
  induction d as [|[a x] d IH]; intros N; [reflexivity|]. cbn [dict_set].
  destruct (String.eqb_spec k a); [subst; exfalso; apply N; now left|].
  cbn. f_equal. apply IH. intros C. apply N. now right.
Qed.

Lemma dict_of_nodup {V} (e : list (string * V)) : NoDup (keys e) -> dict_of e = e.
Proof.
  intros ND. unfold dict_of, dict_update.
  assert (G : forall (e d : dict V), NoDup (keys (d ++ e)) -> fold_left (fun d kv => dict_set d (fst kv) (snd kv)) e d = d ++ e).
  { clear. induction e as [|[k v] e IH]; intros d ND; cbn [fold_left fst snd]; [now rewrite app_nil_r|].
    unfold keys in *. rewrite dict_set_new.
    - rewrite IH; rewrite <- app_assoc; auto.
    - rewrite map_app in ND. cbn [map fst] in ND. apply NoDup_remove_2 in ND. intros C. apply ND.
      apply in_or_app. now left. }
  apply (G e []). exact ND.
Qed.

Definition swap {A B} (p : A * B) : B * A := (snd p, fst p).
Lemma invert_nodup m : NoDup (values m) -> invert_dict m = map swap m.
Proof.
  intros ND. unfold invert_dict. change (fun kv : string * string => (snd kv, fst kv)) with (@swap string string).
  apply dict_of_nodup. unfold keys, values in *. rewrite map_map. cbn. exact ND.
Qed.
Lemma keys_swap (m : dict string) : keys (map swap m) = values m.
Proof. unfold keys, values. rewrite map_map. reflexivity. Qed.
Lemma values_swap (m : dict string) : values (map swap m) = keys m.
Proof. unfold keys, values. rewrite map_map. reflexivity. Qed.

Lemma nodupb_spec l : nodupb l = true <-> NoDup l.
Proof.
  induction l as [|x l IH]; cbn [nodupb]; [split; auto using NoDup_nil|].
  rewrite andb_true_iff, negb_true_iff, IH. unfold str_in. split.
  - intros [A B]. constructor; auto. intros C.
    assert (existsb (String.eqb x) l = true) by (apply existsb_exists; exists x; split; auto using String.eqb_refl). congruence.
  - intros H. inversion H as [|? ? N ND]; subst. split; auto. apply not_true_is_false. intros C.
    apply existsb_exists in C as (y & Hy & E). apply String.eqb_eq in E. now subst.
Qed.

Lemma dict_get_swap (m : dict string) k f : NoDup (values m) -> In (k, f) m -> dict_get (map swap m) f = Some k.
Proof.
  intros ND H. apply dict_get_NoDup.
  - fold (keys (map swap m)). rewrite keys_swap. exact ND.
  - apply in_map_iff. exists (k, f). auto.
Qed.

Section Map.
Context {V : Type}.
Variables (ds : dict V) (m : dict string).
Hypothesis NDk : NoDup (keys m).
Hypothesis NDv : NoDup (values m).

Lemma select_ok : (forall k f, In (k, f) m -> dict_mem ds f = true) ->
  exists sel, select_vars ds (values m) = Ok sel /\ keys sel = values m /\
    Forall2 (fun kf nv => fst nv = snd kf /\ dict_get ds (snd kf) = Some (snd nv)) m sel.
Proof.
  clear NDk NDv. induction m as [|[k f] m' IH]; intros H; [exists []; repeat split; constructor|].
  destruct IH as (sel & E & K & F). { intros; eapply H; right; eauto. }
  pose proof (H k f (or_introl eq_refl)) as Hf. unfold dict_mem in Hf.
  destruct (dict_get ds f) as [v|] eqn:Ef; [|discriminate].
  exists ((f, v) :: sel). split; [|split].
  - unfold values in *. cbn [map snd select_vars mapM]. unfold select_vars in *. cbn [mapM]. unfold dict_getitem at 1. rewrite Ef. cbn [bind].
    rewrite E. reflexivity.
  - unfold keys, values in *. cbn. now f_equal.
  - constructor; auto.
Qed.

Lemma rename_sel (sel : dict V) :
  Forall2 (fun kf nv => fst nv = snd kf /\ dict_get ds (snd kf) = Some (snd nv)) m sel ->
  exists r, rename_vars sel (map swap m) = Ok r /\ keys r = keys m /\
    forall k, dict_get r k = match dict_get m k with Some f => dict_get ds f | None => None end.
Proof.
  intros F. unfold rename_vars.
  set (r := map _ sel).
  assert (E : Forall2 (fun kf kv => fst kv = fst kf /\ dict_get ds (snd kf) = Some (snd kv)) m r).
  { unfold r. assert (G : forall m' sel', Forall2 (fun kf nv => fst nv = snd kf /\ dict_get ds (snd kf) = Some (snd nv)) m' sel' ->
       (forall kf, In kf m' -> In kf m) ->
       Forall2 (fun kf kv => fst kv = fst kf /\ dict_get ds (snd kf) = Some (snd kv)) m'
         (map (fun nv => (match dict_get (map swap m) (fst nv) with Some n => n | None => fst nv end, snd nv)) sel')).
    { induction 1 as [|[k f] [n v] m' sel' [A B] F' IH]; intros Sub; [constructor|]. cbn [fst snd] in *. subst n.
      cbn [map fst snd]. constructor.
      - cbn [fst snd]. rewrite (dict_get_swap m k f) by (auto; apply Sub; now left). auto.
      - apply IH. intros; apply Sub; now right. }
    apply G; auto. }
  assert (K : keys r = keys m). { clear -E. induction E as [|kf kv m' r' [A B] E IH]; [reflexivity|]. unfold keys in *. cbn. now f_equal. }
  rewrite K. rewrite (proj2 (nodupb_spec _) NDk). exists r. split; auto. split; auto.
  clear -E. intros k. induction E as [|[k1 f] [k2 v] m' r' [A B] E IH]; [reflexivity|]. cbn [fst snd] in *. subst k2.
  cbn [dict_get]. destruct (k =? k1); auto.
Qed.

Theorem mapping_ok : (forall k f, In (k, f) m -> dict_mem ds f = true) ->
  exists r, select_rename ds (invert_dict m) = Ok r /\ keys r = keys m /\
    forall k, dict_get r k = match dict_get m k with Some f => dict_get ds f | None => None end.
Proof.
  intros H. unfold select_rename. rewrite invert_nodup by auto. rewrite keys_swap.
  destruct (select_ok H) as (sel & -> & K & F). cbn [bind]. now apply rename_sel.
Qed.

Theorem mapping_missing : (exists k f, In (k, f) m /\ dict_mem ds f = false) ->
  select_rename ds (invert_dict m) = Err KeyError.
Proof.
  intros (k & f & Hin & Hf). unfold select_rename. rewrite invert_nodup by auto. rewrite keys_swap.
  replace (select_vars ds (values m)) with (@Err (dict V) KeyError); [reflexivity|].
  symmetry. clear NDk NDv. unfold select_vars, values. induction m as [|[k' f'] m' IH]; [destruct Hin|].
  cbn [map snd mapM]. unfold dict_getitem at 1. destruct (dict_get ds f') as [v|] eqn:E; cbn [bind]; [|reflexivity].
  destruct Hin as [Hin|Hin].
  - injection Hin as -> ->. unfold dict_mem in Hf. now rewrite E in Hf.
  - rewrite IH by auto. reflexivity.
Qed.

Lemma dict_get_In_iff {W} (d : dict W) k v : NoDup (keys d) -> (dict_get d k = Some v <-> In (k, v) d).
Proof. intros ND. split; [apply dict_get_In|intros; now apply dict_get_NoDup]. Qed.

(** data given as an in-memory dataset, io.py:310-314 *)
Theorem mapping_data r : read_data_vars ds (invert_dict m) = Ok r ->
  keys r = keys m /\
  forall k f, In (k, f) m -> exists v, dict_get ds f = Some v /\ dict_get r k = Some v.
Proof.
  unfold read_data_vars. rewrite invert_nodup by auto. rewrite keys_swap, values_swap. intros H.
  destruct (forallb _ (values m)) eqn:F; [|discriminate].
  destruct (rename_vars ds (map swap m)) as [d2|] eqn:E; [|discriminate]. cbn [bind] in H.
  unfold rename_vars in E. destruct (nodupb _) eqn:N; [|discriminate]. apply res_inj in E.
  set (f := fun nv : string * V => _) in E. apply nodupb_spec in N. change (NoDup (keys (map f ds))) in N. rewrite E in N.
  apply mapM_inv in H.
  assert (K : keys r = keys m).
  { clear -H. unfold keys in *. revert H. generalize (map fst m) as l. intros l H.
    induction H as [|k [k' v] l r Hx H IH]; [reflexivity|]. cbn. f_equal; auto.
    unfold dict_getitem in Hx. destruct (dict_get d2 k); [|discriminate]. cbn [bind] in Hx. apply res_inj in Hx. congruence. }
  split; auto. intros k fn Hin.
  assert (Hm : dict_mem ds fn = true).
  { rewrite forallb_forall in F. apply F. unfold values. apply in_map_iff. exists (k, fn). auto. }
  unfold dict_mem in Hm. destruct (dict_get ds fn) as [v|] eqn:Ev; [|discriminate]. exists v. split; auto.
  assert (H2 : dict_get d2 k = Some v).
  { apply dict_get_NoDup; auto. rewrite <- E. apply in_map_iff. exists (fn, v). split; [|now apply dict_get_In].
    unfold f. cbn [fst snd]. now rewrite (dict_get_swap m k fn). }
  assert (Hk : In k (keys m)) by (unfold keys; apply in_map_iff; exists (k, fn); auto).
  apply dict_get_NoDup; [now rewrite K|].
  unfold keys in *. revert H Hk. clear -H2. generalize (map fst m) as l. intros l H.
  induction H as [|x [k' v'] l r Hx H IH]; intros Hk; [destruct Hk|].
  destruct Hk as [->|Hk]; [|right; auto].
  left. unfold dict_getitem in Hx. rewrite H2 in Hx. cbn [bind] in Hx. now apply res_inj in Hx.
Qed.
End Map.

(** ** C57 *)
Lemma first_line_spec lines :
  (exists pre l post, lines = pre ++ l :: post /\ Forall comment_line pre /\ ~ comment_line l /\ first_line lines = l) \/
  (Forall comment_line lines /\ first_line lines = "").
Proof.
  induction lines as [|l lines IH]; [right; split; auto|]. cbn [first_line].
  destruct (starts_with "#" (strip l)) eqn:E.
  - destruct IH as [(pre & l' & post & -> & F & N & R)|(F & R)].
    + left. exists (l :: pre), l', post. repeat split; auto.
    + right. split; auto.
  - left. exists [], l, lines. repeat split; auto. unfold comment_line. congruence.
Qed.

Lemma comment_prefix_unique pre : forall l post pre' l' post',
  pre ++ l :: post = pre' ++ l' :: post' -> Forall comment_line pre -> Forall comment_line pre' ->
  ~ comment_line l -> ~ comment_line l' -> l = l'.
Proof.
  induction pre as [|x pre IH]; intros l post [|y pre'] l' post' E F F' N N'; cbn in E.
  - congruence.
  - injection E as -> E. inversion F'; congruence.
  - injection E as -> E. inversion F; subst. contradiction.
  - injection E as -> E. inversion F; inversion F'; subst. eapply IH; eauto.
Qed.

Theorem config_type lines :
  (check_config_type lines = "yaml" <->
   exists pre l post, lines = pre ++ l :: post /\ Forall comment_line pre /\ ~ comment_line l /\ line_text l = "MetSim:") /\
  (check_config_type lines = "yaml" \/ check_config_type lines = "ini").
Proof.
  unfold check_config_type. change (strip (before_char "#" (first_line lines))) with (line_text (first_line lines)).
  split.
  - destruct (first_line_spec lines) as [(pre & l & post & E & F & N & R)|(F & R)].
    + rewrite R. destruct (String.eqb_spec (line_text l) "[MetSim]") as [T|T].
      * split; [discriminate|]. intros (pre' & l' & post' & E' & F' & N' & T').
        rewrite E in E'. assert (l = l') by (eapply comment_prefix_unique; eauto). subst. congruence.
      * destruct (String.eqb_spec (line_text l) "MetSim:") as [T2|T2].
        -- split; auto. intros _. exists pre, l, post. auto.
        -- split; [discriminate|]. intros (pre' & l' & post' & E' & F' & N' & T').
           rewrite E in E'. assert (l = l') by (eapply comment_prefix_unique; eauto). subst. congruence.
    + rewrite R. cbn. split; [discriminate|]. intros (pre & l & post & -> & F' & N & _).
      exfalso. apply N. rewrite Forall_forall in F. apply F. apply in_or_app. right. now left.
  - destruct (_ =? _); auto. destruct (_ =? _); auto.
Qed.

Definition newline : string := String (ascii_of_nat 10) EmptyString.
Theorem blank_line_breaks_yaml : exists b l, blank_line b /\ check_config_type [l] = "yaml" /\ check_config_type [b; l] = "ini".
Proof. exists newline, ("MetSim:" ++ newline)%string. repeat split. Qed.

(** ** C58 *)
Lemma dict_get_mapval {A B} (f : A -> B) (d : dict A) k :
  dict_get (map (fun kv => (fst kv, f (snd kv))) d) k = option_map f (dict_get d k).
Proof. induction d as [|[a x] d IH]; cbn; auto. destruct (k =? a); auto. Qed.

Definition bool_text (o : option string) : bool := match o with Some v => lower (strip v) =? "true" | None => false end.

Lemma ini_bools_get conf k : dict_get (ini_bools conf) k =
  if str_in k ["utc_offset"; "period_ending"] then Some (PBool (bool_text (dict_get conf k)))
  else option_map PStr (dict_get conf k).
Proof.
  unfold ini_bools. cbn [fold_left].
  set (c0 := map (fun kv => (fst kv, PStr (snd kv))) conf).
  assert (G0 : forall k, dict_get c0 k = option_map PStr (dict_get conf k)) by (intros; apply dict_get_mapval).
  assert (G : forall c b k, dict_get (ini_bool c b) k =
     if k =? b then Some (PBool (match dict_get c b with Some (PStr v) => lower (strip v) =? "true" | _ => false end)) else dict_get c k).
  { intros c b k'. unfold ini_bool. destruct (dict_get c b) as [[v|x]|]; rewrite dict_get_set; destruct (k' =? b); auto. }
  rewrite !G. unfold str_in. cbn [existsb orb].
  destruct (String.eqb_spec k "period_ending") as [->|N1].
  - cbn [String.eqb Ascii.eqb Bool.eqb andb orb]. rewrite G0. destruct (dict_get conf "period_ending"); reflexivity.
  - destruct (String.eqb_spec k "utc_offset") as [->|N2]; cbn [orb].
    + rewrite G0. destruct (dict_get conf "utc_offset"); reflexivity.
    + apply G0.
Qed.

Theorem ini_booleans conf :
  (forall k, In k ["utc_offset"; "period_ending"] ->
     exists b, dict_get (ini_bools conf) k = Some (PBool b) /\
       (b = true <-> exists v, dict_get conf k = Some v /\ lower (strip v) = "true")) /\
  (forall k, ~ In k ["utc_offset"; "period_ending"] ->
     dict_get (ini_bools conf) k = option_map PStr (dict_get conf k)).
Proof.
  split; intros k Hk; rewrite ini_bools_get.
  - assert (str_in k ["utc_offset"; "period_ending"] = true) as ->.
    { destruct Hk as [<-|[<-|[]]]; reflexivity. }
    eexists. split; [reflexivity|]. unfold bool_text. destruct (dict_get conf k) as [v|].
    + rewrite String.eqb_eq. split; [eauto|]. intros (v' & E & H). congruence.
    + split; [discriminate|]. intros (v & E & _). discriminate.
  - assert (str_in k ["utc_offset"; "period_ending"] = false) as ->.
    { unfold str_in. cbn [existsb]. destruct (String.eqb_spec k "utc_offset"); [subst; exfalso; apply Hk; now left|].
      destruct (String.eqb_spec k "period_ending"); [subst; exfalso; apply Hk; right; now left|]. reflexivity. }
    reflexivity.
Qed.

(** ** C59 *)
Local Open Scope Z_scope.
Theorem own_day d s : 0 <= s < 86399 * 1000000000 -> normalize_time (d * ns_per_day + s) = d * ns_per_day.
Proof.
  intros H. unfold normalize_time, round_day, shift_ns, ns_per_day in *.
  destruct (Z.lt_ge_cases s (((11 * 60 + 59) * 60 + 59) * 1000000000)) as [L|G].
  - set (t := (d * 86400000000000 + s - ((11 * 60 + 59) * 60 + 59) * 1000000000)).
    assert (Q : t / 86400000000000 = d - 1). { symmetry. apply Z.div_unique with (s - 43199000000000 + 86400000000000); unfold t; lia. }
    assert (R : t mod 86400000000000 = s - 43199000000000 + 86400000000000).
    { symmetry. apply Z.mod_unique with (d - 1); unfold t; lia. }
    rewrite Q, R.
    destruct (Z.ltb_spec (2 * (s - 43199000000000 + 86400000000000)) 86400000000000); [lia|].
    destruct (Z.ltb_spec 86400000000000 (2 * (s - 43199000000000 + 86400000000000))); lia.
  - set (t := (d * 86400000000000 + s - ((11 * 60 + 59) * 60 + 59) * 1000000000)).
    assert (Q : t / 86400000000000 = d). { symmetry. apply Z.div_unique with (s - 43199000000000); unfold t; lia. }
    assert (R : t mod 86400000000000 = s - 43199000000000).
    { symmetry. apply Z.mod_unique with d; unfold t; lia. }
    rewrite Q, R. destruct (Z.ltb_spec (2 * (s - 43199000000000)) 86400000000000); lia.
Qed.

Theorem last_second_next_day d s : 86399 * 1000000000 < s < ns_per_day \/ (s = 86399 * 1000000000 /\ Z.odd d = true) ->
  normalize_time (d * ns_per_day + s) = (d + 1) * ns_per_day.
Proof.
  intros H. unfold normalize_time, round_day, shift_ns, ns_per_day in *.
  set (t := (d * 86400000000000 + s - ((11 * 60 + 59) * 60 + 59) * 1000000000)).
  assert (Q : t / 86400000000000 = d). { symmetry. apply Z.div_unique with (s - 43199000000000); unfold t; lia. }
  assert (R : t mod 86400000000000 = s - 43199000000000). { symmetry. apply Z.mod_unique with d; unfold t; lia. }
  rewrite Q, R. destruct (Z.ltb_spec (2 * (s - 43199000000000)) 86400000000000); [lia|].
  destruct (Z.ltb_spec 86400000000000 (2 * (s - 43199000000000))); [lia|].
  destruct H as [H|[H O]]; [lia|]. rewrite <- Z.negb_odd, O. cbn [negb]. lia.
Qed.
Local Close Scope Z_scope.

(** ** C60 *)
Theorem constants_win {P : Type} (met : dict (P -> fl)) (consts : dict R) : NoDup (keys consts) ->
  (forall k c, In (k, c) consts -> exists f, dict_get (apply_constants met consts) k = Some f /\ forall p, f p = Some c) /\
  (forall k, ~ In k (keys consts) -> dict_get (apply_constants met consts) k = dict_get met k).
Proof.
  intros ND. unfold apply_constants. revert met. induction consts as [|[k0 c0] consts IH]; intros met.
  - split; [intros k c []|auto].
  - cbn [fold_left fst snd]. inversion ND as [|? ? N ND']; subst.
    destruct (IH ND' (dict_set met k0 (fun _ => Some c0))) as [A B]. split.
    + intros k c [E|Hin]; [|auto]. injection E as <- <-. rewrite B by auto.
      rewrite dict_get_set, String.eqb_refl. eauto.
    + intros k Hk. rewrite B by (intros C; apply Hk; now right). rewrite dict_get_set.
      destruct (String.eqb_spec k k0); auto. subst. exfalso. apply Hk. now left.
Qed.
