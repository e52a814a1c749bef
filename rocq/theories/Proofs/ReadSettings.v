(** C95-C98: what is read from configuration files. *)
From Coq Require Import ZArith String Ascii List Bool Lia.
From Verif Require Import Model.Py Model.Units Model.Config Model.Globals Model.Settings
  Spec.SettingsSpec Spec.GlobalsSpec Proofs.Base Proofs.ConfigProofs Proofs.HeaderProofs Proofs.GlobalsProofs
  Proofs.SettingsProofs.
Import ListNotations.
Local Open Scope string_scope.
Local Open Scope list_scope.

Lemma has_section_eq doc n m : has_section doc n m -> section doc n = Ok m.
Proof. intros [H _]. unfold section, dict_getitem. now rewrite H. Qed.

Lemma not_in_get {V} (l : dict V) k : ~ In k (keys l) -> dict_get l k = None.
Proof. apply dict_get_None. Qed.

Section S.
Variable list_dir : string -> option (list string).
Variable abspath : string -> string.

Lemma yaml_special_keys m fv dv sv ov ch cv files out o k :
  ~ In k made_settings -> dict_get (yaml_specials m fv dv sv ov ch cv files out o) k = None.
Proof.
  intros I. apply not_in_get. intros J. apply I. unfold yaml_specials, keys in J. rewrite map_app, in_app_iff in J.
  destruct J as [J|J]; [cbn in J |- *; tauto|]. destruct cv; cbn in J |- *; tauto.
Qed.

Theorem yaml_settings h doc o conf m : has_section doc "MetSim" m -> read_yaml list_dir abspath h doc o = Ok conf ->
  dict_get conf "scheduler" = Some (CText (cl_scheduler o)) /\
  dict_get conf "num_workers" = Some (CInt (cl_workers o)) /\
  dict_get conf "verbose" = Some (CInt (if cl_verbose o then 10 else 20)) /\
  dict_get conf "calendar" = calendar_of (dict_get m "calendar") /\
  (exists d, dict_get m "out_dir" = Some (CText d) /\ dict_get conf "out_dir" = Some (CText (abspath d))) /\
  (forall k, ~ In k made_settings -> dict_get conf k = given (dict_get m k)).
Proof.
  intros S H. destruct (yaml_inv list_dir abspath h doc o conf _ (has_section_eq _ _ _ S) (proj2 S) H)
    as (fv & dv & sv & ov & ch & cv & files & out & A1 & A2 & A3 & A4 & A5 & A6 & A7 & A8 & G).
  repeat split; try (rewrite G; reflexivity).
  - rewrite G. cbn. unfold get_or. now destruct (dict_get m "calendar").
  - apply bind_inv in A8 as (d & B & C). apply getitem_get in B. destruct d; try discriminate. cbn in C. apply ok_inj in C. subst out.
    exists s. split; auto. rewrite G. reflexivity.
  - intros k I. rewrite G, yaml_special_keys by auto. reflexivity.
Qed.

(** ** the forcing *)
Lemma forcing_given f files : forcing_files list_dir (CText f) = Ok files -> forcing_setting list_dir f (given (Some files)).
Proof.
  unfold forcing_files, forcing_setting. intros E. apply ok_inj in E. subst files.
  destruct (list_dir f) as [fs|]; [|reflexivity].
  destruct fs as [|a fs]; [reflexivity|]. exists (map (path_join f) (a :: fs)). split.
  - generalize (a :: fs). intros l. induction l; cbn; constructor; auto using join_spec.
  - rewrite map_map. reflexivity.
Qed.

Theorem yaml_forcing h doc o conf m f : has_section doc "MetSim" m -> read_yaml list_dir abspath h doc o = Ok conf ->
  dict_get m "forcing" = Some (CText f) -> forcing_setting list_dir f (dict_get conf "forcing").
Proof.
  intros S H F. destruct (yaml_inv list_dir abspath h doc o conf _ (has_section_eq _ _ _ S) (proj2 S) H)
    as (fv & dv & sv & ov & ch & cv & files & out & A1 & A2 & A3 & A4 & A5 & A6 & A7 & A8 & G).
  rewrite G. unfold dict_getitem in A7. rewrite F in A7. cbn [bind] in A7. apply forcing_given in A7. exact A7.
Qed.
(** ** the tables *)
Theorem yaml_tables h doc o conf m0 t m : has_section doc "MetSim" m0 -> read_yaml list_dir abspath h doc o = Ok conf ->
  In t ["forcing_vars"; "domain_vars"; "state_vars"] -> dict_get doc t = Some (CMap (texts m)) ->
  exists r, dict_get conf t = Some (CMap r) /\ by_file_name m r.
Proof.
  intros S H I T. destruct (yaml_inv list_dir abspath h doc o conf _ (has_section_eq _ _ _ S) (proj2 S) H)
    as (fv & dv & sv & ov & ch & cv & files & out & A1 & A2 & A3 & A4 & A5 & A6 & A7 & A8 & G).
  exists (texts (invert_dict m)). split; [|apply inverted]. rewrite G.
  unfold section, dict_getitem in *.
  destruct I as [<-|[<-|[<-|[]]]]; rewrite T in *; cbn [bind as_map] in *; rewrite invert_texts in *.
  - apply ok_inj in A1. now subst.
  - apply ok_inj in A2. now subst.
  - apply ok_inj in A3. now subst.
Qed.

Theorem yaml_plain h doc o conf m0 t m : has_section doc "MetSim" m0 -> read_yaml list_dir abspath h doc o = Ok conf ->
  In t ["chunks"; "constant_vars"] -> dict_get doc t = Some (CMap m) -> dict_get conf t = Some (CMap m).
Proof.
  intros S H I T. destruct (yaml_inv list_dir abspath h doc o conf _ (has_section_eq _ _ _ S) (proj2 S) H)
    as (fv & dv & sv & ov & ch & cv & files & out & A1 & A2 & A3 & A4 & A5 & A6 & A7 & A8 & G).
  rewrite G. unfold section, dict_getitem in *. destruct I as [<-|[<-|[]]]; rewrite T in *.
  - apply ok_inj in A5. now subst.
  - destruct A6 as (c & A6 & ->). apply ok_inj in A6. now subst.
Qed.
(** ** output variables of a YAML file *)
Lemma entry_units h kv kv' : avail_default h -> yaml_entry h kv = Ok kv' -> units_added kv kv'.
Proof.
  intros A H. unfold yaml_entry in H. apply bind_inv in H as (g & Hg & H). unfold units_added.
  destruct g.
  - apply ok_inj in H. subst kv'. split; auto. destruct kv as [k v]. cbn [fst snd] in *. destruct v; auto.
    cbn in Hg. unfold dict_mem in Hg. exists m. repeat split; auto.
    + destruct (dict_get m "units"); [reflexivity|discriminate].
    + destruct (dict_get m "units"); discriminate.
  - apply bind_inv in H as (u & Hu & H). apply avail_units_default in Hu; auto.
    destruct kv as [k v]. cbn [fst snd] in *. destruct v; try discriminate. apply ok_inj in H. subst kv'. cbn [fst snd].
    split; auto. cbn in Hg. unfold dict_mem in Hg. exists (dict_set m "units" (CText u)). repeat split.
    + intros f F. rewrite get_set. destruct (String.eqb_spec f "units"); [easy|reflexivity].
    + rewrite get_set, String.eqb_refl. destruct (dict_get m "units"); [discriminate|]. now rewrite Hu.
    + rewrite get_set. discriminate.
Qed.

Theorem yaml_outputs defaults h doc o conf m0 ovs : history defaults h ->
  has_section doc "MetSim" m0 -> read_yaml list_dir abspath h doc o = Ok conf -> dict_get doc "out_vars" = Some (CMap ovs) ->
  exists r, dict_get conf "out_vars" = Some (CMap r) /\ Forall2 units_added ovs r.
Proof.
  intros Hh S H T. destruct (yaml_inv list_dir abspath h doc o conf _ (has_section_eq _ _ _ S) (proj2 S) H)
    as (fv & dv & sv & ov & ch & cv & files & out & A1 & A2 & A3 & A4 & A5 & A6 & A7 & A8 & G).
  rewrite G. exists ov. split; [reflexivity|]. unfold section, dict_getitem in A4. rewrite T in A4. cbn [bind as_map] in A4.
  apply mapM_inv in A4. apply history_inv in Hh as [Hh _]. revert A4. clear - Hh.
  induction 1; constructor; auto. now apply (entry_units h).
Qed.

(** ** INI files *)
Variable parse_list : string -> res (list string).

Lemma ini_special_keys m fv dv sv ch cv files out o k :
  ~ In k made_settings -> ~ In k ["prec_type"; "utc_offset"; "period_ending"] ->
  dict_get (ini_specials m fv dv sv ch cv files out o) k = None.
Proof.
  intros I I'. apply not_in_get. intros J. unfold ini_specials, keys in J. rewrite map_app, in_app_iff in J.
  destruct J as [J|J]; [cbn in I, I', J; tauto|]. destruct cv; cbn in I, J; tauto.
Qed.

Theorem ini_settings h doc o conf hr m : dict_get doc "MetSim" = Some m -> NoDup (keys m) ->
  read_ini list_dir abspath parse_list h doc o = Ok (conf, hr) ->
  dict_get conf "scheduler" = Some (CText (cl_scheduler o)) /\
  dict_get conf "num_workers" = Some (CInt (cl_workers o)) /\
  dict_get conf "verbose" = Some (CInt (if cl_verbose o then 10 else 20)) /\
  dict_get conf "calendar" = Some (CText (match dict_get m "calendar" with Some c => c | None => "standard" end)) /\
  dict_get conf "prec_type" = Some (CText (match dict_get m "prec_type" with Some c => c | None => "uniform" end)) /\
  (forall k, In k ["utc_offset"; "period_ending"] -> exists b, dict_get conf k = Some (CBool b) /\
     (b = true <-> exists v, dict_get m k = Some v /\ lower (strip v) = "true")) /\
  (exists d, dict_get m "out_dir" = Some d /\ dict_get conf "out_dir" = Some (CText (abspath d))) /\
  (forall k, ~ In k made_settings -> ~ In k ["prec_type"; "utc_offset"; "period_ending"] ->
     dict_get conf k = option_map CText (dict_get m k)).
Proof.
  intros Hm N H. destruct (ini_inv list_dir abspath parse_list h doc o conf hr _ Hm N H)
    as (fv & fmt & dv & sv & ch & files & out & A1 & A2 & A3 & A4 & A5 & A6 & A7 & A8 & G).
  repeat split; try (rewrite G; reflexivity).
  - rewrite G. cbn -[texts]. unfold get_or. rewrite texts_get. now destruct (dict_get m "calendar").
  - rewrite G. cbn -[texts]. unfold get_or. rewrite texts_get. now destruct (dict_get m "prec_type").
  - intros k I. exists (bool_text (dict_get m k)). split.
    + destruct I as [<-|[<-|[]]]; rewrite G; reflexivity.
    + unfold bool_text. destruct (dict_get m k) as [v|]; split.
      * intros E. apply String.eqb_eq in E. eauto.
      * intros (v' & E & L). injection E as <-. now apply String.eqb_eq.
      * discriminate.
      * intros (v' & E & _). discriminate.
  - destruct A7 as (d & B & C). cbn in C. apply ok_inj in C. subst out. exists d. split; auto. rewrite G. reflexivity.
  - intros k I I'. rewrite G, ini_special_keys by auto. destruct (String.eqb_spec k "out_vars") as [->|_].
    + exfalso. apply I. cbn. tauto.
    + rewrite texts_get. now destruct (dict_get m k).
Qed.

Theorem ini_forcing h doc o conf hr m : dict_get doc "MetSim" = Some m -> NoDup (keys m) ->
  read_ini list_dir abspath parse_list h doc o = Ok (conf, hr) ->
  exists f, dict_get m "forcing" = Some f /\ forcing_setting list_dir f (dict_get conf "forcing").
Proof.
  intros Hm N H. destruct (ini_inv list_dir abspath parse_list h doc o conf hr _ Hm N H)
    as (fv & fmt & dv & sv & ch & files & out & A1 & A2 & A3 & A4 & A5 & (f & A6 & A6') & A7 & A8 & G).
  exists f. split; auto. rewrite G. apply forcing_given in A6'. exact A6'.
Qed.

Theorem ini_tables h doc o conf hr m0 t m : dict_get doc "MetSim" = Some m0 -> NoDup (keys m0) ->
  read_ini list_dir abspath parse_list h doc o = Ok (conf, hr) ->
  In t ["forcing_vars"; "domain_vars"; "state_vars"] -> dict_get doc t = Some m ->
  exists r, dict_get conf t = Some (CMap r) /\
    (if (String.eqb t "forcing_vars" && match dict_get m0 "forcing_fmt" with Some f => String.eqb f "binary" | None => false end)%bool
     then r = texts m else by_file_name m r).
Proof.
  intros Hm N H I T. destruct (ini_inv list_dir abspath parse_list h doc o conf hr _ Hm N H)
    as (fv & fmt & dv & sv & ch & files & out & A1 & A2 & A3 & A4 & A5 & A6 & A7 & A8 & G).
  rewrite G, A2. destruct I as [<-|[<-|[<-|[]]]]; rewrite T in *.
  - injection A1 as <-. exists (texts (if String.eqb fmt "binary" then m else invert_dict m)). split; [reflexivity|].
    cbn [String.eqb Ascii.eqb Bool.eqb andb]. destruct (String.eqb fmt "binary"); [reflexivity|apply inverted].
  - injection A3 as <-. eexists. split; [reflexivity|]. apply inverted.
  - injection A4 as <-. eexists. split; [reflexivity|]. apply inverted.
Qed.

Theorem ini_plain h doc o conf hr m0 t m : dict_get doc "MetSim" = Some m0 -> NoDup (keys m0) ->
  read_ini list_dir abspath parse_list h doc o = Ok (conf, hr) ->
  In t ["chunks"; "constant_vars"] -> dict_get doc t = Some m -> dict_get conf t = Some (CMap (texts m)).
Proof.
  intros Hm N H I T. destruct (ini_inv list_dir abspath parse_list h doc o conf hr _ Hm N H)
    as (fv & fmt & dv & sv & ch & files & out & A1 & A2 & A3 & A4 & A5 & A6 & A7 & A8 & G).
  rewrite G. destruct I as [<-|[<-|[]]]; rewrite T in *.
  - injection A5 as <-. reflexivity.
  - reflexivity.
Qed.

End S.

(** ** which files are accepted *)
Definition key_res {A} (r : res A) : Prop := (exists a, r = Ok a) \/ r = Err KeyError.
Lemma key_bind {A B} (r : res A) (f : A -> res B) : key_res r -> (forall a, r = Ok a -> key_res (f a)) -> key_res (bind r f).
Proof. intros [[a ->]| ->] H; cbn [bind]; [now apply H|now right]. Qed.
Lemma key_ok {A} (a : A) : key_res (Ok a). Proof. left; eauto. Qed.
Lemma key_get {V} (d : dict V) k : key_res (dict_getitem d k).
Proof. unfold dict_getitem. destruct (dict_get d k); [apply key_ok|now right]. Qed.
Lemma key_mapM {A B} (f : A -> res B) l : (forall x, In x l -> key_res (f x)) -> key_res (mapM f l).
Proof.
  induction l as [|x l IH]; intros H; cbn [mapM]; [apply key_ok|].
  apply key_bind; [apply H; now left|]. intros a _. apply key_bind; [apply IH; intros; apply H; now right|]. intros; apply key_ok.
Qed.

Section Accept.
Variable list_dir : string -> option (list string).
Variable abspath : string -> string.

Lemma plain_table doc t : plain doc -> In t ["forcing_vars"; "domain_vars"; "state_vars"] ->
  (exists r, (do s <- section doc t; invert s) = Ok r /\ dict_get doc t <> None) \/
  ((do s <- section doc t; invert s) = Err KeyError /\ dict_get doc t = None).
Proof.
  intros [P _] I. unfold section, dict_getitem. destruct (dict_get doc t) as [v|] eqn:E; [|right; auto].
  destruct (P t v I E) as [m ->]. left. cbn [bind as_map]. rewrite invert_texts. eexists. split; [reflexivity|discriminate].
Qed.
Lemma plain_section doc t : plain doc -> In t ["MetSim"; "chunks"; "constant_vars"; "out_vars"] ->
  (exists m, section doc t = Ok m /\ dict_get doc t = Some (CMap m)) \/ (section doc t = Err KeyError /\ dict_get doc t = None).
Proof.
  intros (_ & P & _) I. unfold section, dict_getitem. destruct (dict_get doc t) as [v|] eqn:E; [|right; auto].
  destruct (P t v I E) as [m ->]. left. exists m. split; reflexivity.
Qed.

Lemma entry_key h k m : avail_default h -> key_res (yaml_entry h (k, CMap m)) /\
  ((exists e, yaml_entry h (k, CMap m) = Ok e) <-> (dict_get m "units" = None -> known_output k)).
Proof.
  intros A. unfold yaml_entry, known_output. cbn [has_units snd fst bind]. unfold dict_mem. destruct (dict_get m "units").
  - split; [apply key_ok|]. split; [discriminate|eauto].
  - pose proof (avail_units_default h k) as U. destruct (avail_units h k) as [u|e] eqn:E; cbn [bind].
    + split; [apply key_ok|]. split; [intros _ _; exists u; now apply U|eauto].
    + split.
      * unfold avail_units, dict_getitem in E. specialize (A k). destruct (dict_get (h_avail h) k) as [v|].
        -- cbn [bind option_map] in *. destruct (ov_units v); [discriminate|]. injection E as <-. now right.
        -- injection E as <-. now right.
      * split; [intros [x X]; discriminate|]. intros X. destruct (X eq_refl) as [u X']. apply (U u A) in X'. discriminate.
Qed.

Theorem yaml_accepted defaults h doc o : history defaults h -> plain doc ->
  (forall m, dict_get doc "MetSim" = Some (CMap m) -> NoDup (keys m)) ->
  (complete_yaml doc -> exists conf, read_yaml list_dir abspath h doc o = Ok conf) /\
  (~ complete_yaml doc -> read_yaml list_dir abspath h doc o = Err KeyError).
Proof.
  intros Hh P ND. apply history_inv in Hh as [A _].
  assert (EK : forall ovs, dict_get doc "out_vars" = Some (CMap ovs) -> key_res (mapM (yaml_entry h) ovs) /\
     ((exists r, mapM (yaml_entry h) ovs = Ok r) <->
      (forall k m, In (k, CMap m) ovs -> dict_get m "units" = None -> known_output k))).
  { intros ovs E. assert (M : forall k v, In (k, v) ovs -> exists m, v = CMap m) by (intros; now apply (proj2 (proj2 (proj2 P)) ovs k)).
    clear E. split.
    - apply key_mapM. intros [k v] I. destruct (M k v I) as [m ->]. now apply entry_key.
    - split.
      + intros [r R] k m I U. apply mapM_inv in R. clear M. revert I. induction R as [|x y l r' Hx Hr IH]; intros I; [destruct I|].
        destruct I as [->|I]; [|exact (IH I)]. apply (proj2 (entry_key h k m A)); eauto.
      + intros U. induction ovs as [|[k v] ovs IH]; [exists []; reflexivity|]. cbn [mapM].
        destruct (M k v (or_introl eq_refl)) as [m ->].
        destruct (proj2 (proj2 (entry_key h k m A))) as [e ->]; [intros; now apply (U k m (or_introl eq_refl))|].
        destruct IH as [r ->]; [intros k' v' I'; apply (M k' v'); right; exact I'|intros k' m' I'; apply (U k' m'); right; exact I'|]. cbn [bind]. eauto. }
  assert (K : key_res (read_yaml list_dir abspath h doc o)).
  { unfold read_yaml.
    destruct (plain_section doc "MetSim" P) as [(m & Em & Dm)|[Em Dm]]; [cbn; tauto| |rewrite Em; now right].
    rewrite Em. cbn [bind].
    destruct (plain_table doc "forcing_vars" P) as [(r1 & -> & _)|[-> _]]; [cbn; tauto| |now right]. cbn [bind].
    destruct (plain_table doc "domain_vars" P) as [(r2 & -> & _)|[-> _]]; [cbn; tauto| |now right]. cbn [bind].
    destruct (plain_table doc "state_vars" P) as [(r3 & -> & _)|[-> _]]; [cbn; tauto| |now right]. cbn [bind].
    apply key_bind.
    { destruct (plain_section doc "out_vars" P) as [(ov & -> & Do)|[-> _]]; [cbn; tauto| |now right]. cbn [bind]. now apply EK. }
    intros ov _. destruct (plain_section doc "chunks" P) as [(ch & -> & _)|[-> _]]; [cbn; tauto| |now right]. cbn [bind].
    set (c0 := dict_set (dict_set (dict_set (dict_set (dict_set m "forcing_vars" (CMap r1)) "domain_vars" (CMap r2)) "state_vars" (CMap r3))
               "out_vars" (CMap ov)) "chunks" (CMap ch)).
    assert (G0 : forall k, In k ["forcing"; "out_dir"] -> dict_get c0 k = dict_get m k).
    { intros k I. unfold c0. rewrite !get_set. destruct I as [<-|[<-|[]]]; reflexivity. }
    apply key_bind.
    { unfold dict_mem. destruct (plain_section doc "constant_vars" P) as [(cv & -> & ->)|[_ ->]]; [cbn; tauto| |]; apply key_ok. }
    intros c1 E1.
    assert (G1 : forall k, In k ["forcing"; "out_dir"] -> dict_get c1 k = dict_get m k).
    { intros k I. rewrite <- G0 by auto. destruct (dict_mem doc "constant_vars").
      - apply bind_inv in E1 as (cv & _ & E1). apply ok_inj in E1. subst c1. rewrite get_set. destruct I as [<-|[<-|[]]]; reflexivity.
      - apply ok_inj in E1. now subst. }
    unfold dict_getitem. rewrite !G1 by (cbn; tauto).
    apply key_bind.
    { destruct (dict_get m "forcing") as [f|] eqn:F; [|now right]. cbn [bind].
      destruct (proj1 (proj2 (proj2 P)) m "forcing" f Dm) as [s ->]; [cbn; tauto|exact F|apply key_ok]. }
    intros files _. apply key_bind; [|intros; apply key_ok].
    destruct (dict_get m "out_dir") as [d|] eqn:D; [|now right]. cbn [bind].
    destruct (proj1 (proj2 (proj2 P)) m "out_dir" d Dm) as [s ->]; [cbn; tauto|exact D|apply key_ok]. }
  assert (C : forall conf, read_yaml list_dir abspath h doc o = Ok conf -> complete_yaml doc).
  { intros conf H. destruct (plain_section doc "MetSim" P) as [(m & Em & Dm)|[Em Dm]]; [cbn; tauto| |].
    2:{ unfold read_yaml in H. rewrite Em in H. discriminate. }
    destruct (yaml_inv list_dir abspath h doc o conf m Em (ND m Dm) H)
      as (fv & dv & sv & ov & ch & cv & files & out & A1 & A2 & A3 & A4 & A5 & A6 & A7 & A8 & G).
    split; [|split].
    - apply bind_inv in A7 as (f & B & _). apply getitem_get in B. apply bind_inv in A8 as (d & B' & _). apply getitem_get in B'. eauto 6.
    - intros n I E.
      assert (X : section doc n = Err KeyError) by (unfold section, dict_getitem; now rewrite E).
      cbn in I. decompose [or] I; subst; try contradiction; rewrite X in *; discriminate.
    - intros ovs k mm E I U. apply (proj2 (EK ovs E)) with (m := mm); auto.
      unfold section, dict_getitem in A4. rewrite E in A4. cbn [bind as_map] in A4. eauto. }
  assert (F : complete_yaml doc -> exists conf, read_yaml list_dir abspath h doc o = Ok conf).
  { intros (M & S & U). destruct M as (m & f & d & Dm & Df & Dd). unfold read_yaml.
    assert (Em : section doc "MetSim" = Ok m) by (unfold section, dict_getitem; now rewrite Dm).
    rewrite Em. cbn [bind].
    destruct (plain_table doc "forcing_vars" P) as [(r1 & -> & _)|[_ X]]; [cbn; tauto| |exfalso; apply (S "forcing_vars"); cbn; tauto]. cbn [bind].
    destruct (plain_table doc "domain_vars" P) as [(r2 & -> & _)|[_ X]]; [cbn; tauto| |exfalso; apply (S "domain_vars"); cbn; tauto]. cbn [bind].
    destruct (plain_table doc "state_vars" P) as [(r3 & -> & _)|[_ X]]; [cbn; tauto| |exfalso; apply (S "state_vars"); cbn; tauto]. cbn [bind].
    destruct (plain_section doc "out_vars" P) as [(ovs & -> & Do)|[_ X]]; [cbn; tauto| |exfalso; apply (S "out_vars"); cbn; tauto]. cbn [bind].
    destruct (proj2 (proj2 (EK ovs Do))) as [ov ->]; [intros; now apply (U ovs k m0)|]. cbn [bind].
    destruct (plain_section doc "chunks" P) as [(ch & -> & _)|[_ X]]; [cbn; tauto| |exfalso; apply (S "chunks"); cbn; tauto]. cbn [bind].
    destruct (proj1 (proj2 (proj2 P)) m "forcing" f Dm) as [sf ->]; [cbn; tauto|exact Df|].
    destruct (proj1 (proj2 (proj2 P)) m "out_dir" d Dm) as [sd ->]; [cbn; tauto|exact Dd|].
    set (c0 := dict_set (dict_set (dict_set (dict_set (dict_set m "forcing_vars" (CMap r1)) "domain_vars" (CMap r2)) "state_vars" (CMap r3))
               "out_vars" (CMap ov)) "chunks" (CMap ch)).
    assert (G0 : forall k, In k ["forcing"; "out_dir"] -> dict_get c0 k = dict_get m k).
    { intros k I. unfold c0. rewrite !get_set. destruct I as [<-|[<-|[]]]; reflexivity. }
    assert (X : exists c1, (if dict_mem doc "constant_vars" then do cv <- section doc "constant_vars"; Ok (dict_set c0 "constant_vars" (CMap cv)) else Ok c0) = Ok c1 /\
      forall k, In k ["forcing"; "out_dir"] -> dict_get c1 k = dict_get m k).
    { unfold dict_mem. destruct (plain_section doc "constant_vars" P) as [(cv & -> & ->)|[_ ->]]; [cbn; tauto| |].
      - cbn [bind]. eexists. split; [reflexivity|]. intros k I. rewrite <- G0 by auto. rewrite get_set. destruct I as [<-|[<-|[]]]; reflexivity.
      - eauto. }
    destruct X as (c1 & -> & G1). cbn [bind]. unfold dict_getitem. rewrite !G1 by (cbn; tauto). rewrite Df, Dd. cbn [bind forcing_files absolute].
    eexists. reflexivity. }
  split; [exact F|]. intros N. destruct K as [[conf E]|E]; [|exact E]. exfalso. apply N. eapply C; eauto.
Qed.
End Accept.

Lemma avail_keys h k : avail_default h -> (known_output k <-> exists v, dict_get (h_avail h) k = Some v).
Proof.
  intros A. specialize (A k). unfold known_output. split.
  - intros [u E]. rewrite E in A. destruct (dict_get (h_avail h) k); [eauto|discriminate].
  - intros [v E]. rewrite E in A. destruct (dict_get default_units k); [eauto|discriminate].
Qed.

Lemma rename_avail h n out : avail_default h -> avail_default (set_out_name h n out).
Proof.
  intros A k. unfold set_out_name. destruct (dict_get (h_avail h) n) as [v|] eqn:E; [|apply A]. cbn [h_avail].
  rewrite get_set. destruct (String.eqb_spec k n) as [->|_]; [|apply A].
  rewrite <- (A n), E. reflexivity.
Qed.

Lemma renames_ok renames : forall h, avail_default h ->
  ((exists h', ini_renames h renames = Ok h') <-> Forall known_output (map fst renames)).
Proof.
  induction renames as [|[n out] r IH]; intros h A; cbn [ini_renames map fst].
  - split; [constructor|eauto].
  - unfold dict_getitem. destruct (dict_get (h_avail h) n) as [v|] eqn:E; cbn [bind].
    + rewrite (IH _ (rename_avail h n out A)). split; [|now inversion 1]. constructor; auto. apply (avail_keys h n A). eauto.
    + split; [intros [x X]; discriminate|]. intros F. inversion F as [|? ? K]; subst. apply (avail_keys h n A) in K as [v X]. congruence.
Qed.

Lemma out_vars_ok h names renames : avail_default h ->
  ((exists hr, read_ini_out_vars h names renames = Ok hr) <-> Forall known_output (names ++ map fst renames)).
Proof.
  intros A. unfold read_ini_out_vars. rewrite Forall_app. rewrite <- (renames_ok renames h A). split.
  - intros [hr H]. apply bind_inv in H as (l & B & H). apply bind_inv in H as (h' & C & _). split; [|eauto].
    apply mapM_inv in B. clear - A B. induction B as [|x y l r Hx Hr IH]; constructor; auto.
    apply getitem_get in Hx. apply (avail_keys h x A). eauto.
  - intros [F [h' E]]. rewrite E. assert (X : exists l, mapM (fun n => dict_getitem (h_avail h) n) names = Ok l).
    { clear E. induction F as [|x l Hx Hl IH]; [exists []; reflexivity|]. cbn [mapM]. apply (avail_keys h x A) in Hx as [v Hv].
      unfold dict_getitem at 1. rewrite Hv. destruct IH as [r ->]. cbn [bind]. eauto. }
    destruct X as [l ->]. cbn [bind]. eauto.
Qed.

Section AcceptIni.
Variable list_dir : string -> option (list string).
Variable abspath : string -> string.
Variable parse_list : string -> res (list string).

Theorem ini_accepted defaults h doc o : history defaults h ->
  (forall m, dict_get doc "MetSim" = Some m -> NoDup (keys m)) ->
  ((exists r, read_ini list_dir abspath parse_list h doc o = Ok r) <-> complete_ini parse_list doc).
Proof.
  intros Hh ND. apply history_inv in Hh as [A _]. split.
  - intros [[conf hr] H]. destruct (dict_get doc "MetSim") as [m|] eqn:Dm.
    2:{ unfold read_ini, dict_getitem at 1 in H. rewrite Dm in H. discriminate. }
    destruct (ini_inv list_dir abspath parse_list h doc o conf hr m Dm (ND m eq_refl) H)
      as (fv & fmt & dv & sv & ch & files & out & A1 & A2 & A3 & A4 & A5 & (f & A6 & _) & (d & A7 & _) & (names & A8 & A9) & _).
    split; [|split].
    + exists m. split; auto. intros k I E. cbn in I. decompose [or] I; subst; try contradiction; congruence.
    + intros n I E. cbn in I. decompose [or] I; subst; try contradiction; congruence.
    + eexists. split.
      * exists m, names. split; [exact Dm|]. split; [|reflexivity]. destruct (dict_get m "out_vars"); [exact A8|]. now injection A8 as <-.
      * assert (X : Forall known_output (names ++ map fst match dict_get doc "out_vars" with Some r => r | None => [] end)).
        { apply (out_vars_ok h); eauto. }
        destruct (dict_get doc "out_vars"); exact X.
  - intros ((m & Dm & M) & S & (names & (m' & l & Dm' & L & N) & K)). rewrite Dm in Dm'. injection Dm' as <-.
    assert (GT : forall k, In k ["forcing"; "forcing_fmt"; "out_dir"] -> exists t, dict_get m k = Some t).
    { intros k I. destruct (dict_get m k) eqn:E; [eauto|]. exfalso. now apply (M k I). }
    destruct (GT "forcing") as [f Ef]; [cbn; tauto|]. destruct (GT "forcing_fmt") as [fmt Efmt]; [cbn; tauto|].
    destruct (GT "out_dir") as [d Ed]; [cbn; tauto|]. clear GT.
    assert (GS : forall n, In n ["forcing_vars"; "domain_vars"; "state_vars"; "chunks"] -> exists t, dict_get doc n = Some t).
    { intros n I. destruct (dict_get doc n) eqn:E; [eauto|]. exfalso. now apply (S n I). }
    destruct (GS "forcing_vars") as [fv E1]; [cbn; tauto|]. destruct (GS "domain_vars") as [dv E2]; [cbn; tauto|].
    destruct (GS "state_vars") as [sv E3]; [cbn; tauto|]. destruct (GS "chunks") as [ch E4]; [cbn; tauto|]. clear GS.
    unfold read_ini. unfold dict_getitem at 1 2. rewrite Dm, E1. cbn [bind]. change texts_map with texts.
    unfold dict_getitem at 1. rewrite texts_get, Efmt. cbn [bind option_map].
    unfold dict_getitem at 1 2 3. rewrite E2, E3, E4. cbn [bind].
    set (fvt := if String.eqb fmt "binary" then fv else invert_dict fv).
    set (c0 := dict_set (dict_set (dict_set (dict_set (texts m) "forcing_vars" (CMap (texts fvt))) "domain_vars" (CMap (texts (invert_dict dv)))) "state_vars"
               (CMap (texts (invert_dict sv)))) "chunks" (CMap (texts ch))).
    set (c1 := match dict_get doc "constant_vars" with Some cv => dict_set c0 "constant_vars" (CMap (texts cv)) | None => c0 end).
    assert (G1 : forall k, In k ["forcing"; "out_dir"; "out_vars"] -> dict_get c1 k = dict_get (texts m) k).
    { intros k I. unfold c1. assert (G0 : dict_get c0 k = dict_get (texts m) k)
        by (unfold c0; rewrite !get_set; destruct I as [<-|[<-|[<-|[]]]]; reflexivity).
      rewrite <- G0. destruct (dict_get doc "constant_vars"); [|reflexivity]. rewrite get_set. destruct I as [<-|[<-|[<-|[]]]]; reflexivity. }
    unfold dict_getitem at 1. rewrite G1, texts_get, Ef by (cbn; tauto). cbn [bind option_map forcing_files].
    assert (G2 : forall k, In k ["forcing"; "out_dir"; "out_vars"] ->
      dict_get (fold_left ini_truth ["utc_offset"; "period_ending"] c1) k = dict_get (texts m) k).
    { intros k I. cbn [fold_left]. rewrite !truth_get. rewrite <- G1 by auto. destruct I as [<-|[<-|[<-|[]]]]; reflexivity. }
    unfold dict_getitem at 1. rewrite G2, texts_get, Ed by (cbn; tauto). cbn [bind option_map absolute].
    rewrite dict_get_update by (apply nodupb_spec; reflexivity).
    cbn [dict_get String.eqb Ascii.eqb Bool.eqb]. rewrite G2, texts_get by (cbn; tauto).
    assert (E : match option_map CText (dict_get m "out_vars") with Some (CText t) => parse_list t | _ => Ok [] end = Ok l).
    { destruct (dict_get m "out_vars"); cbn [option_map]; [exact L|now subst]. }
    rewrite E. cbn [bind].
    destruct (proj2 (out_vars_ok h l match dict_get doc "out_vars" with Some r => r | None => [] end A)) as [hr ->].
    { subst names. destruct (dict_get doc "out_vars"); exact K. }
    cbn [bind]. eauto.
Qed.

(** ** the two formats *)
Theorem same_settings h h2 doc ydoc o c1 hr c2 m : same_file doc ydoc -> dict_get doc "MetSim" = Some m -> NoDup (keys m) ->
  dict_get m "forcing_fmt" <> Some "binary" ->
  read_ini list_dir abspath parse_list h doc o = Ok (c1, hr) -> read_yaml list_dir abspath h2 ydoc o = Ok c2 ->
  forall k, ~ In k ["out_vars"; "prec_type"; "utc_offset"; "period_ending"] -> dict_get c1 k = dict_get c2 k.
Proof.
  intros S Dm N B H1 H2 k I.
  destruct (ini_inv list_dir abspath parse_list h doc o c1 hr m Dm N H1)
      as (fv & fmt & dv & sv & ch & files & out & A1 & A2 & A3 & A4 & A5 & (f & A6 & A6') & (d & A7 & A7') & _ & G1).
  assert (E : forall n t, n <> "out_vars" -> dict_get doc n = Some t -> section ydoc n = Ok (texts t)).
  { intros n t NE D. unfold section, dict_getitem. rewrite (S n NE), D. reflexivity. }
  assert (NT : NoDup (keys (texts m))) by now rewrite texts_keys.
  destruct (yaml_inv list_dir abspath h2 ydoc o c2 (texts m) (E "MetSim" m ltac:(discriminate) Dm) NT H2)
      as (yfv & ydv & ysv & yov & ych & ycv & yfiles & yout & B1 & B2 & B3 & B4 & B5 & B6 & B7 & B8 & G2).
  rewrite (E "forcing_vars" fv) in B1 by (discriminate || auto). cbn [bind] in B1. rewrite invert_texts in B1. apply ok_inj in B1.
  rewrite (E "domain_vars" dv) in B2 by (discriminate || auto). cbn [bind] in B2. rewrite invert_texts in B2. apply ok_inj in B2.
  rewrite (E "state_vars" sv) in B3 by (discriminate || auto). cbn [bind] in B3. rewrite invert_texts in B3. apply ok_inj in B3.
  rewrite (E "chunks" ch) in B5 by (discriminate || auto). apply ok_inj in B5.
  unfold dict_getitem in B7, B8. rewrite texts_get, A6 in B7. rewrite texts_get, A7 in B8. cbn [bind option_map] in B7, B8.
  rewrite A6' in B7. rewrite A7' in B8. apply ok_inj in B7. apply ok_inj in B8. subst yfv ydv ysv ych yfiles yout.
  assert (BN : String.eqb fmt "binary" = false). { destruct (String.eqb_spec fmt "binary"); [congruence|reflexivity]. }
  rewrite BN in G1.
  assert (Ecv : ycv = option_map texts (dict_get doc "constant_vars")).
  { rewrite (S "constant_vars") in B6 by discriminate. destruct (dict_get doc "constant_vars") as [cv|] eqn:D; cbn [option_map] in *; [|exact B6].
    destruct B6 as (c & B6 & ->). rewrite (E "constant_vars" cv) in B6 by (discriminate || auto). apply ok_inj in B6. now subst. }
  subst ycv. rewrite G1, G2. destruct (String.eqb_spec k "out_vars") as [->|N1]; [exfalso; apply I; cbn; tauto|].
  f_equal. unfold ini_specials, yaml_specials. rewrite !get_app. cbn [dict_get].
  assert (N2 : k <> "prec_type") by (intros ->; apply I; cbn; tauto).
  assert (N3 : k <> "utc_offset") by (intros ->; apply I; cbn; tauto).
  assert (N4 : k <> "period_ending") by (intros ->; apply I; cbn; tauto).
  apply String.eqb_neq in N1, N2, N3, N4. rewrite N1, N2, N3, N4. 
  replace (match dict_get doc "constant_vars" with Some c => [("constant_vars", CMap (texts c))] | None => [] end)
     with (match option_map texts (dict_get doc "constant_vars") with Some c => [("constant_vars", CMap c)] | None => [] end)
     by now destruct (dict_get doc "constant_vars").
  reflexivity.
Qed.
End AcceptIni.

(** ** other forms of sections *)
Section Forms.
Variable list_dir : string -> option (list string).
Variable abspath : string -> string.

Lemma pairs_map l : as_map (CList (map (fun kv => CList [CText (fst kv); snd kv]) l)) = Ok (dict_of l).
Proof.
  cbn [as_map]. assert (E : mapM as_pair (map (fun kv : string * cval => CList [CText (fst kv); snd kv]) l) = Ok l).
  { induction l as [|[k v] l IH]; [reflexivity|]. cbn [map mapM as_pair bind fst snd]. now rewrite IH. }
  now rewrite E.
Qed.

Theorem pair_settings h doc o conf l : dict_get doc "MetSim" = Some (CList (map (fun kv => CList [CText (fst kv); snd kv]) l)) ->
  read_yaml list_dir abspath h doc o = Ok conf ->
  forall k, ~ In k made_settings -> dict_get conf k = given (dict_get (rev l) k).
Proof.
  intros S H k I.
  assert (Sec : section doc "MetSim" = Ok (dict_of l)) by (unfold section, dict_getitem; rewrite S; apply pairs_map).
  assert (N : NoDup (keys (dict_of l))) by (apply nodup_update; constructor).
  destruct (yaml_inv list_dir abspath h doc o conf _ Sec N H)
    as (fv & dv & sv & ov & ch & cv & files & out & A1 & A2 & A3 & A4 & A5 & A6 & A7 & A8 & G).
  rewrite G, yaml_special_keys by first [exact I|exact list_dir|exact abspath]. unfold dict_of. rewrite update_get. cbn [dict_get].
  destruct (dict_get (rev l) k); reflexivity.
Qed.

(** a section of pairs, or an empty text *)
Theorem forms_read h doc doc' o t m : dict_get doc t = Some (CMap m) -> NoDup (keys m) ->
  dict_get doc' t = Some (CList (map (fun kv => CList [CText (fst kv); snd kv]) m)) \/ (m = [] /\ dict_get doc' t = Some (CText "")) ->
  (forall n, n <> t -> dict_get doc' n = dict_get doc n) ->
  read_yaml list_dir abspath h doc' o = read_yaml list_dir abspath h doc o.
Proof.
  intros D N D' E.
  assert (S : forall n, section doc' n = section doc n).
  { intros n. unfold section, dict_getitem. destruct (string_dec n t) as [->|X]; [|now rewrite E].
    rewrite D. destruct D' as [-> | [-> ->]]; cbn [bind]; [|reflexivity].
    etransitivity; [apply pairs_map|]. cbn [as_map]. f_equal. now apply dict_of_nodup. }
  assert (M : dict_mem doc' "constant_vars" = dict_mem doc "constant_vars").
  { unfold dict_mem. destruct (string_dec "constant_vars" t) as [X|X]; [|now rewrite E].
    rewrite X, D. destruct D' as [-> | [_ ->]]; reflexivity. }
  unfold read_yaml. rewrite !S, M. reflexivity.
Qed.
End Forms.
