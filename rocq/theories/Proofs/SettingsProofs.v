(** Settings read from configuration files. *)
From Coq Require Import ZArith String Ascii List Bool Lia.
From Verif Require Import Model.Py Model.Units Model.Config Model.Globals Model.Settings
  Spec.SettingsSpec Spec.GlobalsSpec Proofs.Base Proofs.ConfigProofs Proofs.HeaderProofs Proofs.GlobalsProofs.
Import ListNotations.
Local Open Scope string_scope.
Local Open Scope list_scope.

Lemma bind_inv {A B} (r : res A) (f : A -> res B) b : bind r f = Ok b -> exists a, r = Ok a /\ f a = Ok b.
Proof. destruct r; cbn [bind]; [eauto|discriminate]. Qed.

Lemma ok_inj {A} (a b : A) : Ok a = Ok b -> a = b.
Proof. congruence. Qed.

Lemma filter_get {V} (p : V -> bool) (d : dict V) k : NoDup (keys d) ->
  dict_get (filter (fun kv => p (snd kv)) d) k =
  match dict_get d k with Some v => if p v then Some v else None | None => None end.
Proof.
  induction d as [|[a x] d IH]; intros N; [reflexivity|]. inversion N as [|? ? NI N']; subst.
  cbn [filter snd dict_get]. destruct (String.eqb_spec k a) as [->|D].
  - destruct (p x); cbn [dict_get]; [now rewrite String.eqb_refl|].
    rewrite IH by auto. now rewrite (proj1 (dict_get_None d a) NI).
  - destruct (p x); cbn [dict_get]; [|now apply IH]. destruct (String.eqb_spec k a); [congruence|]. now apply IH.
Qed.

Lemma filter_key_get {V} (p : string -> bool) (d : dict V) k :
  dict_get (filter (fun kv => p (fst kv)) d) k = if p k then dict_get d k else None.
Proof.
  induction d as [|[a x] d IH]; [now destruct (p k)|]. cbn [filter fst dict_get].
  destruct (p a) eqn:P; cbn [dict_get]; destruct (String.eqb_spec k a) as [->|D]; rewrite ?P; auto.
  rewrite P in IH. exact IH.
Qed.

Lemma filter_nodup {V} (p : string * V -> bool) (d : dict V) : NoDup (keys d) -> NoDup (keys (filter p d)).
Proof.
  induction d as [|[a x] d IH]; intros N; [constructor|]. inversion N as [|? ? NI N']; subst. cbn [filter].
  destruct (p (a, x)); auto. cbn [keys map fst]. constructor; [|now apply IH].
  intros I. apply NI. apply in_map_iff in I as ([b y] & E & I). cbn in E. subst b. apply filter_In in I as [I _].
  change a with (fst (a, y)). now apply in_map.
Qed.

Lemma drop_get d k : NoDup (keys d) -> dict_get (drop_empty d) k = given (dict_get d k).
Proof.
  intros N. unfold drop_empty. rewrite (filter_get (fun v => negb (is_empty_list v))) by auto.
  destruct (dict_get d k) as [v|]; [|reflexivity]. destruct v as [| | | | | |l|]; try reflexivity. now destruct l.
Qed.

Lemma texts_get m k : dict_get (texts m) k = option_map CText (dict_get m k).
Proof. apply dict_get_mapval. Qed.
Lemma texts_keys m : keys (texts m) = keys m.
Proof. unfold keys, texts. rewrite map_map. reflexivity. Qed.
Lemma texts_map_eq m : texts_map m = texts m. Proof. reflexivity. Qed.

(** ** inverted tables *)
Lemma invert_texts m : invert (texts m) = Ok (texts (invert_dict m)).
Proof.
  unfold invert, invert_dict. 
  assert (E : mapM (fun kv => match snd kv with CText n => Ok (n, CText (fst kv)) | _ => Err TypeError end) (texts m) =
              Ok (texts (map swap m))).
  { unfold texts. induction m as [|[a x] m IH]; [reflexivity|]. cbn [map mapM fst snd bind swap]. rewrite IH. reflexivity. }
  rewrite E. cbn [bind]. f_equal. unfold dict_of, dict_update.
  change (fun kv : string * string => (snd kv, fst kv)) with (@swap string string).
  generalize (map swap m). intros l.
  assert (G : forall l d, fold_left (fun d kv => dict_set d (fst kv) (snd kv)) (texts l) (texts d) =
                          texts (fold_left (fun d kv => dict_set d (fst kv) (snd kv)) l d)).
  { clear. induction l as [|[a x] l IH]; intros d; [reflexivity|]. cbn [texts map fold_left fst snd]. fold (texts l).
    rewrite <- IH. f_equal. clear IH. induction d as [|[b y] d IH]; [reflexivity|].
    cbn [texts map dict_set fst snd]. fold (texts d). destruct (String.eqb a b); [reflexivity|].
    cbn [map fst snd]. f_equal. exact IH. }
  exact (G l []).
Qed.

Lemma update_get {V} (e : dict V) : forall d k,
  dict_get (dict_update d e) k = match dict_get (rev e) k with Some v => Some v | None => dict_get d k end.
Proof.
  unfold dict_update. induction e as [|[a x] e IH]; intros d k; [reflexivity|]. cbn [fold_left fst snd rev].
  rewrite IH, get_app, get_set. cbn [dict_get]. destruct (dict_get (rev e) k); auto.
  destruct (String.eqb k a); auto.
Qed.

Lemma rev_get {V} (e : dict V) k v : dict_get (rev e) k = Some v <->
  exists pre post, e = pre ++ (k, v) :: post /\ ~ In k (keys post).
Proof.
  induction e as [|[a x] e IH] using rev_ind.
  - split; [discriminate|]. intros ([|] & post & E & _); discriminate.
  - rewrite rev_app_distr. cbn [rev app dict_get]. destruct (String.eqb_spec k a) as [->|N].
    + split.
      * intros E. injection E as <-. exists e, []. split; auto.
      * intros (pre & post & E & NI). destruct post as [|p post _] using rev_ind.
        -- apply app_inj_tail in E as [_ E]. congruence.
        -- change ((a, v) :: post ++ [p]) with (((a, v) :: post) ++ [p]) in E. rewrite app_assoc in E.
           apply app_inj_tail in E as [_ <-]. exfalso. apply NI. unfold keys. rewrite map_app, in_app_iff. right. now left.
    + rewrite IH. split.
      * intros (pre & post & -> & NI). exists pre, (post ++ [(a, x)]). split; [now rewrite <- app_assoc|].
        unfold keys. rewrite map_app, in_app_iff. intros [I|[I|[]]]; [now apply NI|]. cbn in I. congruence.
      * intros (pre & post & E & NI). destruct post as [|p post _] using rev_ind.
        -- apply app_inj_tail in E as [_ E]. congruence.
        -- change ((k, v) :: post ++ [p]) with (((k, v) :: post) ++ [p]) in E. rewrite app_assoc in E.
           apply app_inj_tail in E as [-> _]. exists pre, post. split; auto. intros I. apply NI.
           unfold keys. rewrite map_app, in_app_iff. now left.
Qed.

Lemma inverted m : by_file_name m (texts (invert_dict m)).
Proof.
  intros f v. rewrite texts_get. unfold invert_dict.
  change (fun kv : string * string => (snd kv, fst kv)) with (@swap string string).
  unfold dict_of. rewrite update_get. cbn [dict_get].
  assert (G : forall k, dict_get (rev (map swap m)) f = Some k <->
    exists pre post, m = pre ++ (k, f) :: post /\ ~ In f (values post)).
  { intros k. rewrite rev_get. split.
    - intros (pre & post & E & NI). exists (map swap pre), (map swap post).
      assert (I : map swap (map swap m) = m) by (rewrite map_map; rewrite <- (map_id m) at 2; apply map_ext; now intros []).
      rewrite <- I, E, map_app. split; [reflexivity|]. rewrite values_swap. exact NI.
    - intros (pre & post & -> & NI). exists (map swap pre), (map swap post). rewrite map_app, keys_swap. auto. }
  destruct (dict_get (rev (map swap m)) f) as [k|] eqn:E.
  - split.
    + intros H. injection H as <-. destruct (proj1 (G k) eq_refl) as (pre & post & A & B). exists pre, k, post. auto.
    + intros (pre & k' & post & A & B & ->). assert (E' : Some k = Some k') by (apply G; eauto). now injection E' as ->.
  - split; [discriminate|]. intros (pre & k' & post & A & B & ->). assert (E' : None = Some k') by (apply G; eauto). discriminate.
Qed.

(** ** paths *)
Lemma app_assoc_s a b c : ((a ++ b) ++ c = a ++ (b ++ c))%string.
Proof. induction a; cbn; congruence. Qed.
Lemma ends_slash_spec s : ends_slash s = true <-> exists d, s = (d ++ "/")%string.
Proof.
  split.
  - induction s as [|c s IH]; [discriminate|]. cbn [ends_slash]. destruct s as [|c' s].
    + intros E. apply Ascii.eqb_eq in E. subst. now exists "".
    + intros E. destruct (IH E) as [d ->]. now exists (String c d).
  - intros [d ->]. induction d as [|c d IH]; [reflexivity|]. cbn [append ends_slash].
    destruct (d ++ "/")%string eqn:E; [destruct d; discriminate|]. exact IH.
Qed.
Lemma join_spec dir fn : in_directory dir fn (path_join dir fn).
Proof.
  unfold in_directory, path_join. destruct (ends_slash dir) eqn:E.
  - left. split; auto. now apply ends_slash_spec.
  - right. split; auto. intros D. apply ends_slash_spec in D. congruence.
Qed.

Section S.
Variable list_dir : string -> option (list string).
Variable abspath : string -> string.

(** ** YAML *)
Definition yaml_specials (m fv dv sv ov ch : dict cval) (cv : option (dict cval)) (files out : cval) (o : cli) : dict cval :=
  [("calendar", get_or m "calendar" (CText "standard"));
   ("scheduler", CText (cl_scheduler o)); ("num_workers", CInt (cl_workers o));
   ("verbose", log_level (cl_verbose o)); ("forcing", files); ("out_dir", out);
   ("forcing_vars", CMap fv); ("domain_vars", CMap dv); ("state_vars", CMap sv); ("out_vars", CMap ov); ("chunks", CMap ch)] ++
  match cv with Some c => [("constant_vars", CMap c)] | None => [] end.

Lemma yaml_inv h doc o conf m : section doc "MetSim" = Ok m -> NoDup (keys m) ->
  read_yaml list_dir abspath h doc o = Ok conf ->
  exists fv dv sv ov ch cv files out,
    (do s <- section doc "forcing_vars"; invert s) = Ok fv /\
    (do s <- section doc "domain_vars"; invert s) = Ok dv /\
    (do s <- section doc "state_vars"; invert s) = Ok sv /\
    (do s <- section doc "out_vars"; mapM (yaml_entry h) s) = Ok ov /\
    section doc "chunks" = Ok ch /\
    match dict_get doc "constant_vars" with
    | Some _ => exists c, section doc "constant_vars" = Ok c /\ cv = Some c
    | None => cv = None end /\
    (do f <- dict_getitem m "forcing"; forcing_files list_dir f) = Ok files /\
    (do d <- dict_getitem m "out_dir"; absolute abspath d) = Ok out /\
    forall k, dict_get conf k =
      given (match dict_get (yaml_specials m fv dv sv ov ch cv files out o) k with Some v => Some v | None => dict_get m k end).
Proof.
  intros Hm N H. unfold read_yaml in H. rewrite Hm in H. cbn [bind] in H.
  apply bind_inv in H as (fv & Hfv & H). apply bind_inv in H as (dv & Hdv & H). apply bind_inv in H as (sv & Hsv & H).
  apply bind_inv in H as (ov & Hov & H). apply bind_inv in H as (ch & Hch & H).
  apply bind_inv in H as (conf1 & Hcv & H). apply bind_inv in H as (files & Hf & H). apply bind_inv in H as (out & Ho & H).
  apply ok_inj in H. subst conf.
  set (c0 := dict_set (dict_set (dict_set (dict_set (dict_set m "forcing_vars" (CMap fv)) "domain_vars" (CMap dv)) "state_vars" (CMap sv))
               "out_vars" (CMap ov)) "chunks" (CMap ch)) in *.
  assert (N0 : NoDup (keys c0)) by (unfold c0; repeat apply nodup_set; exact N).
  assert (C : exists cv, match dict_get doc "constant_vars" with
      | Some _ => exists c, section doc "constant_vars" = Ok c /\ cv = Some c | None => cv = None end /\
      conf1 = match cv with Some c => dict_set c0 "constant_vars" (CMap c) | None => c0 end).
  { unfold dict_mem in Hcv. destruct (dict_get doc "constant_vars") as [v0|].
    - apply bind_inv in Hcv as (c & A & B). apply ok_inj in B. subst. exists (Some c). eauto.
    - apply ok_inj in Hcv. subst. exists None. auto. }
  destruct C as (cv & Hc & ->). exists fv, dv, sv, ov, ch, cv, files, out.
  assert (G : forall k, dict_get (match cv with Some c => dict_set c0 "constant_vars" (CMap c) | None => c0 end) k =
     match dict_get ([("forcing_vars", CMap fv); ("domain_vars", CMap dv); ("state_vars", CMap sv); ("out_vars", CMap ov); ("chunks", CMap ch)] ++
        match cv with Some c => [("constant_vars", CMap c)] | None => [] end) k with Some v => Some v | None => dict_get m k end).
  { intros k. unfold c0. destruct cv; cbn [app dict_get]; rewrite !get_set; cbn [dict_get];
      repeat match goal with |- context [String.eqb k ?s] => destruct (String.eqb_spec k s); [subst; cbn; reflexivity|] end; reflexivity. }
  assert (Gf : forall k, ~ In k ["forcing_vars"; "domain_vars"; "state_vars"; "out_vars"; "chunks"; "constant_vars"] ->
     dict_get (match cv with Some c => dict_set c0 "constant_vars" (CMap c) | None => c0 end) k = dict_get m k).
  { intros k I. rewrite G. match goal with |- context [dict_get ?l k] => replace (dict_get l k) with (@None cval); [reflexivity|] end.
    symmetry. apply dict_get_None. intros J. apply I. unfold keys in J. rewrite map_app, in_app_iff in J. destruct J as [J|J].
    - cbn in J |- *. intuition. - destruct cv; cbn in J |- *; intuition. }
  repeat (split; [first [assumption | rewrite <- Hf | rewrite <- Ho]|]).
  - unfold dict_getitem. rewrite Gf by (cbn; intuition discriminate). reflexivity.
  - unfold dict_getitem. rewrite Gf by (cbn; intuition discriminate). reflexivity.
  - intros k. rewrite drop_get by (apply nodup_update; destruct cv; [apply nodup_set|]; exact N0).
    f_equal. rewrite dict_get_update by (apply nodupb_spec; reflexivity).
    rewrite G. unfold yaml_specials, get_or. rewrite Gf by (cbn; intuition discriminate).
    rewrite !get_app. cbn [dict_get].
    repeat match goal with |- context [String.eqb k ?s] => destruct (String.eqb_spec k s); [subst; cbn; reflexivity|] end. reflexivity.
Qed.

(** ** INI *)
Variable parse_list : string -> res (list string).
Definition ini_specials (m : dict string) (fv dv sv ch : dict string) (cv : option (dict string)) (files out : cval) (o : cli) : dict cval :=
  [("calendar", get_or (texts m) "calendar" (CText "standard"));
   ("scheduler", CText (cl_scheduler o)); ("num_workers", CInt (cl_workers o));
   ("verbose", log_level (cl_verbose o)); ("forcing", files); ("out_dir", out);
   ("prec_type", get_or (texts m) "prec_type" (CText "uniform"));
   ("utc_offset", CBool (bool_text (dict_get m "utc_offset"))); ("period_ending", CBool (bool_text (dict_get m "period_ending")));
   ("forcing_vars", CMap (texts fv)); ("domain_vars", CMap (texts (invert_dict dv))); ("state_vars", CMap (texts (invert_dict sv)));
   ("chunks", CMap (texts ch))] ++
  match cv with Some c => [("constant_vars", CMap (texts c))] | None => [] end.

Definition ini_chain (c0 : dict cval) (m : dict string) (files out : cval) (o : cli) : dict cval :=
  dict_update (fold_left ini_truth ["utc_offset"; "period_ending"] c0)
      [("calendar", get_or (fold_left ini_truth ["utc_offset"; "period_ending"] c0) "calendar" (CText "standard"));
       ("scheduler", CText (cl_scheduler o)); ("num_workers", CInt (cl_workers o));
       ("verbose", log_level (cl_verbose o)); ("forcing", files); ("out_dir", out);
       ("prec_type", get_or (fold_left ini_truth ["utc_offset"; "period_ending"] c0) "prec_type" (CText "uniform"))].

Lemma truth_get c k x : dict_get (ini_truth c k) x =
  if String.eqb x k then Some (CBool (match dict_get c k with Some (CText v) => String.eqb (lower (strip v)) "true" | _ => false end))
  else dict_get c x.
Proof. unfold ini_truth. destruct (dict_get c k) as [[]|]; rewrite get_set; reflexivity. Qed.
Lemma truth_nodup c k : NoDup (keys c) -> NoDup (keys (ini_truth c k)).
Proof. intros N. unfold ini_truth. destruct (dict_get c k) as [[]|]; now apply nodup_set. Qed.

Lemma ini_inv h doc o conf hr m : dict_get doc "MetSim" = Some m -> NoDup (keys m) ->
  read_ini list_dir abspath parse_list h doc o = Ok (conf, hr) ->
  exists fv fmt dv sv ch files out,
    dict_get doc "forcing_vars" = Some fv /\ dict_get m "forcing_fmt" = Some fmt /\
    dict_get doc "domain_vars" = Some dv /\ dict_get doc "state_vars" = Some sv /\ dict_get doc "chunks" = Some ch /\
    (exists f, dict_get m "forcing" = Some f /\ forcing_files list_dir (CText f) = Ok files) /\
    (exists d, dict_get m "out_dir" = Some d /\ absolute abspath (CText d) = Ok out) /\
    (exists names, match dict_get m "out_vars" with Some t => parse_list t | None => Ok [] end = Ok names /\
       read_ini_out_vars h names (match dict_get doc "out_vars" with Some r => r | None => [] end) = Ok hr) /\
    forall k, dict_get conf k =
      if String.eqb k "out_vars" then None else
      given (match dict_get (ini_specials m (if String.eqb fmt "binary" then fv else invert_dict fv) dv sv ch (dict_get doc "constant_vars") files out o) k with
             | Some v => Some v | None => dict_get (texts m) k end).
Proof.
  intros Hm N H. unfold read_ini, dict_getitem at 1 2 in H. rewrite Hm in H. cbn [bind] in H. rewrite texts_map_eq in H.
  destruct (dict_get doc "forcing_vars") as [fv|] eqn:Hfv; [|discriminate]. cbn [bind] in H.
  unfold dict_getitem at 1 in H. rewrite texts_get in H.
  destruct (dict_get m "forcing_fmt") as [fmt|] eqn:Hfmt; [|discriminate]. cbn [bind option_map] in H.
  apply bind_inv in H as (dv & Hdv & H). apply getitem_get in Hdv.
  apply bind_inv in H as (sv & Hsv & H). apply getitem_get in Hsv.
  apply bind_inv in H as (ch & Hch & H). apply getitem_get in Hch.
  set (fvt := if String.eqb fmt "binary" then fv else invert_dict fv).
  fold fvt in H. change texts_map with texts in H.
  set (c0 := dict_set (dict_set (dict_set (dict_set (texts m) "forcing_vars" (CMap (texts fvt))) "domain_vars" (CMap (texts (invert_dict dv)))) "state_vars"
               (CMap (texts (invert_dict sv)))) "chunks" (CMap (texts ch))) in *.
  set (cv := dict_get doc "constant_vars") in *.
  set (c1 := match cv with Some c => dict_set c0 "constant_vars" (CMap (texts_map c)) | None => c0 end) in *.
  apply bind_inv in H as (files & Hf & H). apply bind_inv in H as (out & Ho & H).
  fold (ini_chain c1 m files out o) in H.
  apply bind_inv in H as (names & Hn & H). apply bind_inv in H as (hr' & Hr & H). apply ok_inj in H. injection H as Hc ->.
  exists fv, fmt, dv, sv, ch, files, out.
  assert (N1 : NoDup (keys c1)).
  { assert (N0 : NoDup (keys c0)) by (unfold c0; repeat apply nodup_set; rewrite texts_keys; exact N).
    unfold c1. destruct cv; [apply nodup_set|]; exact N0. }
  assert (G : forall k, dict_get c1 k =
     match dict_get ([("forcing_vars", CMap (texts fvt)); ("domain_vars", CMap (texts (invert_dict dv))); ("state_vars", CMap (texts (invert_dict sv)));
        ("chunks", CMap (texts ch))] ++
        match cv with Some c => [("constant_vars", CMap (texts c))] | None => [] end) k with Some v => Some v | None => dict_get (texts m) k end).
  { intros k. unfold c1, c0. destruct cv; cbn [app dict_get]; rewrite !get_set; cbn [dict_get];
      repeat match goal with |- context [String.eqb k ?s] => destruct (String.eqb_spec k s); [subst; cbn; reflexivity|] end; reflexivity. }
  assert (Gf : forall k, ~ In k ["forcing_vars"; "domain_vars"; "state_vars"; "chunks"; "constant_vars"] ->
     dict_get c1 k = dict_get (texts m) k).
  { intros k I. rewrite G. match goal with |- context [dict_get ?l k] => replace (dict_get l k) with (@None cval); [reflexivity|] end.
    symmetry. apply dict_get_None. intros J. apply I. unfold keys in J. rewrite map_app, in_app_iff in J. destruct J as [J|J].
    - cbn in J |- *. intuition. - destruct cv; cbn in J |- *; intuition. }
  assert (F : forall k, dict_get (fold_left ini_truth ["utc_offset"; "period_ending"] c1) k =
     match dict_get [("utc_offset", CBool (bool_text (dict_get m "utc_offset"))); ("period_ending", CBool (bool_text (dict_get m "period_ending")))] k
     with Some v => Some v | None => dict_get c1 k end).
  { intros k. cbn [fold_left]. rewrite !truth_get. cbn [dict_get]. change (String.eqb "period_ending" "utc_offset") with false. cbn iota.
    rewrite !Gf by (cbn; intuition discriminate). rewrite !texts_get.
    destruct (String.eqb_spec k "period_ending") as [->|D1].
    - cbn. now destruct (dict_get m "period_ending").
    - destruct (String.eqb_spec k "utc_offset"); [|reflexivity]. now destruct (dict_get m "utc_offset"). }
  assert (Ff : forall k, ~ In k ["forcing_vars"; "domain_vars"; "state_vars"; "chunks"; "constant_vars"; "utc_offset"; "period_ending"] ->
     dict_get (fold_left ini_truth ["utc_offset"; "period_ending"] c1) k = dict_get (texts m) k).
  { intros k I. rewrite F. cbn [dict_get]. destruct (String.eqb_spec k "utc_offset") as [->|]; [exfalso; apply I; cbn; tauto|].
    destruct (String.eqb_spec k "period_ending") as [->|]; [exfalso; apply I; cbn; tauto|]. apply Gf. cbn in *. tauto. }
  assert (L : forall k, dict_get (ini_chain c1 m files out o) k =
     match dict_get (ini_specials m fvt dv sv ch cv files out o) k with Some v => Some v | None => dict_get (texts m) k end).
  { intros k. unfold ini_chain. rewrite dict_get_update by (apply nodupb_spec; reflexivity).
    rewrite F, G. unfold ini_specials, get_or. rewrite !Ff by (cbn; intuition discriminate).
    rewrite !get_app. cbn [dict_get].
    repeat match goal with |- context [String.eqb k ?s] => destruct (String.eqb_spec k s); [subst; cbn; reflexivity|] end. reflexivity. }
  assert (NC : NoDup (keys (ini_chain c1 m files out o))).
  { unfold ini_chain. apply nodup_update. cbn [fold_left]. now repeat apply truth_nodup. }
  do 5 (split; [assumption || reflexivity|]).
  split; [|split; [|split]].
  - apply bind_inv in Hf as (f & A & B). apply getitem_get in A. rewrite Gf, texts_get in A by (cbn; intuition discriminate).
    destruct (dict_get m "forcing") as [f'|]; [|discriminate]. injection A as <-. eauto.
  - apply bind_inv in Ho as (d & A & B). apply getitem_get in A. rewrite Ff, texts_get in A by (cbn; intuition discriminate).
    destruct (dict_get m "out_dir") as [f'|]; [|discriminate]. injection A as <-. eauto.
  - exists names. split; [|exact Hr]. rewrite L in Hn. unfold ini_specials in Hn. rewrite get_app in Hn.
    clear - Hn. clearbody cv fvt. destruct cv; cbn -[texts] in Hn; rewrite texts_get in Hn; now destruct (dict_get m "out_vars").
  - intros k. rewrite <- Hc. rewrite drop_get by now apply filter_nodup.
    rewrite (filter_key_get (fun a => negb (String.eqb a "out_vars"))). destruct (String.eqb k "out_vars"); [reflexivity|]. cbn [negb].
    now rewrite L.
Qed.
End S.
