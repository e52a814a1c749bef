(** Forcing in the formats of VIC. *)
From Coq Require Import ZArith Reals String Ascii List Bool Arith Lia Lra.
From Verif Require Import Model.Py Model.Fl Model.Np Model.Config Model.Globals Model.Reader Model.Settings Model.Vic
  Spec.ReaderSpec Spec.SettingsSpec Spec.VicSpec
  Proofs.Base Proofs.ConfigProofs Proofs.ReaderProofs Proofs.NameProofs Proofs.SettingsProofs Proofs.ReadSettings.
Import ListNotations.
Local Open Scope string_scope.
Local Open Scope list_scope.

(** ** words *)
Lemma rev_append a b : string_rev (a ++ b)%string = (string_rev b ++ string_rev a)%string.
Proof.
  induction a as [|c a IH]; cbn [append].
  - change (string_rev "") with "". induction (string_rev b) as [|x s IH]; cbn [append]; congruence.
  - unfold string_rev at 1. cbn [string_rev_app]. rewrite rev_app_nil, IH.
    unfold string_rev at 4. cbn [string_rev_app]. rewrite (rev_app_nil a (String c "")).
    now rewrite append_assoc'.
Qed.
Lemma rev_rev s : string_rev (string_rev s) = s.
Proof.
  induction s as [|c s IH]; [reflexivity|].
  replace (string_rev (String c s)) with (string_rev s ++ String c "")%string
    by (unfold string_rev at 2; cbn [string_rev_app]; now rewrite rev_app_nil).
  rewrite rev_append, IH. reflexivity.
Qed.

Lemma words_run s : no_blank s -> forall r cur, words_from (s ++ r)%string cur = words_from r (string_rev s ++ cur)%string.
Proof.
  induction s as [|c s IH]; intros N r cur; [reflexivity|]. destruct N as [B N]. cbn [append words_from]. rewrite B.
  rewrite IH by exact N. f_equal. unfold string_rev at 2. cbn [string_rev_app]. rewrite rev_app_nil.
  now rewrite append_assoc'.
Qed.

Lemma append_nil s : (s ++ "")%string = s.
Proof. induction s as [|c s IH]; cbn [append]; congruence. Qed.
Lemma rev_nonempty s : s <> "" -> string_rev s <> "".
Proof. intros H E. apply H. now rewrite <- (rev_rev s), E. Qed.

Lemma words_end cur : cur <> "" -> words_from "" cur = [string_rev cur].
Proof. destruct cur; [congruence|reflexivity]. Qed.

Lemma words_one s : no_blank s -> s <> "" -> words s = [s].
Proof.
  intros N E. unfold words. rewrite <- (append_nil s) at 1. rewrite words_run by exact N. rewrite append_nil.
  rewrite words_end by now apply rev_nonempty. now rewrite rev_rev.
Qed.

Lemma words_two s t : no_blank s -> s <> "" -> no_blank t -> t <> "" -> words (s ++ " " ++ t)%string = [s; t].
Proof.
  intros N E M F. unfold words. rewrite words_run by exact N. rewrite append_nil.
  cbn [append words_from]. change (is_space " ") with true. cbv iota.
  assert (W : words_from t "" = [t]) by exact (words_one t M F). rewrite W.
  pose proof (rev_nonempty s E) as G. destruct (string_rev s) as [|c u] eqn:U; [congruence|].
  now rewrite <- U, rev_rev.
Qed.

Lemma declared pf tbl vars : Forall2 (declares pf) (values tbl) vars -> bin_vars pf tbl = Ok vars.
Proof.
  unfold bin_vars. generalize (values tbl). intros l F.
  assert (E : mapM (scale_of pf) l = Ok (map bv_scale vars) /\ mapM type_of l = Ok (map bv_signed vars)).
  { induction F as [|s v l vars (sc & N & E & P & D) F [IH1 IH2]]; [split; reflexivity|]. cbn [mapM map].
    assert (W : words s = [sc; if bv_signed v then "signed" else "unsigned"]).
    { subst s. apply words_two; auto; destruct (bv_signed v); cbn; try discriminate; auto 20. }
    assert (X : scale_of pf s = Ok (bv_scale v) /\ type_of s = Ok (bv_signed v)).
    { unfold scale_of, type_of. rewrite W, P. cbn [rev app]. destruct (bv_signed v); auto. }
    destruct X as [X Y]. rewrite X, Y, IH1, IH2. auto. }
  destruct E as [-> ->]. cbn [bind]. f_equal. clear F.
  induction vars as [|[a b] vars IH]; [reflexivity|]. cbn [map combine fst snd bv_scale bv_signed]. now rewrite IH.
Qed.

(** ** one cell of the assembled grid *)
Section Grid.
Context {V : Type}.
Variables (pf : string -> option R) (dom : vic_domain) (read : string -> res V).

Lemma effect_err job i j e : target pf dom job i j -> read job = Err e ->
  effect pf dom read job = match e with ValueError | KeyError => Ok None | _ => Err e end.
Proof.
  intros (lat & lon & P & Hi & Hj & M) E. unfold effect. rewrite P. cbn [bind fst snd]. rewrite Hi. cbn [bind]. rewrite Hj.
  cbn [bind]. rewrite M, E. destruct e; reflexivity.
Qed.
Lemma effect_ok job i j d : target pf dom job i j -> read job = Ok d -> effect pf dom read job = Ok (Some (i, j, d)).
Proof.
  intros (lat & lon & P & Hi & Hj & M) E. unfold effect. rewrite P. cbn [bind fst snd]. rewrite Hi. cbn [bind]. rewrite Hj.
  cbn [bind]. rewrite M, E. reflexivity.
Qed.

(** nothing but ValueError and KeyError in readers: the grid is assembled *)
Lemma process_total jobs : (forall job e, In job jobs -> read job = Err e -> e = ValueError \/ e = KeyError) ->
  exists g, process_vic pf dom read jobs = Ok g.
Proof.
  intros H. unfold process_vic. rewrite (process_fold pf dom read jobs).
  destruct (proj2 (mapM_ok_iff (effect pf dom read) jobs)) as [es ->]; [|cbn [bind]; eauto].
  intros job I. unfold effect.
  destruct (parse_job pf job) as [[lat lon]|e] eqn:P; cbn [bind fst snd].
  2:{ apply parse_job_err in P. subst. eauto. }
  destruct (find_coord (vd_lat dom) lat 0) as [a|e] eqn:A; cbn [bind].
  2:{ apply find_coord_err in A. subst. eauto. }
  destruct (find_coord (vd_lon dom) lon 0) as [b|e] eqn:B; cbn [bind].
  2:{ apply find_coord_err in B. subst. eauto. }
  destruct (fgt _ _); [|eauto]. destruct (read job) as [d|e] eqn:E; cbn [bind]; [eauto|].
  destruct (H job e I E) as [-> | ->]; eauto.
Qed.

Lemma process_failed jobs job i j e : In job jobs -> target pf dom job i j -> read job = Err e ->
  e <> ValueError -> e <> KeyError -> exists e', process_vic pf dom read jobs = Err e'.
Proof.
  intros I T E A B. unfold process_vic. rewrite (process_fold pf dom read jobs).
  destruct (mapM (effect pf dom read) jobs) as [es|e'] eqn:M; cbn [bind]; [|eauto].
  exfalso. destruct (proj1 (mapM_ok_iff (effect pf dom read) jobs) (ex_intro _ es M) job I) as [y Y].
  rewrite (effect_err job i j e T E) in Y. destruct e; congruence.
Qed.

Lemma cell_value jobs g job i j : process_vic pf dom read jobs = Ok g -> In job jobs -> target pf dom job i j ->
  (forall p, In p jobs -> target pf dom p i j -> p = job) ->
  g i j = match read job with Ok d => Some d | Err _ => None end.
Proof.
  intros H I T U. unfold process_vic in H. rewrite (process_fold pf dom read jobs) in H.
  destruct (mapM (effect pf dom read) jobs) as [es|] eqn:E; [|discriminate]. cbn [bind] in H. apply ok_inj in H. subst g.
  destruct (fold_put es (fun _ _ => None) i j) as [A B].
  { intros c Hc c' Hc'. apply (ReaderProofs.mapM_In _ _ _ _ E) in Hc as (a & Ha & Ea). apply (ReaderProofs.mapM_In _ _ _ _ E) in Hc' as (b & Hb & Eb).
    destruct (effect_target _ _ _ _ _ _ _ Ea) as [Ta _], (effect_target _ _ _ _ _ _ _ Eb) as [Tb _].
    rewrite (U a Ha Ta) in Ea. rewrite (U b Hb Tb) in Eb. rewrite Ea in Eb. apply ok_inj in Eb. congruence. }
  destruct (read job) as [d|e] eqn:R.
  - apply A. apply (ReaderProofs.mapM_In _ _ _ _ E). exists job. split; [exact I|]. now apply effect_ok.
  - apply B. intros c Hc. apply (ReaderProofs.mapM_In _ _ _ _ E) in Hc as (a & Ha & Ea).
    destruct (effect_target _ _ _ _ _ _ _ Ea) as [Ta Ra]. rewrite (U a Ha Ta) in Ra. congruence.
Qed.

Lemma cell_none jobs g i j : process_vic pf dom read jobs = Ok g ->
  (forall p d, In p jobs -> target pf dom p i j -> read p <> Ok d) -> g i j = None.
Proof.
  intros H U. unfold process_vic in H. rewrite (process_fold pf dom read jobs) in H.
  destruct (mapM (effect pf dom read) jobs) as [es|] eqn:E; [|discriminate]. cbn [bind] in H. apply ok_inj in H. subst g.
  assert (N : forall c, ~ In (Some (i, j, c)) es).
  { intros c Hc. apply (ReaderProofs.mapM_In _ _ _ _ E) in Hc as (a & Ha & Ea).
    destruct (effect_target _ _ _ _ _ _ _ Ea) as [Ta Ra]. exact (U a c Ha Ta Ra). }
  destruct (fold_put es (fun _ _ => None) i j) as [_ B].
  { intros c Hc. now apply N in Hc. }
  now apply B.
Qed.
End Grid.

(** ** settings *)
Lemma vic_names_texts m : vic_names (CMap (texts m)) = Ok m.
Proof.
  unfold vic_names, texts. induction m as [|[k s] m IH]; [reflexivity|].
  cbn [map mapM fst snd as_text_value bind]. rewrite IH. reflexivity.
Qed.
Lemma text_jobs paths : vic_jobs (CList (map CText paths)) = Ok paths.
Proof. unfold vic_jobs. induction paths as [|p ps IH]; [reflexivity|]. cbn [map mapM as_text_value bind]. now rewrite IH. Qed.

Section Config.
Variable list_dir : string -> option (list string).
Variable abspath : string -> string.
Variable parse_list : string -> res (list string).
Variables (fmt path : string) (tbl : dict string).

(** the table of forcing variables as it is used *)
Definition used_table (kind : config_kind) : dict string :=
  match kind with
  | Ini => if String.eqb fmt "binary" then tbl else invert_dict tbl
  | Yaml => invert_dict tbl
  end.

Lemma config_values kind conf : vic_config list_dir abspath parse_list fmt path tbl kind conf ->
  dict_get conf "forcing_fmt" = Some (CText fmt) /\
  dict_get conf "forcing_vars" = Some (CMap (texts (used_table kind))) /\
  forcing_setting list_dir path (dict_get conf "forcing").
Proof.
  intros [h doc o c hr m Hm N Hf Hp Ht H|h doc o c m S Hf Hp Ht H].
  - destruct (ini_settings list_dir abspath parse_list h doc o c hr m Hm N H) as (_ & _ & _ & _ & _ & _ & _ & G).
    split; [rewrite G, Hf by (cbn; intuition discriminate); reflexivity|].
    destruct (ini_inv list_dir abspath parse_list h doc o c hr m Hm N H)
      as (fv & fm & dv & sv & ch & files & out & A1 & A2 & A3 & A4 & A5 & A6 & A7 & A8 & K).
    split.
    + rewrite K. rewrite A1 in Ht. injection Ht as ->. rewrite A2 in Hf. injection Hf as ->. reflexivity.
    + destruct (ini_forcing list_dir abspath parse_list h doc o c hr m Hm N H) as (f & F & G'). congruence.
  - destruct (yaml_settings list_dir abspath h doc o c m S H) as (_ & _ & _ & _ & _ & G).
    split; [rewrite G, Hf by (cbn; intuition discriminate); reflexivity|].
    destruct (yaml_inv list_dir abspath h doc o c _ (has_section_eq _ _ _ S) (proj2 S) H)
      as (fv & dv & sv & ov & ch & cv & files & out & A1 & A2 & A3 & A4 & A5 & A6 & A7 & A8 & K).
    split.
    + rewrite K. unfold section, dict_getitem in A1. rewrite Ht in A1. cbn [bind as_map] in A1. rewrite invert_texts in A1.
      apply ok_inj in A1. subst fv. reflexivity.
    + now apply (yaml_forcing list_dir abspath h doc o c m path S H).
Qed.

Lemma directory_forcing kind conf pf bytes lines dom n fs : vic_config list_dir abspath parse_list fmt path tbl kind conf ->
  list_dir path = Some fs -> fs <> [] ->
  exists jobs, Forall2 (in_directory path) fs jobs /\
    vic_forcing pf bytes lines dom n conf =
    process_vic pf dom (read_vic pf bytes lines fmt (used_table kind) n) jobs.
Proof.
  intros C D E. destruct (config_values kind conf C) as (A & B & F). unfold forcing_setting in F. rewrite D in F.
  destruct fs as [|f fs]; [congruence|]. destruct F as (paths & F & G). exists paths. split; [exact F|].
  unfold vic_forcing, dict_getitem. rewrite A, B, G. cbn [bind as_text_value]. rewrite vic_names_texts, text_jobs. reflexivity.
Qed.

Lemma dir_paths fs jobs p : Forall2 (in_directory path) fs jobs -> In p jobs -> exists fn, In fn fs /\ in_directory path fn p.
Proof.
  induction 1 as [|fn q fs jobs D F IH]; intros I; [destruct I|]. destruct I as [<-|I].
  - exists fn. split; [now left|exact D].
  - destruct (IH I) as (x & Ix & Dx). exists x. split; [now right|exact Dx].
Qed.
Lemma in_directory_fun fn p q : in_directory path fn p -> in_directory path fn q -> p = q.
Proof. intros [[A ->]|[A ->]] [[B ->]|[B ->]]; try reflexivity; contradiction. Qed.
Lemma dir_jobs fs jobs fn p : Forall2 (in_directory path) fs jobs -> In fn fs -> in_directory path fn p -> In p jobs.
Proof.
  induction 1 as [|f q fs jobs D F IH]; intros I E; [destruct I|]. destruct I as [->|I].
  - left. exact (in_directory_fun fn q p D E).
  - right. now apply IH.
Qed.
Lemma only_jobs fs jobs pf dom job i j : Forall2 (in_directory path) fs jobs -> only_file pf dom path fs job i j ->
  In job jobs /\ target pf dom job i j /\ forall p, In p jobs -> target pf dom p i j -> p = job.
Proof.
  intros F (T & (fn & I & D) & U). split; [now apply (dir_jobs fs jobs fn)|]. split; [exact T|].
  intros p Ip Tp. destruct (dir_paths fs jobs p F Ip) as (x & Ix & Dx). exact (U x p Ix Dx Tp).
Qed.
End Config.

(** ** text files *)
Lemma tautology_values tbl : tautology tbl -> values tbl = keys tbl.
Proof.
  intros [_ H]. unfold values, keys. apply map_ext_in. intros [k f] I. cbn. now apply H.
Qed.
Lemma tautology_inverse tbl : tautology tbl -> invert_dict tbl = tbl.
Proof.
  intros T. rewrite invert_nodup by (rewrite tautology_values by exact T; apply T).
  destruct T as [_ T]. induction tbl as [|[k f] tbl IH]; [reflexivity|]. cbn [map]. rewrite IH by (intros; apply T; now right).
  now rewrite (T k f (or_introl eq_refl)).
Qed.

Lemma ascii_err rows names n e : read_ascii rows names n = Err e -> e = ValueError.
Proof.
  unfold read_ascii. destruct rows; [congruence|]. cbv zeta. destruct (_ =? n)%nat; congruence.
Qed.

Lemma numbered_get {B} (f : nat -> B) names v k : NoDup names -> nth_error names v = Some k -> forall s,
  dict_get (map (fun iv => (snd iv, f (fst iv))) (combine (seq s (List.length names)) names)) k = Some (f (s + v)%nat).
Proof.
  revert v. induction names as [|a names IH]; intros v N E s; [now destruct v|]. inversion N as [|a' l' NI N']; subst.
  destruct v as [|v]; cbn [nth_error] in E.
  - injection E as ->. cbn. rewrite String.eqb_refl. now rewrite Nat.add_0_r.
  - cbn [List.length seq combine map fst snd dict_get]. destruct (String.eqb_spec k a) as [->|_].
    + exfalso. apply NI. now apply nth_error_In in E.
    + rewrite (IH v N' E (S s)). f_equal. f_equal. lia.
Qed.

(** width = number of names + extra *)
Lemma ascii_columns rows names n extra v k : NoDup names -> (n <= List.length rows)%nat -> rows <> [] ->
  (forall r, In r rows -> List.length r = (List.length names + extra)%nat) ->
  nth_error names v = Some k ->
  exists d col, read_ascii rows names n = Ok d /\ dict_get d k = Some col /\ List.length col = n /\
    forall t r, (t < n)%nat -> nth_error rows t = Some r -> nth_error col t = nth_error r (v + extra).
Proof.
  intros N L NE W E. unfold read_ascii.
  assert (S : surplus rows names = extra).
  { unfold surplus. destruct rows as [|r rs]; [congruence|]. rewrite (W r (or_introl eq_refl)). lia. }
  rewrite S. destruct rows as [|r0 rs] eqn:R; [congruence|]. rewrite <- R in *. clear r0 rs R.
  assert (H : List.length (firstn n rows) = n) by (rewrite firstn_length; lia).
  cbv zeta. rewrite H, Nat.eqb_refl. eexists. exists (map (fun r => nth (extra + v) r None) (firstn n rows)).
  split; [reflexivity|]. split; [|split].
  - apply (numbered_get (fun i => map (fun r => nth (extra + i) r None) (firstn n rows)) names v k N E 0).
  - now rewrite map_length.
  - intros t r Ht Er. rewrite nth_error_map.
    assert (F : nth_error (firstn n rows) t = Some r).
    { rewrite <- (firstn_skipn n rows) in Er. rewrite nth_error_app1 in Er by lia. exact Er. }
    unfold fl in *. rewrite F. cbn [option_map]. rewrite (Nat.add_comm extra v). symmetry. apply nth_error_nth'.
    rewrite (W r) by now apply nth_error_In in Er. assert (v < List.length names)%nat by (apply nth_error_Some; congruence). lia.
Qed.

Lemma ascii_short rows names n : (List.length rows < n)%nat -> read_ascii rows names n = Err ValueError.
Proof.
  intros L. unfold read_ascii. destruct rows as [|r0 rs] eqn:R; [reflexivity|]. rewrite <- R in *. cbv zeta.
  rewrite firstn_all2 by lia. destruct (Nat.eqb_spec (List.length rows) n); [lia|reflexivity].
Qed.

Section Text.
Variable list_dir : string -> option (list string).
Variable abspath : string -> string.
Variable parse_list : string -> res (list string).
Variable pf : string -> option R.
Variable bytes : string -> list Z.
Variable lines : string -> list (list fl).

Lemma text_forcing dom n dir tbl kind conf fs : vic_config list_dir abspath parse_list "ascii" dir tbl kind conf ->
  list_dir dir = Some fs -> fs <> [] -> tautology tbl ->
  exists jobs g, Forall2 (in_directory dir) fs jobs /\
    process_vic pf dom (fun job => read_ascii (lines job) (keys tbl) n) jobs = Ok g /\
    vic_forcing pf bytes lines dom n conf = Ok g.
Proof.
  intros C D E T. destruct (directory_forcing list_dir abspath parse_list "ascii" dir tbl kind conf pf bytes lines dom n fs C D E)
    as (jobs & F & G).
  assert (U : used_table "ascii" tbl kind = tbl).
  { unfold used_table. destruct kind; cbn [String.eqb Ascii.eqb Bool.eqb]; now apply tautology_inverse. }
  rewrite U in G.
  destruct (process_total pf dom (fun job => read_ascii (lines job) (keys tbl) n) jobs) as [g P].
  { intros job e _ H. left. exact (ascii_err _ _ _ _ H). }
  exists jobs, g. split; [exact F|]. split; [exact P|]. rewrite G. exact P.
Qed.

Lemma only_nonempty dom dir fs job i j : only_file pf dom dir fs job i j -> fs <> [].
Proof. intros (_ & (fn & I & _) & _) ->. destruct I. Qed.

(** extra = 0: the right columns; extra > 0: all columns are displaced *)
Theorem text_values dom n dir tbl kind conf fs job i j extra :
  vic_config list_dir abspath parse_list "ascii" dir tbl kind conf -> list_dir dir = Some fs -> tautology tbl ->
  only_file pf dom dir fs job i j -> (0 < n)%nat -> (n <= List.length (lines job))%nat ->
  (forall r, In r (lines job) -> List.length r = (List.length tbl + extra)%nat) ->
  exists g, vic_forcing pf bytes lines dom n conf = Ok g /\
    forall v k, nth_error (keys tbl) v = Some k ->
      exists col, dict_get (vic_cell (keys tbl) n g i j) k = Some col /\ List.length col = n /\
        forall t r, (t < n)%nat -> nth_error (lines job) t = Some r -> nth_error col t = nth_error r (v + extra).
Proof.
  intros C D T O P L W. destruct (text_forcing dom n dir tbl kind conf fs C D (only_nonempty _ _ _ _ _ _ O) T) as (jobs & g & F & G & H).
  exists g. split; [exact H|]. intros v k E. destruct (only_jobs dir fs jobs pf dom job i j F O) as (I & Tg & U).
  assert (NE : lines job <> []) by (intros Z; rewrite Z in L; cbn in L; lia).
  assert (W' : forall r, In r (lines job) -> List.length r = (List.length (keys tbl) + extra)%nat)
    by (intros r Ir; rewrite (W r Ir); unfold keys; now rewrite map_length).
  destruct (ascii_columns (lines job) (keys tbl) n extra v k (proj1 T) L NE W' E) as (d & col & R & Gt & Ln & Vs).
  exists col. split; [|split; [exact Ln|exact Vs]].
  unfold vic_cell. rewrite (cell_value pf dom _ jobs g job i j G I Tg U), R. exact Gt.
Qed.

Theorem text_columns dom n dir tbl kind conf fs job i j :
  vic_config list_dir abspath parse_list "ascii" dir tbl kind conf -> list_dir dir = Some fs -> tautology tbl ->
  only_file pf dom dir fs job i j -> (0 < n)%nat -> (n <= List.length (lines job))%nat ->
  (forall r, In r (lines job) -> List.length r = List.length tbl) ->
  exists g, vic_forcing pf bytes lines dom n conf = Ok g /\
    forall v k, nth_error (keys tbl) v = Some k ->
      exists col, dict_get (vic_cell (keys tbl) n g i j) k = Some col /\ List.length col = n /\
        forall t r, (t < n)%nat -> nth_error (lines job) t = Some r -> nth_error col t = nth_error r v.
Proof.
  intros C D T O P L W. destruct (text_values dom n dir tbl kind conf fs job i j 0 C D T O P L) as (g & G & H).
  { intros r I. rewrite Nat.add_0_r. now apply W. }
  exists g. split; [exact G|]. intros v k E. specialize (H v k E). now rewrite Nat.add_0_r in H.
Qed.

Theorem text_missing dom n dir tbl kind conf fs i j :
  vic_config list_dir abspath parse_list "ascii" dir tbl kind conf -> list_dir dir = Some fs -> fs <> [] -> tautology tbl ->
  (forall fn p, In fn fs -> in_directory dir fn p -> target pf dom p i j -> (List.length (lines p) < n)%nat) ->
  exists g, vic_forcing pf bytes lines dom n conf = Ok g /\
    forall k, In k (keys tbl) -> dict_get (vic_cell (keys tbl) n g i j) k = Some (repeat None n).
Proof.
  intros C D NE T S. destruct (text_forcing dom n dir tbl kind conf fs C D NE T) as (jobs & g & F & G & H).
  exists g. split; [exact H|]. intros k I. unfold vic_cell. rewrite (cell_none pf dom _ jobs g i j G).
  - apply In_nth_error in I as [v E].
    clear - E. revert v E. induction (keys tbl) as [|a l IH]; intros v E; [now destruct v|]. cbn [map dict_get].
    destruct (String.eqb_spec k a) as [->|N]; [reflexivity|]. destruct v as [|v]; [cbn in E; congruence|]. now apply (IH v).
  - intros p d Ip Tp. destruct (dir_paths dir fs jobs p F Ip) as (fn & If & Df).
    rewrite (ascii_short _ _ _ (S fn p If Df Tp)). discriminate.
Qed.

(** ** a path that is not a directory *)
Lemma character_job c dom i j : ~ target pf dom (String c "") i j.
Proof.
  intros (lat & lon & P & _). unfold parse_job, basename in P.
  assert (B : exists u, last (split_char "/" (String c "") "") "" = u /\ (u = "" \/ u = String c "")).
  { cbn [split_char]. destruct (Ascii.eqb "/" c); cbn; eauto. }
  destruct B as (u & E & B). rewrite E in P. destruct B as [-> | ->]; [discriminate|]. cbn [split_char] in P.
  destruct (Ascii.eqb "_" c); discriminate.
Qed.

Lemma characters_in s p : In p (characters s) -> exists c, p = String c "".
Proof. induction s as [|c s IH]; intros I; [destruct I|]. destruct I as [<-|I]; eauto. Qed.

Theorem single_path dom n fmt path tbl kind conf :
  vic_config list_dir abspath parse_list fmt path tbl kind conf -> list_dir path = None ->
  exists g, vic_forcing pf bytes lines dom n conf = Ok g /\ forall i j, g i j = None.
Proof.
  intros C D. destruct (config_values list_dir abspath parse_list fmt path tbl kind conf C) as (A & B & F).
  unfold forcing_setting in F. rewrite D in F.
  unfold vic_forcing, dict_getitem. rewrite A, B, F. cbn [bind as_text_value vic_jobs]. rewrite vic_names_texts. cbn [bind].
  set (read := read_vic pf bytes lines fmt _ n).
  assert (P : forall jobs, (forall p, In p jobs -> exists c, p = String c "") -> process_vic pf dom read jobs = Ok (fun _ _ => None)).
  { induction jobs as [|p jobs IH]; intros H; [reflexivity|].
    destruct (H p (or_introl eq_refl)) as [c ->].
    etransitivity; [exact (irrelevant_file pf dom read [] (String c "") jobs (character_job c dom))|].
    apply IH. intros q Iq. apply H. now right. }
  eexists. split; [apply P; intros p; apply characters_in|]. reflexivity.
Qed.

(** ** binary files *)
Theorem binary_values dom n dir tbl conf fs job i j vars g :
  vic_config list_dir abspath parse_list "binary" dir tbl Ini conf -> list_dir dir = Some fs ->
  NoDup (keys tbl) -> tbl <> [] -> Forall2 (declares pf) (values tbl) vars -> (forall v, In v vars -> bv_scale v <> 0%R) ->
  only_file pf dom dir fs job i j ->
  (List.length vars = 4%nat /\ (2 * (4 * n) <= List.length (bytes job))%nat) \/
  ((List.length vars <= 4)%nat /\ List.length (bytes job) = (2 * (List.length vars * n))%nat) ->
  vic_forcing pf bytes lines dom n conf = Ok g ->
  forall v k bv, nth_error (keys tbl) v = Some k -> nth_error vars v = Some bv ->
    exists col, dict_get (vic_cell (keys tbl) n g i j) k = Some col /\ List.length col = n /\
      forall t, (t < n)%nat -> nth_error col t = Some (Some (word_value (bytes job) bv (t * List.length vars + v))).
Proof.
  intros C D N NE F S O L H v k bv Ek Ev.
  destruct (directory_forcing list_dir abspath parse_list "binary" dir tbl Ini conf pf bytes lines dom n fs C D (only_nonempty _ _ _ _ _ _ O))
    as (jobs & J & G). rewrite G in H. clear G.
  destruct (only_jobs dir fs jobs pf dom job i j J O) as (I & T & U).
  assert (LV : List.length vars = List.length tbl).
  { rewrite <- (Forall2_len _ _ _ F). unfold values. now rewrite map_length. }
  assert (VN : vars <> []) by (intros ->; destruct tbl; [congruence|discriminate]).
  destruct (read_binary_total vars (bytes job) n VN S L) as [cols R].
  destruct (read_binary_sound vars (bytes job) n cols VN R) as (Lc & _ & V).
  unfold vic_cell. rewrite (cell_value pf dom _ jobs g job i j H I T U).
  unfold read_vic, used_table. cbn [String.eqb Ascii.eqb Bool.eqb]. unfold read_binary_named.
  rewrite (declared pf tbl vars F). cbn [bind]. rewrite R. cbn [bind].
  assert (X : exists c, nth_error cols v = Some c /\ List.length c = n /\
     forall t, (t < n)%nat -> nth_error c t = Some (word_value (bytes job) bv (t * List.length vars + v))).
  { destruct (nth_error cols v) as [c|] eqn:Ec.
    - exists c. split; [reflexivity|]. split.
      + destruct n as [|n'].
        * unfold read_binary in R. destruct (bin_loop _ _ _ _ _) as [cs|]; [|discriminate]. cbn [bind] in R.
          destruct (forallb _ cs) eqn:Fb; [|discriminate]. apply ok_inj in R. subst cs.
          rewrite forallb_forall in Fb. apply nth_error_In in Ec. specialize (Fb c Ec). now apply Nat.eqb_eq in Fb.
        * destruct (V v 0%nat bv Ev ltac:(lia)) as (c' & E' & Ln & _). congruence.
      + intros t Ht. destruct (V v t bv Ev Ht) as (c' & E' & _ & W). congruence.
    - exfalso. apply nth_error_None in Ec. assert (v < List.length vars)%nat by (apply nth_error_Some; congruence). lia. }
  destruct X as (c & Ec & Ln & W). exists (map Some c). split; [|split].
  - clear - N Ek Ec. generalize (keys tbl) N v k Ek cols c Ec. clear. intros l. induction l as [|a l IH]; intros N v k Ek cols c Ec; [now destruct v|].
    inversion N as [|a' l' NI N']; subst. destruct cols as [|c0 cols]; [now destruct v|]. cbn [map combine dict_get].
    destruct v as [|v]; cbn [nth_error] in *.
    + injection Ek as ->. injection Ec as ->. now rewrite String.eqb_refl.
    + destruct (String.eqb_spec k a) as [->|_]; [exfalso; apply NI; now apply nth_error_In in Ek|]. now apply (IH N' v k Ek cols c).
  - now rewrite map_length.
  - intros t Ht. rewrite nth_error_map, (W t Ht). reflexivity.
Qed.

(** by way of YAML the scale is taken from the names *)
Theorem binary_yaml dom n path tbl conf fs :
  vic_config list_dir abspath parse_list "binary" path tbl Yaml conf -> list_dir path = Some fs -> fs <> [] ->
  tbl <> [] -> Forall (plain_name pf) (keys tbl) ->
  exists g, vic_forcing pf bytes lines dom n conf = Ok g /\ forall i j, g i j = None.
Proof.
  intros C D NE TN P.
  destruct (directory_forcing list_dir abspath parse_list "binary" path tbl Yaml conf pf bytes lines dom n fs C D NE) as (jobs & J & G).
  rewrite G. clear G. cbn [used_table].
  assert (E : forall job, read_vic pf bytes lines "binary" (invert_dict tbl) n job = Err ValueError).
  { intros job. unfold read_vic, read_binary_named, bin_vars. cbn [String.eqb Ascii.eqb Bool.eqb].
    assert (X : exists a r, invert_dict tbl = a :: r /\ In (snd a) (keys tbl)).
    { assert (Q : forall f k, dict_get (invert_dict tbl) f = Some k -> In k (keys tbl)).
      { intros f k Eg. pose proof (inverted tbl f (CText k)) as [B _]. rewrite texts_get, Eg in B.
        destruct (B eq_refl) as (pre & k' & post & -> & _ & Ek). injection Ek as ->.
        unfold keys. rewrite map_app, in_app_iff. right. now left. }
      destruct (invert_dict tbl) as [|[f k] r] eqn:Ei.
      - exfalso. destruct tbl as [|[k0 f0] t0]; [congruence|]. clear Q.
        pose proof (inverted ((k0, f0) :: t0)) as B. rewrite Ei in B.
        assert (Z : forall l, In f0 (values l) -> exists pre k post, l = pre ++ (k, f0) :: post /\ ~ In f0 (values post)).
        { clear. intros l. induction l as [|[a b] l IH] using rev_ind; [intros []|]. intros I. unfold values in I. rewrite map_app, in_app_iff in I.
          destruct (string_dec b f0) as [->|Nb].
          - exists l, a, []. split; [reflexivity|]. intros [].
          - destruct I as [I|[I|[]]]; [|cbn in I; congruence]. destruct (IH I) as (pre & k & post & -> & Np).
            exists pre, k, (post ++ [(a, b)]). split; [now rewrite <- app_assoc|]. unfold values. rewrite map_app, in_app_iff.
            intros [Q|[Q|[]]]; [now apply Np|cbn in Q; congruence]. }
        destruct (Z ((k0, f0) :: t0) (or_introl eq_refl)) as (pre & k & post & E & Np).
        destruct (B f0 (CText k)) as [_ B2]. assert (W : dict_get (texts []) f0 = Some (CText k)) by (apply B2; eauto 8). discriminate W.
      - exists (f, k), r. split; [reflexivity|]. apply (Q f k). cbn [dict_get]. now rewrite String.eqb_refl. }
    destruct X as ([f k] & r & -> & Ik). cbn [values map snd] in *. cbn [mapM].
    rewrite Forall_forall in P. destruct (P k Ik) as (Nb & Nk & Pk). unfold scale_of at 1. rewrite (words_one k Nb Nk), Pk. reflexivity. }
  destruct (process_total pf dom (read_vic pf bytes lines "binary" (invert_dict tbl) n) jobs) as [g H].
  { intros job e _ He. rewrite E in He. left. congruence. }
  exists g. split; [exact H|]. intros i j. apply (cell_none pf dom _ jobs g i j H). intros p d _ _. rewrite E. discriminate.
Qed.

(** half a word at the end of a file *)
Lemma loop_odd vars : (forall v, In v vars -> bv_scale v <> 0%R) -> forall fuel i bs data, (i < List.length vars)%nat ->
  List.length data = List.length vars -> Nat.odd (List.length bs) = true -> (List.length bs < 2 * fuel)%nat ->
  bin_loop vars fuel i bs data = Err StructError.
Proof.
  intros S. induction fuel as [|fuel IH]; intros i bs data Hi Hd O L; [lia|]. cbn [bin_loop].
  destruct bs as [|lo [|hi rest]]; [discriminate|reflexivity|].
  destruct (nth_error vars i) as [v|] eqn:Ev; [|apply nth_error_None in Ev; lia].
  destruct (nth_error data i) as [c|] eqn:Ec; [|apply nth_error_None in Ec; lia].
  destruct (Req_EM_T (bv_scale v) 0) as [Z|_]; [exfalso; exact (S v (nth_error_In _ _ Ev) Z)|].
  apply IH.
  - apply Nat.mod_upper_bound. lia.
  - now rewrite upd_length'.
  - exact O.
  - cbn [List.length] in L. lia.
Qed.

Theorem binary_odd dom n dir tbl conf fs job i j vars :
  vic_config list_dir abspath parse_list "binary" dir tbl Ini conf -> list_dir dir = Some fs ->
  tbl <> [] -> Forall2 (declares pf) (values tbl) vars -> (forall v, In v vars -> bv_scale v <> 0%R) ->
  (exists fn, In fn fs /\ in_directory dir fn job) -> target pf dom job i j ->
  Nat.odd (List.length (bytes job)) = true -> (List.length (bytes job) < 2 * (4 * n))%nat ->
  exists e, vic_forcing pf bytes lines dom n conf = Err e.
Proof.
  intros C D NE F S (fn & If & Df) T O L.
  assert (FN : fs <> []) by (intros ->; destruct If).
  destruct (directory_forcing list_dir abspath parse_list "binary" dir tbl Ini conf pf bytes lines dom n fs C D FN) as (jobs & J & G).
  rewrite G. apply (process_failed pf dom _ jobs job i j StructError); try discriminate; auto.
  - exact (dir_jobs dir fs jobs fn job J If Df).
  - unfold read_vic, used_table. cbn [String.eqb Ascii.eqb Bool.eqb]. unfold read_binary_named.
    rewrite (declared pf tbl vars F). cbn [bind]. unfold read_binary. rewrite (loop_odd vars S).
    + reflexivity.
    + rewrite <- (Forall2_len _ _ _ F). unfold values. rewrite map_length. destruct tbl; [congruence|cbn; lia].
    + apply repeat_length.
    + exact O.
    + exact L.
Qed.

(** a type that is none *)
Lemma unknown_word l words' : Forall2 (scale_and_word pf) l words' ->
  (exists w, In w words' /\ w <> "signed" /\ w <> "unsigned") ->
  (exists scales, mapM (scale_of pf) l = Ok scales) /\ mapM type_of l = Err KeyError.
Proof.
  intros F. induction F as [|s w l ws (sc & x & N & E & P & Nw & Ew & D) F IH]; intros (w' & I & A & B); [destruct I|].
  assert (W : words s = [sc; w]) by (subst s; now apply words_two).
  assert (X : scale_of pf s = Ok x) by (unfold scale_of; now rewrite W, P).
  assert (Sc : exists scales, mapM (scale_of pf) l = Ok scales).
  { clear - F. induction F as [|s w l ws (sc & x & N & E & P & Nw & Ew & D) F [r IH]]; [exists []; reflexivity|]. exists (x :: r). cbn [mapM].
    assert (W : words s = [sc; w]) by (subst s; now apply words_two).
    assert (X : scale_of pf s = Ok x) by (unfold scale_of; now rewrite W, P). rewrite X, IH. reflexivity. }
  split; [destruct Sc as [r Sc]; exists (x :: r); cbn [mapM]; rewrite X, Sc; reflexivity|]. cbn [mapM].
  assert (Y : type_of s = if String.eqb w "signed" then Ok true else if String.eqb w "unsigned" then Ok false else Err KeyError)
    by (unfold type_of; rewrite W; reflexivity).
  rewrite Y. destruct (String.eqb_spec w "signed") as [->|N1]; [|destruct (String.eqb_spec w "unsigned") as [->|N2]; [|reflexivity]].
  - cbn [bind]. destruct I as [I|I]; [congruence|]. rewrite (proj2 (IH (ex_intro _ w' (conj I (conj A B))))). reflexivity.
  - cbn [bind]. destruct I as [I|I]; [congruence|]. rewrite (proj2 (IH (ex_intro _ w' (conj I (conj A B))))). reflexivity.
Qed.

Theorem binary_unknown dom n dir tbl conf fs words' :
  vic_config list_dir abspath parse_list "binary" dir tbl Ini conf -> list_dir dir = Some fs -> fs <> [] ->
  Forall2 (scale_and_word pf) (values tbl) words' -> (exists w, In w words' /\ w <> "signed" /\ w <> "unsigned") ->
  exists g, vic_forcing pf bytes lines dom n conf = Ok g /\ forall i j, g i j = None.
Proof.
  intros C D NE F U.
  destruct (directory_forcing list_dir abspath parse_list "binary" dir tbl Ini conf pf bytes lines dom n fs C D NE) as (jobs & J & G).
  rewrite G. clear G. cbn [used_table].
  assert (E : forall job, read_vic pf bytes lines "binary" tbl n job = Err KeyError).
  { intros job. unfold read_vic, read_binary_named, bin_vars. cbn [String.eqb Ascii.eqb Bool.eqb].
    destruct (unknown_word _ _ F U) as [[sc ->] ->]. reflexivity. }
  destruct (process_total pf dom (read_vic pf bytes lines "binary" tbl n) jobs) as [g H].
  { intros job e _ He. rewrite E in He. right. congruence. }
  exists g. split; [exact H|]. intros i j. apply (cell_none pf dom _ jobs g i j H). intros p d _ _. rewrite E. discriminate.
Qed.
End Text.
