From Coq Require Import ZArith Reals String Ascii List Bool Arith Lia.
From Verif Require Import Model.Py Model.Fl Model.Np Model.Constants Model.Physics Model.Interp
  Model.Params Model.Disagg Model.Mtclim Model.Units Model.Output Model.Cell Model.Validate
  Spec.TimeSpec Spec.SetupSpec Proofs.Base Proofs.OutputProofs Proofs.DisaggProofs Proofs.CellBody.
Import ListNotations.
Local Open Scope string_scope.
Local Open Scope list_scope.

Lemma check_nil b m : check b m = [] -> b = true.
Proof. destruct b; simpl; congruence. Qed.

Lemma accept_inv s : validate_setup s = Ok tt ->
  v_time_step s <> 0%Z /\ time_step_rejected (v_time_step s) = false /\
  (forall v, In v ["t_min"; "t_max"; "prec"] -> In v (v_met_vars s)) /\
  v_out_vars s <> [] /\
  (forall v, In v (v_out_vars s) -> In v (out_var_check (v_time_step s))) /\
  In (v_lw_cloud s) ["default"; "cloud_deardorff"] /\
  In (v_lw_type s) ["default"; "tva"; "anderson"; "brutsaert"; "satterlund"; "idso"; "prata"].
Proof.
  assert (SI : forall x l, str_in x l = true -> In x l).
  { intros x l H. apply existsb_exists in H as (y & I & E). apply String.eqb_eq in E. now subst. }
  assert (FM : forall (f : string -> bool) m l, flat_map (fun v => check (f v) (m v)) l = [] ->
               forall v, In v l -> f v = true).
  { intros f m l. induction l as [|x l IH]; simpl; [easy|]. intros H v. apply app_eq_nil in H as [A B].
    intros [->|I]; [now apply check_nil in A|auto]. }
  unfold validate_setup. intros H. destruct (Z.eqb_spec (v_time_step s) 0); [discriminate|].
  match type of H with match ?e with _ => _ end = _ => destruct e eqn:E; [|discriminate] end.
  repeat match type of E with _ ++ _ = [] => apply app_eq_nil in E; destruct E as [?X E] end.
  apply check_nil in X3. apply negb_true_iff in X3. apply check_nil in X5.
  apply check_nil in X8. apply check_nil in E.
  split; auto. split; auto. split; [intros v I; apply SI; exact (FM _ _ _ X4 v I)|].
  split; [destruct (v_out_vars s); [discriminate|congruence]|].
  split; [intros v I; apply SI; exact (FM _ _ _ X6 v I)|]. split; auto.
Qed.

Theorem accepted_positive_step s : validate_setup s = Ok tt -> (0 < v_time_step s)%Z ->
  legal_time_step (v_time_step s).
Proof. intros H P. apply accept_time_step in H as (A & B & C). repeat split; auto. Qed.

Lemma In_errs {A} (m : A) (pre : list A) x post : In m x -> In m (pre ++ x ++ post).
Proof. intros. apply in_or_app. right. apply in_or_app. now left. Qed.

Ltac in_errs := repeat (first [apply in_or_app; left; assumption | apply in_or_app; right]); try assumption.

Theorem illegal_step_refused s : (0 < v_time_step s)%Z -> ~ legal_time_step (v_time_step s) ->
  refuses_with s "Time step must be evenly divisible into 1440".
Proof.
  intros P N. unfold refuses_with, validate_setup. destruct (Z.eqb_spec (v_time_step s) 0); [lia|].
  assert (T : time_step_rejected (v_time_step s) = true).
  { unfold time_step_rejected. destruct (Z.eqb_spec (1440 mod v_time_step s) 0) as [D|]; [|reflexivity].
    simpl. destruct (Z.ltb_spec 360 (v_time_step s)); simpl.
    - destruct (Z.eqb_spec (v_time_step s) 1440); auto. exfalso. apply N. repeat split; auto.
    - exfalso. apply N. repeat split; auto. }
  assert (I : In "Time step must be evenly divisible into 1440"
     (check (negb (time_step_rejected (v_time_step s))) "Time step must be evenly divisible into 1440")).
  { rewrite T. simpl. auto. }
  match goal with |- exists m, match ?e with _ => _ end = _ /\ _ =>
    assert (J : In "Time step must be evenly divisible into 1440" e) by in_errs; destruct e; [easy|] end.
  eexists. split; [reflexivity|auto].
Qed.

Theorem bad_output_refused s v : v_time_step s <> 0%Z -> In v (v_out_vars s) ->
  ~ In v (out_var_check (v_time_step s)) -> refuses_with s (append "Cannot output variable " v).
Proof.
  intros P I N. unfold refuses_with, validate_setup. destruct (Z.eqb_spec (v_time_step s) 0); [lia|].
  assert (J : In (append "Cannot output variable " v)
    (flat_map (fun v => check (str_in v (out_var_check (v_time_step s)))
                                  (append "Cannot output variable " v)) (v_out_vars s))).
  { apply in_flat_map. exists v. split; auto.
    destruct (str_in v (out_var_check (v_time_step s))) eqn:E; [|simpl; auto].
    exfalso. apply N. apply existsb_exists in E as (y & Iy & E). apply String.eqb_eq in E. now subst. }
  match goal with |- exists m, match ?e with _ => _ end = _ /\ _ =>
    assert (K : In (append "Cannot output variable " v) e) by in_errs; destruct e; [easy|] end.
  eexists. split; [reflexivity|auto].
Qed.

(** ** columns survive the daily stage *)
Lemma dict_mem_set {V} (d : dict V) k v k' :
  dict_mem (dict_set d k v) k' = (k' =? k) || dict_mem d k'.
Proof.
  unfold dict_mem. induction d as [|[k0 v0] d IH]; simpl.
  - destruct (k' =? k); auto.
  - destruct (String.eqb_spec k k0) as [->|N]; simpl.
    + destruct (String.eqb_spec k' k0); simpl; auto.
    + destruct (String.eqb_spec k' k0) as [->|N'].
      * destruct (String.eqb_spec k0 k); [congruence|auto].
      * exact IH.
Qed.
Definition has (df : daily) (k : string) : Prop := dict_mem (dl_cols df) k = true.
Lemma has_set df k v k' : has df k' \/ k' = k -> has (set_col df k v) k'.
Proof.
  unfold has, set_col. simpl. rewrite dict_mem_set. intros [H| ->].
  - rewrite H. apply orb_true_r.
  - now rewrite String.eqb_refl.
Qed.
Lemma col_has df k v : col df k = Ok v -> has df k.
Proof. unfold col, dict_getitem, has, dict_mem. destruct (dict_get _ _); easy. Qed.

Lemma add_missing_has name f df df' k : add_missing name f df = Ok df' ->
  has df k \/ k = name -> has df' k.
Proof.
  unfold add_missing. destruct (dict_mem _ _) eqn:M.
  - intros [= <-] [H| ->]; auto.
  - destruct (f df); simpl; [|discriminate]. intros [= <-]. apply has_set.
Qed.

Lemma mtclim_cols fuel df prm df' k : mtclim_run fuel df prm = Some (Ok df') ->
  has df k \/ In k ["t_day"; "tfmax"; "tskc"; "tdew"; "vapor_pressure"; "shortwave"; "pet"] -> has df' k.
Proof.
  unfold mtclim_run. intros H K.
  destruct (col df "t_min") as [tmin|] eqn:E1; cbn [bind] in H; [|discriminate].
  destruct (col df "t_max") as [tmax|] eqn:E2; cbn [bind] in H; [|discriminate].
  set (df1 := set_col df "t_day" _) in *.
  destruct (col df1 "dtr") as [dtr|] eqn:E3; cbn [bind] in H; [|discriminate].
  destruct (col df1 "smoothed_dtr") as [sm|] eqn:E4; cbn [bind] in H; [|discriminate].
  destruct (col df1 "prec") as [pr|] eqn:E5; cbn [bind] in H; [|discriminate].
  set (df2 := set_col df1 "tfmax" _) in *.
  destruct (col df2 "tfmax") as [tfm|] eqn:E6; cbn [bind] in H; [|discriminate].
  set (df3 := set_col df2 "tskc" _) in *.
  destruct (col df3 "tt_max") as [ttm|] eqn:E7; cbn [bind] in H; [|discriminate].
  destruct (col df3 "potrad") as [pot|] eqn:E8; cbn [bind] in H; [|discriminate].
  destruct (col df3 "daylength") as [dayl|] eqn:E9; cbn [bind] in H; [|discriminate].
  destruct (col df3 "seasonal_prec") as [sp|] eqn:E10; cbn [bind] in H; [|discriminate].
  destruct (col df3 "t_day") as [td|] eqn:E11; cbn [bind] in H; [|discriminate].
  destruct (tdew_loop _ _ _ _ _); [|discriminate]. injection H as <-.
  repeat apply has_set.
  simpl in K. repeat match goal with
   | |- has (set_col _ _ _) _ \/ _ => idtac end.
  destruct K as [K|[<-|[<-|[<-|[<-|[<-|[<-|[<-|[]]]]]]]]].
  - left. apply has_set. left. apply has_set. left. apply has_set. left. apply has_set. left.
    apply has_set. left. apply has_set. left. exact K.
  - left. apply has_set. left. apply has_set. left. apply has_set. left. apply has_set. left.
    apply has_set. left. apply has_set. now right.
  - left. apply has_set. left. apply has_set. left. apply has_set. left. apply has_set. left.
    apply has_set. now right.
  - left. apply has_set. left. apply has_set. left. apply has_set. left. apply has_set. now right.
  - left. apply has_set. left. apply has_set. left. apply has_set. now right.
  - left. apply has_set. left. apply has_set. now right.
  - left. apply has_set. now right.
  - now right.
Qed.

Lemma passthrough_cols df prm df' k : passthrough_run df prm = Ok df' ->
  has df k \/ In k ["t_day"; "tfmax"; "tskc"; "tdew"; "vapor_pressure"; "shortwave"; "pet"] -> has df' k.
Proof.
  unfold passthrough_run. intros H K.
  destruct (dict_mem (dl_cols df) "shortwave") eqn:SW; cbn [negb] in H; [|discriminate].
  do 5 inv_bind H.
  assert (K' : has df k \/ In k ["t_day"; "tfmax"; "tskc"; "pet"; "tdew"; "vapor_pressure"]).
  { simpl in *. destruct K as [K|[K|[K|[K|[K|[K|[K|[K|[]]]]]]]]]; subst; auto 10. }
  destruct K' as [K'|K'].
  - do 5 (eapply add_missing_has; [eassumption|]; left). eapply add_missing_has; [eassumption|]. now left.
  - simpl in K'. destruct K' as [<-|[<-|[<-|[<-|[<-|[<-|[]]]]]]].
    + do 5 (eapply add_missing_has; [eassumption|]; left). eapply add_missing_has; [eassumption|]. now right.
    + do 4 (eapply add_missing_has; [eassumption|]; left). eapply add_missing_has; [eassumption|]. now right.
    + do 3 (eapply add_missing_has; [eassumption|]; left). eapply add_missing_has; [eassumption|]. now right.
    + do 2 (eapply add_missing_has; [eassumption|]; left). eapply add_missing_has; [eassumption|]. now right.
    + do 1 (eapply add_missing_has; [eassumption|]; left). eapply add_missing_has; [eassumption|]. now right.
    + eapply add_missing_has; [eassumption|]. now right.
Qed.

Lemma method_cols fuel df prm df' k : run_method fuel df prm = Some (Ok df') ->
  has df k \/ In k ["t_day"; "tfmax"; "tskc"; "tdew"; "vapor_pressure"; "shortwave"; "pet"] -> has df' k.
Proof.
  unfold run_method. destruct (_ =? _); [apply mtclim_cols|]. destruct (_ =? _); [|discriminate].
  intros [= H]. now apply (passthrough_cols df prm).
Qed.

Theorem outputs_available fuel prm c out prm' v :
  run_cell fuel prm c = Some (Ok out, prm') ->
  (p_time_step prm <= 1440)%Z ->
  (In v ["t_min"; "t_max"; "prec"; "wind"] -> dict_mem (dl_cols (cd_daily c)) v = true) ->
  In v (out_var_check (p_time_step prm)) ->
  dict_mem out v = true.
Proof.
  intros H Ts C I. rewrite run_cell_eq in H. cbv zeta in H.
  change (p_time_step (set_location prm (cd_elev c) (cd_lat c) (cd_lon c))) with (p_time_step prm) in H.
  set (P := set_location _ _ _ _) in *. cbv zeta in H.
  destruct (solar_geom _ _ _) as [sg|]; cbn [bind] in H; [|discriminate].
  destruct (by_yday (sg_daylengths sg) _) as [dl|]; cbn [bind] in H; [|discriminate].
  destruct (by_yday (flat_potrad sg) _) as [po|]; cbn [bind] in H; [|discriminate].
  destruct (by_yday (tt_max0 sg) _) as [tm|]; cbn [bind] in H; [|discriminate].
  set (df := set_col (set_col (set_col (cd_daily c) "daylength" dl) "potrad" po) "tt_max" tm) in *.
  destruct (run_method fuel df P) as [[df1|]|] eqn:M; [|discriminate|discriminate].
  destruct (Z.ltb_spec (p_time_step prm) 1440) as [Lt|Ge].
  - injection H as H _. do 3 inv_bind H.
    apply disaggregate_inv in H. cbv zeta in H.
    destruct H as (tpd&sw0&dayl&sw&tTmin&tTmax&tmin&tmax&tminR&tmaxR&tmp&vpd&vp0&ck0&ck&lw&pr0&pr&_&_&_&_&_&_&_&_&_&H).
    assert (W : v = "wind" -> exists w, dict_get (dl_cols (da_df df1 P)) "wind" = Some w).
    { intros ->. assert (has df1 "wind").
      { eapply method_cols; [exact M|]. left. repeat (apply has_set; left). apply C. simpl. auto. }
      assert (has (da_df df1 P) "wind").
      { unfold da_df. destruct (_ && _)%bool; auto. apply has_set. now left. }
      unfold has, dict_mem in H1. destruct (dict_get _ _); [eauto|discriminate]. }
    unfold out_var_check in I. destruct (Z.eqb_spec (p_time_step prm) 1440); [lia|].
    destruct (dict_get (dl_cols (da_df df1 P)) "wind") as [w|] eqn:Wd.
    + destruct H as (w' & _ & _ & ->). unfold dict_mem. rewrite dict_get_map.
      simpl in I. decompose [or] I; subst; try reflexivity. easy.
    + rewrite H. unfold dict_mem. rewrite dict_get_map.
      simpl in I. decompose [or] I; subst; try reflexivity; [|easy]. destruct (W eq_refl). discriminate.
  - injection H as H _. do 3 inv_bind H. injection H as <-.
    apply (has_set df1 "shortwave"). 
    unfold out_var_check in I. destruct (Z.eqb_spec (p_time_step prm) 1440); [|lia].
    left. eapply method_cols; [exact M|].
    assert (HD : forall k, In k ["t_min"; "t_max"; "prec"; "wind"] -> dict_mem (dl_cols (cd_daily c)) k = true -> has df k).
    { intros k _ Hk. repeat (apply has_set; left). exact Hk. }
    assert (Dl : has df "daylength") by (apply has_set; left; apply has_set; left; apply has_set; now right).
    simpl in I. decompose [or] I; subst; try (left; exact Dl); try (left; apply HD; [simpl; tauto|apply C; simpl; tauto]); try (right; simpl; tauto).
Qed.

Theorem outputs_convertible ts v : In v (out_var_check ts) -> v <> "t_day" ->
  exists u f, dict_get default_units v = Some u /\ converter_for v u = Ok f.
Proof.
  unfold out_var_check. destruct (ts =? 1440)%Z; intros I N; simpl in I; decompose [or] I; subst;
    try easy; do 2 eexists; split; reflexivity.
Qed.

Theorem t_day_unusable : forall u, converter_for "t_day" u = Err KeyError.
Proof. reflexivity. Qed.

(** ** longwave options *)
Theorem lw_accepted s : validate_setup s = Ok tt ->
  (exists f, emissivity_calc (upper (v_lw_type s)) = Ok f) /\
  (exists f, cloud_calc (upper (v_lw_cloud s)) = Ok f).
Proof.
  intros H. apply accept_inv in H as (_ & _ & _ & _ & _ & C & T). split.
  - simpl in T. decompose [or] T; try easy; match goal with E : _ = v_lw_type s |- _ => rewrite <- E end;
      eexists; reflexivity.
  - simpl in C. decompose [or] C; try easy; match goal with E : _ = v_lw_cloud s |- _ => rewrite <- E end;
      eexists; reflexivity.
Qed.

(** ** witnesses *)
Definition demo_setup (ts : Z) (outs : list string) : setup :=
  mksetup ["forcing.nc"] ["t_min"; "t_max"; "prec"] (Some "out") (Some "netcdf") ts
          ["t_min"; "t_max"; "prec"; "wind"] outs "f4" "cloud_deardorff" "prata".

Lemma negative_step_accepted :
  exists s, validate_setup s = Ok tt /\ v_time_step s = (-1)%Z /\ ~ legal_time_step (v_time_step s).
Proof.
  exists (demo_setup (-1) ["temp"]). split; [reflexivity|]. split; [reflexivity|].
  unfold legal_time_step. simpl. intros (H & _). lia.
Qed.

Lemma t_day_accepted : exists s,
  validate_setup s = Ok tt /\ In "t_day" (v_out_vars s) /\
  forall u, converter_for "t_day" u = Err KeyError.
Proof.
  exists (demo_setup 1440 ["t_day"]). split; [reflexivity|]. split; [left; reflexivity|]. exact t_day_unusable.
Qed.

Lemma capitals_refused : exists s lw lw',
  same_letters lw lw' /\ validate_setup (with_lw s lw "default") = Ok tt /\
  validate_setup (with_lw s lw' "default") <> Ok tt.
Proof.
  exists (demo_setup 60 ["longwave"]), "tva", "TVA". split; [reflexivity|]. split; [reflexivity|discriminate].
Qed.

(** ** every violated requirement is reported, and nothing else *)
Definition agree (errs : list string) (reqs : list (string * Prop)) : Prop :=
  (forall m, In m errs <-> exists P, In (m, P) reqs /\ ~ P) /\
  (errs = [] -> forall m P, In (m, P) reqs -> P).

Lemma agree_app e r e' r' : agree e r -> agree e' r' -> agree (e ++ e') (r ++ r').
Proof.
  intros [A B] [A' B']. split.
  - intros m. rewrite in_app_iff, A, A'. split.
    + intros [(P & I & N)|(P & I & N)]; exists P; rewrite in_app_iff; auto.
    + intros (P & I & N). apply in_app_iff in I as [I|I]; [left|right]; eauto.
  - intros E. apply app_eq_nil in E as [-> ->]. intros m P I. apply in_app_iff in I as [I|I]; [exact (B eq_refl m P I)|exact (B' eq_refl m P I)].
Qed.

Lemma agree_check b m (P : Prop) : (b = true <-> P) -> agree (check b m) [(m, P)].
Proof.
  intros H. split.
  - intros m'. destruct b; cbn [check In]; split.
    + easy.
    + intros (Q & [E|[]] & N). exfalso. injection E as <- <-. tauto.
    + intros [<-|[]]. exists P. split; auto. intros p. apply H in p. discriminate.
    + intros (Q & [E|[]] & _). injection E as <- _. auto.
  - intros E m' Q [E'|[]]. injection E' as _ <-. apply H. now apply check_nil in E.
Qed.

Lemma agree_map (f : string -> bool) (m : string -> string) (P : string -> Prop) l :
  (forall v, f v = true <-> P v) -> agree (flat_map (fun v => check (f v) (m v)) l) (map (fun v => (m v, P v)) l).
Proof.
  intros H. induction l as [|x l IH]; cbn [flat_map map].
  - split; [|easy]. intros m'. split; [easy|]. intros (Q & [] & _).
  - apply (agree_app _ [(m x, P x)]); auto. apply agree_check. apply H.
Qed.

Lemma str_in_iff x l : str_in x l = true <-> In x l.
Proof.
  unfold str_in. rewrite existsb_exists. split.
  - intros (y & I & E). apply String.eqb_eq in E. now subst.
  - intros I. exists x. split; auto. apply String.eqb_refl.
Qed.

Lemma nonempty_iff {A} (l : list A) : nonempty l = true <-> l <> [].
Proof. destruct l; cbn; split; congruence. Qed.

Lemma present_iff o : present o = true <-> filled o.
Proof.
  unfold filled. destruct o as [x|]; cbn [present].
  - rewrite negb_true_iff, String.eqb_neq. split; [intros; eauto|]. intros (y & E & N). congruence.
  - split; [discriminate|]. intros (y & E & _). discriminate.
Qed.

Lemma step_iff ts : negb (time_step_rejected ts) = true <->
  (1440 mod ts = 0)%Z /\ ((ts <= 360)%Z \/ ts = 1440%Z).
Proof.
  unfold time_step_rejected. rewrite negb_true_iff, orb_false_iff, negb_false_iff, Z.eqb_eq, andb_false_iff,
    negb_false_iff, Z.eqb_eq, Z.ltb_ge. tauto.
Qed.

Lemma outputs_iff ts v : str_in v (out_var_check ts) = true <-> outputs_at ts v.
Proof.
  rewrite str_in_iff. unfold out_var_check, outputs_at, daily_out, sub_daily_out.
  destruct (Z.eqb_spec ts 1440); tauto.
Qed.

Theorem setup_reports s : v_time_step s <> 0%Z ->
  (validate_setup s = Ok tt /\ forall m P, In (m, P) (requirements s) -> P) \/
  (exists msgs, validate_setup s = Err (SetupError msgs) /\ msgs <> [] /\
     forall m, In m msgs <-> exists P, In (m, P) (requirements s) /\ ~ P).
Proof.
  intros H. unfold validate_setup. destruct (Z.eqb_spec (v_time_step s) 0); [contradiction|].
  match goal with |- (match ?e with _ => _ end = _ /\ _) \/ _ => set (errs := e) end.
  assert (A : agree errs (requirements s)).
  { unfold errs, requirements.
    change (?a1 :: ?a2 :: ?a3 :: ?a4 :: ?a5 :: ?a6 :: ?a7 :: ?a8 :: ?a9 :: []) with
      ([a1] ++ [a2] ++ [a3] ++ [a4] ++ [a5] ++ (map (fun v => (append "Input requires " v, In v (v_met_vars s))) ["t_min"; "t_max"; "prec"]) ++ [a9]).
    rewrite <- !app_assoc.
    apply agree_app; [apply agree_check, nonempty_iff|].
    apply agree_app; [apply agree_check, nonempty_iff|].
    apply agree_app; [apply agree_check, present_iff|].
    apply agree_app; [apply agree_check, present_iff|].
    apply agree_app; [apply agree_check, step_iff|].
    apply agree_app; [apply agree_map; intros v; apply str_in_iff|].
    apply agree_app; [apply agree_check, nonempty_iff|].
    apply agree_app; [apply agree_map; intros v; apply outputs_iff|].
    apply (agree_app _ [_]); [apply agree_check; rewrite str_in_iff; cbn [In]|].
    { split; [intros [E|[E|[]]]; auto|intros [E|E]; auto]. }
    apply (agree_app _ [_]); apply agree_check, str_in_iff. }
  destruct A as [A B]. destruct errs as [|e errs]; [left|right].
  - split; [reflexivity|]. now apply B.
  - exists (e :: errs). split; [reflexivity|]. split; [discriminate|exact A].
Qed.

Theorem zero_step : exists s, v_time_step s = 0%Z /\ validate_setup s = Err ZeroDivisionError.
Proof. exists (demo_setup 0 []). split; reflexivity. Qed.
