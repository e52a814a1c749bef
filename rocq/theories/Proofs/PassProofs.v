(** C45 *)
From Coq Require Import ZArith Reals String List Bool Arith Lia.
From Verif Require Import Model.Py Model.Fl Model.Np Model.Params Model.Physics Model.Disagg Model.Mtclim Spec.DailySpec
  Proofs.Base Proofs.StateProofs Proofs.ConfigProofs Proofs.GlobalsProofs.
Import ListNotations.
Local Open Scope string_scope.
Local Open Scope list_scope.

Lemma keeps_refl df : keeps df df.
Proof. split; auto. Qed.
Lemma keeps_trans a b c : keeps a b -> keeps b c -> keeps a c.
Proof. intros [A B] [C D]. split; [congruence|auto]. Qed.
Lemma keeps_col a b k v : keeps a b -> col a k = Ok v -> col b k = Ok v.
Proof. intros [_ K] H. apply getitem_get. apply K. now apply getitem_get. Qed.
Lemma keeps_has a b k : keeps a b -> has a k -> has b k.
Proof. intros [_ K] [v H]. exists v. auto. Qed.

Lemma set_col_keeps df n v : dict_get (dl_cols df) n = None -> keeps df (set_col df n v).
Proof.
  intros N. split; [reflexivity|]. intros k w H. cbn [set_col dl_cols]. rewrite dict_get_set.
  destruct (String.eqb_spec k n); [congruence|auto].
Qed.
Lemma set_col_get df n v : dict_get (dl_cols (set_col df n v)) n = Some v.
Proof. cbn [set_col dl_cols]. now rewrite dict_get_set, String.eqb_refl. Qed.

Lemma add_missing_spec n f df df' : add_missing n f df = Ok df' ->
  keeps df df' /\ has df' n /\
  (dict_get (dl_cols df) n = None -> exists v, f df = Ok v /\ dict_get (dl_cols df') n = Some v).
Proof.
  unfold add_missing, dict_mem. destruct (dict_get (dl_cols df) n) as [w|] eqn:E.
  - intros H. apply res_inj in H. subst df'. split; [apply keeps_refl|]. split; [exists w; auto|discriminate].
  - destruct (f df) as [v|]; [|discriminate]. cbn [bind]. intros H. apply res_inj in H. subst df'.
    split; [now apply set_col_keeps|]. split; [exists v; apply set_col_get|]. intros _. exists v. split; [auto|apply set_col_get].
Qed.

Ltac inv_col H :=
  match type of H with
  | bind (col ?df ?k) _ = _ => let E := fresh "E" in destruct (col df k) eqn:E; [cbn [bind] in H|discriminate H]
  end.

Theorem passthrough_spec df prm df' : passthrough_run df prm = Ok df' ->
  has df "shortwave" /\ keeps df df' /\
  (has df "t_day" \/ row2 df' "t_day" "t_min" "t_max" (t_day1 prm)) /\
  (has df "tfmax" \/ row3 df' "tfmax" "dtr" "smoothed_dtr" "prec" (tfmax1 prm)) /\
  (has df "tskc" \/ row1 df' "tskc" "tfmax" (mt_tskc1 prm)) /\
  (has df "pet" \/ row3 df' "pet" "shortwave" "t_day" "daylength" (pet1 prm)) /\
  (has df "tdew" \/ row4 df' "tdew" "pet" "t_min" "seasonal_prec" "dtr" tdew1) /\
  (has df "vapor_pressure" \/ row1 df' "vapor_pressure" "tdew" svp1).
Proof.
  unfold passthrough_run. destruct (dict_mem (dl_cols df) "shortwave") eqn:Sw; cbn [negb]; [|discriminate].
  match goal with |- bind (add_missing "t_day" ?f ?d) _ = _ -> _ => destruct (add_missing "t_day" f d) as [d1|] eqn:A1; [cbn [bind]|discriminate] end.
  match goal with |- bind (add_missing "tfmax" ?f ?d) _ = _ -> _ => destruct (add_missing "tfmax" f d) as [d2|] eqn:A2; [cbn [bind]|discriminate] end.
  match goal with |- bind (add_missing "tskc" ?f ?d) _ = _ -> _ => destruct (add_missing "tskc" f d) as [d3|] eqn:A3; [cbn [bind]|discriminate] end.
  match goal with |- bind (add_missing "pet" ?f ?d) _ = _ -> _ => destruct (add_missing "pet" f d) as [d4|] eqn:A4; [cbn [bind]|discriminate] end.
  match goal with |- bind (add_missing "tdew" ?f ?d) _ = _ -> _ => destruct (add_missing "tdew" f d) as [d5|] eqn:A5; [cbn [bind]|discriminate] end.
  intros A6.
  assert (Old : forall n f a b, add_missing n f a = Ok b -> ~ has a n -> exists v, f a = Ok v /\ dict_get (dl_cols b) n = Some v).
  { intros n f a b H N. apply add_missing_spec in H as (_ & _ & H). apply H. destruct (dict_get (dl_cols a) n) eqn:E; auto.
    exfalso. apply N. now exists l. }
  assert (Other : forall n f a b k, add_missing n f a = Ok b -> k <> n -> has b k -> has a k).
  { intros n f a b k. unfold add_missing. destruct (dict_mem (dl_cols a) n); [intros H; apply res_inj in H; now subst|].
    destruct (f a); [|discriminate]. cbn [bind]. intros H N. apply res_inj in H. subst b. intros [v Hv]. exists v.
    cbn [set_col dl_cols] in Hv. rewrite dict_get_set in Hv. destruct (String.eqb_spec k n); [contradiction|auto]. }
  assert (Dec : forall a n, has a n \/ ~ has a n).
  { intros a n. unfold has. destruct (dict_get (dl_cols a) n) as [v|]; [left; now exists v|right; now intros [? ?]]. }
  pose proof (add_missing_spec _ _ _ _ A1) as (K1 & H1 & _). pose proof (add_missing_spec _ _ _ _ A2) as (K2 & H2 & _).
  pose proof (add_missing_spec _ _ _ _ A3) as (K3 & H3 & _). pose proof (add_missing_spec _ _ _ _ A4) as (K4 & H4 & _).
  pose proof (add_missing_spec _ _ _ _ A5) as (K5 & H5 & _). pose proof (add_missing_spec _ _ _ _ A6) as (K6 & H6 & _).
  assert (K5' := keeps_trans _ _ _ K5 K6). assert (K4' := keeps_trans _ _ _ K4 K5'). assert (K3' := keeps_trans _ _ _ K3 K4').
  assert (K2' := keeps_trans _ _ _ K2 K3'). assert (K1' := keeps_trans _ _ _ K1 K2').
  assert (P2 : forall k, k <> "t_day" -> has d1 k -> has df k) by (intros; eapply Other; eauto).
  assert (P3 : forall k, k <> "t_day" -> k <> "tfmax" -> has d2 k -> has df k) by (intros; apply P2; auto; eapply Other; eauto).
  assert (P4 : forall k, k <> "t_day" -> k <> "tfmax" -> k <> "tskc" -> has d3 k -> has df k) by (intros; apply P3; auto; eapply Other; eauto).
  assert (P5 : forall k, k <> "t_day" -> k <> "tfmax" -> k <> "tskc" -> k <> "pet" -> has d4 k -> has df k) by (intros; apply P4; auto; eapply Other; eauto).
  assert (P6 : forall k, k <> "t_day" -> k <> "tfmax" -> k <> "tskc" -> k <> "pet" -> k <> "tdew" -> has d5 k -> has df k) by (intros; apply P5; auto; eapply Other; eauto).
  split; [unfold dict_mem in Sw; unfold has; destruct (dict_get (dl_cols df) "shortwave") eqn:Q; [eauto|discriminate]|].
  split; [exact K1'|].
  split; [|split; [|split; [|split; [|split]]]].
  - destruct (Dec df "t_day") as [D|D]; [now left|right]. destruct (Old _ _ _ _ A1 D) as (v & F & G).
    inv_col F. inv_col F. apply res_inj in F. subst v. apply K2' in G.
    eapply (keeps_col _ _ _ _ K1') in E; eapply (keeps_col _ _ _ _ K1') in E0. apply getitem_get in E, E0. now exists a, a0.
  - destruct (Dec df "tfmax") as [D|D]; [now left|right].
    assert (D' : ~ has d1 "tfmax") by (intros Q; apply D, P2; auto; discriminate).
    destruct (Old _ _ _ _ A2 D') as (v & F & G). inv_col F. inv_col F. inv_col F. apply res_inj in F. subst v. apply K3' in G.
    eapply (keeps_col _ _ _ _ K2') in E; eapply (keeps_col _ _ _ _ K2') in E0; eapply (keeps_col _ _ _ _ K2') in E1.
    apply getitem_get in E, E0, E1. now exists a, a0, a1.
  - destruct (Dec df "tskc") as [D|D]; [now left|right].
    assert (D' : ~ has d2 "tskc") by (intros Q; apply D, P3; auto; discriminate).
    destruct (Old _ _ _ _ A3 D') as (v & F & G). inv_col F. apply res_inj in F. subst v. apply K4' in G.
    eapply (keeps_col _ _ _ _ K3') in E. apply getitem_get in E. now exists a.
  - destruct (Dec df "pet") as [D|D]; [now left|right].
    assert (D' : ~ has d3 "pet") by (intros Q; apply D, P4; auto; discriminate).
    destruct (Old _ _ _ _ A4 D') as (v & F & G). inv_col F. inv_col F. inv_col F. apply res_inj in F. subst v. apply K5' in G.
    eapply (keeps_col _ _ _ _ K4') in E; eapply (keeps_col _ _ _ _ K4') in E0; eapply (keeps_col _ _ _ _ K4') in E1.
    apply getitem_get in E, E0, E1. now exists a, a0, a1.
  - destruct (Dec df "tdew") as [D|D]; [now left|right].
    assert (D' : ~ has d4 "tdew") by (intros Q; apply D, P5; auto; discriminate).
    destruct (Old _ _ _ _ A5 D') as (v & F & G). inv_col F. inv_col F. inv_col F. inv_col F. apply res_inj in F. subst v. apply K6 in G.
    eapply (keeps_col _ _ _ _ K5') in E; eapply (keeps_col _ _ _ _ K5') in E0; eapply (keeps_col _ _ _ _ K5') in E1; eapply (keeps_col _ _ _ _ K5') in E2.
    apply getitem_get in E, E0, E1, E2. now exists a, a0, a1, a2.
  - destruct (Dec df "vapor_pressure") as [D|D]; [now left|right].
    assert (D' : ~ has d5 "vapor_pressure") by (intros Q; apply D, P6; auto; discriminate).
    destruct (Old _ _ _ _ A6 D') as (v & F & G). inv_col F. apply res_inj in F. subst v.
    eapply (keeps_col _ _ _ _ K6) in E. apply getitem_get in E. now exists a.
Qed.

Theorem passthrough_no_shortwave df prm : ~ has df "shortwave" -> passthrough_run df prm = Err AssertionError.
Proof.
  intros N. unfold passthrough_run, dict_mem. destruct (dict_get (dl_cols df) "shortwave") as [v|] eqn:E; [|reflexivity].
  exfalso. apply N. now exists v.
Qed.

Theorem passthrough_total df prm : (forall k, In k ["shortwave"; "t_min"; "t_max"; "dtr"; "smoothed_dtr"; "prec"; "daylength"; "seasonal_prec"] -> has df k) ->
  exists df', passthrough_run df prm = Ok df'.
Proof.
  intros H. unfold passthrough_run.
  assert (Sw : dict_mem (dl_cols df) "shortwave" = true).
  { destruct (H "shortwave") as [v Hv]; [now left|]. unfold dict_mem. now rewrite Hv. }
  rewrite Sw. cbn [negb].
  assert (C : forall d k, has d k -> exists v, col d k = Ok v).
  { intros d k [v Hv]. exists v. now apply getitem_get. }
  assert (Tot : forall n f d, (exists v, f d = Ok v) -> exists d', add_missing n f d = Ok d').
  { intros n f d [v Hv]. unfold add_missing. rewrite Hv. destruct (dict_mem (dl_cols d) n); cbn [bind]; eauto. }
  assert (Step : forall n f d, keeps df d -> (exists v, f d = Ok v) -> exists d', add_missing n f d = Ok d' /\ keeps df d' /\ keeps d d' /\ has d' n).
  { intros n f d K Q. destruct (Tot n f d Q) as [d' Hd']. exists d'. split; auto. apply add_missing_spec in Hd' as (A & B & _).
    split; [eapply keeps_trans; eauto|]. auto. }
  assert (B : forall d k, keeps df d -> In k ["shortwave"; "t_min"; "t_max"; "dtr"; "smoothed_dtr"; "prec"; "daylength"; "seasonal_prec"] -> exists v, col d k = Ok v).
  { intros d k K Q. apply C. eapply keeps_has; eauto. }
  match goal with |- context [add_missing "t_day" ?f df] => destruct (Step "t_day" f df) as (d1 & -> & K1 & _ & H1) end.
  { apply keeps_refl. }
  { destruct (B df "t_min") as [a ->]; [apply keeps_refl|cbn; auto|]. destruct (B df "t_max") as [b ->]; [apply keeps_refl|cbn; auto 10|]. cbn [bind]. eauto. }
  cbn [bind].
  match goal with |- context [add_missing "tfmax" ?f d1] => destruct (Step "tfmax" f d1) as (d2 & -> & K2 & E2 & H2) end; auto.
  { destruct (B d1 "dtr") as [a ->]; auto; [cbn; auto 10|]. destruct (B d1 "smoothed_dtr") as [b ->]; auto; [cbn; auto 10|].
    destruct (B d1 "prec") as [c ->]; auto; [cbn; auto 10|]. cbn [bind]. eauto. }
  cbn [bind].
  match goal with |- context [add_missing "tskc" ?f d2] => destruct (Step "tskc" f d2) as (d3 & -> & K3 & E3 & H3) end; auto.
  { destruct (C _ _ H2) as [a ->]. cbn [bind]. eauto. }
  cbn [bind].
  match goal with |- context [add_missing "pet" ?f d3] => destruct (Step "pet" f d3) as (d4 & -> & K4 & E4 & H4) end; auto.
  { destruct (B d3 "shortwave") as [a ->]; auto; [cbn; auto 10|].
    destruct (C d3 "t_day") as [b ->]; [eapply keeps_has; [exact E3|]; eapply keeps_has; [exact E2|auto]|].
    destruct (B d3 "daylength") as [c ->]; auto; [cbn; auto 10|]. cbn [bind]. eauto. }
  cbn [bind].
  match goal with |- context [add_missing "tdew" ?f d4] => destruct (Step "tdew" f d4) as (d5 & -> & K5 & E5 & H5) end; auto.
  { destruct (C _ _ H4) as [a ->]. destruct (B d4 "t_min") as [b ->]; auto; [cbn; auto 10|].
    destruct (B d4 "seasonal_prec") as [c ->]; auto; [cbn; auto 10|]. destruct (B d4 "dtr") as [d ->]; auto; [cbn; auto 10|]. cbn [bind]. eauto. }
  cbn [bind]. apply Tot. destruct (C _ _ H5) as [a ->]. cbn [bind]. eauto.
Qed.
