(** C121: the estimate of a day in records with other days. *)
From Coq Require Import ZArith Reals String List Bool Arith Permutation Lia Lra Psatz.
From Verif Require Import Model.Py Model.Fl Model.Np Model.Constants Model.Params Model.Physics Model.Disagg Model.Mtclim
  Spec.SeriesSpec Spec.FrameSpec Spec.DailySpec Spec.DewSpec Spec.DaySpec
  Proofs.Base Proofs.RBase Proofs.ArrayProofs Proofs.PrecProofs Proofs.DisaggProofs Proofs.ShortwaveProofs Proofs.GlobalsProofs Proofs.UtcProofs Proofs.SvpProofs Proofs.MtclimProofs
  Proofs.CellProofs Proofs.CellTotal Proofs.DewMap Proofs.DewProofs Proofs.DewCell Proofs.DewGaps.
Import ListNotations.
Local Open Scope string_scope.
Local Open Scope list_scope.
Local Open Scope R_scope.

(** ** the columns of one day after the run *)
Lemma at_day_fun df k d x y : at_day df k d x -> at_day df k d y -> x = y.
Proof. intros (v & G & N) (v' & G' & N'). congruence. Qed.

Lemma nth_iter prm days d day t0 : nth_error days d = Some day -> forall i o, nth_error t0 d = Some o ->
  nth_error (iterate prm days i t0) d = Some (Nat.iter i (tdew_update1 prm day) o).
Proof.
  intros D i o O. induction i as [|i IH]; [exact O|]. change (iterate prm days (S i) t0) with (tdew_update prm days (iterate prm days i t0)).
  unfold tdew_update. now rewrite (nth_map2 _ _ _ _ _ _ D IH).
Qed.

Lemma nth_map3 {A B C D} (f : A -> B -> C -> D) : forall a b c d x y z,
  nth_error a d = Some x -> nth_error b d = Some y -> nth_error c d = Some z -> nth_error (map3 f a b c) d = Some (f x y z).
Proof.
  induction a as [|a0 a IH]; intros [|b0 b] [|c0 c] [|d] x y z; cbn; try discriminate; [congruence|apply IH].
Qed.

Lemma day_out fuel df prm out d tmin tmax dtr sm pr ttm pot dayl sp : mtclim_run fuel df prm = Some (Ok out) ->
  at_day df "t_min" d tmin -> at_day df "t_max" d tmax -> at_day df "dtr" d dtr -> at_day df "smoothed_dtr" d sm -> at_day df "prec" d pr ->
  at_day df "tt_max" d ttm -> at_day df "potrad" d pot -> at_day df "daylength" d dayl -> at_day df "seasonal_prec" d sp ->
  let tf := tfmax1 prm dtr sm pr in let ta := t_day1 prm tmin tmax in
  at_day out "t_day" d ta /\ at_day out "tfmax" d tf /\ at_day out "tskc" d (mt_tskc1 prm tf) /\
  exists j, let td := Nat.iter (S j) (fun o => next_dew prm tmin tf ttm pot ta dayl sp dtr o) tmin in
    let sw := mt_shortwave1 tf (svp1 td) ttm pot in
    at_day out "tdew" d td /\ at_day out "vapor_pressure" d (svp1 td) /\ at_day out "shortwave" d sw /\ at_day out "pet" d (pet1 prm sw ta dayl).
Proof.
  intros H A1 A2 A3 A4 A5 A6 A7 A8 A9. cbv zeta.
  destruct (mtclim_inv _ _ _ _ H) as (tmin' & tmax' & dtr' & sm' & pr' & ttm' & pot' & dayl' & sp' & td & (H1 & H2 & H3 & H4 & H5 & H6 & H7 & H8 & H9) & Lp & E).
  destruct A1 as (w1 & A1 & N1), A2 as (w2 & A2 & N2), A3 as (w3 & A3 & N3), A4 as (w4 & A4 & N4), A5 as (w5 & A5 & N5), A6 as (w6 & A6 & N6), A7 as (w7 & A7 & N7), A8 as (w8 & A8 & N8), A9 as (w9 & A9 & N9).
  rewrite A1 in H1. rewrite A2 in H2. rewrite A3 in H3. rewrite A4 in H4. rewrite A5 in H5. rewrite A6 in H6. rewrite A7 in H7. rewrite A8 in H8. rewrite A9 in H9.
  apply Some_inj in H1, H2, H3, H4, H5, H6, H7, H8, H9. subst w1 w2 w3 w4 w5 w6 w7 w8 w9.
  set (days := dew_days prm tmin' tmax' dtr' sm' pr' ttm' pot' dayl' sp') in *.
  destruct (loop_inv prm days tmin' fuel 0 td Lp) as (j & _ & Td & _ & _).
  pose proof (nth_map3 (tfmax1 prm) _ _ _ _ _ _ _ N3 N4 N5) as Ntf. pose proof (nth_map2 (t_day1 prm) _ _ _ _ _ N1 N2) as Nta.
  pose proof (mk_days_nth _ _ _ _ _ _ _ _ _ _ _ _ _ _ _ _ _ N1 Ntf N6 N7 Nta N8 N9 N3) as Nday. fold (dew_days prm tmin' tmax' dtr' sm' pr' ttm' pot' dayl' sp') in Nday.
  pose proof (nth_iter prm days d _ tmin' Nday (S j) _ N1) as Ntd. rewrite <- Td in Ntd.
  set (v := Nat.iter (S j) (tdew_update1 prm _) tmin) in Ntd.
  assert (Nvp : nth_error (map mt_vapor_pressure1 td) d = Some (svp1 v)) by (rewrite nth_error_map, Ntd; reflexivity).
  pose proof (nth_map2 (fun f p => f p) _ _ _ _ _ (nth_map3 mt_shortwave1 _ _ _ _ _ _ _ Ntf Nvp N6) N7) as Nsw.
  pose proof (nth_map3 (pet1 prm) _ _ _ _ _ _ _ Nsw Nta N8) as Npet.
  unfold at_day. rewrite E. unfold dew_out, dew_frame. cbv zeta. rewrite !get_set_col. cbn [String.eqb Ascii.eqb Bool.eqb].
  split; [eexists; split; [reflexivity|exact Nta]|]. split; [eexists; split; [reflexivity|exact Ntf]|]. split; [eexists; split; [reflexivity|]; rewrite nth_error_map, Ntf; reflexivity|].
  exists j. split; [eexists; split; [reflexivity|exact Ntd]|]. split; [eexists; split; [reflexivity|exact Nvp]|].
  split; [eexists; split; [reflexivity|exact Nsw]|]. eexists; split; [reflexivity|exact Npet].
Qed.

Ltac reads S :=
  destruct (S "t_min" ltac:(cbn; tauto)) as (tmin & A1 & B1), (S "t_max" ltac:(cbn; tauto)) as (tmax & A2 & B2), (S "dtr" ltac:(cbn; tauto)) as (dtr & A3 & B3),
    (S "smoothed_dtr" ltac:(cbn; tauto)) as (sm & A4 & B4), (S "prec" ltac:(cbn; tauto)) as (pr & A5 & B5), (S "tt_max" ltac:(cbn; tauto)) as (ttm & A6 & B6),
    (S "potrad" ltac:(cbn; tauto)) as (pot & A7 & B7), (S "daylength" ltac:(cbn; tauto)) as (dayl & A8 & B8), (S "seasonal_prec" ltac:(cbn; tauto)) as (sp & A9 & B9).

Theorem day_columns fuel fuel' df df' prm out out' d d' : mtclim_run fuel df prm = Some (Ok out) -> mtclim_run fuel' df' prm = Some (Ok out') ->
  same_at mtclim_reads df df' d d' -> same_at ["t_day"; "tfmax"; "tskc"] out out' d d'.
Proof.
  intros R R' Sm. reads Sm.
  destruct (day_out _ _ _ _ _ _ _ _ _ _ _ _ _ _ R A1 A2 A3 A4 A5 A6 A7 A8 A9) as (P1 & P2 & P3 & _).
  destruct (day_out _ _ _ _ _ _ _ _ _ _ _ _ _ _ R' B1 B2 B3 B4 B5 B6 B7 B8 B9) as (Q1 & Q2 & Q3 & _).
  intros k [<- | [<- | [<- | []]]]; eauto.
Qed.

Theorem day_passes fuel fuel' df df' prm out out' d d' : mtclim_run fuel df prm = Some (Ok out) -> mtclim_run fuel' df' prm = Some (Ok out') ->
  same_at mtclim_reads df df' d d' ->
  exists x j j', passes_of prm df d x /\ passes_of prm df' d' x /\ at_day out "tdew" d (x (S j)) /\ at_day out' "tdew" d' (x (S j')) /\
    (x (S j) = x (S j') -> same_at ["tdew"; "vapor_pressure"; "shortwave"; "pet"] out out' d d').
Proof.
  intros R R' Sm. reads Sm.
  destruct (day_out _ _ _ _ _ _ _ _ _ _ _ _ _ _ R A1 A2 A3 A4 A5 A6 A7 A8 A9) as (_ & _ & _ & j & P1 & P2 & P3 & P4).
  destruct (day_out _ _ _ _ _ _ _ _ _ _ _ _ _ _ R' B1 B2 B3 B4 B5 B6 B7 B8 B9) as (_ & _ & _ & j' & Q1 & Q2 & Q3 & Q4).
  exists (fun i => Nat.iter i (fun o => next_dew prm tmin (tfmax1 prm dtr sm pr) ttm pot (t_day1 prm tmin tmax) dayl sp dtr o) tmin), j, j'.
  split; [exists tmin, tmax, dtr, sm, pr, ttm, pot, dayl, sp; repeat (split; [assumption|]); split; reflexivity|].
  split; [exists tmin, tmax, dtr, sm, pr, ttm, pot, dayl, sp; repeat (split; [assumption|]); split; reflexivity|].
  split; [exact P1|]. split; [exact Q1|]. intros E. cbv zeta in Q1, Q2, Q3, Q4. rewrite <- E in Q1, Q2, Q3, Q4.
  intros k [<- | [<- | [<- | [<- | []]]]]; eauto.
Qed.

(** ** days in another order *)
Lemma run_passes fuel df prm out n : mtclim_run fuel df prm = Some (Ok out) -> List.length (dl_doy df) = n -> (forall k, In k mtclim_reads -> complete df k) ->
  exists (X : nat -> list fl) j, (forall i, List.length (X i) = n) /\ (forall d x i, passes_of prm df d x -> nth_error (X i) d = Some (x i)) /\
    moving prm (X (S j)) (X j) = false /\ (forall i, (i < j)%nat -> moving prm (X (S i)) (X i) = true) /\ dict_get (dl_cols out) "tdew" = Some (X (S j)).
Proof.
  intros H Ln Cm.
  destruct (reads_inv df Cm) as (tn & tx & dtr & sm & pr & ttm & pot & dayl & sp & [H1 L1] & [H2 L2] & [H3 L3] & [H4 L4] & [H5 L5] & [H6 L6] & [H7 L7] & [H8 L8] & [H9 L9]).
  rewrite Ln in *. rewrite (mtclim_eq fuel df prm _ _ _ _ _ _ _ _ _ H1 H2 H3 H4 H5 H6 H7 H8 H9) in H. cbv zeta in H.
  set (days := dew_days prm tn tx dtr sm pr ttm pot dayl sp) in *.
  destruct (tdew_loop _ _ _ _ _) as [td|] eqn:Lp; [|discriminate]. apply Some_inj in H. apply Ok_inj in H.
  destruct (loop_inv prm days tn fuel 0 td Lp) as (j & _ & Td & Mv & Bf).
  assert (Lf : List.length (map3 (tfmax1 prm) dtr sm pr) = n) by (apply map3_length; assumption).
  assert (Lt : List.length (map2 (t_day1 prm) tn tx) = n) by (apply map2_len; assumption).
  assert (Ldays : List.length days = n) by (apply mk_days_length; assumption).
  exists (fun i => iterate prm days i tn), j. split; [now apply iterate_length|]. split; [|split; [exact Mv|split; [intros i Hi; apply Bf; lia|]]].
  - intros d x i (a1 & a2 & a3 & a4 & a5 & a6 & a7 & a8 & a9 & (v1 & G1 & N1) & (v2 & G2 & N2) & (v3 & G3 & N3) & (v4 & G4 & N4) & (v5 & G5 & N5) & (v6 & G6 & N6) & (v7 & G7 & N7) & (v8 & G8 & N8) & (v9 & G9 & N9) & X0 & Xs).
    rewrite H1 in G1. rewrite H2 in G2. rewrite H3 in G3. rewrite H4 in G4. rewrite H5 in G5. rewrite H6 in G6. rewrite H7 in G7. rewrite H8 in G8. rewrite H9 in G9.
    apply Some_inj in G1, G2, G3, G4, G5, G6, G7, G8, G9. subst v1 v2 v3 v4 v5 v6 v7 v8 v9.
    pose proof (mk_days_nth _ _ _ _ _ _ _ _ _ _ _ _ _ _ _ _ _ N1 (nth_map3 (tfmax1 prm) _ _ _ _ _ _ _ N3 N4 N5) N6 N7 (nth_map2 (t_day1 prm) _ _ _ _ _ N1 N2) N8 N9 N3) as Nd.
    fold (dew_days prm tn tx dtr sm pr ttm pot dayl sp) in Nd. fold days in Nd. rewrite (nth_iter prm days d _ tn Nd i a1 N1). f_equal.
    clear -X0 Xs. induction i as [|i IH]; [symmetry; exact X0|]. rewrite Xs, <- IH. reflexivity.
  - rewrite <- H. unfold dew_out. cbv zeta. rewrite !get_set_col. cbn [String.eqb Ascii.eqb Bool.eqb]. now rewrite Td.
Qed.

Lemma perm_places {A} (a b : list A) n place : List.length a = n -> List.length b = n -> (forall d, (d < n)%nat -> (place d < n)%nat) ->
  (forall d e, (d < n)%nat -> (e < n)%nat -> place d = place e -> d = e) -> (forall d, (d < n)%nat -> nth_error b d = nth_error a (place d)) -> Permutation a b.
Proof.
  intros La Lb Fn In_ Nt. destruct a as [|x a].
  - cbn in La. subst n. destruct b; [constructor|discriminate].
  - apply (Permutation_nth (x :: a) b x). split; [congruence|]. exists place. rewrite La. split; [exact Fn|]. split; [exact In_|].
    intros d Hd. specialize (Nt d Hd). specialize (Fn d Hd). rewrite (nth_error_nth' b x) in Nt by lia. rewrite (nth_error_nth' (x :: a) x) in Nt by lia. congruence.
Qed.

Lemma moving_reordered prm a b a' b' n place : List.length a = n -> List.length b = n -> List.length a' = n -> List.length b' = n ->
  (forall d, (d < n)%nat -> (place d < n)%nat) -> (forall d e, (d < n)%nat -> (e < n)%nat -> place d = place e -> d = e) ->
  (forall d, (d < n)%nat -> nth_error a' d = nth_error a (place d)) -> (forall d, (d < n)%nat -> nth_error b' d = nth_error b (place d)) ->
  moving prm a b = moving prm a' b'.
Proof.
  intros La Lb La' Lb' Fn In_ Na Nb. unfold moving, rms_diff, fmean. set (g := fun x y : fl => _).
  assert (P : Permutation (map2 g a b) (map2 g a' b')).
  { apply (perm_places _ _ n place); try assumption; [now apply map2_len..|]. intros d Hd. specialize (Na d Hd). specialize (Nb d Hd). specialize (Fn d Hd).
    destruct (nth_error a (place d)) as [x|] eqn:X; [|apply nth_error_None in X; lia]. destruct (nth_error b (place d)) as [y|] eqn:Y; [|apply nth_error_None in Y; lia].
    now rewrite (nth_map2 g _ _ _ _ _ Na Nb), (nth_map2 g _ _ _ _ _ X Y). }
  now rewrite (fsum_perm _ _ P), (Permutation_length P).
Qed.

Theorem day_order fuel fuel' df df' prm out out' place : mtclim_run fuel df prm = Some (Ok out) -> mtclim_run fuel' df' prm = Some (Ok out') ->
  reordered df df' place -> forall d, (d < List.length (dl_doy df))%nat ->
  same_at ["t_day"; "tfmax"; "tskc"; "tdew"; "vapor_pressure"; "shortwave"; "pet"] out out' (place d) d.
Proof.
  intros R R' (Ln & Cm & Cm' & Fn & In_ & Sm) d Hd. set (n := List.length (dl_doy df)) in *.
  destruct (run_passes _ _ _ _ n R eq_refl Cm) as (X & j & LX & NX & Mv & Bf & Td).
  destruct (run_passes _ _ _ _ n R' (eq_sym Ln) Cm') as (X' & j' & LX' & NX' & Mv' & Bf' & Td').
  assert (Eq : forall i e, (e < n)%nat -> nth_error (X' i) e = nth_error (X i) (place e)).
  { intros i e He. destruct (day_passes _ _ _ _ _ _ _ _ _ R R' (Sm e He)) as (x & _ & _ & P & P' & _). now rewrite (NX _ _ i P), (NX' _ _ i P'). }
  assert (Em : forall i, moving prm (X (S i)) (X i) = moving prm (X' (S i)) (X' i)) by (intros i; apply (moving_reordered prm _ _ _ _ n place); auto).
  assert (Ej : j = j').
  { destruct (Nat.lt_total j j') as [L|[L|L]]; [|exact L|].
    - specialize (Bf' j L). rewrite <- Em in Bf'. congruence.
    - specialize (Bf j' L). rewrite Em in Bf. congruence. }
  subst j'. destruct (day_passes _ _ _ _ _ _ _ _ _ R R' (Sm d Hd)) as (x & i & i' & P & P' & A & A' & Fin).
  assert (Ex : x (S i) = x (S i')).
  { apply (at_day_fun out "tdew" (place d)); [exact A|]. destruct A' as (v & G & Nv). rewrite Td' in G. apply Some_inj in G. subst v.
    rewrite (Eq _ d Hd) in Nv. exists (X (S j)). split; [exact Td|exact Nv]. }
  pose proof (day_columns _ _ _ _ _ _ _ _ _ R R' (Sm d Hd)) as Cols. specialize (Fin Ex).
  intros k I. cbn in I. destruct I as [I|[I|[I|I]]]; [apply Cols; cbn; tauto..|apply Fin; cbn; tauto].
Qed.

(** ** the record with calm days *)
Lemma nth_calm {A} (x y : A) n d : nth_error (x :: repeat y n) d = if (d <? S n)%nat then Some (if (d =? 0)%nat then x else y) else None.
Proof.
  destruct d as [|d]; [reflexivity|]. cbn [nth_error Nat.eqb]. revert d. induction n as [|n IH]; intros [|d]; cbn; try reflexivity. now rewrite IH.
Qed.

Lemma map_calm {A B} (f : A -> B) x y n : map f (x :: repeat y n) = f x :: repeat (f y) n.
Proof. cbn. f_equal. induction n; cbn; congruence. Qed.
Lemma map2_calm {A B C} (f : A -> B -> C) x y x' y' n : map2 f (x :: repeat y n) (x' :: repeat y' n) = f x x' :: repeat (f y y') n.
Proof. unfold map2 at 1. cbn. f_equal. induction n as [|n IH]; [reflexivity|]. cbn. f_equal. exact IH. Qed.
Lemma map3_calm {A B C D} (f : A -> B -> C -> D) x y x' y' x2 y2 n :
  map3 f (x :: repeat y n) (x' :: repeat y' n) (x2 :: repeat y2 n) = f x x' x2 :: repeat (f y y' y2) n.
Proof. cbn. f_equal. induction n as [|n IH]; [reflexivity|]. cbn. f_equal. exact IH. Qed.
Lemma mk_days_calm n a a' b b' c c' e e' f f' g g' h h' i i' :
  mk_days (a :: repeat a' n) (b :: repeat b' n) (c :: repeat c' n) (e :: repeat e' n) (f :: repeat f' n) (g :: repeat g' n) (h :: repeat h' n) (i :: repeat i' n)
  = mk_mt_day a b c e f g h i :: repeat (mk_mt_day a' b' c' e' f' g' h' i') n.
Proof. cbn. f_equal. induction n as [|n IH]; [reflexivity|]. cbn. f_equal. exact IH. Qed.

(** the calm days keep their dewpoint *)
Lemma calm_pass tol t : -125 <= t <= 59 ->
  next_dew (tol_step tol) (Some 0) (tfmax1 (tol_step tol) (Some 4.395) (Some 10) (Some 0)) (Some 0.6) (Some 0) (t_day1 (tol_step tol) (Some 0) (Some 4.395)) (Some 0) (Some 400) (Some 4.395) (Some t)
  = Some 0.
Proof.
  intros Ht.
  assert (Tf : exists tf, tfmax1 (tol_step tol) (Some 4.395) (Some 10) (Some 0) = Some tf).
  { rewrite tfmax_eq by lra. destruct (Rlt_dec _ _); eauto. }
  destruct Tf as (tf & Tf).
  destruct (t_day_some (tol_step tol) 0 4.395) as (ta & Ta & Tr). specialize (Tr ltac:(lra) ltac:(cbn [p_tday_coef tol_step]; lra)).
  destruct (pet_linear (tol_step tol) ta 0 ltac:(lra) ltac:(lra)) as (kap & K0 & Lin); [cbn [p_lapse_rate tol_step]; lra|cbn [p_lapse_rate p_elev tol_step]; unfold T_STD; lra|].
  unfold next_dew. rewrite Tf, Ta, svp1_some by lra. unfold mt_shortwave1. cbn [fmul fadd fmax flift2].
  rewrite Lin. unfold tdew1. cbn [flt]. unfold Rltb. destruct (Rlt_dec 400 80.0); [lra|].
  rewrite fdiv_some by lra. cbn [fmul fadd fsub flift2 fpow option_map]. f_equal.
  replace (kap * (0 * Rmax (0.6 + ABASE * svp_R t) 0.0001 * tf) / 400) with 0 by lra. unfold KELVIN. simpl. lra.
Qed.

(** the day under the sun *)
Lemma sun_pass tol : exists f : R -> R, (forall t, -125 <= t <= 59 -> -2 <= f t <= -0.7) /\ (forall t, -125 <= t <= 59 -> f t = f 0 -> t = 0) /\
  forall t, -125 <= t <= 59 ->
  next_dew (tol_step tol) (Some 0) (tfmax1 (tol_step tol) (Some 0) (Some 10) (Some 0)) (Some 0.6) (Some 300) (t_day1 (tol_step tol) (Some 0) (Some 0)) (Some 43200) (Some 400) (Some 0) (Some t)
  = Some (f t).
Proof.
  destruct first_day as (kap & K & Fd). exists (pass 0 0.1 0.6 300 kap 400 0). split; [|split; [apply first_pass_once; exact K|exact Fd]].
  intros t Ht. unfold pass, KELVIN.
  assert (Rr : 0 <= ratio 0.1 0.6 300 kap 400 t <= 0.0014).
  { unfold ratio. pose proof (trans_range 0.6 ltac:(lra) t) as [A B]. assert (0 <= 300 * trans 0.6 t * 0.1 <= 30) by lra.
    assert (0 <= kap * (300 * trans 0.6 t * 0.1) <= 0.54) by nra. lra. }
  set (r := ratio 0.1 0.6 300 kap 400 t) in *. pose proof (kp_high r (proj1 Rr)).
  assert (1 <= kp r) by (unfold kp; simpl; nra). lra.
Qed.

Lemma calm_physical tol n : physical (tol_step tol) (calm_record n) (S n).
Proof.
  assert (PP : physical_place (tol_step tol)) by (constructor; cbn [p_rain_scalar p_tday_coef p_lapse_rate p_elev tol_step]; unfold T_STD; lra).
  assert (Ln : List.length (dl_doy (calm_record n)) = S n) by (cbn [dl_doy calm_record]; now rewrite map_length, seq_length).
  split; [exact PP|]. split; [exact Ln|].
  assert (Nm : forall k (x y : R), dict_get (dl_cols (calm_record n)) k = Some (Some x :: repeat (Some y) n) -> numbers (calm_record n) k (x :: repeat y n)).
  { intros k x y G. split; [rewrite map_calm; exact G|]. rewrite map_length, Ln. cbn. now rewrite repeat_length. }
  split; [eexists; exact (Nm "prec" 0 0 eq_refl)|].
  eexists _, _, _, _, _, _, _, _.
  split; [exact (Nm "t_min" _ _ eq_refl)|]. split; [exact (Nm "t_max" _ _ eq_refl)|]. split; [exact (Nm "dtr" _ _ eq_refl)|]. split; [exact (Nm "smoothed_dtr" _ _ eq_refl)|].
  split; [exact (Nm "tt_max" _ _ eq_refl)|]. split; [exact (Nm "potrad" _ _ eq_refl)|]. split; [exact (Nm "daylength" _ _ eq_refl)|]. split; [exact (Nm "seasonal_prec" _ _ eq_refl)|].
  assert (D : forall tx dtr pot dl, 0 <= tx <= 10 -> 0 <= dtr <= 10 -> 0 <= pot <= 300 -> 0 <= dl <= 43200 -> physical_day (tol_step tol) 0 tx dtr 0.6 pot dl 400).
  { intros tx dtr pot dl H1 H2 H3 H4. constructor; auto; try lra. intros tday p Td Pt.
    destruct (t_day_some (tol_step tol) 0 tx) as (ta & Ta & Tr). specialize (Tr ltac:(lra) (pp_coef _ PP)).
    rewrite Ta in Td. apply Some_inj in Td. subst ta.
    pose proof (pet_top (tol_step tol) 100 pot tday dl p ltac:(lra) ltac:(lra) ltac:(lra) ltac:(split; lra) (pp_lapse _ PP) (pp_elev _ PP) Pt) as B. unfold lhv in B.
    rewrite Rmax_right by lra. assert (pot * dl <= 300 * 43200) by nra. nra. }
  assert (Rp : forall d (y : R), (d < n)%nat -> nth d (repeat y n) 0 = y).
  { clear. intros d y H. apply nth_error_nth. revert d H. induction n as [|n IH]; intros [|d] H; cbn; try lia; auto. apply IH. lia. }
  intros [|d] Hd; cbn [nth]; [apply D; lra|]. rewrite !Rp by lia. apply D; lra.
Qed.

Lemma calm_same n : same_at mtclim_reads (calm_record 0) (calm_record n) 0 0.
Proof. intros k I. unfold mtclim_reads in I. repeat (destruct I as [<-|I]; [eexists; split; eexists; split; reflexivity|]). destruct I. Qed.

Lemma total_zero n (x : R) : total (x :: repeat 0 n) = x.
Proof. unfold total. cbn [fold_right]. enough (E : fold_right Rplus 0 (repeat 0 n) = 0) by (rewrite E; lra). induction n as [|n IH]; cbn [repeat fold_right]; [reflexivity|rewrite IH; lra]. Qed.

Theorem calm_refuted tol n : 0 < tol < 0.7 -> 4 <= INR (S n) * tol ^ 2 ->
  physical (tol_step tol) (calm_record 0) 1 /\ physical (tol_step tol) (calm_record n) (S n) /\ same_at mtclim_reads (calm_record 0) (calm_record n) 0 0 /\
  exists fuel fuel' out out' a b va vb, mtclim_run fuel (calm_record 0) (tol_step tol) = Some (Ok out) /\ mtclim_run fuel' (calm_record n) (tol_step tol) = Some (Ok out') /\
    at_day out "tdew" 0 (Some a) /\ at_day out' "tdew" 0 (Some b) /\ a <> b /\
    at_day out "vapor_pressure" 0 (Some va) /\ at_day out' "vapor_pressure" 0 (Some vb) /\ va <> vb.
Proof.
  intros T Big. split; [apply calm_physical|]. split; [apply calm_physical|]. split; [apply calm_same|].
  destruct (sun_pass tol) as (f & Rg & Inj & Fp).
  (* alone: at least two passes *)
  destruct (dew_terminates _ _ _ (calm_physical tol 0)) as [N Run]; [cbn [p_tdew_tol tol_step]; lra|]. destruct (Run N (le_n N)) as (out & R1). clear Run.
  destruct (dew_consistent _ _ _ _ R1) as (series & k & S0 & Sp & _ & St & Sw & (x & Vx & Vp) & _).
  change (Some [Some 0] = Some (series 0%nat)) in S0. apply Some_inj in S0.
  destruct (mtclim_inv _ _ _ _ R1) as (tmin & tmax & dtr & sm & pr & ttm & pot & dayl & sp & td & Cols & Lp & E).
  destruct Cols as (C1 & C2 & C3 & C4 & C5 & C6 & C7 & C8 & C9).
  apply Some_inj in C1, C2, C3, C4, C5, C6, C7, C8, C9. subst tmin tmax dtr sm pr ttm pot dayl sp.
  set (days := dew_days _ _ _ _ _ _ _ _ _ _) in Lp.
  destruct (loop_inv _ days _ _ 0%nat td Lp) as (j & _ & Td & Mv & _).
  assert (It : forall i, exists t, iterate (tol_step tol) days i [Some 0] = [Some t] /\ -125 <= t <= 59 /\ (i = 0%nat -> t = 0) /\ ((0 < i)%nat -> t <= -0.7)).
  { induction i as [|i (t & It & Ht & _)]; [exists 0; split; [reflexivity|split; [lra|split; [auto|lia]]]|].
    exists (f t). pose proof (Rg t Ht). split; [|split; [lra|split; [lia|lra]]].
    change (iterate (tol_step tol) days (S i) [Some 0]) with (tdew_update (tol_step tol) days (iterate (tol_step tol) days i [Some 0])). rewrite It.
    unfold days, dew_days, tdew_update. cbn [map2 map3 mk_days combine map repeat]. f_equal. exact (Fp t Ht). }
  destruct (It j) as (t & It1 & Ht & Z0 & Z1).
  assert (Itj : iterate (tol_step tol) days (S j) [Some 0] = [Some (f t)]).
  { change (iterate (tol_step tol) days (S j) [Some 0]) with (tdew_update (tol_step tol) days (iterate (tol_step tol) days j [Some 0])). rewrite It1.
    unfold days, dew_days, tdew_update. cbn [map2 map3 mk_days combine map repeat]. f_equal. exact (Fp t Ht). }
  assert (Tneg : t <> 0).
  { intros ->. destruct j as [|j]; [|specialize (Z1 ltac:(lia)); lra].
    change (moving (tol_step tol) (iterate (tol_step tol) days 1 [Some 0]) (iterate (tol_step tol) days 0 [Some 0]) = false) in Mv. rewrite Itj, It1 in Mv.
    pose proof (not_moving _ _ _ Mv [0] [f 0] eq_refl eq_refl eq_refl ltac:(discriminate)) as Sm. cbn [p_tdew_tol tol_step] in Sm.
    pose proof (Rg 0 ltac:(lra)) as G0. unfold rms, total in Sm. rewrite (map2_calm _ (f 0) 0 0 0 0) in Sm. cbn [repeat fold_right List.length INR] in Sm.
    replace (((f 0 - 0) ^ 2 + 0) / 1) with ((- f 0) * (- f 0)) in Sm by (simpl; lra). rewrite sqrt_square in Sm by lra. lra. }
  (* with the calm days: one pass *)
  set (out' := dew_out (tol_step tol) (dew_frame (tol_step tol) (calm_record n) (Some 0 :: repeat (Some 0) n) (Some 0 :: repeat (Some 4.395) n) (Some 0 :: repeat (Some 4.395) n)
     (Some 10 :: repeat (Some 10) n) (Some 0 :: repeat (Some 0) n)) (map3 (tfmax1 (tol_step tol)) (Some 0 :: repeat (Some 4.395) n) (Some 10 :: repeat (Some 10) n) (Some 0 :: repeat (Some 0) n))
     (Some 0.6 :: repeat (Some 0.6) n) (Some 300 :: repeat (Some 0) n) (map2 (t_day1 (tol_step tol)) (Some 0 :: repeat (Some 0) n) (Some 0 :: repeat (Some 4.395) n))
     (Some 43200 :: repeat (Some 0) n) (map Some (f 0 :: repeat 0 n))).
  assert (R2 : mtclim_run 0 (calm_record n) (tol_step tol) = Some (Ok out')).
  { rewrite (mtclim_eq 0 (calm_record n) (tol_step tol) _ _ _ _ _ _ _ _ _ eq_refl eq_refl eq_refl eq_refl eq_refl eq_refl eq_refl eq_refl eq_refl). cbv zeta.
    assert (Up : tdew_update (tol_step tol) (dew_days (tol_step tol) (Some 0 :: repeat (Some 0) n) (Some 0 :: repeat (Some 4.395) n) (Some 0 :: repeat (Some 4.395) n)
      (Some 10 :: repeat (Some 10) n) (Some 0 :: repeat (Some 0) n) (Some 0.6 :: repeat (Some 0.6) n) (Some 300 :: repeat (Some 0) n) (Some 43200 :: repeat (Some 0) n) (Some 400 :: repeat (Some 400) n))
      (Some 0 :: repeat (Some 0) n) = map Some (f 0 :: repeat 0 n)).
    { unfold dew_days. rewrite map3_calm, map2_calm, mk_days_calm. unfold tdew_update. rewrite map2_calm, map_calm. f_equal; [exact (Fp 0 ltac:(lra))|].
      f_equal. exact (calm_pass tol 0 ltac:(lra)). }
    rewrite Up. cbn [tdew_loop].
    assert (Mv' : fgt (rms_diff (map Some (f 0 :: repeat 0 n)) (Some 0 :: repeat (Some 0) n)) (Some (p_tdew_tol (tol_step tol))) = false).
    { replace (Some 0 :: repeat (Some 0) n) with (map Some (0 :: repeat 0 n)) by apply map_calm.
      rewrite rms_diff_some; [|discriminate|cbn; now rewrite !repeat_length]. unfold fgt, flt, Rltb. destruct (Rlt_dec _ _) as [L|]; [exfalso|reflexivity].
      cbn [p_tdew_tol tol_step] in L. unfold rms in L. rewrite map2_calm in L. replace ((0 - 0) ^ 2) with 0 in L by ring. rewrite total_zero in L.
      replace (List.length (f 0 :: repeat 0 n)) with (S n) in L by (cbn; now rewrite repeat_length).
      pose proof (Rg 0 ltac:(lra)) as G0. assert (P : 0 < INR (S n)) by (apply lt_0_INR; lia).
      assert (Q : (f 0 - 0) ^ 2 / INR (S n) <= tol * tol).
      { apply Rmult_le_reg_r with (INR (S n)); [exact P|]. unfold Rdiv. rewrite Rmult_assoc, Rinv_l by lra. simpl in Big |- *. nra. }
      apply sqrt_le_1_alt in Q. rewrite sqrt_square in Q by lra. lra. }
    rewrite Mv'. reflexivity. }
  assert (Ne : f t <> f 0) by (intros X; exact (Tneg (Inj t Ht X))).
  pose proof (Rg t Ht) as Gt. pose proof (Rg 0 ltac:(lra)) as G0.
  assert (Col : at_day out "tdew" 0 (Some (f t)) /\ at_day out "vapor_pressure" 0 (Some (svp_R (f t)))).
  { rewrite E, Td. replace (iterate _ _ _ _) with [Some (f t)] by (symmetry; exact Itj). split; (eexists; split; [reflexivity|]).
    - reflexivity.
    - cbn [map nth_error]. unfold mt_vapor_pressure1. now rewrite svp1_some by lra. }
  assert (Col' : at_day out' "tdew" 0 (Some (f 0)) /\ at_day out' "vapor_pressure" 0 (Some (svp_R (f 0)))).
  { unfold out'. split; (eexists; split; [reflexivity|]).
    - reflexivity.
    - cbn [map nth_error]. unfold mt_vapor_pressure1. now rewrite svp1_some by lra. }
  exists N, 0%nat, out, out', (f t), (f 0), (svp_R (f t)), (svp_R (f 0)).
  split; [exact R1|]. split; [exact R2|]. split; [apply Col|]. split; [apply Col'|]. split; [exact Ne|]. split; [apply Col|]. split; [apply Col'|].
  intros X. destruct (Rtotal_order (f t) (f 0)) as [L|[L|L]]; [|exact (Ne L)|].
  - pose proof (svp_R_incr (f t) (f 0) ltac:(lra) L). lra.
  - pose proof (svp_R_incr (f 0) (f t) ltac:(lra) L). lra.
Qed.

(** ** cases *)
Lemma turned_physical ts : physical (demo_step ts) turned_frame 2.
Proof.
  split; [apply demo_place|]. split; [reflexivity|]. split; [eexists; split; reflexivity|].
  exists [1; 0], [9; 0], [8; 0], [10; 10], [0.6; 0.6], [300; 300], [43200; 43200], [400; 400].
  split; [split; reflexivity|]. split; [split; reflexivity|]. split; [split; reflexivity|]. split; [split; reflexivity|].
  split; [split; reflexivity|]. split; [split; reflexivity|]. split; [split; reflexivity|]. split; [split; reflexivity|].
  assert (F : forall d, (d < 2)%nat -> physical_day (demo_step ts) (nth d [0; 1] 0) (nth d [0; 9] 0) (nth d [0; 8] 0) 0.6 300 43200 400).
  { destruct (full_physical ts) as (_ & _ & _ & tn & tx & dtr & sm & tt & pot & dl & sp & [A1 _] & [A2 _] & [A3 _] & [A4 _] & [A5 _] & [A6 _] & [A7 _] & [A8 _] & D).
    assert (Inv : forall v w : list R, Some (map Some v) = Some (map Some w) -> w = v).
    { intros v w Q. apply Some_inj in Q. revert w Q. induction v as [|x v IH]; intros [|y w] Q; try discriminate; [reflexivity|]. cbn in Q. injection Q as Qx Qv. f_equal; [congruence|now apply IH]. }
    change (Some (map Some [0; 1]) = Some (map Some tn)) in A1. change (Some (map Some [0; 9]) = Some (map Some tx)) in A2. change (Some (map Some [0; 8]) = Some (map Some dtr)) in A3.
    change (Some (map Some [0.6; 0.6]) = Some (map Some tt)) in A5. change (Some (map Some [300; 300]) = Some (map Some pot)) in A6.
    change (Some (map Some [43200; 43200]) = Some (map Some dl)) in A7. change (Some (map Some [400; 400]) = Some (map Some sp)) in A8.
    apply Inv in A1, A2, A3, A5, A6, A7, A8. subst tn tx dtr tt pot dl sp. intros d Hd. specialize (D d Hd). destruct d as [|[|d]]; [exact D|exact D|lia]. }
  intros [|[|d]] Hd; [exact (F 1%nat ltac:(lia))|exact (F 0%nat ltac:(lia))|lia].
Qed.

Theorem turned_case : reordered full_frame turned_frame (fun d => (1 - d)%nat) /\
  exists fuel out fuel' out', mtclim_run fuel full_frame (demo_step 60) = Some (Ok out) /\ mtclim_run fuel' turned_frame (demo_step 60) = Some (Ok out').
Proof.
  split.
  - split; [reflexivity|]. split; [exact full_complete|]. split.
    { intros k I. unfold mtclim_reads in I. repeat (destruct I as [<-|I]; [eexists; split; reflexivity|]). destruct I. }
    cbn [dl_doy full_frame List.length]. split; [intros; lia|]. split; [intros; lia|].
    intros [|[|d]] Hd k I; [| |lia]; unfold mtclim_reads in I; (repeat (destruct I as [<-|I]; [eexists; split; eexists; split; reflexivity|])); destruct I.
  - destruct (full_runs 60) as (fuel & out & R). destruct (dew_terminates _ _ _ (turned_physical 60)) as [N H]; [cbn [p_tdew_tol demo_step]; lra|].
    destruct (H N (le_n N)) as (out' & R'). eauto 6.
Qed.

Lemma tol_half : 0 < 0.5 < 0.7 /\ 4 <= INR (S 15) * 0.5 ^ 2.
Proof. split; [lra|]. rewrite INR_IZR_INZ. change (Z.of_nat (S 15)) with 16%Z. simpl. lra. Qed.
