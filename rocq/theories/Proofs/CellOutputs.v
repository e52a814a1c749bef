(** Outputs of a whole cell in terms of its forcing: C82-C84. *)
From Coq Require Import ZArith Reals String List Bool Arith Lia Lra.
From Verif Require Import Model.Py Model.Fl Model.Np Model.Constants Model.Params Model.Physics Model.Disagg Model.Mtclim Model.Cell
  Spec.TimeSpec Spec.SeriesSpec Spec.ShortSpec Spec.SolarSpec Spec.TempSpec Spec.FrameSpec Spec.DailySpec
  Proofs.Base Proofs.ArrayProofs Proofs.PrecProofs Proofs.PrecExamples Proofs.WindProofs Proofs.DisaggProofs Proofs.ShortwaveProofs Proofs.SolarProofs Proofs.SolarTables Proofs.TempProofs
  Proofs.GlobalsProofs Proofs.PassProofs Proofs.FrameProofs Proofs.VaporProofs Proofs.LongwaveProofs Proofs.HumidProofs Proofs.UtcProofs Proofs.CellProofs Proofs.CellTotal.
Import ListNotations.
Local Open Scope string_scope.
Local Open Scope list_scope.
Local Open Scope R_scope.

(** ** columns no daily method touches *)
Definition computed : list string := ["t_day"; "tfmax"; "tskc"; "tdew"; "vapor_pressure"; "shortwave"; "pet"].

Lemma mtclim_forcing fuel df prm df' : mtclim_run fuel df prm = Some (Ok df') ->
  forall k, ~ In k computed -> dict_get (dl_cols df') k = dict_get (dl_cols df) k.
Proof.
  unfold mtclim_run. cbv zeta.
  match goal with |- match ?p with _ => _ end = _ -> _ => destruct p as [[[d (a1 & a2 & a3 & a4 & a5 & a6)] days]|] eqn:E end; [|discriminate].
  destruct (tdew_loop _ _ _ _ _) as [td|]; [|discriminate]. intros H k N.
  assert (H' : df' = set_col (set_col (set_col (set_col d "tdew" td) "vapor_pressure" (map mt_vapor_pressure1 td)) "shortwave"
     (map2 (fun f p => f p) (map3 mt_shortwave1 a2 (map mt_vapor_pressure1 td) a3) a4)) "pet"
     (map3 (pet1 prm) (map2 (fun f p => f p) (map3 mt_shortwave1 a2 (map mt_vapor_pressure1 td) a3) a4) a5 a6)) by congruence.
  assert (X : forall n, In n computed -> (k =? n) = false).
  { intros n I. destruct (String.eqb_spec k n); [subst; contradiction|reflexivity]. }
  assert (D : dict_get (dl_cols d) k = dict_get (dl_cols df) k).
  { clear H H'. do 11 inv_bind E. inversion E. subst d. rewrite !get_set_col. rewrite !X by mem. reflexivity. }
  subst df'. rewrite !get_set_col. rewrite !X by mem. exact D.
Qed.

Lemma method_forcing fuel df prm df' : run_method fuel df prm = Some (Ok df') ->
  forall k, ~ In k computed -> dict_get (dl_cols df') k = dict_get (dl_cols df) k.
Proof.
  unfold run_method. destruct (p_method prm =? "mtclim"); [apply mtclim_forcing|].
  destruct (p_method prm =? "passthrough"); [|discriminate]. intros H k N. assert (E : passthrough_run df prm = Ok df') by congruence.
  apply (passthrough_adds _ _ _ E). intros I. apply N. cbn in I. destruct I as [<-|[<-|[<-|[<-|[<-|[<-|[]]]]]]]; mem.
Qed.

Definition untouched (k : string) : Prop := ~ In k computed /\ k <> "daylength" /\ k <> "potrad" /\ k <> "tt_max".
Ltac unt := repeat split; try discriminate; cbn; intuition discriminate.

Lemma cell_forcing fuel prm c out prm' : (p_time_step prm < 1440)%Z -> run_cell fuel prm c = Some (Ok out, prm') ->
  exists g df a b, solar_geom (cd_elev c) (cd_lat c) (p_lapse_rate prm) = Ok g /\
    dl_doy df = dl_doy (cd_daily c) /\
    (forall k, untouched k -> dict_get (dl_cols (da_df df (located prm c))) k = dict_get (dl_cols (cd_daily c)) k) /\
    last_value (cd_state_tmin c) = Ok (Some a) /\ last_value (cd_state_tmax c) = Ok (Some b) /\
    disaggregate df (located prm c) (tiny_rad_fract g) (Some [a; b]) None = Ok out.
Proof.
  intros Lt H. destruct (run_cell_inv _ _ _ _ _ H) as (g & dl & po & tt_ & df & G & D & P & T & M & Sub & _).
  destruct (Sub Lt) as (a & b & A & B & X). exists g, df, a, b. split; [exact G|]. destruct (method_keeps _ _ _ _ M) as (Doy & _).
  split; [exact Doy|]. split; [|auto]. intros k (N1 & N2 & N3 & N4). rewrite get_da_df by auto. rewrite (method_forcing _ _ _ _ M k N1).
  rewrite sun_get. destruct (String.eqb_spec k "tt_max"); [contradiction|]. destruct (String.eqb_spec k "potrad"); [contradiction|].
  destruct (String.eqb_spec k "daylength"); [contradiction|]. reflexivity.
Qed.

Lemma last_value_last l x : last_value l = Ok x -> last l None = x.
Proof.
  unfold last_value. destruct (rev l) as [|y r] eqn:E; [discriminate|]. intros H. apply Ok_inj in H. subst y.
  rewrite <- (rev_involutive l), E. cbn [rev]. now rewrite last_last.
Qed.

Lemma fill_some l : fill_gaps (map Some l) = map Some l.
Proof.
  apply list_ext. intros j. transitivity (nth_error (map (@Some R) l) j); [|reflexivity].
  destruct (nth_error (map (@Some R) l) j) as [x|] eqn:E.
  - destruct x as [x|]; [now apply fill_keep|]. rewrite nth_error_map in E. destruct (nth_error l j); discriminate.
  - apply nth_error_None. rewrite fill_gaps_length. now apply nth_error_None.
Qed.

(** ** C82 *)
Theorem cell_temperature fuel prm c out prm' tmin tmax :
  legal_time_step (p_time_step prm) -> (p_time_step prm < 1440)%Z ->
  -90 <= cd_lat c <= 90 -> days_valid (dl_doy (cd_daily c)) -> dl_doy (cd_daily c) <> [] -> 0 < p_tmax_frac prm <= 1 ->
  let place := set_lon prm (remainder360 (cd_lon c)) in
  (p_utc_offset prm = false \/ (2 / 3 <= p_tmax_frac prm /\ (-720 <= utc_temp_minutes place <= 719)%Z)) ->
  numbers (cd_daily c) "t_min" tmin -> numbers (cd_daily c) "t_max" tmax ->
  run_cell fuel prm c = Some (Ok out, prm') ->
  exists s1 s2 a b temps,
    last (cd_state_tmin c) None = Some s1 /\ last (cd_state_tmax c) None = Some s2 /\
    List.length a = List.length (dl_doy (cd_daily c)) /\ alternate a b /\
    (forall d, (d < List.length a)%nat -> exists row, usable row /\
      nth d a 0 = rise_time row - shift_of place + 1440 * INR d - IZR (p_time_step prm) /\
      nth d b 0 = rise_time row + p_tmax_frac prm * (set_time row - rise_time row) - shift_of place + 1440 * INR d - IZR (p_time_step prm)) /\
    dict_get out "temp" = Some (map Some temps) /\
    List.length temps = (List.length (dl_doy (cd_daily c)) * steps (p_time_step prm))%nat /\
    forall k v, nth_error temps k = Some v ->
      surrounded a b tmin tmax (s1, s2) (last tmin 0, last tmax 0) (IZR (p_time_step prm) * INR k) v.
Proof.
  intros L Lt Hl Vd Nd Fr place U [Tn Ln] [Tx Lx] H. rewrite map_length in Ln, Lx.
  destruct (cell_forcing _ _ _ _ _ Lt H) as (g & df & s1 & s2 & G & Doy & Keep & A & B & X).
  apply last_value_last in A, B. exists s1, s2.
  set (prm2 := da_prm (located prm c)).
  assert (U2 : p_utc_offset prm2 = false \/ (2 / 3 <= p_tmax_frac prm2 /\ (-720 <= utc_temp_minutes prm2 <= 719)%Z)) by exact U.
  destruct (extreme_times _ _ _ _ (dl_doy (cd_daily c)) (p_time_step prm) prm2 Hl G Vd Fr) as (a & b & Sx & La & Alt & Pos).
  destruct (curve_surrounded _ _ _ _ (dl_doy (cd_daily c)) (p_time_step prm) prm2 tmin tmax (Some (s1, s2)) None Hl G Vd Nd Fr Ln Lx L U2)
    as (a' & b' & tp & Sx' & Tp & Lp & Sur).
  assert (Eab : (a', b') = (a, b)) by (apply Ok_inj; unfold fl in *; congruence). injection Eab as -> ->.
  exists a, b, tp. split; [exact A|]. split; [exact B|]. split; [exact La|]. split; [exact Alt|].
  split; [rewrite La; exact Pos|].
  apply disaggregate_inv in X. cbv zeta in X.
  destruct X as (tpd & ? & ? & sw & tTmin & tTmax & tmn & tmx & tminR & tmaxR & tmp & ? & vp0 & ? & ck & lw & ? & pr & Hd & _ & Sm & (C1 & C2 & F1 & F2 & Te) & _ & _ & _ & _ & _ & O).
  change (p_time_step (located prm c)) with (p_time_step prm) in *. fold prm2 in Sm, Te. rewrite Doy in *.
  apply col_get in C1, C2. rewrite Keep in C1, C2 by unt.
  assert (tmn = map Some tmin) by (unfold fl in *; congruence). assert (tmx = map Some tmax) by (unfold fl in *; congruence). subst tmn tmx.
  rewrite finite_some in F1, F2. apply Ok_inj in F1, F2. subst tminR tmaxR.
  assert (Eab : (tTmin, tTmax) = (a, b)) by (apply Ok_inj; unfold fl in *; congruence). injection Eab as -> ->.
  rewrite ts_per_day_steps in Hd by apply L. apply Ok_inj in Hd. subst tpd.
  unfold pair_list in Tp. cbn [option_map fst snd] in Tp.
  assert (tmp = tp) by (apply Ok_inj; unfold fl in *; congruence). subst tmp.
  split; [|split; [exact Lp|exact Sur]].
  destruct (dict_get (dl_cols (da_df df (located prm c))) "wind"); [destruct O as (w & _ & _ & ->)|subst out];
    rewrite dict_get_map; cbn [app dict_get String.eqb Ascii.eqb Bool.eqb option_map]; now rewrite fill_some.
Qed.

(** ** days filled from the day before *)
Lemma day_part_const {A} k d n (l : list A) x : List.length l = (n * k)%nat -> (d < n)%nat ->
  (forall i, (i < k)%nat -> nth_error l (d * k + i) = Some x) -> day_part k d l = repeat x k.
Proof.
  intros L D H. assert (Ld : List.length (day_part k d l) = k) by (eapply day_part_length; eauto).
  apply list_ext. intros j. destruct (Nat.lt_ge_cases j k) as [J|J].
  - rewrite ArrayProofs.day_part_nth by auto. rewrite H by auto. symmetry.
    rewrite (nth_error_nth' _ x) by (rewrite repeat_length; auto). f_equal. apply nth_repeat.
  - rewrite (proj2 (nth_error_None _ _)) by lia. symmetry. apply nth_error_None. rewrite repeat_length. lia.
Qed.

Lemma part_index {A} k d (l part : list A) i : day_part k d l = part -> (i < k)%nat -> nth_error l (d * k + i) = nth_error part i.
Proof. intros <- H. symmetry. now apply ArrayProofs.day_part_nth. Qed.

Lemma repeat_nth_error {A} (x : A) k i : (i < k)%nat -> nth_error (repeat x k) i = Some x.
Proof. intros H. rewrite (nth_error_nth' _ x) by (rewrite repeat_length; auto). f_equal. apply nth_repeat. Qed.

Lemma fill_from_day k n (l : list fl) e d y : List.length l = (n * k)%nat -> (0 < k)%nat -> (e < d < n)%nat ->
  nth_error l (e * k + (k - 1)) = Some (Some y) ->
  (forall j, (e < j <= d)%nat -> day_part k j l = repeat None k) -> day_part k d (fill_gaps l) = repeat (Some y) k.
Proof.
  intros L K [E D] Y N. apply day_part_const with n; auto; [now rewrite fill_gaps_length|]. intros i I.
  apply HumidProofs.fill_forward with (e * k + (k - 1))%nat; [exact Y| |].
  - assert (e * k + k <= d * k)%nat by nia. assert (d * k + k <= n * k)%nat by nia. unfold fl in *. lia.
  - intros m M. pose proof (Nat.div_mod_eq m k) as DM. pose proof (Nat.mod_upper_bound m k ltac:(lia)) as Mr.
    set (q := (m / k)%nat) in *. set (r := (m mod k)%nat) in *.
    assert (Q : (e < q <= d)%nat) by nia. replace m with (q * k + r)%nat by lia.
    rewrite (part_index k q l (repeat None k) r) by auto. now apply repeat_nth_error.
Qed.

(** ** C83: precipitation *)
Lemma out_column fuel prm c out prm' : legal_time_step (p_time_step prm) -> (p_time_step prm < 1440)%Z ->
  run_cell fuel prm c = Some (Ok out, prm') -> exists P tmin pr,
    dict_get (dl_cols (cd_daily c)) "prec" = Some P /\ dict_get (dl_cols (cd_daily c)) "t_min" = Some tmin /\
    prec P tmin (p_time_step prm) (set_lon prm (remainder360 (cd_lon c)))
      (dict_get (dl_cols (cd_daily c)) "t_pk") (dict_get (dl_cols (cd_daily c)) "dur") = Ok pr /\
    List.length pr = (List.length (dl_doy (cd_daily c)) * steps (p_time_step prm))%nat /\ dict_get out "prec" = Some (fill_gaps pr).
Proof.
  intros L Lt H. destruct (cell_forcing _ _ _ _ _ Lt H) as (g & df & s1 & s2 & G & Doy & Keep & A & B & X).
  apply disaggregate_inv in X. cbv zeta in X.
  destruct X as (tpd & ? & ? & sw & tTmin & tTmax & tmn & tmx & tminR & tmaxR & tmp & ? & vp0 & ? & ck & lw & P & pr & Hd & _ & _ & (C1 & _) & _ & _ & _ & (C2 & Pr) & (_ & _ & _ & _ & _ & Lp) & O).
  apply col_get in C1, C2. rewrite Keep in C1, C2, Pr by unt. rewrite Keep in Pr by unt. rewrite Doy in *.
  change (p_time_step (located prm c)) with (p_time_step prm) in *.
  exists P, tmn, pr. split; [exact C2|]. split; [exact C1|]. split; [exact Pr|].
  rewrite ts_per_day_steps in Hd by apply L. apply Ok_inj in Hd. subst tpd. split; [exact Lp|].
  destruct (dict_get (dl_cols (da_df df (located prm c))) "wind"); [destruct O as (w & _ & _ & ->)|subst out]; reflexivity.
Qed.

Theorem cell_precipitation fuel prm c out prm' P :
  legal_time_step (p_time_step prm) -> (p_time_step prm < 1440)%Z -> p_utc_offset prm = false ->
  str_in (upper (p_prec_type prm)) ["TRIANGLE"; "MIX"]%string = false ->
  dict_get (dl_cols (cd_daily c)) "prec" = Some P -> run_cell fuel prm c = Some (Ok out, prm') ->
  let k := steps (p_time_step prm) in
  exists v, dict_get out "prec" = Some v /\ List.length v = (List.length P * k)%nat /\
    (forall d p, nth_error P d = Some (Some p) ->
       day_part k d v = repeat (Some (p / INR k)) k /\ fsum (day_part k d v) = Some p) /\
    (forall e d p, nth_error P e = Some (Some p) -> (e < d < List.length P)%nat ->
       (forall j, (e < j <= d)%nat -> nth_error P j = Some None) ->
       day_part k d v = repeat (Some (p / INR k)) k /\ fsum (day_part k d v) = Some p).
Proof.
  intros L Lt U Ty HP H k. destruct (out_column _ _ _ _ _ L Lt H) as (P' & tmn & pr & HP' & _ & Pr & Lp & O).
  assert (P' = P) by (unfold fl in *; congruence). subst P'. clear HP'.
  destruct (steps_mul _ L) as (_ & Sp & _). fold k in Sp.
  match type of Pr with prec _ _ _ _ ?x ?y = _ => destruct (prec_uniform P tmn (p_time_step prm) (set_lon prm (remainder360 (cd_lon c))) x y L U Ty) as (pr' & Pr' & Ln & Day) end.
  assert (pr' = pr) by (apply Ok_inj; unfold fl in *; congruence). subst pr'. fold k in Ln, Day.
  assert (Kz : INR k <> 0) by (apply not_0_INR; lia).
  assert (One : forall d p, nth_error P d = Some (Some p) -> day_part k d pr = repeat (Some (p / INR k)) k).
  { intros d p D. destruct (Day _ _ D) as [X _]. now rewrite fdiv_some in X by auto. }
  assert (Sum : forall p, fsum (repeat (Some (p / INR k)) k) = Some p).
  { intros p. rewrite fsum_repeat. f_equal. field. exact Kz. }
  assert (Dl : forall d p, nth_error P d = Some p -> (d < List.length P)%nat) by (intros d p D; apply nth_error_Some; congruence).
  exists (fill_gaps pr). split; [exact O|]. split; [now rewrite fill_gaps_length|]. split.
  - intros d p D. enough (X : day_part k d (fill_gaps pr) = repeat (Some (p / INR k)) k) by (split; [exact X|rewrite X; apply Sum]).
    apply day_part_const with (List.length P); [now rewrite fill_gaps_length|eauto|]. intros i I. apply HumidProofs.fill_keeps.
    rewrite (part_index k d pr _ i (One _ _ D)) by auto. now apply repeat_nth_error.
  - intros e d p E D N. enough (X : day_part k d (fill_gaps pr) = repeat (Some (p / INR k)) k) by (split; [exact X|rewrite X; apply Sum]).
    apply fill_from_day with (List.length P) e; auto.
    + rewrite (part_index k e pr _ (k - 1) (One _ _ E)) by lia. apply repeat_nth_error. lia.
    + intros j J. destruct (Day _ _ (N j J)) as [X _]. exact X.
Qed.

Theorem cell_triangle fuel prm c out prm' P pk dur :
  legal_time_step (p_time_step prm) -> (p_time_step prm < 1440)%Z -> p_utc_offset prm = false ->
  upper (p_prec_type prm) = "TRIANGLE" ->
  dict_get (dl_cols (cd_daily c)) "prec" = Some P -> dict_get (dl_cols (cd_daily c)) "t_pk" = Some pk ->
  dict_get (dl_cols (cd_daily c)) "dur" = Some dur -> List.length pk = List.length P -> List.length dur = List.length P ->
  run_cell fuel prm c = Some (Ok out, prm') ->
  let k := steps (p_time_step prm) in
  exists v, dict_get out "prec" = Some v /\ List.length v = (List.length P * k)%nat /\
    (forall d p a b, nth_error P d = Some (Some p) -> nth_error pk d = Some (Some a) -> nth_error dur d = Some (Some b) -> SeriesSpec.covered a b ->
       fsum (day_part k d v) = Some p) /\
    (forall d p p' a b a' b', nth_error P d = Some (Some p) -> nth_error pk d = Some (Some a) -> nth_error dur d = Some (Some b) -> SeriesSpec.covered a b ->
       nth_error P (S d) = Some (Some p') -> nth_error pk (S d) = Some (Some a') -> nth_error dur (S d) = Some (Some b') -> ~ SeriesSpec.covered a' b' ->
       exists last, nth_error v (d * k + (k - 1)) = Some (Some last) /\ day_part k (S d) v = repeat (Some last) k).
Proof.
  intros L Lt U Ty HP Hk Hd L1 L2 H k. destruct (out_column _ _ _ _ _ L Lt H) as (P' & tmn & pr & HP' & _ & Pr & Lp & O).
  assert (P' = P) by (unfold fl in *; congruence). subst P'. clear HP'. unfold fl in *. rewrite Hk, Hd in Pr.
  destruct (steps_mul _ L) as (_ & Sp & _). fold k in Sp.
  destruct (prec_triangle_iff P tmn (p_time_step prm) (set_lon prm (remainder360 (cd_lon c))) pk dur L U Ty L1 L2) as (pr' & Pr' & Day).
  assert (pr' = pr) by (apply Ok_inj; unfold fl in *; congruence). subst pr'. fold k in Day.
  destruct (prec_triangle_covered P tmn (p_time_step prm) (set_lon prm (remainder360 (cd_lon c))) pk dur L U Ty L1 L2) as (pr' & Pr2 & Ln & _).
  assert (pr' = pr) by (apply Ok_inj; unfold fl in *; congruence). subst pr'. fold k in Ln.
  assert (Dl : forall d (p : option R), nth_error P d = Some p -> (d < List.length P)%nat) by (intros d p D; apply nth_error_Some; congruence).
  assert (Keep : forall d p, (d < List.length P)%nat -> fsum (day_part k d pr) = Some p ->
    day_part k d (fill_gaps pr) = day_part k d pr /\ exists y, nth_error pr (d * k + (k - 1)) = Some (Some y)).
  { intros d p D F. split.
    - destruct (fmean (day_part k d pr)) as [m|] eqn:E; [eapply fill_day; eauto|]. exfalso. unfold fmean in E. unfold fl in *. rewrite F in E.
      rewrite (day_part_length k d (List.length P) pr Ln D) in E. rewrite fdiv_some in E by (apply not_0_INR; lia). discriminate.
    - destruct (nth_error pr (d * k + (k - 1))) as [[y|]|] eqn:E; [eauto| |].
      + exfalso. assert (I : In None (day_part k d pr)). { apply nth_error_In with (k - 1)%nat. etransitivity; [apply ArrayProofs.day_part_nth; lia|exact E]. }
        apply fsum_none in I. unfold fl in *. congruence.
      + exfalso. apply nth_error_None in E. assert (d * k + k <= List.length P * k)%nat by nia. unfold fl in *. lia. }
  exists (fill_gaps pr). split; [exact O|]. split; [now rewrite fill_gaps_length|]. split.
  - intros d p a b D A B C. destruct (Day d p a b D A B) as [_ [_ F]]. specialize (F C). destruct (Keep d p (Dl _ _ D) F) as [X _]. unfold fl in *. now rewrite X.
  - intros d p p' a b a' b' D A B C D' A' B' C'. destruct (Day d p a b D A B) as [_ [_ F]]. specialize (F C).
    destruct (Keep d p (Dl _ _ D) F) as (_ & y & Y). exists y. split; [now apply HumidProofs.fill_keeps|].
    apply fill_from_day with (List.length P) d; auto; [specialize (Dl _ _ D'); lia|]. intros j J. replace j with (S d) by lia.
    now apply (Day (S d) p' a' b' D' A' B').
Qed.

Theorem cell_record_total fuel prm c out prm' P :
  legal_time_step (p_time_step prm) -> (p_time_step prm < 1440)%Z ->
  str_in (upper (p_prec_type prm)) ["TRIANGLE"; "MIX"]%string = false ->
  dict_get (dl_cols (cd_daily c)) "prec" = Some (map Some P) -> run_cell fuel prm c = Some (Ok out, prm') ->
  exists v, dict_get out "prec" = Some v /\ fsum v = Some (total P).
Proof.
  intros L Lt Ty HP H. destruct (out_column _ _ _ _ _ L Lt H) as (P' & tmn & pr & HP' & _ & Pr & Lp & O).
  assert (P' = map Some P) by (unfold fl in *; congruence). subst P'. clear HP'.
  set (q := set_lon prm (remainder360 (cd_lon c))) in *.
  set (x := dict_get (dl_cols (cd_daily c)) "t_pk") in *. set (y := dict_get (dl_cols (cd_daily c)) "dur") in *.
  assert (F : fsum pr = Some (total P)).
  { destruct (prec_uniform (map Some P) tmn (p_time_step prm) (with_utc false q) x y L eq_refl Ty) as (loc & Hl & Ln & Day).
    assert (S1 : fsum loc = Some (total P)).
    { rewrite <- fsum_some. unfold fl in *. rewrite map_length in Ln.
      transitivity (fsum (map fsum (rows (List.length P) (steps (p_time_step prm)) loc))); [symmetry; now apply all_sum|]. f_equal.
      apply list_ext. intros d. rewrite nth_error_map. destruct (Nat.lt_ge_cases d (List.length P)) as [D|D].
      - rewrite rows_nth by auto. cbn [option_map]. destruct (nth_error (map Some P) d) as [z|] eqn:E; [|apply nth_error_None in E; rewrite map_length in E; lia].
        etransitivity; [|symmetry; exact E]. f_equal. now apply Day.
      - rewrite (proj2 (nth_error_None (rows _ _ _) d)) by (rewrite rows_length; auto). symmetry. apply nth_error_None. now rewrite map_length. }
    destruct (p_utc_offset prm) eqn:U.
    - destruct (prec_uniform (map Some P) tmn 1 (with_utc false q) x y legal_1 eq_refl Ty) as (m & Hm & _).
      destruct (prec_utc _ _ (p_time_step prm) q x y m L Hm) as (o1 & o2 & A1 & A2 & A3 & _).
      assert (Eq : with_utc true q = q) by (unfold with_utc, q in *; destruct prm; cbn in U; subst; reflexivity).
      rewrite Eq in A1. assert (o1 = pr) by (apply Ok_inj; unfold fl in *; congruence). assert (o2 = loc) by (apply Ok_inj; unfold fl in *; congruence). congruence.
    - assert (Eq : with_utc false q = q) by (unfold with_utc, q in *; destruct prm; cbn in U; subst; reflexivity).
      rewrite Eq in Hl. assert (loc = pr) by (apply Ok_inj; unfold fl in *; congruence). congruence. }
  exists pr. split; [|exact F]. rewrite O. f_equal. apply list_ext. intros j. destruct (nth_error pr j) as [[z|]|] eqn:E.
  - now apply fill_keep.
  - exfalso. apply nth_error_In, fsum_none in E. unfold fl in *. congruence.
  - apply nth_error_None. rewrite fill_gaps_length. now apply nth_error_None.
Qed.

(** ** C84: wind *)
Theorem cell_wind fuel prm c out prm' w :
  legal_time_step (p_time_step prm) -> (p_time_step prm < 1440)%Z -> p_utc_offset prm = false ->
  dict_get (dl_cols (cd_daily c)) "wind" = Some w -> run_cell fuel prm c = Some (Ok out, prm') ->
  let k := steps (p_time_step prm) in
  exists v, dict_get out "wind" = Some v /\ List.length v = (List.length w * k)%nat /\
    (forall d x, nth_error w d = Some (Some x) -> day_part k d v = repeat (Some x) k) /\
    (forall e d x, nth_error w e = Some (Some x) -> (e < d < List.length w)%nat ->
       (forall j, (e < j <= d)%nat -> nth_error w j = Some None) -> day_part k d v = repeat (Some x) k).
Proof.
  intros L Lt U HW H k. destruct (cell_forcing _ _ _ _ _ Lt H) as (g & df & s1 & s2 & G & Doy & Keep & A & B & X).
  apply disaggregate_inv in X. cbv zeta in X.
  destruct X as (tpd & ? & ? & sw & tTmin & tTmax & tmn & tmx & tminR & tmaxR & tmp & ? & vp0 & ? & ck & lw & P & pr & Hd & _ & _ & _ & _ & _ & _ & _ & _ & O).
  rewrite Keep in O by unt. unfold fl in *. rewrite HW in O. destruct O as (wo & W & _ & ->).
  change (p_time_step (located prm c)) with (p_time_step prm) in *.
  destruct (steps_mul _ L) as (_ & Sp & _). fold k in Sp.
  destruct (daily_constant_local w (p_time_step prm) (da_prm (located prm c)) L U) as (wo' & W' & Ln & Day).
  assert (wo' = wo) by (apply Ok_inj; unfold wind in W; congruence). subst wo'. fold k in Ln, Day.
  assert (Dl : forall d p, nth_error w d = Some p -> (d < List.length w)%nat) by (intros d p D; apply nth_error_Some; congruence).
  exists (fill_gaps wo). split; [reflexivity|]. split; [now rewrite fill_gaps_length|]. split.
  - intros d p D. apply day_part_const with (List.length w); [now rewrite fill_gaps_length|eauto|]. intros i I. apply HumidProofs.fill_keeps.
    etransitivity; [exact (part_index k d wo _ i (Day _ _ D) I)|]. now apply repeat_nth_error.
  - intros e d p E D N. apply fill_from_day with (List.length w) e; auto.
    etransitivity; [exact (part_index k e wo _ (k - 1) (Day _ _ E) ltac:(lia))|]. apply repeat_nth_error. lia.
Qed.
