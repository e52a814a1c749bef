(** C29: vapor pressure and saturation. *)
From Coq Require Import ZArith Reals String List Bool Arith Lia Lra.
From Verif Require Import Model.Py Model.Fl Model.Np Model.Constants Model.Physics Model.Interp Model.Params Model.Disagg
  Spec.TimeSpec Spec.SeriesSpec Spec.ShortSpec Spec.TempSpec Spec.FrameSpec
  Proofs.Base Proofs.RBase Proofs.ArrayProofs Proofs.PrecProofs Proofs.WindProofs Proofs.LongwaveProofs Proofs.StateProofs Proofs.SolarTables
  Proofs.ShortwaveProofs Proofs.UtcProofs Proofs.SvpProofs Proofs.DisaggProofs Proofs.PchipProofs Proofs.TempProofs Proofs.FrameProofs.
Import ListNotations.
Local Open Scope string_scope.
Local Open Scope list_scope.
Local Open Scope R_scope.

(** ** filling *)
Lemma ffill_keep l : forall x k v, nth_error l k = Some (Some v) -> nth_error (ffill_from x l) k = Some (Some v).
Proof. induction l as [|[y|] l IH]; intros x [|k] v H; cbn in *; try discriminate; auto. Qed.
Lemma ffill_from_in l : forall x v, In (Some v) (ffill_from x l) -> x = Some v \/ In (Some v) l.
Proof.
  induction l as [|[y|] l IH]; intros x v H; cbn in *; [tauto| |].
  - destruct H as [H|H]; [now (right; left)|]. apply IH in H as [H|H]; [right; left; exact H|right; right; exact H].
  - destruct H as [H|H]; [now left|]. apply IH in H as [H|H]; [left; exact H|right; right; exact H].
Qed.

Lemma rev_nth_error {A} (l : list A) k : (k < List.length l)%nat -> nth_error (rev l) k = nth_error l (List.length l - S k).
Proof.
  intros H. destruct l as [|d l]; [cbn in H; lia|]. rewrite (nth_error_nth' _ d) by now rewrite rev_length.
  rewrite rev_nth by auto. symmetry. apply nth_error_nth'. lia.
Qed.

Theorem fill_keep (l : list fl) k v : nth_error l k = Some (Some v) -> nth_error (fill_gaps l) k = Some (Some v).
Proof.
  intros H. assert (K : (k < List.length l)%nat) by (apply nth_error_Some; congruence).
  unfold fill_gaps, bfill, ffill. set (m := ffill_from None l). assert (Lm : List.length m = List.length l) by apply ffill_from_length. unfold fl in *.
  rewrite rev_nth_error by (rewrite ffill_from_length, rev_length; lia). rewrite ffill_from_length, rev_length.
  apply ffill_keep. rewrite rev_nth_error by lia. replace (List.length m - S (List.length m - S k))%nat with k by lia. now apply ffill_keep.
Qed.

Theorem fill_source (l : list fl) v : In (Some v) (fill_gaps l) -> In (Some v) l.
Proof.
  unfold fill_gaps, bfill, ffill. intros H. apply in_rev in H. apply ffill_from_in in H as [H|H]; [discriminate|].
  apply in_rev in H. apply ffill_from_in in H as [H|H]; [discriminate|auto].
Qed.


(** a filled series has no gap unless it was empty of values *)
Lemma ffill_gap l : forall x, x <> None -> ~ In None (ffill_from x l).
Proof.
  induction l as [|[y|] l IH]; intros x N H; cbn in H; auto.
  - destruct H as [H|H]; [discriminate|]. apply (IH (Some y)); auto. discriminate.
  - destruct H as [H|H]; [congruence|]. now apply (IH x).
Qed.
Lemma ffill_last l : forall x : fl, (x <> None \/ exists v, In (Some v) l) -> l <> [] -> last (ffill_from x l) None <> None.
Proof.
  induction l as [|[y|] l IH]; intros x Q N; [congruence| |]; cbn [ffill_from].
  - destruct l as [|u l]; [cbn; discriminate|].
    assert (Q2 : last (ffill_from (Some y) (u :: l)) None <> None) by (apply IH; [left; discriminate|discriminate]).
    destruct (ffill_from (Some y) (u :: l)) eqn:E; [destruct u; discriminate|exact Q2].
  - destruct l as [|u l].
    + cbn. destruct Q as [Q|(v & [Q|[]])]; [auto|discriminate].
    + assert (Q2 : last (ffill_from x (u :: l)) None <> None).
      { apply IH; [|discriminate]. destruct Q as [Q|(v & [Q|Q])]; [now left|discriminate|right; eauto]. }
      destruct (ffill_from x (u :: l)) eqn:E; [destruct u; discriminate|exact Q2].
Qed.
Theorem fill_complete (l : list fl) v : In (Some v) l -> ~ In None (fill_gaps l).
Proof.
  intros H G. unfold fill_gaps, bfill, ffill in G. apply in_rev in G. 
  assert (N : l <> []) by (intros ->; destruct H).
  assert (Q := ffill_last l None (or_intror (ex_intro _ v H)) N).
  destruct (exists_last (l := ffill_from None l)) as (m & w & E).
  { intros E. apply (f_equal (@List.length fl)) in E. rewrite ffill_from_length in E. destruct l; [congruence|discriminate]. }
  rewrite E, last_last in Q. rewrite E in G. destruct w as [w|]; [|congruence].
  rewrite rev_app_distr in G. cbn [rev app ffill_from] in G. destruct G as [G|G]; [discriminate|]. revert G. apply ffill_gap. discriminate.
Qed.

Lemma fill_id v : fill_gaps (map Some v) = map Some v.
Proof.
  assert (X : forall l x, ffill_from x (map Some l) = map Some l) by (induction l as [|y l IH]; intros x; cbn; auto; now rewrite IH).
  unfold fill_gaps, bfill, ffill. now rewrite X, <- map_rev, X, map_rev, rev_involutive.
Qed.
Lemma fill_some_eq (l : list fl) : (forall x, In x l -> x <> None) -> fill_gaps l = l.
Proof.
  intros H. assert (X : exists v, l = map Some v).
  { clear -H. induction l as [|[x|] l IH]; [now exists []| |].
    - destruct IH as [v ->]; [intros; apply H; now right|]. now exists (x :: v).
    - exfalso. apply (H None); auto. now left. }
  destruct X as [v ->]. apply fill_id.
Qed.
Lemma fill_idem (l : list fl) : fill_gaps (fill_gaps l) = fill_gaps l.
Proof.
  destruct (existsb (fun x => match x with Some _ => true | None => false end) l) eqn:E.
  - apply existsb_exists in E as ([v|] & I & F); [|discriminate F]. apply fill_some_eq. intros x Hx ->. revert Hx. now apply fill_complete with v.
  - assert (X : l = repeat None (List.length l)).
    { clear -E. induction l as [|[x|] l IH]; cbn in *; [auto|discriminate|]. now rewrite <- IH. }
    assert (Y : forall n, fill_gaps (repeat None n) = repeat None n).
    { intros n. assert (Z : forall n, ffill_from None (repeat None n) = repeat None n) by (intros m; induction m as [|m IH]; cbn; [auto|now rewrite IH]).
      assert (W : forall n, rev (@repeat fl None n) = repeat None n).
      { intros m. induction m as [|m IH]; [reflexivity|]. cbn [repeat rev]. rewrite IH. rewrite <- (repeat_cons m). reflexivity. }
      unfold fill_gaps, bfill, ffill. now rewrite Z, W, Z, W. }
    rewrite X, !Y. reflexivity.
Qed.

Lemma mbar : MBAR_PER_BAR = 1000.
Proof. unfold MBAR_PER_BAR. lra. Qed.

(** ** linear interpolation *)
Definition increasing (x : list R) : Prop := forall j, (S j < List.length x)%nat -> nth j x 0 < nth (S j) x 0.

Lemma alternate_incr a b : alternate a b -> increasing a.
Proof. intros (_ & H & K) j J. specialize (H j ltac:(lia)). specialize (K j J). lra. Qed.

Lemma nth_some_map (v : list R) (c : R) k : (k < List.length v)%nat -> nth k (map (fun z => fdiv z (Some MBAR_PER_BAR)) (map Some v)) None = Some (nth k v 0 / 1000).
Proof.
  intros H. rewrite map_map. rewrite (nth_indep _ None (fdiv (Some 0) (Some MBAR_PER_BAR))) by now rewrite map_length.
  rewrite (map_nth (fun z => fdiv (Some z) (Some MBAR_PER_BAR))). rewrite mbar. unfold fdiv. destruct (Req_EM_T 1000 0); [lra|reflexivity].
Qed.

Theorem interp_inside a v f t : interp1d a (map (fun z => fdiv z (Some MBAR_PER_BAR)) (map Some v)) = Ok f -> increasing a ->
  (nth 0 a 0 <= t <= last a 0 -> exists u, f t = Some u /\ forall lo hi, (forall z, In z v -> lo <= z <= hi) -> lo / 1000 <= u <= hi / 1000) /\
  (t < nth 0 a 0 \/ last a 0 < t -> f t = None).
Proof.
  unfold interp1d. intros H I. destruct (Nat.eqb_spec (List.length a) (List.length (map (fun z => fdiv z (Some MBAR_PER_BAR)) (map Some v)))) as [L|]; [|discriminate].
  destruct (Nat.leb_spec 1 (List.length a)) as [L1|]; [|discriminate]. cbn [andb] in H. apply Ok_inj in H. subst f.
  unfold fl in *. rewrite !map_length in L. assert (N : a <> []) by (intros ->; cbn in L1; lia). rewrite last_is_nth by auto. unfold interp1d_eval. split.
  - intros [A B]. rewrite !Rltb_not by auto. cbn [orb]. destruct (Nat.eqb_spec (List.length a) 1) as [E|E].
    + rewrite (nth_some_map v 0) by lia. eexists. split; [reflexivity|]. intros lo hi X. assert (X1 : lo <= nth 0 v 0 <= hi) by (apply X, nth_In; lia). lra.
    + cbv zeta. destruct (find_interval_spec (fun k => nth k a 0) t (List.length a - 2)) as (P & Q & S0). set (k := find_interval _ t _) in *.
      assert (K : nth k a 0 <= t <= nth (S k) a 0).
      { split; [destruct Q as [->|]; lra|]. destruct (Nat.eq_dec (S k) (List.length a - 1)) as [->|]; [lra|]. left. apply S0. lia. }
      specialize (I k ltac:(lia)). rewrite !(nth_some_map v 0) by lia. unfold fadd, fmul, fsub, fdiv, flift2. destruct (Req_EM_T _ 0); [lra|].
      eexists. split; [reflexivity|]. intros lo hi X. assert (X1 : lo <= nth k v 0 <= hi) by (apply X, nth_In; lia). assert (X2 : lo <= nth (S k) v 0 <= hi) by (apply X, nth_In; lia).
      set (h := nth (S k) a 0 - nth k a 0) in *. set (s := (t - nth k a 0) / h).
      assert (S1 : 0 <= s <= 1).
      { unfold s. split; [apply Rmult_le_pos; [lra|left; apply Rinv_0_lt_compat; unfold h; lra]|].
        apply Rmult_le_reg_r with h; [unfold h; lra|]. unfold Rdiv. rewrite Rmult_assoc, Rinv_l by lra. unfold h. lra. }
      replace (nth k v 0 / 1000 + (nth (S k) v 0 / 1000 - nth k v 0 / 1000) / h * (t - nth k a 0)) with ((1 - s) * (nth k v 0 / 1000) + s * (nth (S k) v 0 / 1000)) by (unfold s; field; lra).
      split; nra.
  - intros [A|A].
    + rewrite (Rltb_of t) by auto. reflexivity.
    + rewrite (Rltb_of _ t) by auto. rewrite orb_true_r. reflexivity.
Qed.

(** ** one step of the capped series *)
Theorem vp_step v temps a n ts vp0 k : vapor_pressure (map Some v) temps a n ts = Ok vp0 -> increasing a -> (k < n)%nat -> List.length temps = n ->
  exists x, nth_error vp0 k = Some x /\
  let sat := fdiv (svp1 (nth k temps None)) (Some 1000) in let t := IZR ts * INR k in
  (nth 0 a 0 <= t <= last a 0 -> exists u, (forall lo hi, (forall z, In z v -> lo <= z <= hi) -> lo / 1000 <= u <= hi / 1000) /\ x = (if flt sat (Some u) then sat else Some u)) /\
  (t < nth 0 a 0 \/ last a 0 < t -> x = None).
Proof.
  unfold vapor_pressure. intros H I K L. destruct (interp1d a _) as [f|] eqn:E; [|discriminate]. cbn [bind] in H. destruct (interp_inside a v f (IZR ts * INR k) E I) as [P Q].
  rewrite zipw_ok in H by (unfold svp; rewrite !map_length, seq_length; exact L). apply Ok_inj in H. subst vp0.
  eexists. split.
  - apply LongwaveProofs.map2_nth.
    + rewrite nth_error_map. unfold svp. rewrite nth_error_map. rewrite (nth_error_nth' temps None) by lia. reflexivity.
    + rewrite nth_error_map, nth_error_seq0 by auto. reflexivity.
  - cbv zeta. rewrite mbar. split.
    + intros T. destruct (P T) as (u & -> & B). exists u. auto.
    + intros T. rewrite (Q T). destruct (fdiv _ _); reflexivity.
Qed.

(** ** the whole record *)
Definition inside (a : list R) (ts : Z) (k : nat) : Prop := nth 0 a 0 <= IZR ts * INR k <= last a 0.

Lemma steps_nat ts tpd : legal_time_step ts -> ts_per_day ts = Ok tpd -> tpd = steps ts.
Proof. intros L H. destruct (steps_mul ts L) as (_ & _ & P). rewrite ts_per_day_steps in H by lia. now apply Ok_inj in H. Qed.

Lemma nth_of_error {A} (l : list A) k x d : nth_error l k = Some x -> nth k l d = x.
Proof. apply nth_error_nth. Qed.

Theorem vapor_columns df prm tiny tb te out v : good_options prm -> good_table (dl_doy df) tiny -> numbers df "vapor_pressure" v ->
  disaggregate df prm tiny tb te = Ok out ->
  let n := (List.length (dl_doy df) * steps (p_time_step prm))%nat in
  exists a b temps vp0,
    set_min_max_hour tiny (map (fun d => d - 1)%nat (dl_doy df)) (List.length (dl_doy df)) (p_time_step prm) (da_prm prm) = Ok (a, b) /\
    alternate a b /\ List.length a = List.length (dl_doy df) /\
    (exists tmin tmax, dict_get (dl_cols df) "t_min" = Some (map Some tmin) /\ dict_get (dl_cols df) "t_max" = Some (map Some tmax) /\ temp tmin tmax n a b (p_time_step prm) tb te = Ok temps) /\
    List.length temps = n /\ dict_get out "temp" = Some (map Some temps) /\
    vapor_pressure (map Some v) (map Some temps) a n (p_time_step prm) = Ok vp0 /\ List.length vp0 = n /\
    dict_get out "vapor_pressure" = Some (fill_gaps vp0).
Proof.
  intros G T V H n. apply disaggregate_inv in H. cbv zeta in H.
  destruct H as (tpd & sw0 & dayl & sw & a & b & tmin & tmax & tminR & tmaxR & tmp & vpd & vp0 & ck0 & ck & lw & pr0 & pr & Hts & _ & Hx & (C1 & C2 & F1 & F2 & Ht) & (Cv & Hv) & _ & _ & _ & (_ & Lt & Lv & _) & Ho).
  pose proof (steps_nat _ _ (go_ts _ G) Hts) as ->. fold n in Ht, Hv, Lt, Lv.
  exists a, b, tmp, vp0. split; auto.
  destruct (extreme_times_of tiny (dl_doy df) (p_time_step prm) (da_prm prm)) as (a' & b' & E2 & La & Al & _); [apply T|apply T|apply G|].
  rewrite Hx in E2. apply Ok_inj in E2. injection E2 as <- <-. split; auto. split; auto.
  assert (Doy : dl_doy (da_df df prm) = dl_doy df) by (unfold da_df; destruct (_ && _)%bool; reflexivity).
  assert (GC : forall name x, col (da_df df prm) name = Ok x -> name <> "daylength" -> dict_get (dl_cols df) name = Some x).
  { intros name x Hc N. unfold col, dict_getitem in Hc. rewrite get_da_df in Hc by auto. destruct (dict_get (dl_cols df) name); [|discriminate]. apply Ok_inj in Hc. now subst. }
  apply finite_inv in F1, F2. subst tmin tmax.
  assert (Vd : vpd = map Some v).
  { apply GC in Cv; [|discriminate]. destruct V as [V _]. rewrite V in Cv. now apply Some_inj in Cv. }
  split; [exists tminR, tmaxR; apply GC in C1, C2; try discriminate; auto|]. split; auto. subst vpd.
  assert (O : dict_get out "temp" = Some (fill_gaps (map Some tmp)) /\ dict_get out "vapor_pressure" = Some (fill_gaps (fill_gaps vp0))).
  { destruct (dict_get (dl_cols (da_df df prm)) "wind").
    - destruct Ho as (w & _ & _ & ->). split; reflexivity.
    - subst out. split; reflexivity. }
  rewrite fill_id, fill_idem in O. destruct O as [O1 O2]. auto.
Qed.

(** steps between the first and the last minimum are capped, and every other
    value is a copy of one of those *)
Theorem vapor_capped df prm tiny tb te out v : good_options prm -> good_table (dl_doy df) tiny -> numbers df "vapor_pressure" v ->
  disaggregate df prm tiny tb te = Ok out ->
  let ts := p_time_step prm in let n := (List.length (dl_doy df) * steps ts)%nat in
  exists a b temps vp,
    set_min_max_hour tiny (map (fun d => d - 1)%nat (dl_doy df)) (List.length (dl_doy df)) ts (da_prm prm) = Ok (a, b) /\
    List.length a = List.length (dl_doy df) /\
    dict_get out "temp" = Some (map Some temps) /\ List.length temps = n /\
    dict_get out "vapor_pressure" = Some vp /\ List.length vp = n /\
    (forall k, (k < n)%nat -> nth 0 a 0 <= IZR ts * INR k <= last a 0 ->
       exists u, nth k vp None = Some u /\ forall s, svp1 (Some (nth k temps 0)) = Some s -> u <= s / 1000) /\
    (forall k u, nth k vp None = Some u ->
       exists j, (j < n)%nat /\ nth 0 a 0 <= IZR ts * INR j <= last a 0 /\ nth j vp None = Some u) /\
    ((exists j, (j < n)%nat /\ nth 0 a 0 <= IZR ts * INR j <= last a 0) -> forall k, (k < n)%nat -> exists u, nth k vp None = Some u).
Proof.
  intros G T V H ts n. destruct (vapor_columns _ _ _ _ _ _ _ G T V H) as (a & b & temps & vp0 & Hx & Al & La & _ & Lt & O1 & Hv & Lv & O2).
  fold ts n in Hx, Lt, Hv, Lv. exists a, b, temps, (fill_gaps vp0). split; auto. split; auto. split; auto. split; auto. split; auto.
  split; [now rewrite fill_gaps_length|].
  pose proof (alternate_incr _ _ Al) as I.
  assert (S : forall k, (k < n)%nat -> nth 0 a 0 <= IZR ts * INR k <= last a 0 ->
     exists u, nth_error vp0 k = Some (Some u) /\ forall s, svp1 (Some (nth k temps 0)) = Some s -> u <= s / 1000).
  { intros k K In. destruct (vp_step v (map Some temps) a n ts vp0 k Hv I K) as (x & E & P & _); [now rewrite map_length|].
    cbv zeta in P. destruct (P In) as (u & _ & ->). clear P.
    assert (N : nth k (map Some temps) None = Some (nth k temps 0)).
    { rewrite (nth_indep _ None (Some 0)) by (rewrite map_length; lia). apply map_nth. }
    unfold fl in *. rewrite N in E. clear N. destruct (svp1 (Some (nth k temps 0))) as [s|].
    - unfold fdiv in E. destruct (Req_EM_T 1000 0); [lra|]. cbn [flt] in E. destruct (Rltb (s / 1000) u) eqn:B.
      + exists (s / 1000). split; auto. intros s' [= <-]. lra.
      + exists u. split; auto. intros s' [= <-]. apply Rltb_false in B. lra.
    - cbn in E. exists u. split; auto. discriminate. }
  split.
  { intros k K In. destruct (S k K In) as (u & E & B). exists u. split; auto. apply nth_error_nth. now apply fill_keep. }
  assert (Src : forall k u, nth k (fill_gaps vp0) None = Some u -> exists j, (j < n)%nat /\ nth_error vp0 j = Some (Some u)).
  { intros k u E. assert (K : (k < List.length (fill_gaps vp0))%nat).
    { destruct (Nat.lt_ge_cases k (List.length (fill_gaps vp0))) as [|Q]; auto. rewrite nth_overflow in E by auto. discriminate. }
    assert (Q : In (Some u) vp0) by (apply fill_source; rewrite <- E; now apply nth_In).
    apply In_nth_error in Q as [j Q]. exists j. split; auto. rewrite <- Lv. apply nth_error_Some. intros Z. pose proof (eq_trans (eq_sym Q) Z) as W. discriminate W. }
  split.
  - intros k u E. destruct (Src k u E) as (j & J & Q). exists j. split; auto. split; [|apply nth_error_nth; now apply fill_keep].
    destruct (vp_step v (map Some temps) a n ts vp0 j Hv I J) as (x & E' & _ & P); [now rewrite map_length|]. pose proof (eq_trans (eq_sym Q) E') as E2. apply Some_inj in E2. subst x.
    cbv zeta in P. destruct (Rlt_dec (IZR ts * INR j) (nth 0 a 0)); [discriminate P; auto|]. destruct (Rlt_dec (last a 0) (IZR ts * INR j)); [discriminate P; auto|]. lra.
  - intros (j & J & In) k K. destruct (S j J In) as (u & E & _). destruct (nth k (fill_gaps vp0) None) as [w|] eqn:W; eauto.
    exfalso. apply (fill_complete vp0 u); [eapply nth_error_In; eauto|]. rewrite <- W. apply nth_In. rewrite fill_gaps_length. lia.
Qed.

(** ** a violating record *)
Lemma pchip_flat_step n x y k t : (forall j, (S j < n)%nat -> x j < x (S j)) -> (1 <= k)%nat -> (k + 2 < n)%nat ->
  y (k - 1)%nat = y k -> y (S (S k)) = y (S k) -> y k < y (S k) -> x k < t < x (S k) -> y k < pchip_eval n x y t < y (S k).
Proof.
  intros I K1 K2 Y1 Y2 Y3 T. unfold pchip_eval. destruct (find_interval_spec x t (n - 2)) as (A & B & C). set (i := find_interval x t (n - 2)) in *.
  assert (E : i = k).
  { destruct (Nat.lt_trichotomy i k) as [L|[L|L]]; auto; exfalso.
    - specialize (C k ltac:(lia)). lra.
    - destruct B as [B|B]; [lia|]. destruct (Nat.eq_dec i (S k)) as [->|]; [lra|]. pose proof (incr_lt n x I (S k) i ltac:(lia)). lra. }
  clearbody i. subst i. clear A B C. cbv zeta.
  assert (H : 0 < pchip_h x k) by (unfold pchip_h; specialize (I k ltac:(lia)); lra).
  assert (D1 : pchip_d n x y k = 0).
  { unfold pchip_d. destruct (Nat.eqb_spec k 0); [lia|]. destruct (Nat.eqb_spec k (n - 1)); [lia|]. unfold pchip_interior.
    assert (M : pchip_m x y (k - 1) = 0) by (unfold pchip_m; replace (S (k - 1)) with k by lia; rewrite Y1; unfold Rdiv, Rminus; rewrite Rplus_opp_r; ring).
    rewrite M, Reqb_refl, orb_true_r. reflexivity. }
  assert (D2 : pchip_d n x y (S k) = 0).
  { unfold pchip_d. destruct (Nat.eqb_spec (S k) 0); [lia|]. destruct (Nat.eqb_spec (S k) (n - 1)); [lia|]. unfold pchip_interior.
    assert (M : pchip_m x y (S k) = 0) by (unfold pchip_m; rewrite Y2; unfold Rdiv, Rminus; rewrite Rplus_opp_r; ring).
    rewrite M, Reqb_refl, orb_true_r. reflexivity. }
  rewrite D1, D2. unfold hermite. cbv zeta. set (s := (t - x k) / pchip_h x k).
  assert (S1 : 0 < s < 1).
  { unfold s. split; [apply Rmult_lt_0_compat; [lra|now apply Rinv_0_lt_compat]|].
    apply Rmult_lt_reg_r with (pchip_h x k); auto. unfold Rdiv. rewrite Rmult_assoc, Rinv_l by lra. unfold pchip_h. lra. }
  clearbody s. rewrite !Rmult_0_r, !Rplus_0_r.
  assert (P : 0 < (1 + 2 * s) * (1 - s) ^ 2) by (apply Rmult_lt_0_compat; nra).
  assert (Q : s ^ 2 * (3 - 2 * s) = 1 - (1 + 2 * s) * (1 - s) ^ 2) by ring. rewrite Q.
  assert (P2 : 0 < s ^ 2 * (3 - 2 * s)) by (apply Rmult_lt_0_compat; nra). split; nra.
Qed.

(** saturated days at 1 C after a day at -20 C *)
Definition wet_frame (doy : list nat) : daily := flat_frame 1 (svp_R 1) doy.

Lemma flat_good t vp doy prm : doy <> [] -> ~ In (upper (p_prec_type prm)) ["TRIANGLE"; "MIX"] -> good_frame (flat_frame t vp doy) prm.
Proof.
  intros N P. constructor; cbn [flat_frame dl_doy]; auto.
  - eexists. split; [reflexivity|]. apply repeat_length.
  - eexists. split; [reflexivity|]. apply repeat_length.
  - exists (repeat t (List.length doy)). split; [reflexivity|]. rewrite map_length. apply repeat_length.
  - exists (repeat t (List.length doy)). split; [reflexivity|]. rewrite map_length. apply repeat_length.
  - eexists. split; [reflexivity|]. rewrite map_length. apply repeat_length.
  - eexists. split; [reflexivity|]. apply repeat_length.
  - eexists. split; [reflexivity|]. apply repeat_length.
  - intros v H. discriminate H.
  - intros v H. discriminate H.
  - intros H. contradiction.
Qed.
Lemma flat_vp t vp doy : numbers (flat_frame t vp doy) "vapor_pressure" (repeat vp (List.length doy)).
Proof. split; [reflexivity|]. rewrite map_length. apply repeat_length. Qed.

Lemma repeat_1 {n d} : (d < n)%nat -> nth d (repeat 1 n) 0 = 1.
Proof. revert d. induction n as [|n IH]; intros [|d] H; cbn; try lia; auto. apply IH. lia. Qed.

Theorem vapor_exceeds doy prm tiny a b : good_options prm -> (p_time_step prm <= 360)%Z -> p_utc_offset prm = false ->
  ~ In (upper (p_prec_type prm)) ["TRIANGLE"; "MIX"] -> good_table doy tiny -> (2 <= List.length doy)%nat ->
  set_min_max_hour tiny (map (fun d => d - 1)%nat doy) (List.length doy) (p_time_step prm) (da_prm prm) = Ok (a, b) -> 0 < nth 0 a 0 ->
  exists out T v s temps vp, disaggregate (wet_frame doy) prm tiny (Some [-20; -20]) None = Ok out /\
    dict_get out "temp" = Some temps /\ dict_get out "vapor_pressure" = Some vp /\
    nth 0 temps None = Some T /\ nth 0 vp None = Some v /\ svp1 (Some T) = Some s /\ s / 1000 < v.
Proof.
  intros G Sub Utc P T N E A0. assert (Nd : doy <> []) by (intros ->; cbn in N; lia).
  destruct (disaggregate_total (wet_frame doy) prm tiny (Some (-20, -20)) None (flat_good 1 (svp_R 1) doy prm Nd P) G T) as [out H].
  change (pair_list (Some (-20, -20))) with (Some [-20; -20]) in H. change (pair_list None) with (@None (list R)) in H.
  exists out.
  assert (V : numbers (wet_frame doy) "vapor_pressure" (repeat (svp_R 1) (List.length doy))) by apply flat_vp.
  destruct (vapor_columns (wet_frame doy) prm tiny _ _ out _ G T V H) as (a' & b' & temps & vp0 & Hx & Al & La & (tmin & tmax & C1 & C2 & Ht) & Lt & O1 & Hv & Lv & O2).
  cbn [wet_frame flat_frame dl_doy] in Hx, La, Ht, Hv, Lt, Lv. rewrite E in Hx. apply Ok_inj in Hx. injection Hx as <- <-.
  assert (inj : forall l l' : list R, map Some l = map Some l' -> l = l').
  { induction l as [|z l IH]; intros [|z' l']; cbn; intros Q; try discriminate; auto. injection Q as -> Q. f_equal. auto. }
  cbn in C1, C2. apply Some_inj in C1, C2. apply inj in C1, C2. subst tmin tmax.
  set (n := (List.length doy * steps (p_time_step prm))%nat) in *. set (ts := p_time_step prm) in *.
  assert (Na : a <> []) by (intros ->; cbn in La; lia). assert (Nb : b <> []) by (intros ->; destruct Al as [Al _]; cbn in Al; lia).
  pose proof (alternate_incr _ _ Al) as Inc.
  assert (Lab : List.length a = List.length b) by apply Al.
  destruct (steps_mul ts (go_ts _ G)) as (Em & Sp & Tp).
  assert (Tp' : 0 < IZR ts) by (apply IZR_lt; lia).
  destruct (temp_ok a b (repeat 1 (List.length doy)) (repeat 1 (List.length doy)) n ts (Some (-20, -20)) None Al Na) as (f & Pf & Et & Kn & Su); [now rewrite repeat_length|now rewrite repeat_length|].
  change (pair_list (Some (-20, -20))) with (Some [-20; -20]) in Et. change (pair_list None) with (@None (list R)) in Et.
  rewrite Ht in Et. apply Ok_inj in Et. cbv zeta in Kn, Su. cbn [day_before fst snd] in Kn, Su.
  set (da := day_after None _ _) in *.
  assert (Da : da = (1, 1)).
  { unfold da, day_after. f_equal; rewrite last_is_nth by (intros Q; apply (f_equal (@List.length R)) in Q; rewrite repeat_length in Q; cbn in Q; lia);
      rewrite repeat_length; apply repeat_1; lia. }
  rewrite Da in *. clear Da da. cbn [fst snd] in Kn, Su.
  assert (Vv : forall d, (d < List.length a + 2)%nat -> nth d (ext_values (-20) (repeat 1 (List.length doy)) 1) 0 = if (d =? 0)%nat then -20 else 1).
  { intros [|d] D; [reflexivity|]. unfold ext_values. cbn [nth Nat.eqb]. destruct (Nat.lt_ge_cases d (List.length doy)).
    - rewrite app_nth1 by now rewrite repeat_length. now apply repeat_1.
    - rewrite app_nth2; rewrite repeat_length; [|lia]. replace (d - List.length doy)%nat with 0%nat by lia. reflexivity. }
  (* temperatures between the minima *)
  assert (B0 : nth 0 a 0 < nth 0 b 0 < nth 0 a 0 + 1440) by (apply Al; lia).
  assert (TB0 : nth 0 (ext_times b) 0 = nth 0 b 0 - 1440) by (rewrite ext_nth by (auto; lia); reflexivity).
  assert (TA1 : nth 1 (ext_times a) 0 = nth 0 a 0).
  { rewrite ext_nth by (auto; lia). destruct (Nat.eqb_spec 1 0); [lia|]. destruct (Nat.leb_spec 1 (List.length a)); [|lia]. reflexivity. }
  assert (One : forall t, nth 0 a 0 <= t <= last a 0 -> f t = 1).
  { intros t [T1 T2]. destruct (Req_dec t (nth 0 a 0)) as [->|Ne].
    - destruct (Kn 1%nat ltac:(lia)) as [K1 _]. rewrite TA1, Vv in K1 by lia. exact K1.
    - assert (Last : last a 0 <= nth (List.length a + 1) (ext_times b) 0).
      { rewrite last_is_nth by auto. rewrite ext_nth by (auto; lia). destruct (Nat.eqb_spec (List.length a + 1) 0); [lia|].
        destruct (Nat.leb_spec (List.length a + 1) (List.length b)); [lia|]. rewrite <- Lab.
        assert (nth (List.length a - 1) a 0 < nth (List.length a - 1) b 0) by (apply Al; lia). lra. }
      destruct (Su t) as (d & [(D & Q & Z)|(D & Q & Z)]).
      + split; [|lra]. rewrite ext_nth by (auto; lia). cbn [Nat.eqb]. lra.
      + destruct d as [|d]; [rewrite TB0 in Q; lra|]. rewrite !Vv in Z by lia. cbn [Nat.eqb] in Z. unfold between, Rmin, Rmax in Z. destruct (Rle_dec 1 1); lra.
      + destruct d as [|d]; [rewrite TA1 in Q; lra|]. rewrite !Vv in Z by lia. cbn [Nat.eqb] in Z. unfold between, Rmin, Rmax in Z. destruct (Rle_dec 1 1); lra. }
  (* temperature of the first step *)
  assert (LA : List.length (ext_times a) = List.length (ext_times b)) by (rewrite !ext_length; lia).
  assert (Sh : shift_of (da_prm prm) = 0) by (unfold shift_of; change (p_utc_offset (da_prm prm)) with (p_utc_offset prm); now rewrite Utc).
  destruct (extreme_times_of tiny doy ts (da_prm prm)) as (a2 & b2 & E2 & _ & _ & R1); [apply T|apply T|apply G|].
  rewrite E in E2. apply Ok_inj in E2. injection E2 as <- <-. rewrite Sh in R1.
  assert (B14 : nth 0 b 0 < 1440).
  { destruct (R1 0%nat ltac:(lia)) as (r0 & U0 & _ & ->). destruct (rise_set r0 U0) as ((P1 & P2) & P3 & _). pose proof (go_frac _ G) as F.
    change (p_tmax_frac (da_prm prm)) with (p_tmax_frac prm).
    assert (p_tmax_frac prm * (set_time r0 - rise_time r0) <= 1 * (set_time r0 - rise_time r0)) by (apply Rmult_le_compat_r; lra). cbn [INR]. lra. }
  assert (Cold : -20 < f 0 < 1).
  { destruct (pchip_made _ _ _ Pf) as (_ & _ & Ic & _ & _). unfold PchipInterpolator in Pf. destruct (_ && _)%bool; [|discriminate]. apply Ok_inj in Pf. rewrite <- Pf. clear Pf.
    rewrite (times_interleave a b) in * by auto.
    rewrite values_interleave by (rewrite ?repeat_length; auto; intros Q; apply (f_equal (@List.length R)) in Q; rewrite repeat_length in Q; cbn in Q; lia).
    cbn [day_before fst snd]. replace (day_after None (repeat 1 (List.length doy)) (repeat 1 (List.length doy))) with (1, 1).
    2:{ unfold day_after. f_equal; rewrite last_is_nth by (intros Q; apply (f_equal (@List.length R)) in Q; rewrite repeat_length in Q; cbn in Q; lia);
      rewrite repeat_length; symmetry; apply repeat_1; lia. }
    cbn [fst snd]. set (VV := ext_values (-20) (repeat 1 (List.length doy)) 1) in *.
    assert (IT := fun i => interleave_nth (ext_times a) (ext_times b) i LA). assert (IV := fun i => interleave_nth VV VV i eq_refl).
    destruct (IT 0%nat) as [_ I1]. destruct (IT 1%nat) as [I2 _]. cbn [Nat.mul Nat.add] in I1, I2. rewrite TB0 in I1. rewrite TA1 in I2.
    destruct (IV 0%nat) as [Y0 Y1]. destruct (IV 1%nat) as [Y2 Y3]. cbn [Nat.mul Nat.add] in Y0, Y1, Y2, Y3. rewrite Vv in Y0, Y1, Y2, Y3 by lia. cbn [Nat.eqb] in Y0, Y1, Y2, Y3.
    pose proof (pchip_flat_step (List.length (interleave (ext_times a) (ext_times b))) (fun k => nth k (interleave (ext_times a) (ext_times b)) 0)
      (fun k => nth k (interleave VV VV) 0) 1 0 Ic (le_n 1)) as X. cbv beta in X. cbn [Nat.sub] in X. rewrite Y0, Y1, Y2, Y3, I1, I2 in X.
    apply X; try lra; try (split; lra); try reflexivity. rewrite interleave_length by auto. rewrite ext_length. lia. }
  (* a step between the minima *)
  assert (Ex : exists j, (j < n)%nat /\ nth 0 a 0 <= IZR ts * INR j <= last a 0).
  { destruct (R1 0%nat ltac:(lia)) as (r0 & U0 & Q0 & _). destruct (R1 1%nat ltac:(lia)) as (r1 & U1 & Q1 & _).
    destruct (rise_set r0 U0) as ((P1 & P2) & P3 & P4 & P5 & _). destruct (rise_set r1 U1) as ((P1' & P2') & P3' & P4' & P5' & _).
    cbn [INR] in Q0, Q1.
    assert (La1 : nth 1 a 0 <= last a 0).
    { rewrite last_is_nth by auto. destruct (Nat.eq_dec (List.length a - 1) 1) as [->|]; [lra|]. left. apply (incr_lt (List.length a) (fun k => nth k a 0) Inc). lia. }
    set (z := up (nth 0 a 0 / IZR ts)). destruct (archimed (nth 0 a 0 / IZR ts)) as [Z1 Z2]. fold z in Z1, Z2.
    assert (Q : nth 0 a 0 = nth 0 a 0 / IZR ts * IZR ts) by (field; lra).
    assert (Zp : 0 < IZR z) by (apply Rlt_trans with (2 := Z1); apply Rmult_lt_0_compat; [lra|now apply Rinv_0_lt_compat]).
    assert (Zz : (0 < z)%Z) by (now apply lt_IZR).
    assert (T3 : IZR ts <= 360) by (apply IZR_le; lia).
    assert (B1 : nth 0 a 0 < IZR z * IZR ts) by (rewrite Q at 1; apply Rmult_lt_compat_r; lra).
    assert (B2 : IZR z * IZR ts <= nth 0 a 0 + IZR ts).
    { replace (nth 0 a 0 + IZR ts) with ((nth 0 a 0 / IZR ts + 1) * IZR ts) by (field; lra). apply Rmult_le_compat_r; lra. }
    exists (Z.to_nat z). rewrite INR_IZR_INZ, Z2Nat.id by lia. split; [|lra].
    assert (B3 : IZR z * IZR ts < 1440) by lra. rewrite <- mult_IZR in B3. apply lt_IZR in B3.
    unfold n. assert (Z.of_nat (steps ts) * ts = 1440)%Z.
    { replace ts with (Z.of_nat (Z.to_nat ts)) at 2 by lia. rewrite <- Nat2Z.inj_mul, Em. reflexivity. }
    apply Nat2Z.inj_lt. rewrite Nat2Z.inj_mul, Z2Nat.id by lia. nia. }
  assert (n0 : (0 < n)%nat) by (destruct Ex as (j & J & _); lia).
  assert (S1 : svp1 (Some 1) = Some (svp_R 1)) by (apply svp1_some; lra).
  assert (Tn : forall k, (k < n)%nat -> nth k (map Some temps) None = Some (f (IZR ts * INR k))).
  { intros k K. rewrite Et. apply nth_error_nth. rewrite !nth_error_map, nth_error_seq0 by auto. reflexivity. }
  assert (St : forall j, (j < n)%nat -> (nth 0 a 0 <= IZR ts * INR j <= last a 0 /\ nth_error vp0 j = Some (Some (svp_R 1 / 1000))) \/ nth_error vp0 j = Some None).
  { intros j J. destruct (vp_step _ (map Some temps) a n ts vp0 j Hv Inc J) as (x & Ex' & P1 & P2); [now rewrite map_length|]. cbv zeta in P1, P2.
    destruct (Rlt_dec (IZR ts * INR j) (nth 0 a 0)) as [L|L]; [right; rewrite Ex', P2; auto|].
    destruct (Rlt_dec (last a 0) (IZR ts * INR j)) as [L'|L']; [right; rewrite Ex', P2; auto|].
    left. assert (Ins : nth 0 a 0 <= IZR ts * INR j <= last a 0) by lra. split; auto. destruct (P1 Ins) as (u & Bu & Xu).
    assert (Uu : u = svp_R 1 / 1000).
    { specialize (Bu (svp_R 1) (svp_R 1)). assert (forall z, In z (repeat (svp_R 1) (List.length doy)) -> svp_R 1 <= z <= svp_R 1); [|specialize (Bu H0); lra].
      intros z Hz. apply repeat_spec in Hz. subst. lra. }
    rewrite Ex', Xu. unfold fl in *. rewrite Tn by auto. rewrite One by auto. rewrite S1. unfold fdiv. destruct (Req_EM_T 1000 0); [lra|].
    subst u. cbn [flt]. rewrite Rltb_not by lra. reflexivity. }
  assert (V0 : nth 0 (fill_gaps vp0) None = Some (svp_R 1 / 1000)).
  { destruct Ex as (j & J & Ins). destruct (St j J) as [[_ Ej]|Ej].
    2:{ destruct (vp_step _ (map Some temps) a n ts vp0 j Hv Inc J) as (x & Ex' & P1 & _); [now rewrite map_length|]. cbv zeta in P1. destruct (P1 Ins) as (u & _ & Xu).
        pose proof (eq_trans (eq_sym Ej) Ex') as W. apply Some_inj in W. rewrite Xu in W. unfold fl in *. rewrite Tn, One, S1 in W by auto. unfold fdiv in W. destruct (Req_EM_T 1000 0); [lra|].
        cbn [flt] in W. destruct (Rltb (svp_R 1 / 1000) u); discriminate W. }
    assert (I0 : In (nth 0 (fill_gaps vp0) None) (fill_gaps vp0)) by (apply nth_In; rewrite fill_gaps_length; lia).
    destruct (nth 0 (fill_gaps vp0) None) as [w|].
    - apply fill_source in I0. apply In_nth_error in I0 as [i Hi].
      assert (Li : (i < n)%nat) by (rewrite <- Lv; apply nth_error_Some; intros Z; pose proof (eq_trans (eq_sym Hi) Z) as W; discriminate W).
      destruct (St i Li) as [[_ Ei]|Ei]; pose proof (eq_trans (eq_sym Hi) Ei) as W; [now apply Some_inj in W|discriminate W].
    - exfalso. revert I0. apply fill_complete with (svp_R 1 / 1000). eapply nth_error_In; eauto. }
  exists (f 0), (svp_R 1 / 1000), (svp_R (f 0)), (map Some temps), (fill_gaps vp0).
  split; [exact H|]. split; [exact O1|]. split; [exact O2|]. split; [rewrite Tn by auto; cbn [INR]; now rewrite Rmult_0_r|]. split; [exact V0|].
  split; [apply svp1_some; lra|]. assert (svp_R (f 0) < svp_R 1) by (apply svp_R_incr; lra). lra.
Qed.

(** ** where vapor pressure is defined *)
Lemma shift_bound prm : p_utc_offset prm = false \/ p_theta_s prm = 0 -> -720 <= shift_of (da_prm prm) <= 720.
Proof.
  intros H. unfold shift_of. change (p_utc_offset (da_prm prm)) with (p_utc_offset prm). destruct (p_utc_offset prm); [|lra].
  destruct H as [H|H]; [discriminate|]. rewrite temp_shift_same by exact H.
  change (p_lon (da_prm prm)) with (remainder360 (p_lon prm)). destruct (remainder_range (p_lon prm)) as [B _].
  unfold utc_minutes. rewrite minutes_arg. set (L := remainder360 (p_lon prm)) in *.
  destruct (Rtrunc_spec (4 * L)) as [P1 P2]. destruct (Rle_lt_dec 0 L); [specialize (P1 ltac:(lra))|specialize (P2 ltac:(lra))]; lra.
Qed.

Lemma step_between_minima doy tiny prm a b : good_options prm -> good_table doy tiny -> (p_time_step prm <= 360)%Z ->
  p_utc_offset prm = false \/ p_theta_s prm = 0 -> (2 <= List.length doy)%nat ->
  set_min_max_hour tiny (map (fun d => d - 1)%nat doy) (List.length doy) (p_time_step prm) (da_prm prm) = Ok (a, b) ->
  exists j, (j < List.length doy * steps (p_time_step prm))%nat /\ nth 0 a 0 <= IZR (p_time_step prm) * INR j <= last a 0.
Proof.
  intros G T Sub U N E. set (ts := p_time_step prm) in *. destruct (steps_mul ts (go_ts _ G)) as (Em & Sp & Tp).
  assert (Tp' : 0 < IZR ts) by (apply IZR_lt; lia). assert (T3 : IZR ts <= 360) by (apply IZR_le; lia).
  destruct (extreme_times_of tiny doy ts (da_prm prm)) as (a2 & b2 & E2 & La & Al & R1); [apply T|apply T|apply G|].
  rewrite E in E2. apply Ok_inj in E2. injection E2 as <- <-. pose proof (shift_bound prm U) as Sh.
  assert (Na : a <> []) by (intros ->; cbn in La; lia).
  destruct (R1 0%nat ltac:(lia)) as (r0 & U0 & Q0 & _). destruct (R1 1%nat ltac:(lia)) as (r1 & U1 & Q1 & _).
  destruct (rise_set r0 U0) as ((P1 & P2) & P3 & P4 & P5 & _). destruct (rise_set r1 U1) as ((P1' & P2') & P3' & P4' & P5' & _).
  cbn [INR] in Q0, Q1.
  assert (La1 : nth 1 a 0 <= last a 0).
  { rewrite last_is_nth by auto. destruct (Nat.eq_dec (List.length a - 1) 1) as [->|]; [lra|]. left. apply (incr_lt (List.length a) (fun k => nth k a 0) (alternate_incr _ _ Al)). lia. }
  assert (S1 : (Z.of_nat (steps ts) * ts = 1440)%Z).
  { replace ts with (Z.of_nat (Z.to_nat ts)) at 2 by lia. rewrite <- Nat2Z.inj_mul, Em. reflexivity. }
  destruct (Rle_lt_dec (nth 0 a 0) 0) as [L|L].
  - exists 0%nat. cbn [INR]. rewrite Rmult_0_r. split; [nia|lra].
  - set (z := up (nth 0 a 0 / IZR ts)). destruct (archimed (nth 0 a 0 / IZR ts)) as [Z1 Z2]. fold z in Z1, Z2.
    assert (Q : nth 0 a 0 = nth 0 a 0 / IZR ts * IZR ts) by (field; lra).
    assert (Zp : 0 < IZR z) by (apply Rlt_trans with (2 := Z1); apply Rmult_lt_0_compat; [lra|now apply Rinv_0_lt_compat]).
    assert (Zz : (0 < z)%Z) by (now apply lt_IZR).
    assert (B1 : nth 0 a 0 < IZR z * IZR ts) by (rewrite Q at 1; apply Rmult_lt_compat_r; lra).
    assert (B2 : IZR z * IZR ts <= nth 0 a 0 + IZR ts).
    { replace (nth 0 a 0 + IZR ts) with ((nth 0 a 0 / IZR ts + 1) * IZR ts) by (field; lra). apply Rmult_le_compat_r; lra. }
    exists (Z.to_nat z). rewrite INR_IZR_INZ, Z2Nat.id by lia. split; [|lra].
    assert (B3 : IZR z * IZR ts < 2880) by lra. rewrite <- mult_IZR in B3. apply lt_IZR in B3.
    apply Nat2Z.inj_lt. rewrite Nat2Z.inj_mul, Z2Nat.id by lia. nia.
Qed.

Theorem vapor_defined df prm tiny tb te out v : good_options prm -> good_table (dl_doy df) tiny -> numbers df "vapor_pressure" v ->
  (p_time_step prm <= 360)%Z -> p_utc_offset prm = false \/ p_theta_s prm = 0 -> (2 <= List.length (dl_doy df))%nat ->
  disaggregate df prm tiny tb te = Ok out ->
  exists vp, dict_get out "vapor_pressure" = Some vp /\ List.length vp = (List.length (dl_doy df) * steps (p_time_step prm))%nat /\ forall x, In x vp -> x <> None.
Proof.
  intros G T V Sub U N H. destruct (vapor_capped _ _ _ _ _ _ _ G T V H) as (a & b & temps & vp & Hx & _ & _ & _ & O & L & _ & _ & D).
  exists vp. split; auto. split; auto. specialize (D (step_between_minima _ _ _ _ _ G T Sub U N Hx)).
  intros x I ->. apply (In_nth vp _ None) in I as (k & K & E). rewrite L in K. destruct (D k K) as [u E']. pose proof (eq_trans (eq_sym E) E') as W. discriminate W.
Qed.

(** a single day has one minimum, and only a step exactly there is defined *)
Theorem one_day_undefined df prm tiny tb te out v : good_options prm -> good_table (dl_doy df) tiny -> numbers df "vapor_pressure" v ->
  List.length (dl_doy df) = 1%nat -> disaggregate df prm tiny tb te = Ok out ->
  exists a b, set_min_max_hour tiny (map (fun d => d - 1)%nat (dl_doy df)) 1 (p_time_step prm) (da_prm prm) = Ok (a, b) /\
    ((forall k, IZR (p_time_step prm) * INR k <> nth 0 a 0) ->
     exists vp, dict_get out "vapor_pressure" = Some vp /\ List.length vp = steps (p_time_step prm) /\ forall x, In x vp -> x = None).
Proof.
  intros G T V N H. destruct (vapor_capped _ _ _ _ _ _ _ G T V H) as (a & b & temps & vp & Hx & La & _ & _ & O & L & _ & D & _).
  rewrite N in *. exists a, b. split; auto. intros K. exists vp. split; auto. split; [lia|].
  intros x I. apply (In_nth _ _ None) in I as (k & _ & E). destruct x as [u|]; auto. exfalso. destruct (D k u E) as (j & _ & B & _).
  destruct a as [|a0 [|? ?]]; cbn in La; try lia. cbn [nth last] in B. apply (K j). cbn [nth]. lra.
Qed.

(** ** a year without radiation *)
Lemma dark_rise : rise_time (repeat 0 RAD_STEPS) = 240.
Proof. destruct times_example as (g & a & b & _ & _ & _ & _ & _ & H). exact H. Qed.
Lemma dark_good doy : days_valid doy -> good_table doy dark_year.
Proof.
  intros D. constructor.
  - intros r Hr. apply repeat_spec in Hr. subst. apply repeat_length.
  - intros r Hr. apply repeat_spec in Hr. subst. left. intros x Hx. apply repeat_spec in Hx. subst. lra.
  - apply days_in_table; [exact D|apply repeat_length].
Qed.
Lemma dark_times doy ts prm a b : p_utc_offset prm = false -> days_valid doy -> (0 < List.length doy)%nat -> 0 < p_tmax_frac prm <= 1 ->
  set_min_max_hour dark_year (map (fun d => d - 1)%nat doy) (List.length doy) ts prm = Ok (a, b) -> nth 0 a 0 = 240 - IZR ts.
Proof.
  intros U D L F E. assert (Q : exists rows, mapM (getitem dark_year) (map (fun d => d - 1)%nat doy) = Ok rows /\ forall r, In r rows -> r = repeat 0 RAD_STEPS).
  { destruct (rows_found dark_year doy) as (rows & M & _); [apply (dark_good doy D)|apply (dark_good doy D)|]. exists rows. split; auto.
    apply mapM_inv in M. clear -M. induction M as [|y r ys rows H _ IH]; [intros ? []|]. intros x [<-|Hx]; auto.
    unfold getitem in H. destruct (nth_error dark_year y) eqn:Z; [|discriminate]. apply Ok_inj in H. subst. apply nth_error_In in Z. now apply repeat_spec in Z. }
  destruct Q as (rows & M & Q). destruct (times_of dark_year _ ts prm rows M) as (a' & b' & E' & La & _ & T).
  rewrite map_length in E', La. rewrite E in E'. apply Ok_inj in E'. injection E' as <- <-.
  assert (Lr : List.length rows = List.length doy) by (apply mapM_inv, Forall2_len in M; now rewrite map_length in M).
  destruct rows as [|r rows]; [cbn in Lr; lia|]. destruct (T 0%nat r eq_refl) as [-> _].
  rewrite (Q r (or_introl eq_refl)), dark_rise. unfold shift_of. rewrite U. cbn [INR]. lra.
Qed.

Lemma demo_good ts : legal_time_step ts -> good_options (demo_step ts).
Proof. intros L. constructor; cbn [demo_step p_time_step p_tmax_frac p_lw_type p_lw_cloud]; auto; [lra|cbn; tauto|cbn; tauto]. Qed.
Lemma demo_uniform ts : ~ In (upper (p_prec_type (demo_step ts))) ["TRIANGLE"; "MIX"].
Proof. cbn. intros [H|[H|[]]]; discriminate H. Qed.
Lemma days_12 : days_valid [1; 2]%nat.
Proof. intros k [<-|[<-|[]]]; lia. Qed.

(** ** C29 *)
Theorem saturation_refuted : ~ (forall df prm tiny tb te out temps vp k T v s,
  good_frame df prm -> good_options prm -> good_table (dl_doy df) tiny -> (exists w, numbers df "vapor_pressure" w) ->
  disaggregate df prm tiny (pair_list tb) (pair_list te) = Ok out ->
  dict_get out "temp" = Some temps -> dict_get out "vapor_pressure" = Some vp ->
  nth k temps None = Some T -> nth k vp None = Some v -> svp1 (Some T) = Some s -> v <= s / 1000).
Proof.
  intros C. pose proof (demo_good 60 legal_60) as G. pose proof (dark_good _ days_12) as D.
  destruct (extreme_times_of dark_year [1; 2]%nat 60 (da_prm (demo_step 60))) as (a & b & E & _); [apply D|apply D|cbn; lra|].
  assert (A : nth 0 a 0 = 240 - 60) by (apply (dark_times [1; 2]%nat 60 (da_prm (demo_step 60)) a b); auto; [apply days_12|cbn; lia|cbn; lra]).
  destruct (vapor_exceeds [1; 2]%nat (demo_step 60) dark_year a b G) as (out & T & v & s & temps & vp & H & O1 & O2 & T0 & V0 & S0 & Lt); auto.
  - cbn. lia.
  - apply demo_uniform.
  - lra.
  - assert (Q : v <= s / 1000); [|lra].
    refine (C (wet_frame [1; 2]%nat) (demo_step 60) dark_year (Some (-20, -20)) None out temps vp 0%nat T v s _ G D _ H O1 O2 T0 V0 S0).
    + apply flat_good; [discriminate|apply demo_uniform].
    + eexists. apply flat_vp.
Qed.

Theorem flat_runs t vp doy ts : legal_time_step ts -> doy <> [] -> days_valid doy ->
  good_frame (flat_frame t vp doy) (demo_step ts) /\ good_options (demo_step ts) /\ good_table doy dark_year /\
  numbers (flat_frame t vp doy) "vapor_pressure" (repeat vp (List.length doy)) /\
  exists out, disaggregate (flat_frame t vp doy) (demo_step ts) dark_year None None = Ok out.
Proof.
  intros L N D. pose proof (flat_good t vp doy (demo_step ts) N (demo_uniform ts)) as F. pose proof (demo_good ts L) as G. pose proof (dark_good doy D) as T.
  exact (conj F (conj G (conj T (conj (flat_vp t vp doy) (disaggregate_total (flat_frame t vp doy) (demo_step ts) dark_year None None F G T))))).
Qed.

Theorem one_day_example : exists out vp, disaggregate (flat_frame 5 600 [1%nat]) (demo_step 360) dark_year None None = Ok out /\
  dict_get out "vapor_pressure" = Some vp /\ List.length vp = 4%nat /\ forall x, In x vp -> x = None.
Proof.
  assert (D : days_valid [1%nat]) by (intros k [<-|[]]; lia).
  destruct (flat_runs 5 600 [1%nat] 360 legal_360 ltac:(discriminate) D) as (F & G & T & V & out & H).
  destruct (one_day_undefined (flat_frame 5 600 [1%nat]) _ _ _ _ _ _ G T V eq_refl H) as (a & b & E & U).
  assert (A : nth 0 a 0 = 240 - 360) by (apply (dark_times [1%nat] 360 (da_prm (demo_step 360)) a b); auto; cbn; (lia || lra)).
  destruct U as (vp & O & L & X).
  - intros k. rewrite A. cbn [demo_step p_time_step]. pose proof (pos_INR k). nra.
  - exists out, vp. exact (conj H (conj O (conj L X))).
Qed.

Theorem one_day_refuted : ~ (forall df prm tiny tb te out v,
  good_frame df prm -> good_options prm -> good_table (dl_doy df) tiny -> numbers df "vapor_pressure" v ->
  (p_time_step prm <= 360)%Z -> disaggregate df prm tiny (pair_list tb) (pair_list te) = Ok out ->
  exists vp, dict_get out "vapor_pressure" = Some vp /\ forall x, In x vp -> x <> None).
Proof.
  intros C. destruct one_day_example as (out & vp & H & O & L & X). assert (D : days_valid [1%nat]) by (intros k [<-|[]]; lia).
  destruct (flat_runs 5 600 [1%nat] 360 legal_360 ltac:(discriminate) D) as (F & G & T & V & _).
  destruct (C (flat_frame 5 600 [1%nat]) _ _ None None out _ F G T V ltac:(cbn; lia) H) as (vp' & O' & X').
  pose proof (eq_trans (eq_sym O) O') as W. apply Some_inj in W. subst vp'. destruct vp as [|x vp]; [discriminate L|].
  apply (X' x); [now left|apply X; now left].
Qed.
