(** C26-C28: sub-daily temperature. *)
From Coq Require Import ZArith Reals List Bool Arith Lia Lra.
From Verif Require Import Model.Py Model.Fl Model.Np Model.Constants Model.Physics Model.Params Model.Interp Model.Disagg
  Spec.TimeSpec Spec.SeriesSpec Spec.SolarSpec Spec.TempSpec Spec.ShortSpec Proofs.Base Proofs.ArrayProofs Proofs.PrecProofs Proofs.LongwaveProofs
  Proofs.RBase Proofs.StateProofs Proofs.SolarProofs Proofs.SolarTables Proofs.ShortwaveProofs Proofs.PchipProofs Proofs.SolarExamples.
Import ListNotations.
Local Open Scope list_scope.
Local Open Scope R_scope.

(** ** sunrise and sunset *)
Lemma last_event_snoc p l m : last_event p (l ++ [m]) = if p m then INR (List.length l) * (SW_RAD_DT / SEC_PER_MIN) else last_event p l.
Proof.
  unfold last_event. rewrite app_length. cbn [List.length]. rewrite seq_app. cbn [seq Nat.add].
  rewrite combine_app by apply seq_length. rewrite fold_left_app. reflexivity.
Qed.

Lemma last_event_none p l : (forall m, In m l -> p m = false) -> last_event p l = 0.
Proof.
  induction l as [|m l IH] using rev_ind; intros H; [reflexivity|]. rewrite last_event_snoc, H by (apply in_or_app; right; now left).
  apply IH. intros x Hx. apply H, in_or_app. now left.
Qed.

Lemma last_event_one p l j : (j < List.length l)%nat -> p (nth j l 0%Z) = true ->
  (forall i, (i < List.length l)%nat -> i <> j -> p (nth i l 0%Z) = false) -> last_event p l = INR j / 2.
Proof.
  revert j. induction l as [|m l IH] using rev_ind; intros j J P Q; [cbn in J; lia|].
  rewrite app_length in *. cbn [List.length] in *. rewrite last_event_snoc. destruct (Nat.eq_dec j (List.length l)) as [->|N].
  - rewrite app_nth2, Nat.sub_diag in P by lia. cbn in P. rewrite P. unfold SW_RAD_DT, SEC_PER_MIN. lra.
  - assert (Pm : p m = false).
    { specialize (Q (List.length l) ltac:(lia) ltac:(lia)). now rewrite app_nth2, Nat.sub_diag in Q by lia. }
    rewrite Pm. apply IH; [lia| |].
    + now rewrite app_nth1 in P by lia.
    + intros i Hi Hn. specialize (Q i ltac:(lia) Hn). now rewrite app_nth1 in Q by lia.
Qed.

Lemma diff_length l : List.length (np_diffZ l) = (List.length l - 1)%nat.
Proof. induction l as [|a [|b l] IH]; auto. cbn [np_diffZ List.length] in *. rewrite IH. lia. Qed.
Lemma diff_nth l j : (S j < List.length l)%nat -> nth j (np_diffZ l) 0%Z = (nth (S j) l 0 - nth j l 0)%Z.
Proof.
  revert j. induction l as [|a [|b l] IH]; intros j J; cbn in J; try lia. destruct j as [|j]; [reflexivity|].
  change (nth (S j) (np_diffZ (a :: b :: l)) 0%Z) with (nth j (np_diffZ (b :: l)) 0%Z). rewrite (IH j) by (cbn; lia). reflexivity.
Qed.

Lemma mask_nth row j : nth j (rad_mask row) 0%Z = if Rltb 0 (nth j row 0) then 1%Z else 0%Z.
Proof.
  unfold rad_mask. rewrite <- (map_nth (fun x => if Rltb 0 x then 1%Z else 0%Z)). f_equal. now rewrite Rltb_not by lra.
Qed.

Lemma day_tot_value : day_tot = 1440.
Proof. unfold day_tot, SEC_PER_DAY, SW_RAD_DT, SEC_PER_MIN. lra. Qed.


Lemma rad_steps_value : RAD_STEPS = Z.to_nat 2880.
Proof. reflexivity. Qed.

Theorem rise_set row : usable row -> 0 < rise_time row < set_time row /\ set_time row < 1440 /\
  rise_time row < 720 /\ 720 <= set_time row /\ 719 <= rise_time row + 2 / 3 * (set_time row - rise_time row).
Proof.
  unfold rise_time, set_time. cbv zeta. rewrite day_tot_value. intros [D|(a & b & B1 & B2 & L & H)].
  - assert (M : forall m, In m (np_diffZ (rad_mask row)) -> m = 0%Z).
    { intros m Hm. apply (In_nth _ _ 0%Z) in Hm as (j & J & <-). rewrite diff_length in J. unfold rad_mask in J. rewrite map_length in J.
      rewrite diff_nth by (unfold rad_mask; rewrite map_length; lia). rewrite !mask_nth.
      rewrite !Rltb_not; [reflexivity| |]; apply D, nth_In; lia. }
    rewrite !last_event_none by (intros m Hm; rewrite (M m Hm); reflexivity). rewrite Reqb_refl. lra.
  - rewrite rad_steps_value in *.
    assert (Lm : List.length (np_diffZ (rad_mask row)) = Z.to_nat 2879).
    { rewrite diff_length. unfold rad_mask. rewrite map_length, L. lia. }
    assert (M : forall j, (j < Z.to_nat 2879)%nat -> nth j (np_diffZ (rad_mask row)) 0%Z =
      ((if (a <=? S j)%nat && (S j <=? b)%nat then 1 else 0) - (if (a <=? j)%nat && (j <=? b)%nat then 1 else 0))%Z).
    { intros j J. rewrite diff_nth by (unfold rad_mask; rewrite map_length, L; lia). rewrite !mask_nth. f_equal.
      - destruct (Rltb 0 (nth (S j) row 0)) eqn:Q.
        + apply Rltb_true, H in Q; [|lia]. destruct (Nat.leb_spec a (S j)), (Nat.leb_spec (S j) b); cbn; lia.
        + apply Rltb_false in Q. destruct (Nat.leb_spec a (S j)), (Nat.leb_spec (S j) b); cbn; try reflexivity.
          exfalso. assert (0 < nth (S j) row 0) by (apply H; lia). lra.
      - f_equal. destruct (Rltb 0 (nth j row 0)) eqn:Q.
        + apply Rltb_true, H in Q; [|lia]. destruct (Nat.leb_spec a j), (Nat.leb_spec j b); cbn; lia.
        + apply Rltb_false in Q. destruct (Nat.leb_spec a j), (Nat.leb_spec j b); cbn; try reflexivity.
          exfalso. assert (0 < nth j row 0) by (apply H; lia). lra. }
    assert (Rise : last_event (fun m => (0 <? m)%Z) (np_diffZ (rad_mask row)) = if (a =? 0)%nat then 0 else INR (a - 1) / 2).
    { destruct (Nat.eqb_spec a 0) as [->|].
      - apply last_event_none. intros m Hm. apply (In_nth _ _ 0%Z) in Hm as (j & J & <-). rewrite Lm in J. rewrite M by auto.
        destruct (Nat.leb_spec 0 (S j)), (Nat.leb_spec (S j) b), (Nat.leb_spec 0 j), (Nat.leb_spec j b); cbn; auto; lia.
      - apply last_event_one; [lia| |].
        + rewrite M by lia. replace (S (a - 1)) with a by lia.
          destruct (Nat.leb_spec a a), (Nat.leb_spec a b), (Nat.leb_spec a (a - 1)); cbn; auto; lia.
        + intros i Hi Hn. rewrite Lm in Hi. rewrite M by auto.
          destruct (Nat.leb_spec a (S i)), (Nat.leb_spec (S i) b), (Nat.leb_spec a i), (Nat.leb_spec i b); cbn; auto; lia. }
    assert (Set_ : last_event (fun m => (m <? 0)%Z) (np_diffZ (rad_mask row)) = if (b =? Z.to_nat 2879)%nat then 0 else INR b / 2).
    { destruct (Nat.eqb_spec b (Z.to_nat 2879)) as [->|].
      - apply last_event_none. intros m Hm. apply (In_nth _ _ 0%Z) in Hm as (j & J & <-). rewrite Lm in J. rewrite M by auto.
        destruct (Nat.leb_spec a (S j)), (Nat.leb_spec (S j) (Z.to_nat 2879)), (Nat.leb_spec a j), (Nat.leb_spec j (Z.to_nat 2879)); cbn; auto; lia.
      - apply last_event_one; [lia| |].
        + rewrite M by lia.
          destruct (Nat.leb_spec a (S b)), (Nat.leb_spec (S b) b), (Nat.leb_spec a b), (Nat.leb_spec b b); cbn; auto; lia.
        + intros i Hi Hn. rewrite Lm in Hi. rewrite M by auto.
          destruct (Nat.leb_spec a (S i)), (Nat.leb_spec (S i) b), (Nat.leb_spec a i), (Nat.leb_spec i b); cbn; auto; lia. }
    rewrite Rise, Set_. clear Rise Set_ M H.
    assert (Ba : INR b = IZR (Z.of_nat b)) by apply INR_IZR_INZ.
    assert (Bb : INR (a - 1) = IZR (Z.of_nat (a - 1))) by apply INR_IZR_INZ. rewrite Ba, Bb.
    assert (F : forall u v : Z, (u <= v)%Z -> IZR u <= IZR v) by apply IZR_le.
    pose proof (F 1440%Z (Z.of_nat b) ltac:(lia)) as F1. pose proof (F (Z.of_nat b) 2879%Z ltac:(lia)) as F2.
    destruct (Nat.eqb_spec b (Z.to_nat 2879)) as [E|E].
    + rewrite (Reqb_refl 0). destruct (Nat.eqb_spec a 0) as [E2|E2]; [rewrite Reqb_refl; lra|].
      assert (a = 1)%nat by lia. subst a. cbn [Nat.sub Z.of_nat]. replace (0 / 2) with 0 by lra. rewrite Reqb_refl. lra.
    + rewrite (Reqb_not (IZR (Z.of_nat b) / 2)) by lra. pose proof (F (Z.of_nat b) 2878%Z ltac:(lia)) as F3.
      destruct (Nat.eqb_spec a 0) as [E2|E2]; [lia|].
      destruct (Nat.eq_dec a 1) as [->|N].
      * pose proof (F 2878%Z (Z.of_nat b) ltac:(lia)) as F4. cbn [Nat.sub Z.of_nat]. replace (0 / 2) with 0 by lra. rewrite Reqb_refl. lra.
      * pose proof (F 1%Z (Z.of_nat (a - 1)) ltac:(lia)) as F4. rewrite Reqb_not by lra.
        pose proof (F (Z.of_nat (a - 1)) (Z.of_nat b - 1)%Z ltac:(lia)) as F5. rewrite minus_IZR in F5.
        pose proof (F (Z.of_nat (a - 1)) 1439%Z ltac:(lia)) as F6.
        pose proof (F 2878%Z (Z.of_nat (a - 1) + Z.of_nat b)%Z ltac:(lia)) as F7. rewrite plus_IZR in F7. lra.
Qed.

Theorem geom_usable elev lat lr g doy : -90 <= lat <= 90 -> (1 <= doy <= 366)%nat -> solar_geom elev lat lr = Ok g ->
  exists row, nth_error (tiny_rad_fract g) (doy - 1) = Some row /\ usable row.
Proof.
  intros Hl Hd E. destruct (tables _ _ _ _ E) as [T _]. destruct (T doy Hd) as (o & O & Rw & _).
  exists (sd_row o). split; [auto|]. destruct (day_facts _ _ _ _ Hl _ O) as (_ & _ & Z & _ & _ & _ & Dark & Light).
  destruct (Req_dec (sd_daylength o) 0) as [Q|Q].
  - left. apply Z, Dark in Q as (N & _). intros x Hx. rewrite N in Hx. apply repeat_spec in Hx. lra.
  - right. apply Light. intros N. apply Z in N. lra.
Qed.

(** ** times of the extremes *)

Lemma nth_map_in {A B} (f : A -> B) l d x y v : nth_error l d = Some v -> nth d (map f l) x = f v /\ nth d l y = v.
Proof. intros H. split; apply nth_error_nth; [|auto]. now rewrite nth_error_map, H. Qed.

Lemma times_of tiny yday ts prm rows : mapM (getitem tiny) yday = Ok rows ->
  exists a b, set_min_max_hour tiny yday (List.length yday) ts prm = Ok (a, b) /\
    List.length a = List.length yday /\ List.length b = List.length yday /\
    forall d row, nth_error rows d = Some row ->
      nth d a 0 = rise_time row - shift_of prm + 1440 * INR d - IZR ts /\
      nth d b 0 = rise_time row + p_tmax_frac prm * (set_time row - rise_time row) - shift_of prm + 1440 * INR d - IZR ts.
Proof.
  intros M. unfold set_min_max_hour. cbv zeta. fold (shift_of prm).
  assert (X : forall g : list R -> R, mapM (getitem (map g tiny)) yday = Ok (map g rows)).
  { intros g. revert rows M. induction yday as [|y l IH]; intros rows M; cbn [mapM] in *; [now apply Ok_inj in M; subst|].
    unfold getitem at 1 in M. unfold getitem at 1. rewrite nth_error_map. destruct (nth_error tiny y); [|discriminate]. cbn [option_map bind] in *.
    destruct (mapM (getitem tiny) l) as [r|]; [|discriminate]. cbn [bind] in M. apply Ok_inj in M. subst rows. rewrite (IH r eq_refl). reflexivity. }
  assert (LR : List.length rows = List.length yday) by (apply mapM_inv in M; symmetry; eapply Forall2_len; eauto).
  rewrite !X. cbn [bind]. set (n := List.length yday) in *. set (offs := map _ (seq 0 n)).
  assert (LO : List.length offs = n) by (unfold offs; now rewrite map_length, seq_length).
  rewrite !zipw_ok by (rewrite map_length; lia). cbn [bind]. do 2 eexists. split; [reflexivity|].
  assert (L1 : forall g : list R -> R, List.length (map2 Rplus (map g rows) offs) = n).
  { intros g. rewrite map2_length by (rewrite map_length; lia). now rewrite map_length. }
  split; [now rewrite map_length, L1|]. split; [rewrite map2_length, L1 by (now rewrite !L1); reflexivity|].
  intros d row Hd. assert (Dn : (d < n)%nat) by (rewrite <- LR; apply nth_error_Some; congruence).
  assert (O : nth d offs 0 = 1440 * INR d).
  { unfold offs. destruct (nth_map_in (fun d => INR (d * MIN_PER_DAY)) (seq 0 n) d 0 0%nat d) as [E _]; [now apply nth_error_seq0|].
    rewrite E, mult_INR, (INR_IZR_INZ MIN_PER_DAY). replace (Z.of_nat MIN_PER_DAY) with 1440%Z by reflexivity. ring. }
  assert (V : forall g : list R -> R, nth_error (map2 Rplus (map g rows) offs) d = Some (g row + 1440 * INR d)).
  { intros g. rewrite (LongwaveProofs.map2_nth Rplus _ _ d (g row) (1440 * INR d)); auto.
    - now rewrite nth_error_map, Hd.
    - rewrite (nth_error_nth' _ 0) by now rewrite LO. now rewrite O. }
  split.
  - destruct (nth_map_in (fun r => r - IZR ts) _ d 0 0 _ (V (fun row => rise_time row - shift_of prm))) as [E _]. rewrite E. ring.
  - erewrite nth_error_nth; [|eapply LongwaveProofs.map2_nth; apply V]. cbv beta. ring.
Qed.

(** ** knots *)
Lemma interleave_app a b c d : List.length a = List.length b -> interleave (a ++ c) (b ++ d) = interleave a b ++ interleave c d.
Proof. revert b. induction a as [|x a IH]; intros [|y b] H; try discriminate; cbn in *; auto. rewrite IH by lia. reflexivity. Qed.
Lemma interleave_length a b : List.length a = List.length b -> List.length (interleave a b) = (2 * List.length a)%nat.
Proof. revert b. induction a as [|x a IH]; intros [|y b] H; try discriminate; cbn in *; auto. rewrite IH by lia. lia. Qed.
Lemma interleave_nth a b i : List.length a = List.length b ->
  nth (2 * i) (interleave a b) 0 = nth i a 0 /\ nth (2 * i + 1) (interleave a b) 0 = nth i b 0.
Proof.
  revert b i. induction a as [|x a IH]; intros [|y b] i H; try discriminate.
  - cbn [interleave]. split; now rewrite !nth_overflow by (cbn; lia).
  - destruct i as [|i]; [split; reflexivity|]. replace (2 * S i)%nat with (S (S (2 * i))) by lia. cbn [interleave nth Nat.add]. apply IH. cbn in H. lia.
Qed.

Lemma ext_length a : List.length (ext_times a) = (List.length a + 2)%nat.
Proof. unfold ext_times. cbn. rewrite app_length. cbn. lia. Qed.
Lemma extv_length x a y : List.length (ext_values x a y) = (List.length a + 2)%nat.
Proof. unfold ext_values. cbn. rewrite app_length. cbn. lia. Qed.

Lemma ends a b : List.length a = List.length b -> a <> [] ->
  firstn 2 (interleave a b) = [hd 0 a; hd 0 b] /\ last_n 2 (interleave a b) = [last a 0; last b 0].
Proof.
  intros L N. split.
  - destruct a as [|x a], b as [|y b]; try discriminate; [congruence|reflexivity].
  - assert (Nb : b <> []) by (intros ->; destruct a; [congruence|discriminate]).
    rewrite (app_removelast_last 0 N) at 1. rewrite (app_removelast_last 0 Nb) at 1.
    assert (R : List.length (removelast a) = List.length (removelast b)) by (rewrite !removelast_firstn_len, !firstn_length; lia).
    rewrite interleave_app by auto. cbn [interleave]. unfold last_n. rewrite app_length. cbn [List.length].
    replace (List.length (interleave (removelast a) (removelast b)) + 2 - 2)%nat with (List.length (interleave (removelast a) (removelast b))) by lia.
    rewrite skipn_app, skipn_all, Nat.sub_diag. reflexivity.
Qed.

Lemma times_interleave a b : List.length a = List.length b -> a <> [] -> temp_times a b = interleave (ext_times a) (ext_times b).
Proof.
  intros L N. unfold temp_times. cbv zeta. destruct (ends a b L N) as [E1 E2]. rewrite E1, E2. unfold ext_times. cbn [map interleave app].
  rewrite interleave_app by auto. reflexivity.
Qed.

Lemma values_interleave a b tb te : List.length a = List.length b -> a <> [] ->
  temp_values a b (pair_list tb) (pair_list te) =
  interleave (ext_values (fst (day_before tb a b)) a (fst (day_after te a b))) (ext_values (snd (day_before tb a b)) b (snd (day_after te a b))).
Proof.
  intros L N. unfold temp_values. cbv zeta. destruct (ends a b L N) as [E1 E2]. rewrite E1, E2. unfold ext_values. cbn [interleave].
  rewrite interleave_app by auto. destruct tb as [[? ?]|], te as [[? ?]|]; reflexivity.
Qed.

Lemma last_is_nth (a : list R) : a <> [] -> last a 0 = nth (List.length a - 1) a 0.
Proof.
  induction a as [|x a _] using rev_ind; [congruence|]. intros _. rewrite last_last, app_length. cbn [List.length].
  rewrite app_nth2 by lia. now replace (List.length a + 1 - 1 - List.length a)%nat with 0%nat by lia.
Qed.

Lemma ext_nth a d : (d < List.length a + 2)%nat -> a <> [] ->
  nth d (ext_times a) 0 = if (d =? 0)%nat then nth 0 a 0 - 1440 else if (d <=? List.length a)%nat then nth (d - 1) a 0 else nth (List.length a - 1) a 0 + 1440.
Proof.
  intros H N. unfold ext_times. destruct d as [|d].
  - cbn [nth Nat.eqb]. destruct a; [congruence|reflexivity].
  - cbn [nth]. destruct (Nat.eqb_spec (S d) 0); [lia|]. replace (S d - 1)%nat with d by lia. destruct (Nat.leb_spec (S d) (List.length a)).
    + apply app_nth1. lia.
    + rewrite app_nth2 by lia. replace (d - List.length a)%nat with 0%nat by lia. cbn [nth]. f_equal.
      now apply last_is_nth.
Qed.

(** the knots of the extended record increase *)
Theorem knots_increase a b : alternate a b -> a <> [] ->
  (forall d, (d < List.length a + 2)%nat -> nth d (ext_times a) 0 < nth d (ext_times b) 0) /\
  (forall d, (S d < List.length a + 2)%nat -> nth d (ext_times b) 0 < nth (S d) (ext_times a) 0).
Proof.
  intros (L & A & B) N. assert (Nb : b <> []) by (intros ->; destruct a; [congruence|discriminate]).
  assert (La : (0 < List.length a)%nat) by (destruct a; [congruence|cbn; lia]). split; intros d Hd; rewrite !ext_nth by (auto; lia).
  - rewrite <- L. destruct (Nat.eqb_spec d 0); [destruct (A 0%nat La); lra|].
    destruct (Nat.leb_spec d (List.length a)); [apply A; lia|]. destruct (A (List.length a - 1)%nat ltac:(lia)). lra.
  - rewrite <- L. destruct (Nat.eqb_spec (S d) 0); [lia|]. replace (S d - 1)%nat with d by lia. destruct (Nat.eqb_spec d 0) as [->|].
    + destruct (Nat.leb_spec 1 (List.length a)); [|lia]. destruct (A 0%nat La). lra.
    + destruct (Nat.leb_spec d (List.length a)); [|lia]. destruct (Nat.leb_spec (S d) (List.length a)).
      * replace d with (S (d - 1)) at 2 by lia. apply B. lia.
      * replace d with (List.length a) by lia. destruct (A (List.length a - 1)%nat ltac:(lia)). lra.
Qed.

Lemma even_odd k : exists i, k = (2 * i)%nat \/ k = (2 * i + 1)%nat.
Proof. destruct (Nat.Even_or_Odd k) as [[i E]|[i E]]; exists i; lia. Qed.

Theorem temp_ok a b tmin tmax m ts tb te : alternate a b -> a <> [] -> List.length tmin = List.length a -> List.length tmax = List.length a ->
  exists f, PchipInterpolator (temp_times a b) (temp_values tmin tmax (pair_list tb) (pair_list te)) = Ok f /\
    temp tmin tmax m a b ts (pair_list tb) (pair_list te) = Ok (map (fun k => f (IZR ts * INR k)) (seq 0 m)) /\
    let TA := ext_times a in let TB := ext_times b in
    let VA := ext_values (fst (day_before tb tmin tmax)) tmin (fst (day_after te tmin tmax)) in
    let VB := ext_values (snd (day_before tb tmin tmax)) tmax (snd (day_after te tmin tmax)) in
    (forall d, (d < List.length a + 2)%nat -> f (nth d TA 0) = nth d VA 0 /\ f (nth d TB 0) = nth d VB 0) /\
    (forall t, nth 0 TA 0 <= t <= nth (List.length a + 1) TB 0 -> exists d,
       ((d < List.length a + 2)%nat /\ nth d TA 0 <= t <= nth d TB 0 /\ between (nth d VA 0) (nth d VB 0) (f t)) \/
       ((S d < List.length a + 2)%nat /\ nth d TB 0 <= t <= nth (S d) TA 0 /\ between (nth d VB 0) (nth (S d) VA 0) (f t))).
Proof.
  intros Al N L1 L2. pose proof Al as (L & _ & _). destruct (knots_increase a b Al N) as [K1 K2].
  assert (Nt : tmin <> []) by (intros ->; destruct a; [congruence|discriminate]).
  unfold temp. rewrite times_interleave by auto. rewrite values_interleave by (congruence || auto).
  set (TA := ext_times a) in *. set (TB := ext_times b) in *.
  set (VA := ext_values (fst (day_before tb tmin tmax)) tmin _). set (VB := ext_values (snd (day_before tb tmin tmax)) tmax _).
  assert (LA : List.length TA = (List.length a + 2)%nat) by apply ext_length.
  assert (LB : List.length TB = (List.length a + 2)%nat) by (unfold TB; rewrite ext_length; lia).
  assert (LVA : List.length VA = (List.length a + 2)%nat) by (unfold VA; rewrite extv_length; lia).
  assert (LVB : List.length VB = (List.length a + 2)%nat) by (unfold VB; rewrite extv_length; lia).
  assert (LT : List.length (interleave TA TB) = (2 * (List.length a + 2))%nat) by (rewrite interleave_length; lia).
  assert (LV : List.length (interleave VA VB) = (2 * (List.length a + 2))%nat) by (rewrite interleave_length; lia).
  assert (IT := fun i => interleave_nth TA TB i ltac:(lia)). assert (IV := fun i => interleave_nth VA VB i ltac:(lia)).
  assert (Inc : forall j, (S j < List.length (interleave TA TB))%nat -> nth j (interleave TA TB) 0 < nth (S j) (interleave TA TB) 0).
  { intros j J. rewrite LT in J. destruct (even_odd j) as [i [->| ->]]; destruct (IT i) as [E1 E2].
    - replace (S (2 * i)) with (2 * i + 1)%nat by lia. rewrite E1, E2. apply K1. lia.
    - replace (S (2 * i + 1)) with (2 * S i)%nat by lia. destruct (IT (S i)) as [E3 _]. rewrite E2, E3. apply K2. lia. }
  assert (Mk : exists f, PchipInterpolator (interleave TA TB) (interleave VA VB) = Ok f).
  { unfold PchipInterpolator. rewrite LT, LV, Nat.eqb_refl, strictly_increasing_of by auto.
    destruct (Nat.leb_spec 3 (2 * (List.length a + 2))); [|lia]. cbn [andb]. eauto. }
  destruct Mk as [f Mf]. exists f. split; auto. rewrite Mf. split; [reflexivity|]. cbv zeta.
  destruct (pchip_made _ _ _ Mf) as (_ & _ & _ & Kn & Bt). split.
  - intros d Hd. destruct (IT d) as [E1 E2]. destruct (IV d) as [E3 E4]. rewrite <- E1, <- E2, <- E3, <- E4. split; apply Kn; lia.
  - intros t T. destruct (Bt t) as (k & Kl & Kt & Kb).
    + rewrite LT. replace (2 * (List.length a + 2) - 1)%nat with (2 * (List.length a + 1) + 1)%nat by lia. destruct (IT (List.length a + 1)%nat) as [_ E2]. rewrite E2.
      destruct (IT 0%nat) as [E1 _]. cbn [Nat.mul Nat.add] in E1. rewrite E1. exact T.
    + rewrite LT in Kl. destruct (even_odd k) as [i [->| ->]]; destruct (IT i) as [E1 E2]; destruct (IV i) as [E3 E4]; exists i.
      * left. replace (S (2 * i)) with (2 * i + 1)%nat in * by lia. rewrite E1, E2 in Kt. rewrite E3, E4 in Kb. split; [lia|]. auto.
      * right. replace (S (2 * i + 1)) with (2 * S i)%nat in * by lia. destruct (IT (S i)) as [E5 _]. destruct (IV (S i)) as [E6 _].
        rewrite E2, E5 in Kt. rewrite E4, E6 in Kb. split; [lia|]. auto.
Qed.

(** ** C26 *)
Section times.
Variables (tiny : list (list R)) (doy : list nat) (ts : Z) (prm : params).
Hypothesis Ht : forall row, In row tiny -> usable row.
Hypothesis Hd : rows_exist doy tiny.
Hypothesis Hf : 0 < p_tmax_frac prm <= 1.

Lemma rows_found : exists rows, mapM (getitem tiny) (map (fun d => d - 1)%nat doy) = Ok rows /\
  List.length rows = List.length doy /\ forall row, In row rows -> usable row.
Proof.
  assert (X : forall l, rows_exist l tiny -> exists rows, mapM (getitem tiny) (map (fun d => d - 1)%nat l) = Ok rows /\
    List.length rows = List.length l /\ forall row, In row rows -> usable row).
  { induction l as [|k l IH]; intros V; [exists []; repeat split; auto; intros ? []|].
    destruct (IH ltac:(intros x Hx; apply V; now right)) as (rows & E & L & U).
    destruct (nth_error tiny (k - 1)) as [row|] eqn:Er; [|apply nth_error_None in Er; specialize (V k (or_introl eq_refl)); lia].
    exists (row :: rows). cbn [map mapM]. unfold getitem at 1. rewrite Er. cbn [bind]. rewrite E. split; [reflexivity|]. split; [cbn; lia|].
    intros x [<-|Hx]; auto. apply Ht. eapply nth_error_In; eauto. }
  apply X. exact Hd.
Qed.

Theorem extreme_times_of : exists a b,
  set_min_max_hour tiny (map (fun d => d - 1)%nat doy) (List.length doy) ts prm = Ok (a, b) /\
  List.length a = List.length doy /\ alternate a b /\
  (forall d, (d < List.length doy)%nat -> exists row, usable row /\
      nth d a 0 = rise_time row - shift_of prm + 1440 * INR d - IZR ts /\
      nth d b 0 = rise_time row + p_tmax_frac prm * (set_time row - rise_time row) - shift_of prm + 1440 * INR d - IZR ts).
Proof.
  destruct rows_found as (rows & M & L & U). destruct (times_of _ _ ts prm _ M) as (a & b & E & La & Lb & T).
  rewrite map_length in *. exists a, b. split; auto. split; auto.
  assert (V : forall d, (d < List.length doy)%nat -> exists row, usable row /\
      nth d a 0 = rise_time row - shift_of prm + 1440 * INR d - IZR ts /\
      nth d b 0 = rise_time row + p_tmax_frac prm * (set_time row - rise_time row) - shift_of prm + 1440 * INR d - IZR ts).
  { intros d D. destruct (nth_error rows d) as [row|] eqn:Er; [|apply nth_error_None in Er; lia].
    exists row. split; [apply U; eapply nth_error_In; eauto|]. now apply T. }
  split; auto. split; [lia|]. rewrite La. split.
  - intros d D. destruct (V d D) as (row & Ur & -> & ->). destruct (rise_set row Ur) as ((P1 & P2) & P3 & P4 & P5 & _).
    split; [nra|]. assert (p_tmax_frac prm * (set_time row - rise_time row) <= 1 * (set_time row - rise_time row)) by (apply Rmult_le_compat_r; lra). lra.
  - intros d D. destruct (V d ltac:(lia)) as (row & Ur & _ & ->). destruct (V (S d) D) as (row' & Ur' & -> & _).
    destruct (rise_set row Ur) as ((P1 & P2) & P3 & P4 & P5 & _). destruct (rise_set row' Ur') as ((Q1 & Q2) & Q3 & Q4 & Q5 & _).
    rewrite S_INR. assert (p_tmax_frac prm * (set_time row - rise_time row) <= 1 * (set_time row - rise_time row)) by (apply Rmult_le_compat_r; lra). lra.
Qed.

(** the extended record covers every output time *)
Theorem covered_of a b : doy <> [] -> legal_time_step ts ->
  (p_utc_offset prm = false \/ (2 / 3 <= p_tmax_frac prm /\ (-720 <= utc_temp_minutes prm <= 719)%Z)) ->
  set_min_max_hour tiny (map (fun d => d - 1)%nat doy) (List.length doy) ts prm = Ok (a, b) ->
  forall k, (k < List.length doy * steps ts)%nat ->
    nth 0 (ext_times a) 0 <= IZR ts * INR k <= nth (List.length doy + 1) (ext_times b) 0.
Proof.
  intros N LT SH E k K. destruct extreme_times_of as (a' & b' & E' & La & (Lab & _) & V). rewrite E in E'. apply Ok_inj in E'. injection E' as <- <-.
  assert (Ln : (0 < List.length doy)%nat) by (destruct doy; [congruence|cbn; lia]).
  assert (Na : a <> []) by (intros ->; cbn in La; lia). assert (Nb : b <> []) by (intros ->; cbn in Lab; lia).
  rewrite !ext_nth by (auto; lia). rewrite <- Lab, La. cbn [Nat.eqb]. destruct (Nat.eqb_spec (List.length doy + 1) 0); [lia|].
  destruct (Nat.leb_spec (List.length doy + 1) (List.length doy)); [lia|].
  destruct (V 0%nat Ln) as (r0 & U0 & -> & _). destruct (V (List.length doy - 1)%nat ltac:(lia)) as (r1 & U1 & _ & ->).
  destruct (rise_set r0 U0) as ((P1 & P2) & P3 & P4 & P5 & P6). destruct (rise_set r1 U1) as ((Q1 & Q2) & Q3 & Q4 & Q5 & Q6).
  destruct (steps_mul ts LT) as (Em & Sp & Tp). assert (T0 : 0 < IZR ts) by (apply IZR_lt; lia).
  assert (S1 : -720 <= shift_of prm) by (unfold shift_of; destruct SH as [->|[_ SH]]; [lra|destruct (p_utc_offset prm); [apply IZR_le; lia|lra]]).
  assert (S2 : shift_of prm <= rise_time r1 + p_tmax_frac prm * (set_time r1 - rise_time r1)).
  { unfold shift_of. destruct SH as [->|[F SH]].
    - assert (0 <= p_tmax_frac prm * (set_time r1 - rise_time r1)) by (apply Rmult_le_pos; lra). lra.
    - assert (2 / 3 * (set_time r1 - rise_time r1) <= p_tmax_frac prm * (set_time r1 - rise_time r1)) by (apply Rmult_le_compat_r; lra).
      destruct (p_utc_offset prm); [|lra]. assert (IZR (utc_temp_minutes prm) <= 719) by (apply IZR_le; lia). lra. }
  assert (K0 : 0 <= INR k) by apply pos_INR.
  split.
  - assert (0 <= IZR ts * INR k) by (apply Rmult_le_pos; lra). cbn [INR]. lra.
  - assert (B : IZR ts * INR k + IZR ts <= 1440 * INR (List.length doy)).
    { replace (IZR ts * INR k + IZR ts) with (IZR (ts * Z.of_nat (S k))) by (rewrite mult_IZR, <- INR_IZR_INZ, S_INR; ring).
      rewrite INR_IZR_INZ, <- mult_IZR. apply IZR_le. replace ts with (Z.of_nat (Z.to_nat ts)) by lia.
      replace 1440%Z with (Z.of_nat (steps ts * Z.to_nat ts)) by (rewrite Em; reflexivity). rewrite <- !Nat2Z.inj_mul. apply Nat2Z.inj_le. nia. }
    assert (M1 : INR (List.length doy - 1) = INR (List.length doy) - 1) by (rewrite minus_INR by lia; reflexivity). rewrite M1. lra.
Qed.
End times.

Lemma geom_rows elev lat lr g : -90 <= lat <= 90 -> solar_geom elev lat lr = Ok g ->
  List.length (tiny_rad_fract g) = 366%nat /\ full_rows (tiny_rad_fract g) /\ (forall row, In row (tiny_rad_fract g) -> usable row).
Proof.
  intros Hl Hg. destruct (tables _ _ _ _ Hg) as [T [L _]]. split; auto.
  assert (X : forall row, In row (tiny_rad_fract g) -> List.length row = RAD_STEPS /\ usable row).
  { intros row Hr. apply In_nth_error in Hr as (k & Hk). assert (K : (k < 366)%nat) by (rewrite <- L; apply nth_error_Some; congruence).
    destruct (T (S k) ltac:(lia)) as (o & O & Rw & _). destruct (geom_usable elev lat lr g (S k) Hl ltac:(lia) Hg) as (row' & Er & Ur).
    replace (S k - 1)%nat with k in * by lia. rewrite Hk in *. injection Rw as ->. injection Er as <-.
    destruct (day_facts _ _ _ _ Hl _ O) as (_ & _ & _ & _ & Lr & _). auto. }
  split; intros row Hr; now apply X.
Qed.

Lemma days_in_table doy tiny : days_valid doy -> List.length tiny = 366%nat -> rows_exist doy tiny.
Proof. intros H L k K. rewrite L. now apply H. Qed.

Section geom.
Variables (elev lat lr : R) (g : solar_geom_out) (doy : list nat) (ts : Z) (prm : params).
Hypothesis Hl : -90 <= lat <= 90.
Hypothesis Hg : solar_geom elev lat lr = Ok g.
Hypothesis Hd : days_valid doy.
Hypothesis Hf : 0 < p_tmax_frac prm <= 1.

Theorem extreme_times : exists a b,
  set_min_max_hour (tiny_rad_fract g) (map (fun d => d - 1)%nat doy) (List.length doy) ts prm = Ok (a, b) /\
  List.length a = List.length doy /\ alternate a b /\
  (forall d, (d < List.length doy)%nat -> exists row, usable row /\
      nth d a 0 = rise_time row - shift_of prm + 1440 * INR d - IZR ts /\
      nth d b 0 = rise_time row + p_tmax_frac prm * (set_time row - rise_time row) - shift_of prm + 1440 * INR d - IZR ts).
Proof. destruct (geom_rows _ _ _ _ Hl Hg) as (L & _ & U). apply extreme_times_of; auto. now apply days_in_table. Qed.

Theorem covered a b : doy <> [] -> legal_time_step ts ->
  (p_utc_offset prm = false \/ (2 / 3 <= p_tmax_frac prm /\ (-720 <= utc_temp_minutes prm <= 719)%Z)) ->
  set_min_max_hour (tiny_rad_fract g) (map (fun d => d - 1)%nat doy) (List.length doy) ts prm = Ok (a, b) ->
  forall k, (k < List.length doy * steps ts)%nat ->
    nth 0 (ext_times a) 0 <= IZR ts * INR k <= nth (List.length doy + 1) (ext_times b) 0.
Proof. destruct (geom_rows _ _ _ _ Hl Hg) as (L & _ & U). apply covered_of; auto. now apply days_in_table. Qed.
End geom.

Theorem interpolation_accepts elev lat lr g doy ts prm tmin tmax tb te m : -90 <= lat <= 90 -> solar_geom elev lat lr = Ok g ->
  days_valid doy -> doy <> [] -> 0 < p_tmax_frac prm <= 1 -> List.length tmin = List.length doy -> List.length tmax = List.length doy ->
  exists a b out, set_min_max_hour (tiny_rad_fract g) (map (fun d => d - 1)%nat doy) (List.length doy) ts prm = Ok (a, b) /\
    temp tmin tmax m a b ts (pair_list tb) (pair_list te) = Ok out /\ List.length out = m.
Proof.
  intros Hl Hg Hd N Hf L1 L2. destruct (extreme_times elev lat lr g doy ts prm Hl Hg Hd Hf) as (a & b & E & La & Al & _).
  destruct (temp_ok a b tmin tmax m ts tb te Al) as (f & _ & T & _); try congruence.
  - intros ->. destruct doy; [congruence|discriminate].
  - eexists a, b, _. split; [exact E|]. split; [exact T|]. now rewrite map_length, seq_length.
Qed.

(** ** C27 *)
Theorem curve_surrounded elev lat lr g doy ts prm tmin tmax tb te : -90 <= lat <= 90 -> solar_geom elev lat lr = Ok g ->
  days_valid doy -> doy <> [] -> 0 < p_tmax_frac prm <= 1 -> List.length tmin = List.length doy -> List.length tmax = List.length doy ->
  legal_time_step ts ->
  (p_utc_offset prm = false \/ (2 / 3 <= p_tmax_frac prm /\ (-720 <= utc_temp_minutes prm <= 719)%Z)) ->
  exists a b out, set_min_max_hour (tiny_rad_fract g) (map (fun d => d - 1)%nat doy) (List.length doy) ts prm = Ok (a, b) /\
    temp tmin tmax (List.length doy * steps ts) a b ts (pair_list tb) (pair_list te) = Ok out /\
    List.length out = (List.length doy * steps ts)%nat /\
    forall k v, nth_error out k = Some v ->
      surrounded a b tmin tmax (day_before tb tmin tmax) (day_after te tmin tmax) (IZR ts * INR k) v.
Proof.
  intros Hl Hg Hd N Hf L1 L2 LT SH. destruct (extreme_times elev lat lr g doy ts prm Hl Hg Hd Hf) as (a & b & E & La & Al & _).
  destruct (temp_ok a b tmin tmax (List.length doy * steps ts) ts tb te Al) as (f & _ & T & _ & B); try congruence.
  - intros ->. destruct doy; [congruence|discriminate].
  - eexists a, b, _. split; [exact E|]. split; [exact T|]. split; [now rewrite map_length, seq_length|].
    intros k v Hk. assert (K : (k < List.length doy * steps ts)%nat).
    { assert (X : nth_error (map (fun k => f (IZR ts * INR k)) (seq 0 (List.length doy * steps ts))) k <> None) by congruence.
      apply nth_error_Some in X. now rewrite map_length, seq_length in X. }
    rewrite nth_error_map, nth_error_seq0 in Hk by auto. cbn [option_map] in Hk. injection Hk as <-.
    apply B. rewrite La. eapply covered; eauto.
Qed.

Lemma between_range a b v lo hi : between a b v -> lo <= a <= hi -> lo <= b <= hi -> lo <= v <= hi.
Proof. unfold between, Rmin, Rmax. destruct (Rle_dec a b); lra. Qed.

Lemma extv_range x l y lo hi d : lo <= x <= hi -> lo <= y <= hi -> (forall v, In v l -> lo <= v <= hi) ->
  (d < List.length l + 2)%nat -> lo <= nth d (ext_values x l y) 0 <= hi.
Proof.
  intros X Y L D. assert (I : In (nth d (ext_values x l y) 0) (ext_values x l y)) by (apply nth_In; rewrite extv_length; lia).
  destruct I as [<-|I]; auto. apply in_app_or in I as [I|[<-|[]]]; auto.
Qed.

Theorem surrounded_range a b tmin tmax before after t v lo hi : List.length tmin = List.length a -> List.length tmax = List.length a ->
  (forall x, In x (fst before :: snd before :: fst after :: snd after :: tmin ++ tmax) -> lo <= x <= hi) ->
  surrounded a b tmin tmax before after t v -> lo <= v <= hi.
Proof.
  intros L1 L2 R (d & S). assert (Ra : forall x, In x tmin -> lo <= x <= hi) by (intros x Hx; apply R; do 4 right; apply in_or_app; auto).
  assert (Rb : forall x, In x tmax -> lo <= x <= hi) by (intros x Hx; apply R; do 4 right; apply in_or_app; auto).
  assert (R1 : lo <= fst before <= hi) by (apply R; now left). assert (R2 : lo <= snd before <= hi) by (apply R; right; now left).
  assert (R3 : lo <= fst after <= hi) by (apply R; do 2 right; now left). assert (R4 : lo <= snd after <= hi) by (apply R; do 3 right; now left).
  cbv zeta in S. destruct S as [(D & _ & B)|(D & _ & B)]; apply (between_range _ _ _ _ _ B); apply extv_range; auto; lia.
Qed.

Theorem curve_range elev lat lr g doy ts prm tmin tmax tb te lo hi : -90 <= lat <= 90 -> solar_geom elev lat lr = Ok g ->
  days_valid doy -> doy <> [] -> 0 < p_tmax_frac prm <= 1 -> List.length tmin = List.length doy -> List.length tmax = List.length doy ->
  legal_time_step ts -> p_utc_offset prm = false ->
  (forall x, In x (tmin ++ tmax) -> lo <= x <= hi) ->
  (forall p, tb = Some p \/ te = Some p -> lo <= fst p <= hi /\ lo <= snd p <= hi) ->
  exists a b out, set_min_max_hour (tiny_rad_fract g) (map (fun d => d - 1)%nat doy) (List.length doy) ts prm = Ok (a, b) /\
    temp tmin tmax (List.length doy * steps ts) a b ts (pair_list tb) (pair_list te) = Ok out /\
    List.length out = (List.length doy * steps ts)%nat /\ forall v, In v out -> lo <= v <= hi.
Proof.
  intros Hl Hg Hd N Hf L1 L2 LT SH Rg Rp.
  destruct (extreme_times elev lat lr g doy ts prm Hl Hg Hd Hf) as (a0 & b0 & E0 & La0 & _).
  destruct (curve_surrounded elev lat lr g doy ts prm tmin tmax tb te Hl Hg Hd N Hf L1 L2 LT (or_introl SH)) as (a & b & out & E & T & Lo & S).
  rewrite E in E0. apply Ok_inj in E0. injection E0 as <- <-.
  exists a, b, out. split; auto. split; auto. split; auto. intros v Hv. apply In_nth_error in Hv as (k & Hk).
  apply (surrounded_range a b tmin tmax (day_before tb tmin tmax) (day_after te tmin tmax) (IZR ts * INR k)); try congruence; [|now apply S].
  assert (Nl : forall l : list R, List.length l = List.length doy -> l <> []) by (intros l Ll ->; destruct doy; [congruence|discriminate]).
  assert (Hdn : forall l : list R, l <> [] -> In (hd 0 l) l) by (intros [|? ?] ?; [congruence|now left]).
  assert (Lst : forall l : list R, l <> [] -> In (last l 0) l) by (intros l Ll; rewrite last_is_nth by auto; apply nth_In; destruct l; [congruence|cbn; lia]).
  assert (Ra : forall x, In x tmin -> lo <= x <= hi) by (intros x Hx; apply Rg, in_or_app; auto).
  assert (Rb : forall x, In x tmax -> lo <= x <= hi) by (intros x Hx; apply Rg, in_or_app; auto).
  intros x [<-|[<-|[<-|[<-|Hx]]]]; auto; [destruct tb as [p|]|destruct tb as [p|]|destruct te as [p|]|destruct te as [p|]]; cbn [day_before day_after fst snd]; auto; apply (Rp p); auto.
Qed.

(** ** C28 *)
Theorem through_extremes a b tmin tmax m ts tb te : alternate a b -> a <> [] -> List.length tmin = List.length a -> List.length tmax = List.length a ->
  exists f, PchipInterpolator (temp_times a b) (temp_values tmin tmax (pair_list tb) (pair_list te)) = Ok f /\
    (forall d, (d < List.length a)%nat -> f (nth d a 0) = nth d tmin 0 /\ f (nth d b 0) = nth d tmax 0) /\
    exists out, temp tmin tmax m a b ts (pair_list tb) (pair_list te) = Ok out /\ List.length out = m /\
    (forall k, (k < m)%nat -> nth k out 0 = f (IZR ts * INR k)) /\
    forall k d, (k < m)%nat -> (d < List.length a)%nat ->
      (IZR ts * INR k = nth d a 0 -> nth k out 0 = nth d tmin 0) /\ (IZR ts * INR k = nth d b 0 -> nth k out 0 = nth d tmax 0).
Proof.
  intros Al N L1 L2. destruct (temp_ok a b tmin tmax m ts tb te Al N L1 L2) as (f & P & T & K & _). pose proof Al as (L & _).
  assert (Nb : b <> []) by (intros ->; destruct a; [congruence|discriminate]).
  exists f. split; auto.
  assert (Q : forall d, (d < List.length a)%nat -> f (nth d a 0) = nth d tmin 0 /\ f (nth d b 0) = nth d tmax 0).
  { intros d D. destruct (K (S d) ltac:(lia)) as [K1 K2]. rewrite !ext_nth in * by (auto; lia). rewrite <- L in K2.
    destruct (Nat.eqb_spec (S d) 0); [lia|]. destruct (Nat.leb_spec (S d) (List.length a)); [|lia]. replace (S d - 1)%nat with d in * by lia.
    unfold ext_values in K1, K2. cbn [nth] in K1, K2. rewrite app_nth1 in K1, K2 by lia. auto. }
  split; auto. eexists. split; [exact T|]. split; [now rewrite map_length, seq_length|].
  assert (O : forall k, (k < m)%nat -> nth k (map (fun k => f (IZR ts * INR k)) (seq 0 m)) 0 = f (IZR ts * INR k)).
  { intros k Hk. apply nth_error_nth. now rewrite nth_error_map, nth_error_seq0 by auto. }
  split; auto. intros k d Hk D. rewrite O by auto. split; intros ->; now apply Q.
Qed.

(** ** examples *)

Lemma legal_60 : legal_time_step 60.
Proof. split; [lia|]. split; [reflexivity|lia]. Qed.

Theorem times_example : exists g a b, solar_geom 100 0 0.0065 = Ok g /\
  set_min_max_hour (tiny_rad_fract g) (map (fun d => d - 1)%nat [365; 366; 1]%nat) 3 60 demo_params = Ok (a, b) /\
  List.length a = 3%nat /\ alternate a b /\ set_time (repeat 0 RAD_STEPS) = 960 /\ rise_time (repeat 0 RAD_STEPS) = 240.
Proof.
  destruct (equator_ok 100 0.0065) as [g Hg]. exists g.
  destruct (extreme_times 100 0 0.0065 g [365; 366; 1]%nat 60 demo_params) as (a & b & E & L & A & _); auto.
  - lra.
  - intros k [<-|[<-|[<-|[]]]]; lia.
  - cbn. lra.
  - exists a, b. split; auto. split; auto. split; auto. split; auto.
    assert (D : forall m, In m (np_diffZ (rad_mask (repeat 0 RAD_STEPS))) -> m = 0%Z).
    { intros m Hm. apply (In_nth _ _ 0%Z) in Hm as (j & J & <-). rewrite diff_length in J. unfold rad_mask in J. rewrite map_length in J.
      rewrite diff_nth by (unfold rad_mask; rewrite map_length; lia). rewrite !mask_nth. rewrite !nth_repeat. lia. }
    unfold set_time, rise_time. cbv zeta. rewrite day_tot_value, !last_event_none by (intros m Hm; rewrite (D m Hm); reflexivity).
    rewrite Reqb_refl. lra.
Qed.

Theorem range_example : exists g a b out, solar_geom 100 0 0.0065 = Ok g /\
  set_min_max_hour (tiny_rad_fract g) (map (fun d => d - 1)%nat [365; 366; 1]%nat) 3 60 demo_params = Ok (a, b) /\
  temp [1; -3; 2] [11; 9; 14] 72 a b 60 (Some [0; 20]) None = Ok out /\ List.length out = 72%nat /\ (forall v, In v out -> -3 <= v <= 20).
Proof.
  destruct (equator_ok 100 0.0065) as [g Hg]. exists g.
  destruct (curve_range 100 0 0.0065 g [365; 366; 1]%nat 60 demo_params [1; -3; 2] [11; 9; 14] (Some (0, 20)) None (-3) 20) as (a & b & out & E & T & L & B); auto.
  - lra.
  - intros k [<-|[<-|[<-|[]]]]; lia.
  - discriminate.
  - cbn. lra.
  - apply legal_60.
  - intros x Hx. cbn in Hx. repeat (destruct Hx as [<-|Hx]; [lra|]). destruct Hx.
  - intros p [P|P]; [injection P as <-; cbn; lra|discriminate].
  - exists a, b, out. auto.
Qed.

Theorem through_example : alternate [360; 1800] [960; 2400] /\ exists out,
  temp [1; -3] [11; 9] 48 [360; 1800] [960; 2400] 60 (Some [0; 20]) None = Ok out /\
  nth 6 out 0 = 1 /\ nth 16 out 0 = 11 /\ nth 30 out 0 = -3 /\ nth 40 out 0 = 9.
Proof.
  assert (A : alternate [360; 1800] [960; 2400]).
  { split; [reflexivity|]. split.
    - intros [|[|d]] D; cbn in *; try lra; lia.
    - intros [|d] D; cbn in *; try lra; lia. }
  split; auto. destruct (through_extremes [360; 1800] [960; 2400] [1; -3] [11; 9] 48 60 (Some (0, 20)) None A ltac:(discriminate) eq_refl eq_refl)
    as (f & _ & _ & out & E & L & _ & H). exists out. split; [exact E|].
  split; [apply (H 6%nat 0%nat); cbn; try lia; lra|]. split; [apply (H 16%nat 0%nat); cbn; try lia; lra|].
  split; [apply (H 30%nat 1%nat); cbn; try lia; lra|apply (H 40%nat 1%nat); cbn; try lia; lra].
Qed.
