(** C25: the shift to UTC. *)
From Coq Require Import ZArith Reals String List Bool Arith Lia Lra.
From Verif Require Import Model.Py Model.Fl Model.Np Model.Constants Model.Physics Model.Params Model.Disagg
  Spec.TimeSpec Spec.SeriesSpec Proofs.Base Proofs.ArrayProofs Proofs.PrecProofs Proofs.WindProofs Proofs.DisaggProofs
  Proofs.LongwaveProofs Proofs.RBase Proofs.SolarProofs Proofs.SolarTables Proofs.ShortwaveProofs.
Import ListNotations.
Local Open Scope list_scope.
Local Open Scope R_scope.

Lemma remainder_range x : -180 <= remainder360 x <= 180 /\ exists n, remainder360 x = x - 360 * IZR n.
Proof.
  split; [|eexists; reflexivity]. unfold remainder360, round_half_even. pose proof (Int_part_bounds (x / 360)) as B.
  set (f := Int_part (x / 360)) in *.
  assert (E : x / 360 * 360 = x) by field.
  destruct (Rltb (x / 360 - IZR f) (1 / 2)) eqn:A; [apply Rltb_true in A; lra|]. apply Rltb_false in A.
  destruct (Rltb (1 / 2) (x / 360 - IZR f)) eqn:A2; [apply Rltb_true in A2; rewrite plus_IZR; lra|]. apply Rltb_false in A2.
  destruct (Z.even f); [lra|rewrite plus_IZR; lra].
Qed.

Lemma Int_part_add1 r : Int_part (r + 1) = (Int_part r + 1)%Z.
Proof. apply Int_part_spec. rewrite plus_IZR. pose proof (Int_part_bounds r). lra. Qed.

(** exact halves are the odd multiples of 180 degrees *)
Theorem remainder_period x : remainder360 (x + 360) = remainder360 x <-> (forall n, x <> 360 * IZR n + 180).
Proof.
  unfold remainder360, round_half_even. replace ((x + 360) / 360) with (x / 360 + 1) by field. rewrite Int_part_add1.
  pose proof (Int_part_bounds (x / 360)) as B. set (f := Int_part (x / 360)) in *.
  replace (x / 360 + 1 - IZR (f + 1)) with (x / 360 - IZR f) by (rewrite plus_IZR; ring).
  assert (E : x / 360 * 360 = x) by field.
  destruct (Rltb (x / 360 - IZR f) (1 / 2)) eqn:A1.
  - apply Rltb_true in A1. split; [|intros _; rewrite plus_IZR; lra]. intros _ n Hn.
    assert (Hf : Int_part (x / 360) = n) by (apply Int_part_spec; lra). fold f in Hf. subst n. lra.
  - apply Rltb_false in A1. destruct (Rltb (1 / 2) (x / 360 - IZR f)) eqn:A2.
    + apply Rltb_true in A2. split; [|intros _; rewrite !plus_IZR; lra]. intros _ n Hn.
      assert (Hf : Int_part (x / 360) = n) by (apply Int_part_spec; lra). fold f in Hf. subst n. lra.
    + apply Rltb_false in A2. rewrite Z.add_1_r, Z.even_succ, <- Z.negb_even. split.
      * intros Q. exfalso. destruct (Z.even f); cbn [negb] in Q; rewrite <- ?Z.add_1_r, ?plus_IZR in Q; lra.
      * intros N. exfalso. apply (N f). lra.
Qed.

(** truncation *)
Lemma Rtrunc_spec x : (0 <= x -> 0 <= IZR (Rtrunc x) <= x /\ x < IZR (Rtrunc x) + 1) /\
  (x <= 0 -> x <= IZR (Rtrunc x) <= 0 /\ IZR (Rtrunc x) - 1 < x).
Proof.
  unfold Rtrunc. destruct (Rle_dec 0 x) as [H|H].
  - pose proof (Int_part_bounds x) as B. split; intros Q.
    + assert (IZR (-1) < IZR (Int_part x)) by lra. apply lt_IZR in H0. assert (0 <= IZR (Int_part x)) by (apply IZR_le; lia). lra.
    + assert (x = 0) by lra. subst. rewrite (Int_part_spec 0 0) by lra. lra.
  - pose proof (Int_part_bounds (- x)) as B. split; intros Q; [lra|].
    rewrite opp_IZR. assert (IZR (-1) < IZR (Int_part (- x))) by lra. apply lt_IZR in H0. assert (0 <= IZR (Int_part (- x))) by (apply IZR_le; lia). lra.
Qed.

Lemma minutes_arg L : L / DEG_PER_REV * INR MIN_PER_DAY = 4 * L.
Proof. unfold DEG_PER_REV. rewrite INR_IZR_INZ. replace (Z.of_nat MIN_PER_DAY) with 1440%Z by reflexivity. lra. Qed.
Lemma rad_arg L : L / DEG_PER_REV * INR RAD_STEPS = 8 * L.
Proof. unfold DEG_PER_REV. rewrite INR_IZR_INZ. replace (Z.of_nat RAD_STEPS) with 2880%Z by reflexivity. lra. Qed.

Theorem shifts_agree L : 
  let m := IZR (utc_minutes L) in let r := IZR (utc_rad_steps L) / 2 in
  Rabs (r - m) < 1 /\ Rabs (4 * L - m) < 1 /\ (0 <= L -> 0 <= m <= 4 * L /\ 0 <= r <= 4 * L) /\ (L <= 0 -> 4 * L <= m <= 0 /\ 4 * L <= r <= 0).
Proof.
  cbv zeta. unfold utc_minutes, utc_rad_steps. rewrite minutes_arg, rad_arg.
  destruct (Rtrunc_spec (4 * L)) as [P1 P2]. destruct (Rtrunc_spec (8 * L)) as [Q1 Q2].
  destruct (Rle_lt_dec 0 L).
  - specialize (P1 ltac:(lra)). specialize (Q1 ltac:(lra)). split; [apply Rabs_def1; lra|]. split; [apply Rabs_def1; lra|].
    split; [lra|]. intros Z. assert (L = 0) by lra. subst. lra.
  - specialize (P2 ltac:(lra)). specialize (Q2 ltac:(lra)). split; [apply Rabs_def1; lra|]. split; [apply Rabs_def1; lra|]. split; lra.
Qed.

Theorem temp_shift_same prm : p_theta_s prm = 0 -> utc_temp_minutes prm = utc_minutes (p_lon prm).
Proof. intros H. unfold utc_temp_minutes, utc_minutes. now rewrite H, Rminus_0_r. Qed.

Lemma mapM_getitem_map {A B} (f : A -> B) l idx : mapM (getitem (map f l)) idx = (do r <- mapM (getitem l) idx; Ok (map f r)).
Proof.
  induction idx as [|i idx IH]; cbn [mapM]; auto. unfold getitem at 1 3. rewrite nth_error_map.
  destruct (nth_error l i); cbn [option_map bind]; auto. rewrite IH. destruct (mapM (getitem l) idx); reflexivity.
Qed.

Lemma zipw_map_l (f : R -> R) a b : (forall x y, f x + y = f (x + y)) ->
  zipw Rplus (map f a) b = (do r <- zipw Rplus a b; Ok (map f r)).
Proof.
  intros H. unfold zipw. rewrite map_length. destruct (_ =? _)%nat; cbn [bind]; auto. f_equal. unfold map2.
  rewrite map_map. revert b. induction a as [|x a IH]; intros [|y b]; cbn; auto. now rewrite IH, H.
Qed.

(** the times of the extremes move by the same amount *)
Theorem times_shift tiny yday n ts prm a b :
  set_min_max_hour tiny yday n ts (with_utc false prm) = Ok (a, b) ->
  set_min_max_hour tiny yday n ts (with_utc true prm) =
  Ok (map (fun t => t - IZR (utc_temp_minutes prm)) a, map (fun t => t - IZR (utc_temp_minutes prm)) b).
Proof.
  unfold set_min_max_hour. cbv zeta. cbn [p_utc_offset with_utc p_tmax_frac]. change (utc_temp_minutes (with_utc true prm)) with (utc_temp_minutes prm).
  set (s := IZR (utc_temp_minutes prm)). set (offs := map (fun d => INR (d * MIN_PER_DAY)) (seq 0 n)).
  assert (E : forall g : list R -> R, map (fun row => g row - s) tiny = map (fun x => x - s) (map (fun row => g row - 0) tiny)).
  { intros g. rewrite map_map. apply map_ext. intros r. ring. }
  rewrite (E rise_time), (E set_time), !mapM_getitem_map.
  destruct (mapM (getitem tiny) yday) as [rows|] eqn:ER; cbn [bind]; [|intro Q; discriminate Q].
  rewrite !zipw_map_l with (f := fun x => x - s) by (intros; ring).
  destruct (zipw Rplus (map (fun row => rise_time row - 0) rows) offs) as [r'|] eqn:EZ; cbn [bind]; [|intro Q; discriminate Q].
  destruct (zipw Rplus (map (fun row => set_time row - 0) rows) offs) as [q'|] eqn:EZ2; cbn [bind]; [|intro Q; discriminate Q].
  intros H. apply Ok_inj in H. injection H as <- <-. f_equal. f_equal.
  - rewrite !map_map. apply map_ext. intros x. ring.
  - unfold map2. rewrite map_map. revert r' EZ. clear. intros r' _. revert r'. induction q' as [|x q IH]; intros [|y r]; cbn; auto.
    rewrite IH. f_equal. ring.
Qed.

(** only the remainder of the longitude matters *)
Theorem disaggregate_lon df prm tiny tb te lon lon' : remainder360 lon = remainder360 lon' ->
  disaggregate df (set_lon prm lon) tiny tb te = disaggregate df (set_lon prm lon') tiny tb te.
Proof. intros H. unfold disaggregate, disaggregate_over. change (p_lon (set_lon prm lon)) with lon. change (p_lon (set_lon prm lon')) with lon'. rewrite H. reflexivity. Qed.

Lemma Int_part_IZR z : Int_part (IZR z) = z.
Proof. apply Int_part_spec. lra. Qed.
Lemma Rtrunc_IZR z : Rtrunc (IZR z) = z.
Proof. unfold Rtrunc. destruct (Rle_dec 0 (IZR z)); [apply Int_part_IZR|]. rewrite <- opp_IZR, Int_part_IZR. lia. Qed.
Lemma utc_minutes_IZR z : utc_minutes (IZR z) = (4 * z)%Z.
Proof. unfold utc_minutes. rewrite minutes_arg, <- mult_IZR. apply Rtrunc_IZR. Qed.

Lemma rem_180 : remainder360 180 = 180.
Proof.
  unfold remainder360, round_half_even. replace (180 / 360) with (1 / 2) by field. rewrite (Int_part_spec (1 / 2) 0) by lra.
  rewrite !Rltb_not by lra. cbn [Z.even]. lra.
Qed.
Lemma rem_540 : remainder360 540 = -180.
Proof.
  unfold remainder360, round_half_even. replace (540 / 360) with (3 / 2) by field. rewrite (Int_part_spec (3 / 2) 1) by lra.
  rewrite !Rltb_not by lra. cbn [Z.even]. replace (1 + 1)%Z with 2%Z by lia. lra.
Qed.

Lemma legal_360 : legal_time_step 360.
Proof. split; [lia|]. split; [reflexivity|lia]. Qed.

Lemma fmean_const (l : list fl) v : l <> [] -> (forall x, In x l -> x = v) -> fmean l = v.
Proof.
  intros N H. replace l with (repeat v (List.length l)).
  - apply fmean_repeat. destruct l; [congruence|cbn; lia].
  - symmetry. apply Forall_eq_repeat. apply Forall_forall. intros x Hx. symmetry. now apply H.
Qed.

Lemma Some_inj {A} (a b : A) : Some a = Some b -> a = b.
Proof. congruence. Qed.

Theorem wrap_differs : exists w ts prm a b, legal_time_step ts /\ p_utc_offset prm = true /\
  wind w ts (da_prm (set_lon prm 180)) = Ok a /\ wind w ts (da_prm (set_lon prm (180 + 360))) = Ok b /\ a <> b.
Proof.
  exists [Some 0; Some 0; Some 1], 360%Z, (with_utc true demo_params).
  destruct (daily_constant_utc [Some 0; Some 0; Some 1] 360 (da_prm (set_lon (with_utc true demo_params) 180)) legal_360 eq_refl) as (a & Ea & La & Na & _).
  destruct (daily_constant_utc [Some 0; Some 0; Some 1] 360 (da_prm (set_lon (with_utc true demo_params) (180 + 360))) legal_360 eq_refl) as (b & Eb & Lb & Nb & _).
  exists a, b. split; [apply legal_360|]. split; [reflexivity|]. split; [exact Ea|]. split; [exact Eb|]. intros ->.
  change (steps 360) with 4%nat in *. cbn [List.length] in *. specialize (Na 0%nat ltac:(lia)). specialize (Nb 0%nat ltac:(lia)). rewrite Na in Nb. clear Na.
  change (p_lon (da_prm (set_lon (with_utc true demo_params) 180))) with (remainder360 180) in Nb.
  change (p_lon (da_prm (set_lon (with_utc true demo_params) (180 + 360)))) with (remainder360 (180 + 360)) in Nb.
  replace (180 + 360) with 540 in Nb by ring. rewrite rem_180, rem_540 in Nb.
  rewrite (utc_minutes_IZR 180), (utc_minutes_IZR (-180)) in Nb. apply Some_inj in Nb.
  rewrite (fmean_const _ (Some 0)) in Nb.
  - rewrite (fmean_const _ (Some 1)) in Nb; [injection Nb as Nb; lra| |].
    + intros Q. apply map_eq_nil in Q. discriminate Q.
    + intros x Hx. apply in_map_iff in Hx as (j & <- & Hj). apply in_seq in Hj. replace (Z.to_nat 360) with 360%nat in Hj by reflexivity.
      replace (Z.to_nat ((Z.of_nat (0 * Z.to_nat 360 + j) + 4 * -180) mod (Z.of_nat 3 * 1440) / 1440)) with 2%nat; [reflexivity|].
      cbn [Nat.mul Nat.add]. replace (Z.of_nat j + 4 * -180)%Z with (Z.of_nat j + 3600 + (-1) * 4320)%Z by lia. change (Z.of_nat 3 * 1440)%Z with 4320%Z.
      rewrite Z.mod_add, Z.mod_small by lia. rewrite <- (Z.div_unique (Z.of_nat j + 3600) 1440 2 (Z.of_nat j + 720)) by lia. reflexivity.
  - intros Q. apply map_eq_nil in Q. discriminate Q.
  - intros x Hx. apply in_map_iff in Hx as (j & <- & Hj). apply in_seq in Hj. replace (Z.to_nat 360) with 360%nat in Hj by reflexivity.
    replace (Z.to_nat ((Z.of_nat (0 * Z.to_nat 360 + j) + 4 * 180) mod (Z.of_nat 3 * 1440) / 1440)) with 0%nat; [reflexivity|].
    cbn [Nat.mul Nat.add]. change (Z.of_nat 3 * 1440)%Z with 4320%Z. rewrite Z.mod_small by lia. rewrite Z.div_small by lia. reflexivity.
Qed.

Theorem theta_differs : exists prm, utc_temp_minutes prm <> utc_minutes (p_lon prm).
Proof.
  exists (mkparams 60 true false "mtclim" "" "uniform" "prata" "cloud_deardorff" 0 0.75 1e-6 0.45 0.67 0.0065 15 100 47 0).
  unfold utc_temp_minutes. cbn [p_lon p_theta_s]. rewrite minutes_arg. rewrite (utc_minutes_IZR 0).
  replace (4 * (0 - 15)) with (IZR (-60)) by ring. rewrite Rtrunc_IZR. discriminate.
Qed.

Theorem shift_amounts lon : let L := remainder360 lon in
  let m := IZR (utc_minutes L) in let r := IZR (utc_rad_steps L) / 2 in
  (-180 <= L <= 180 /\ exists n, L = lon - 360 * IZR n) /\
  Rabs (r - m) < 1 /\ Rabs (4 * L - m) < 1 /\ (0 <= L -> 0 <= m <= 4 * L /\ 0 <= r <= 4 * L) /\ (L <= 0 -> 4 * L <= m <= 0 /\ 4 * L <= r <= 0).
Proof. intros L m r. split; [apply remainder_range|apply shifts_agree]. Qed.

Theorem times_shift_same tiny yday n ts prm a b : p_theta_s prm = 0 ->
  set_min_max_hour tiny yday n ts (with_utc false prm) = Ok (a, b) ->
  set_min_max_hour tiny yday n ts (with_utc true prm) =
  Ok (map (fun t => t - IZR (utc_minutes (p_lon prm))) a, map (fun t => t - IZR (utc_minutes (p_lon prm))) b).
Proof. intros T H. rewrite <- temp_shift_same by auto. now apply times_shift. Qed.

Theorem wrap_period df prm tiny tb te lon : (forall n, lon <> 360 * IZR n + 180) ->
  disaggregate df (set_lon prm (lon + 360)) tiny tb te = disaggregate df (set_lon prm lon) tiny tb te.
Proof. intros H. apply disaggregate_lon. now apply remainder_period. Qed.

Lemma utc_rad_IZR z : utc_rad_steps (IZR z) = (8 * z)%Z.
Proof. unfold utc_rad_steps. rewrite rad_arg, <- mult_IZR. apply Rtrunc_IZR. Qed.

Theorem cycle_example : exists out out0,
  shortwave (repeat (Some 200) 366) (repeat (Some 43200) 366) (seq 1 366) (repeat even_row 366) (with_utc true demo_params) = Ok out /\
  shortwave (repeat (Some 200) 366) (repeat (Some 43200) 366) (seq 1 366) (repeat even_row 366) (with_utc false demo_params) = Ok out0 /\
  fsum out = fsum out0 /\ utc_rad_steps (p_lon demo_params) = (-968)%Z.
Proof.
  destruct (shortwave_cycle (repeat (Some 200) 366) (repeat (Some 43200) 366) (repeat even_row 366) demo_params) as (a & b & A & B & C).
  - split; [reflexivity|]. split; [reflexivity|]. cbn. lia.
  - apply even_rows.
  - now rewrite !repeat_length.
  - now rewrite !repeat_length.
  - rewrite repeat_length in A, B. exists a, b. exact (conj A (conj B (conj C (utc_rad_IZR (-121))))).
Qed.

Theorem shift_example : remainder360 239 = -121 /\ utc_minutes (-121) = (-484)%Z /\ utc_rad_steps (-121) = (-968)%Z /\
  (forall n, 239 <> 360 * IZR n + 180).
Proof.
  split; [|split; [apply (utc_minutes_IZR (-121))|split; [apply (utc_rad_IZR (-121))|]]].
  - unfold remainder360, round_half_even. rewrite (Int_part_spec (239 / 360) 0) by lra. rewrite Rltb_not by lra. rewrite (Rltb_of (1 / 2)) by lra.
    cbn. lra.
  - intros n H. assert (E : IZR 239 = IZR (360 * n + 180)) by (rewrite plus_IZR, mult_IZR; exact H). apply eq_IZR in E. lia.
Qed.
