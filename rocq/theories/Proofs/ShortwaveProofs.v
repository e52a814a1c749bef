(** C23, C24, C47: sub-daily shortwave. *)
From Coq Require Import ZArith Reals String List Bool Arith Lia Lra Permutation.
From Verif Require Import Model.Py Model.Fl Model.Np Model.Constants Model.Physics Model.Params Model.Disagg
  Spec.TimeSpec Spec.SeriesSpec Spec.ShortSpec Proofs.Base Proofs.StateProofs Proofs.ArrayProofs Proofs.PrecProofs
  Proofs.WindProofs Proofs.LongwaveProofs Proofs.RBase Proofs.SolarProofs Proofs.SolarTables.
Import ListNotations.
Local Open Scope list_scope.
Local Open Scope R_scope.

(** ** bincount over consecutive blocks *)
Lemma combine_app {A B} (a a' : list A) (b b' : list B) : List.length a = List.length b ->
  combine (a ++ a') (b ++ b') = combine a b ++ combine a' b'.
Proof. revert b. induction a as [|x a IH]; intros [|y b] H; try discriminate; auto. cbn in *. now rewrite IH by lia. Qed.

Lemma filter_repeat_eq {B} k c (b : list B) : List.length b = c ->
  map snd (filter (fun p => fst p =? k)%nat (combine (repeat k c) b)) = b.
Proof.
  revert b. induction c as [|c IH]; intros [|y b] H; try discriminate; auto. cbn [repeat combine filter fst].
  rewrite Nat.eqb_refl. cbn [map snd]. f_equal. apply IH. cbn in H. lia.
Qed.
Lemma filter_repeat_ne {B} k s c (b : list B) : s <> k ->
  filter (fun p => fst p =? k)%nat (combine (repeat s c) b) = [].
Proof.
  intros N. revert b. induction c as [|c IH]; intros [|y b]; auto. cbn [repeat combine filter fst].
  rewrite (proj2 (Nat.eqb_neq s k)) by auto. apply IH.
Qed.

Lemma pick_block {B} c n : forall s (b : list B) k, List.length b = (n * c)%nat -> (s <= k < s + n)%nat ->
  map snd (filter (fun p => fst p =? k)%nat (combine (np_repeat (seq s n) c) b)) = firstn c (skipn ((k - s) * c) b).
Proof.
  induction n as [|n IH]; intros s b k L K; [lia|].
  assert (E : np_repeat (seq s (S n)) c = repeat s c ++ np_repeat (seq (S s) n) c) by reflexivity. rewrite E.
  rewrite <- (firstn_skipn c b) at 1.
  assert (Lf : List.length (firstn c b) = c) by (rewrite firstn_length; lia).
  assert (Ls : List.length (skipn c b) = (n * c)%nat) by (rewrite skipn_length; lia).
  rewrite combine_app by now rewrite repeat_length. rewrite filter_app, map_app.
  destruct (Nat.eq_dec s k) as [->|N].
  - rewrite filter_repeat_eq by auto. replace (k - k)%nat with 0%nat by lia. cbn [Nat.mul skipn].
    replace (filter _ (combine (np_repeat (seq (S k) n) c) (skipn c b))) with (@nil (nat * B)); [apply app_nil_r|].
    symmetry. clear. generalize (skipn c b). assert (G : forall x, In x (np_repeat (seq (S k) n) c) -> x <> k).
    { intros x Hx. unfold np_repeat in Hx. apply in_flat_map in Hx as (y & Hy & Hx). apply repeat_spec in Hx. apply in_seq in Hy. lia. }
    revert G. induction (np_repeat (seq (S k) n) c) as [|x l IH]; intros G [|y b0]; auto. cbn [combine filter fst].
    rewrite (proj2 (Nat.eqb_neq x k)) by (apply G; now left). apply IH. intros z Hz. apply G. now right.
  - rewrite filter_repeat_ne by auto. cbn [map app]. rewrite IH by (auto; lia).
    rewrite skipn_skipn'. do 2 f_equal. replace (k - s)%nat with (S (k - S s)) by lia. lia.
Qed.

Lemma bincount_blocks c n (ws : list fl) : (0 < c)%nat -> (0 < n)%nat -> List.length ws = (n * c)%nat ->
  bincount (np_repeat (seq 0 n) c) ws = Ok (map fsum (rows n c ws)).
Proof.
  intros C N L. unfold bincount. rewrite np_repeat_length, seq_length, L, Nat.eqb_refl.
  assert (M : list_max (np_repeat (seq 0 n) c) = (n - 1)%nat).
  { apply Nat.le_antisymm.
    - apply list_max_le. apply Forall_forall. intros x Hx. unfold np_repeat in Hx. apply in_flat_map in Hx as (y & Hy & Hx).
      apply repeat_spec in Hx. apply in_seq in Hy. lia.
    - assert (I : In (n - 1)%nat (np_repeat (seq 0 n) c)).
      { unfold np_repeat. apply in_flat_map. exists (n - 1)%nat. split; [apply in_seq; lia|]. destruct c; [lia|now left]. }
      assert (F : Forall (fun k => k <= list_max (np_repeat (seq 0 n) c))%nat (np_repeat (seq 0 n) c)) by now apply list_max_le.
      rewrite Forall_forall in F. apply (F _ I). }
  destruct (np_repeat (seq 0 n) c) as [|x l] eqn:E.
  { exfalso. apply (f_equal (@List.length nat)) in E. rewrite np_repeat_length, seq_length in E. cbn in E. nia. }
  rewrite <- E in *. rewrite M. replace (S (n - 1)) with n by lia. f_equal. apply list_ext. intros k.
  rewrite !nth_error_map. destruct (Nat.lt_ge_cases k n) as [K|K].
  - rewrite nth_error_seq0, rows_nth by auto. cbn [option_map]. rewrite pick_block by (auto; lia). now rewrite Nat.sub_0_r.
  - rewrite (proj2 (nth_error_None (seq 0 n) k)), (proj2 (nth_error_None (rows n c ws) k)) by (rewrite ?seq_length, ?rows_length; lia). reflexivity.
Qed.

(** ** the loop over the days *)
Lemma steps_rad ts : legal_time_step ts -> (steps ts * Z.to_nat (ts * 2) = RAD_STEPS)%nat /\ (0 < Z.to_nat (ts * 2))%nat.
Proof.
  intros L. destruct (steps_mul ts L) as (A & B & C). assert (E : RAD_STEPS = (2 * MIN_PER_DAY)%nat) by reflexivity.
  rewrite E, <- A. rewrite Z2Nat.inj_mul by lia. change (Z.to_nat 2) with 2%nat. lia.
Qed.

Lemma slice_day {A} w k (l : list A) : list_slice l (k * w) ((k + 1) * w) = day_part w k l.
Proof. unfold list_slice, day_part. f_equal. lia. Qed.
Lemma slice_day' {A} w k (l : list A) : (1 <= k)%nat -> list_slice l ((k - 1) * w) (k * w) = day_part w (k - 1) l.
Proof. intros H. rewrite <- slice_day. do 2 f_equal. lia. Qed.

Definition chunk (ts : Z) (flat tmp : list fl) (k d : nat) : list fl :=
  map fsum (rows (steps ts) (Z.to_nat (ts * 2)) (map2 fmul (day_part RAD_STEPS (k - 1) flat) (day_part RAD_STEPS d tmp))).

Lemma map2_length {A B C} (f : A -> B -> C) a b : List.length a = List.length b -> List.length (map2 f a b) = List.length a.
Proof. intros H. unfold map2. rewrite map_length, combine_length, H. apply Nat.min_id. Qed.

Lemma days_loop ts (flat tmp : list fl) doy Y n : legal_time_step ts ->
  List.length flat = (Y * RAD_STEPS)%nat -> List.length tmp = (n * RAD_STEPS)%nat -> List.length doy = n ->
  (forall k, In k doy -> (1 <= k <= Y)%nat) ->
  mapM (fun day => do doy <- getitem doy day;
                   do chunk <- sw_day (np_repeat (seq 0 (steps ts)) (Z.to_nat (ts * 2))) flat tmp day doy;
                   if (List.length chunk =? steps ts)%nat then Ok chunk else Err ValueError) (seq 0 n)
  = Ok (map (fun d => chunk ts flat tmp (nth d doy 0%nat) d) (seq 0 n)).
Proof.
  intros L Lf Lt Ld Hk. destruct (steps_mul ts L) as (_ & Sp & _). destruct (steps_rad ts L) as [SR Cp].
  apply mapM_Ok. intros d Hd. apply in_seq in Hd. unfold getitem.
  rewrite (nth_error_nth' doy 0%nat) by lia. cbn [bind]. set (k := nth d doy 0%nat).
  assert (K : (1 <= k <= Y)%nat) by (apply Hk, nth_In; lia).
  unfold sw_day. rewrite slice_day, slice_day' by lia.
  assert (L1 : List.length (day_part RAD_STEPS (k - 1) flat) = RAD_STEPS) by (eapply day_part_length; eauto; lia).
  assert (L2 : List.length (day_part RAD_STEPS d tmp) = RAD_STEPS) by (eapply day_part_length; eauto; lia).
  rewrite zipw_ok by congruence. cbn [bind].
  rewrite bincount_blocks; auto; [|rewrite map2_length by congruence; lia]. cbn [bind].
  rewrite map_length, rows_length, Nat.eqb_refl. reflexivity.
Qed.

Lemma rate_scale ts : SEC_PER_HOUR * (IZR ts / MIN_PER_HOUR) = 60 * IZR ts.
Proof. unfold SEC_PER_HOUR, MIN_PER_HOUR. lra. Qed.

Definition sw_flat (tiny : list (list R)) (prm : params) : list fl :=
  let flat := map Some (concat tiny) in
  if p_utc_offset prm then np_roll flat (- utc_rad_steps (p_lon prm)) else flat.
Definition sw_tmp (sw dl : list fl) (prm : params) : list fl :=
  let tmp := np_repeat (map2 (step_energy (p_time_step prm)) sw dl) RAD_STEPS in
  if p_utc_offset prm then np_roll tmp (- utc_rad_steps (p_lon prm)) else tmp.

Lemma full_length tiny : full_rows tiny -> List.length (concat tiny) = (List.length tiny * RAD_STEPS)%nat.
Proof.
  intros F. unfold full_rows in F. induction tiny as [|r t IH]; auto. cbn [concat List.length]. rewrite app_length, IH by (intros; apply F; now right).
  rewrite (F r) by now left. lia.
Qed.
Lemma sw_flat_length tiny prm : full_rows tiny -> List.length (sw_flat tiny prm) = (List.length tiny * RAD_STEPS)%nat.
Proof. intros F. unfold sw_flat. destruct (p_utc_offset prm); rewrite ?np_roll_length, map_length; now apply full_length. Qed.
Lemma sw_tmp_length sw dl prm : List.length sw = List.length dl -> List.length (sw_tmp sw dl prm) = (List.length sw * RAD_STEPS)%nat.
Proof.
  intros L. unfold sw_tmp. destruct (p_utc_offset prm); rewrite ?np_roll_length, np_repeat_length, map2_length by auto; auto.
Qed.

Theorem shortwave_chunks sw dl doy tiny prm : legal_time_step (p_time_step prm) ->
  List.length sw = List.length dl -> List.length doy = List.length sw -> full_rows tiny -> rows_exist doy tiny ->
  shortwave sw dl doy tiny prm =
  Ok (concat (map (fun d => chunk (p_time_step prm) (sw_flat tiny prm) (sw_tmp sw dl prm) (nth d doy 0%nat) d)
                  (seq 0 (List.length sw)))).
Proof.
  intros L Ls Ld F K. unfold shortwave. rewrite ts_per_day_steps by apply L. cbn [bind]. rewrite zipw_ok by auto. cbn [bind].
  rewrite rate_scale. rewrite map_length, (map2_length fmul) by auto.
  replace (map (fun x => fdiv x (Some (60 * IZR (p_time_step prm)))) (map2 fmul sw dl))
    with (map2 (step_energy (p_time_step prm)) sw dl) by (unfold map2; now rewrite map_map).
  fold (sw_flat tiny prm). fold (sw_tmp sw dl prm).
  rewrite (days_loop _ _ _ _ (List.length tiny) (List.length sw)); auto; [now apply sw_flat_length|now apply sw_tmp_length].
Qed.

(** ** entries of the output *)
Lemma chunk_length ts flat tmp k d : List.length (chunk ts flat tmp k d) = steps ts.
Proof. unfold chunk. now rewrite map_length, rows_length. Qed.

Lemma chunks_day ts flat tmp doy n d : (d < n)%nat ->
  day_part (steps ts) d (concat (map (fun d => chunk ts flat tmp (nth d doy 0%nat) d) (seq 0 n))) = chunk ts flat tmp (nth d doy 0%nat) d.
Proof.
  intros H. apply day_part_concat.
  - intros x Hx. apply in_map_iff in Hx as (y & <- & _). apply chunk_length.
  - now rewrite nth_error_map, nth_error_seq0.
Qed.

Lemma chunks_length ts flat tmp doy n :
  List.length (concat (map (fun d => chunk ts flat tmp (nth d doy 0%nat) d) (seq 0 n))) = (n * steps ts)%nat.
Proof.
  rewrite <- (seq_length n 0) at 2. induction (seq 0 n) as [|d l IH]; auto. cbn [map concat List.length].
  rewrite app_length, chunk_length, IH. lia.
Qed.

Lemma concat_day (tiny : list (list R)) k row : full_rows tiny -> nth_error tiny k = Some row ->
  @day_part fl RAD_STEPS k (map Some (concat tiny)) = map Some row.
Proof. intros F H. unfold fl. rewrite day_part_map. f_equal. now apply day_part_concat. Qed.

Lemma map2_repeat {A B C} (f : A -> B -> C) a b n : List.length a = n -> map2 f a (repeat b n) = map (fun x => f x b) a.
Proof. intros <-. unfold map2. induction a as [|x a IH]; cbn; auto. now rewrite IH. Qed.

Lemma firstn_In {A} n (l : list A) x : In x (firstn n l) -> In x l.
Proof. intros H. rewrite <- (firstn_skipn n l). apply in_or_app. now left. Qed.
Lemma skipn_In {A} n (l : list A) x : In x (skipn n l) -> In x l.
Proof. intros H. rewrite <- (firstn_skipn n l). apply in_or_app. now right. Qed.

Lemma rows_In {A} n : forall w (l : list A) r, In r (rows n w l) -> forall y, In y r -> In y l.
Proof.
  induction n as [|n IH]; intros w l r; cbn [rows]; [intros []|]. intros [<-|H] y Hy.
  - now apply firstn_In in Hy.
  - apply (IH _ _ _ H) in Hy. now apply skipn_In in Hy.
Qed.

Lemma fsum_nonneg l : nonneg_series l -> exists y, fsum l = Some y /\ 0 <= y.
Proof.
  induction l as [|x l IH]; intros H.
  - exists 0. split; [reflexivity|lra].
  - destruct (H x (or_introl eq_refl)) as (a & -> & A). destruct IH as (b & E & B); [intros z Hz; apply H; now right|].
    exists (a + b). rewrite fsum_cons, E. split; [reflexivity|lra].
Qed.

(** C23 *)
Theorem shortwave_day sw dl doy tiny prm : legal_time_step (p_time_step prm) -> p_utc_offset prm = false ->
  List.length sw = List.length dl -> List.length doy = List.length sw -> full_rows tiny -> rows_exist doy tiny ->
  exists out, shortwave sw dl doy tiny prm = Ok out /\ List.length out = (List.length sw * steps (p_time_step prm))%nat /\
  forall d S D k row, nth_error sw d = Some (Some S) -> nth_error dl d = Some (Some D) ->
    nth_error doy d = Some k -> nth_error tiny (k - 1) = Some row ->
    fmean (day_part (steps (p_time_step prm)) d out) = Some (S * (D / 86400) * total row) /\
    (0 <= S -> 0 <= D -> (forall x, In x row -> 0 <= x) ->
     nonneg_series (day_part (steps (p_time_step prm)) d out)).
Proof.
  intros L U Ls Ld F K. eexists. split; [now apply shortwave_chunks|]. split; [apply chunks_length|].
  intros d S D k row HS HD Hk Hr. assert (Dn : (d < List.length sw)%nat) by (apply nth_error_Some; congruence).
  rewrite chunks_day by auto. rewrite (nth_error_nth _ _ _ Hk). unfold chunk, sw_flat, sw_tmp. cbv zeta. rewrite U.
  set (ts := p_time_step prm) in *. destruct (steps_mul ts L) as (_ & Sp & Tp). destruct (steps_rad ts L) as [SR Cp].
  assert (T0 : 0 < IZR ts) by (apply IZR_lt; lia).
  rewrite (concat_day tiny _ row F Hr). assert (Lr : List.length row = RAD_STEPS) by (apply F; eapply nth_error_In; eauto).
  assert (W : nth_error (map2 (step_energy ts) sw dl) d = Some (Some (S * D / (60 * IZR ts)))).
  { unfold map2. rewrite nth_error_map. assert (C : nth_error (combine sw dl) d = Some (Some S, Some D)).
    { clear -HS HD. revert dl d HS HD. induction sw as [|a l IH]; intros [|b dl] [|d] HS HD; try discriminate; cbn in *; [|auto]. now inversion HS; inversion HD. }
    rewrite C. cbn [option_map fst snd]. unfold step_energy. cbn [fmul flift2]. now rewrite fdiv_some by lra. }
  rewrite (np_repeat_day _ _ _ _ W). rewrite map2_repeat by now rewrite map_length. rewrite map_map.
  set (v := S * D / (60 * IZR ts)). assert (EM : map (fun x => fmul (Some x) (Some v)) row = map Some (map (fun x => v * x) row)).
  { rewrite map_map. apply map_ext. intros x. cbn. f_equal. ring. }
  rewrite EM. split.
  - unfold fmean. rewrite map_length, rows_length. rewrite all_sum by (rewrite !map_length; lia). rewrite fsum_some, total_scale.
    rewrite fdiv_some by (apply not_0_INR; lia). f_equal. unfold v. pose proof (steps_mul_R ts L) as SM.
    replace 86400 with (60 * (INR (steps ts) * IZR ts)) by lra. field. split; [lra|apply not_0_INR; lia].
  - intros S0 D0 R0 x Hx. apply in_map_iff in Hx as (r & <- & Hr').
    assert (Q : nonneg_series r).
    { intros y Hy. apply (rows_In _ _ _ _ Hr') in Hy. apply in_map_iff in Hy as (z & <- & Hz). exists z. split; auto.
      apply in_map_iff in Hz as (u & <- & Hu). apply Rmult_le_pos; [|auto]. unfold v. apply div_nonneg; [now apply Rmult_le_pos|lra]. }
    now apply fsum_nonneg.
Qed.

(** ** C24 *)
Lemma nth_map2 {A B C} (f : A -> B -> C) a b j x y : nth_error a j = Some x -> nth_error b j = Some y ->
  nth_error (map2 f a b) j = Some (f x y).
Proof.
  unfold map2. revert b j. induction a as [|u a IH]; intros [|v b] [|j] Ha Hb; try discriminate; cbn in *; [|now apply IH].
  now inversion Ha; inversion Hb; subst.
Qed.

Lemma circular_nth {A} (l : list A) i d : l <> [] ->
  nth_error l (Z.to_nat (i mod Z.of_nat (List.length l))) = Some (circular l i d).
Proof.
  intros N. assert (0 < List.length l)%nat by (destruct l; [congruence|cbn; lia]).
  pose proof (Z.mod_pos_bound i (Z.of_nat (List.length l)) ltac:(lia)). unfold circular. apply nth_error_nth'. lia.
Qed.

Lemma flat_utc_nth tiny prm i : full_rows tiny -> p_utc_offset prm = true -> (i < List.length tiny * RAD_STEPS)%nat ->
  nth_error (sw_flat tiny prm) i = Some (Some (fraction_at tiny (Z.of_nat i + utc_rad_steps (p_lon prm)))).
Proof.
  intros F U Hi. unfold sw_flat. cbv zeta. rewrite U. rewrite np_roll_nth by now rewrite map_length, full_length.
  unfold fl. rewrite nth_error_map, map_length. unfold fraction_at. replace (Z.of_nat i - - utc_rad_steps (p_lon prm))%Z with (Z.of_nat i + utc_rad_steps (p_lon prm))%Z by lia.
  rewrite (circular_nth _ _ 0); [reflexivity|]. intros E. pose proof (full_length tiny F) as L. rewrite E in L. cbn [List.length] in L. lia.
Qed.

Lemma value_repeat (x : list fl) i : (0 < List.length x)%nat ->
  nth_error (np_repeat x RAD_STEPS) (Z.to_nat (i mod Z.of_nat (List.length x * RAD_STEPS))) = Some (value_at x i).
Proof.
  intros N. assert (RP : (0 < RAD_STEPS)%nat) by (unfold RAD_STEPS; lia). rewrite np_repeat_nth by auto.
  pose proof (Z.mod_pos_bound i (Z.of_nat (List.length x * RAD_STEPS)) ltac:(lia)) as B.
  unfold value_at. rewrite <- Nat2Z.inj_mul. set (m := (i mod Z.of_nat (List.length x * RAD_STEPS))%Z) in *.
  replace (Z.to_nat m / RAD_STEPS)%nat with (Z.to_nat (m / Z.of_nat RAD_STEPS)).
  - apply nth_error_nth'. assert (m / Z.of_nat RAD_STEPS < Z.of_nat (List.length x))%Z by (apply Z.div_lt_upper_bound; lia).
    pose proof (Z.div_pos m (Z.of_nat RAD_STEPS) ltac:(lia) ltac:(lia)). lia.
  - rewrite <- (Nat2Z.id RAD_STEPS) at 2. symmetry. rewrite <- (Z2Nat.id m) at 2 by lia. rewrite <- Nat2Z.inj_div. now rewrite !Nat2Z.id.
Qed.

Lemma tmp_utc_nth sw dl prm i : List.length sw = List.length dl -> p_utc_offset prm = true -> (i < List.length sw * RAD_STEPS)%nat ->
  nth_error (sw_tmp sw dl prm) i = Some (value_at (map2 (step_energy (p_time_step prm)) sw dl) (Z.of_nat i + utc_rad_steps (p_lon prm))).
Proof.
  intros L U Hi. unfold sw_tmp. cbv zeta. rewrite U. assert (L2 : List.length (map2 (step_energy (p_time_step prm)) sw dl) = List.length sw) by now rewrite map2_length.
  rewrite np_roll_nth by now rewrite np_repeat_length, L2. rewrite np_repeat_length.
  replace (Z.of_nat i - - utc_rad_steps (p_lon prm))%Z with (Z.of_nat i + utc_rad_steps (p_lon prm))%Z by lia.
  apply value_repeat. rewrite L2. destruct (List.length sw); lia.
Qed.

Theorem shortwave_utc sw dl doy tiny prm : legal_time_step (p_time_step prm) -> p_utc_offset prm = true ->
  List.length sw = List.length dl -> List.length doy = List.length sw -> full_rows tiny -> rows_exist doy tiny ->
  let ts := p_time_step prm in let c := Z.to_nat (ts * 2) in let off := utc_rad_steps (p_lon prm) in
  exists out, shortwave sw dl doy tiny prm = Ok out /\ List.length out = (List.length sw * steps ts)%nat /\
  (forall d k s, nth_error doy d = Some k -> (s < steps ts)%nat ->
    nth_error out (d * steps ts + s) = Some (fsum (map (fun j =>
      fmul (Some (fraction_at tiny (Z.of_nat ((k - 1) * RAD_STEPS + s * c + j) + off)))
           (value_at (map2 (step_energy ts) sw dl) (Z.of_nat (d * RAD_STEPS + s * c + j) + off))) (seq 0 c)))) /\
  (nonneg_series sw -> nonneg_series dl -> nonneg_table tiny -> nonneg_series out).
Proof.
  intros L U Ls Ld F K ts c off. eexists. split; [now apply shortwave_chunks|]. fold ts.
  destruct (steps_mul ts L) as (_ & Sp & Tp). destruct (steps_rad ts L) as [SR Cp]. fold c in SR, Cp.
  assert (T0 : 0 < IZR ts) by (apply IZR_lt; lia).
  split; [apply chunks_length|]. set (out := concat _).
  assert (EQ : forall d k s, nth_error doy d = Some k -> (s < steps ts)%nat ->
    nth_error out (d * steps ts + s) = Some (fsum (map (fun j =>
      fmul (Some (fraction_at tiny (Z.of_nat ((k - 1) * RAD_STEPS + s * c + j) + off)))
           (value_at (map2 (step_energy ts) sw dl) (Z.of_nat (d * RAD_STEPS + s * c + j) + off))) (seq 0 c)))).
  { intros d k s Hk Hs. assert (Dn : (d < List.length sw)%nat) by (rewrite <- Ld; apply nth_error_Some; congruence).
    assert (Kr : (1 <= k <= List.length tiny)%nat) by (apply K; eapply nth_error_In; eauto).
    rewrite <- day_part_nth by auto. unfold out. rewrite chunks_day by auto. rewrite (nth_error_nth _ _ _ Hk).
    unfold chunk. fold c. rewrite nth_error_map, rows_nth by auto. cbn [option_map]. do 2 f_equal.
    apply list_ext. intros j. destruct (Nat.lt_ge_cases j c) as [J|J].
    - rewrite nth_error_firstn, nth_error_skipn, nth_error_map, nth_error_seq0 by auto. cbn [option_map].
      assert (JS : (s * c + j < RAD_STEPS)%nat) by nia.
      rewrite (nth_map2 fmul _ _ _ (Some (fraction_at tiny (Z.of_nat ((k - 1) * RAD_STEPS + s * c + j) + off)))
        (value_at (map2 (step_energy ts) sw dl) (Z.of_nat (d * RAD_STEPS + s * c + j) + off))); [reflexivity| |].
      + rewrite day_part_nth by auto. rewrite flat_utc_nth by (auto; nia). rewrite Nat.add_assoc. reflexivity.
      + rewrite day_part_nth by auto. rewrite tmp_utc_nth by (auto; nia). rewrite Nat.add_assoc. reflexivity.
    - rewrite (proj2 (nth_error_None _ _)), (proj2 (nth_error_None _ _)); auto; rewrite ?map_length, ?seq_length, ?firstn_length; lia. }
  split; [exact EQ|]. intros Ps Pd Pt x Hx. apply In_nth_error in Hx as [m Hm].
  assert (Hlen : (m < List.length sw * steps ts)%nat).
  { assert (Q : (m < List.length out)%nat) by (apply nth_error_Some; intros Z; rewrite Z in Hm; discriminate).
    unfold out in Q. now rewrite chunks_length in Q. }
  assert (Dm : m = (m / steps ts * steps ts + m mod steps ts)%nat) by (pose proof (Nat.div_mod m (steps ts) ltac:(lia)); lia).
  assert (Dl : (m / steps ts < List.length sw)%nat) by (apply Nat.div_lt_upper_bound; lia).
  rewrite Dm in Hm. rewrite (EQ _ (nth (m / steps ts) doy 0%nat)) in Hm; [|apply nth_error_nth'; lia|apply Nat.mod_upper_bound; lia].
  injection Hm as <-. apply fsum_nonneg. intros y Hy. apply in_map_iff in Hy as (j & <- & _).
  assert (PF : forall i, 0 <= fraction_at tiny i).
  { intros i. unfold fraction_at, circular. destruct (nth_in_or_default (Z.to_nat (i mod Z.of_nat (List.length (concat tiny)))) (concat tiny) 0) as [I|E].
    - apply in_concat in I as (r & Hr & Hi). eapply Pt; eauto.
    - rewrite E. lra. }
  assert (PV : forall i, exists v, value_at (map2 (step_energy ts) sw dl) i = Some v /\ 0 <= v).
  { intros i. assert (N0 : (0 < List.length (map2 (step_energy ts) sw dl))%nat) by (rewrite map2_length by auto; lia).
    pose proof (value_repeat _ i N0) as V. apply nth_error_In in V. unfold np_repeat in V. apply in_flat_map in V as (w & Hw & V).
    apply repeat_spec in V. rewrite V. unfold map2 in Hw. apply in_map_iff in Hw as ([a b] & <- & Hab).
    destruct (Ps a) as (a' & -> & A); [eapply in_combine_l; eauto|]. destruct (Pd b) as (b' & -> & B); [eapply in_combine_r; eauto|].
    unfold step_energy. cbn [fst snd fmul flift2]. rewrite fdiv_some by lra. eexists. split; [reflexivity|].
    apply div_nonneg; [now apply Rmult_le_pos|lra]. }
  destruct (PV (Z.of_nat (m / steps ts * RAD_STEPS + m mod steps ts * c + j) + off)%Z) as (v & -> & V).
  eexists. split; [reflexivity|]. now apply Rmult_le_pos.
Qed.

(** a record that is one cycle of the table keeps its energy *)
Lemma map2_app {A B C} (f : A -> B -> C) a a' b b' : List.length a = List.length b -> map2 f (a ++ a') (b ++ b') = map2 f a b ++ map2 f a' b'.
Proof. intros H. unfold map2. rewrite combine_app by auto. apply map_app. Qed.
Lemma map2_firstn {A B C} (f : A -> B -> C) n : forall a b, map2 f (firstn n a) (firstn n b) = firstn n (map2 f a b).
Proof. unfold map2. induction n; intros [|x a] [|y b]; cbn; auto. now rewrite IHn. Qed.
Lemma map2_skipn {A B C} (f : A -> B -> C) n : forall a b, List.length a = List.length b -> map2 f (skipn n a) (skipn n b) = skipn n (map2 f a b).
Proof. unfold map2. induction n; intros [|x a] [|y b] H; cbn in *; auto; try discriminate. Qed.
Lemma map2_roll {A B C} (f : A -> B -> C) a b s : List.length a = List.length b -> map2 f (np_roll a s) (np_roll b s) = np_roll (map2 f a b) s.
Proof.
  intros H. unfold np_roll. rewrite map2_length, <- H by auto. set (k := Z.to_nat _).
  rewrite map2_app by (rewrite !skipn_length; lia). now rewrite map2_skipn, map2_firstn.
Qed.

Lemma nth_seq1 n d : (d < n)%nat -> nth d (seq 1 n) 0%nat = S d.
Proof. intros. now rewrite seq_nth. Qed.

Lemma cycle_sum ts flat tmp n : legal_time_step ts -> List.length flat = (n * RAD_STEPS)%nat -> List.length tmp = (n * RAD_STEPS)%nat ->
  fsum (concat (map (fun d => chunk ts flat tmp (nth d (seq 1 n) 0%nat) d) (seq 0 n))) = fsum (map2 fmul flat tmp).
Proof.
  intros L Lf Lt. destruct (steps_rad ts L) as [SR Cp].
  assert (E : map (fun d => chunk ts flat tmp (nth d (seq 1 n) 0%nat) d) (seq 0 n)
            = map (fun r => map fsum (rows (steps ts) (Z.to_nat (ts * 2)) r)) (rows n RAD_STEPS (map2 fmul flat tmp))).
  { apply list_ext. intros d. rewrite !nth_error_map. destruct (Nat.lt_ge_cases d n) as [H|H].
    - rewrite nth_error_seq0, rows_nth by auto. cbn [option_map]. rewrite nth_seq1 by auto. unfold chunk, day_part.
      replace (S d - 1)%nat with d by lia. rewrite map2_firstn, map2_skipn by congruence. reflexivity.
    - rewrite (proj2 (nth_error_None (seq 0 n) d)), (proj2 (nth_error_None (rows n RAD_STEPS (map2 fmul flat tmp)) d)) by (rewrite ?seq_length, ?rows_length; lia). reflexivity. }
  rewrite E. assert (LM : List.length (map2 fmul flat tmp) = (n * RAD_STEPS)%nat) by (rewrite map2_length; congruence).
  rewrite <- fsum_concat, map_map. rewrite <- (rows_concat n RAD_STEPS (map2 fmul flat tmp) LM) at 2. rewrite <- fsum_concat. f_equal.
  apply map_ext_in. intros r Hr. apply all_sum. rewrite (rows_row_length _ _ _ LM r Hr). lia.
Qed.

Theorem shortwave_cycle sw dl tiny prm : legal_time_step (p_time_step prm) -> full_rows tiny ->
  List.length sw = List.length dl -> List.length sw = List.length tiny ->
  exists out out0, shortwave sw dl (seq 1 (List.length sw)) tiny (with_utc true prm) = Ok out /\
    shortwave sw dl (seq 1 (List.length sw)) tiny (with_utc false prm) = Ok out0 /\ fsum out = fsum out0.
Proof.
  intros L F Ls Lt. assert (RE : rows_exist (seq 1 (List.length sw)) tiny) by (intros k Hk; apply in_seq in Hk; lia).
  do 2 eexists. split; [apply shortwave_chunks; auto; apply seq_length|]. split; [apply shortwave_chunks; auto; apply seq_length|].
  change (p_time_step (with_utc true prm)) with (p_time_step prm). change (p_time_step (with_utc false prm)) with (p_time_step prm).
  assert (Lf : forall p, List.length (sw_flat tiny p) = (List.length sw * RAD_STEPS)%nat) by (intros; rewrite sw_flat_length by auto; congruence).
  rewrite !cycle_sum by (auto; now apply sw_tmp_length).
  specialize (Lf (with_utc false prm)). pose proof (sw_tmp_length sw dl (with_utc false prm) Ls) as L2.
  unfold sw_flat, sw_tmp in *. cbn [p_utc_offset with_utc p_lon p_time_step] in *.
  rewrite map2_roll by congruence. apply fsum_perm, np_roll_perm.
Qed.

(** ** examples *)
Definition even_row : list R := repeat (/ 2880) RAD_STEPS.

Lemma even_row_total : total even_row = 1.
Proof. unfold even_row. rewrite total_repeat, INR_IZR_INZ. replace (Z.of_nat RAD_STEPS) with 2880%Z by reflexivity. field. Qed.
Lemma even_rows n : full_rows (repeat even_row n).
Proof. intros r H. apply repeat_spec in H. subst. apply repeat_length. Qed.
Lemma even_nonneg n : nonneg_table (repeat even_row n).
Proof. intros r x H Hx. apply repeat_spec in H. subst. apply repeat_spec in Hx. subst. lra. Qed.

Theorem shortwave_example : exists out, shortwave [Some 0; Some 200] [Some 0; Some 43200] [365; 1]%nat (repeat even_row 366) demo_params = Ok out /\
  List.length out = 48%nat /\ fmean (day_part 24 1 out) = Some 100 /\ nonneg_series (day_part 24 1 out).
Proof.
  destruct (shortwave_day [Some 0; Some 200] [Some 0; Some 43200] [365; 1]%nat (repeat even_row 366) demo_params) as (out & E & Lo & H); auto.
  - split; [reflexivity|]. split; [reflexivity|]. cbn. lia.
  - apply even_rows.
  - intros k [<-|[<-|[]]]; rewrite repeat_length; lia.
  - exists out. split; [exact E|]. split; [exact Lo|]. destruct (H 1%nat 200 43200 1%nat even_row eq_refl eq_refl eq_refl eq_refl) as [M N].
    change (steps (p_time_step demo_params)) with 24%nat in *. split.
    + rewrite M, even_row_total. f_equal. field.
    + apply N; try lra. intros x Hx. apply (even_nonneg 1 even_row); [now left|exact Hx].
Qed.
