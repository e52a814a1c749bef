(** Longwave radiation. *)
From Coq Require Import ZArith Reals String List Bool Arith Lia Lra.
From Verif Require Import Model.Py Model.Fl Model.Np Model.Constants Model.Physics Model.Params Model.Disagg
  Spec.TimeSpec Spec.SeriesSpec Proofs.Base Proofs.RBase Proofs.ArrayProofs Proofs.PrecProofs
  Proofs.WindProofs Proofs.HumidProofs.
Import ListNotations.
Local Open Scope list_scope.
Local Open Scope R_scope.

Lemma Rpower_pos x y : 0 < Rpower x y.
Proof. apply exp_pos. Qed.
Lemma fpower_pos x y : 0 < x -> fpower (Some x) (Some y) = Some (Rpower x y).
Proof. intros H. unfold fpower. destruct (Rlt_dec 0 x); [reflexivity|contradiction]. Qed.

(** emissivity of every option *)
Lemma emissivity_pos name emis Ta e : emissivity_calc name = Ok emis -> 0 < Ta -> 0 < e ->
  exists eps, emis (Some Ta) (Some e) = Some eps /\ 0 < eps.
Proof.
  unfold emissivity_calc. intros H T0 E0.
  destruct (_ || _)%bool; [apply Ok_inj in H; subst emis; cbv beta|].
  { cbn [fadd fmul flift2]. eexists. split; [reflexivity|]. lra. }
  destruct (name =? "ANDERSON")%string; [apply Ok_inj in H; subst emis; cbv beta|].
  { rewrite fpower_pos by auto. cbn [fadd fmul flift2]. eexists. split; [reflexivity|].
    pose proof (Rpower_pos e 0.5). lra. }
  destruct (name =? "BRUTSAERT")%string; [apply Ok_inj in H; subst emis; cbv beta|].
  { rewrite fdiv_some by lra. rewrite fpower_pos by (now apply div_pos). cbn [fmul flift2]. eexists. split; [reflexivity|].
    pose proof (Rpower_pos (e / Ta) 0.14285714). lra. }
  destruct (name =? "SATTERLUND")%string; [apply Ok_inj in H; subst emis; cbv beta|].
  { rewrite fdiv_some by lra. rewrite fpower_pos by auto. cbn [fmul fsub flift2 fexp flift1 option_map].
    eexists. split; [reflexivity|]. pose proof (Rpower_pos e (Ta / 2016)) as P.
    assert (exp (-1 * Rpower e (Ta / 2016)) < 1) by (rewrite <- exp_0; apply exp_increasing; lra). lra. }
  destruct (name =? "IDSO")%string; [apply Ok_inj in H; subst emis; cbv beta|].
  { rewrite fdiv_some by lra. cbn [fadd fmul flift2 fexp flift1 option_map]. eexists. split; [reflexivity|].
    pose proof (exp_pos (1500 / Ta)). assert (0 < 5.95e-5 * e * exp (1500 / Ta)) by (apply Rmult_lt_0_compat; lra). lra. }
  destruct (name =? "PRATA")%string; [apply Ok_inj in H; subst emis; cbv beta|discriminate].
  cbn [fmul flift2]. rewrite fdiv_some by lra. cbn [fmul fadd flift2].
  assert (X : 0 < 46.5 * e / Ta) by (apply div_pos; lra).
  unfold fsqrt. destruct (Rlt_dec _ 0); [lra|]. cbn [fneg fexp flift1 option_map fmul fsub flift2].
  eexists. split; [reflexivity|]. apply prata_bounds. lra.
Qed.

Lemma prata_lt_1 emis Ta e : emissivity_calc "PRATA" = Ok emis -> 0 < Ta -> 0 < e ->
  exists eps, emis (Some Ta) (Some e) = Some eps /\ 0 < eps < 1.
Proof.
  intros H T0 E0. apply Ok_inj in H. subst emis. cbv beta.
  cbn [fmul flift2]. rewrite fdiv_some by lra. cbn [fmul fadd flift2].
  assert (X : 0 < 46.5 * e / Ta) by (apply div_pos; lra).
  unfold fsqrt. destruct (Rlt_dec _ 0); [lra|]. cbn [fneg fexp flift1 option_map fmul fsub flift2].
  eexists. split; [reflexivity|]. apply prata_bounds. lra.
Qed.

Lemma cloud_cases name cloud : cloud_calc name = Ok cloud ->
  ((name = "DEFAULT" \/ name = "TVA")%string /\ forall eps c, cloud (Some eps) (Some c) = Some ((1 + 0.17 * c ^ 2) * eps)) \/
  (name = "CLOUD_DEARDORFF"%string /\ forall eps c, cloud (Some eps) (Some c) = Some (c + (1 - c) * eps)).
Proof.
  unfold cloud_calc. destruct (_ || _)%bool eqn:E.
  - intros [= <-]. left. split.
    + apply orb_prop in E as [E|E]; apply String.eqb_eq in E; auto.
    + intros. cbn [fmul fadd flift2 fpow option_map]. f_equal. lra.
  - destruct (name =? "CLOUD_DEARDORFF")%string eqn:D; [|discriminate]. intros [= <-]. right.
    split; [now apply String.eqb_eq|]. reflexivity.
Qed.

Definition sigmaT4 (T : R) : R := STEFAN_B * (T + KELVIN) ^ 4.
Lemma sigmaT4_pos T : 0 < T + KELVIN -> 0 < sigmaT4 T.
Proof. intros H. unfold sigmaT4, STEFAN_B. apply Rmult_lt_0_compat; [lra|]. apply pow_lt. auto. Qed.

Lemma longwave1_eq emis cloud T vp c eps x : 
  emis (Some (T + KELVIN)) (Some (vp * 10)) = Some eps -> cloud (Some eps) (Some c) = Some x ->
  longwave1 emis cloud (Some T) (Some vp) (Some c) = Some (x * sigmaT4 T).
Proof.
  intros E C. unfold longwave1. cbn [fadd fmul flift2]. rewrite E, C. cbn [fmul flift2 fpow option_map].
  unfold sigmaT4. f_equal. lra.
Qed.

Theorem longwave1_spec lt lc emis cloud T vp c :
  emissivity_calc lt = Ok emis -> cloud_calc lc = Ok cloud ->
  0 < T + KELVIN -> 0 < vp -> 0 <= c <= 1 ->
  exists eps clear L,
    emis (Some (T + KELVIN)) (Some (vp * 10)) = Some eps /\
    longwave1 emis cloud (Some T) (Some vp) (Some 0) = Some clear /\
    longwave1 emis cloud (Some T) (Some vp) (Some c) = Some L /\
    0 < clear /\ clear = eps * sigmaT4 T /\ 0 < L /\
    ((lc <> "CLOUD_DEARDORFF"%string \/ eps <= 1) -> clear <= L) /\
    (lc = "CLOUD_DEARDORFF"%string -> 0 < c -> 1 < eps -> L < clear) /\
    (lc = "CLOUD_DEARDORFF"%string -> eps <= 1 -> L <= sigmaT4 T).
Proof.
  intros HE HC T0 V0 C01.
  destruct (emissivity_pos lt emis (T + KELVIN) (vp * 10) HE T0 ltac:(lra)) as (eps & Ee & Pe).
  pose proof (sigmaT4_pos T T0) as PS. set (s := sigmaT4 T) in *.
  destruct (cloud_cases lc cloud HC) as [[N Cl]|[N Cl]].
  - exists eps, (eps * s), ((1 + 0.17 * c ^ 2) * eps * s).
    split; auto. split. { rewrite (longwave1_eq emis cloud T vp 0 eps _ Ee (Cl eps 0)). f_equal. fold s. simpl. lra. }
    split. { exact (longwave1_eq emis cloud T vp c eps _ Ee (Cl eps c)). }
    assert (0 < eps * s) by (apply Rmult_lt_0_compat; auto).
    assert (0 <= c ^ 2) by (apply pow_le; lra).
    repeat split; auto.
    + nra.
    + intros _. nra.
    + intros ->. destruct N; discriminate.
    + intros ->. destruct N; discriminate.
  - exists eps, (eps * s), ((c + (1 - c) * eps) * s).
    split; auto. split. { rewrite (longwave1_eq emis cloud T vp 0 eps _ Ee (Cl eps 0)). f_equal. fold s. lra. }
    split. { exact (longwave1_eq emis cloud T vp c eps _ Ee (Cl eps c)). }
    assert (0 < eps * s) by (apply Rmult_lt_0_compat; auto).
    repeat split; auto.
    + apply Rmult_lt_0_compat; auto. destruct (Req_dec c 0) as [->|]; [lra|]. nra.
    + intros [Z|Z]; [contradiction|]. apply Rmult_le_compat_r; [lra|]. nra.
    + intros _ C0 E1. apply Rmult_lt_compat_r; auto. nra.
    + intros _ E1. rewrite <- (Rmult_1_l s) at 2. apply Rmult_le_compat_r; [lra|]. nra.
Qed.

(** list level *)
Lemma map3_nth {A B C D} (f : A -> B -> C -> D) a : forall b c k x y z,
  nth_error a k = Some x -> nth_error b k = Some y -> nth_error c k = Some z ->
  nth_error (map3 f a b c) k = Some (f x y z).
Proof.
  unfold map3, map2. induction a as [|x' a IH]; intros [|y' b] [|z' c] [|k] x y z; simpl; try discriminate.
  - intros [= ->] [= ->] [= ->]. reflexivity.
  - apply IH.
Qed.
Lemma map3_length {A B C D} (f : A -> B -> C -> D) a b c n :
  List.length a = n -> List.length b = n -> List.length c = n -> List.length (map3 f a b c) = n.
Proof. intros. unfold map3, map2. rewrite map_length, combine_length, map_length, combine_length. lia. Qed.

Lemma longwave_inv Ts vps cs prm d out : longwave Ts vps cs prm d = Ok out ->
  exists emis cloud, emissivity_calc (upper (p_lw_type prm)) = Ok emis /\
    cloud_calc (upper (p_lw_cloud prm)) = Ok cloud /\
    (d = None -> out = map3 (longwave1 emis cloud) Ts vps cs).
Proof.
  unfold longwave. intros H.
  destruct (emissivity_calc _) as [emis|] eqn:E; cbn [bind] in H; [|discriminate].
  destruct (cloud_calc _) as [cloud|] eqn:C; cbn [bind] in H; [|discriminate].
  exists emis, cloud. repeat split; auto. intros ->. congruence.
Qed.

Theorem longwave_positive (Ts vps cs : list fl) prm out k T vp c :
  longwave Ts vps cs prm None = Ok out ->
  nth_error Ts k = Some (Some T) -> nth_error vps k = Some (Some vp) -> nth_error cs k = Some (Some c) ->
  -273.15 < T -> 0 < vp -> 0 <= c <= 1 ->
  exists L, nth_error out k = Some (Some L) /\ 0 < L.
Proof.
  intros H HT HV HC T0 V0 C01. destruct (longwave_inv _ _ _ _ _ _ H) as (emis & cloud & E & C & ->); auto.
  destruct (longwave1_spec _ _ emis cloud T vp c E C) as (eps & cl & L & _ & _ & EL & _ & _ & PL & _); auto.
  { unfold KELVIN. lra. }
  exists L. split; auto. rewrite (map3_nth _ _ _ _ _ _ _ _ HT HV HC). now rewrite EL.
Qed.

(** [cs] and [cs'] differ at step [k]: cloud fraction 0 and [c] *)
Theorem longwave_clouds (Ts vps cs cs' : list fl) prm out out' k T vp c :
  longwave Ts vps cs prm None = Ok out -> longwave Ts vps cs' prm None = Ok out' ->
  nth_error Ts k = Some (Some T) -> nth_error vps k = Some (Some vp) ->
  nth_error cs k = Some (Some 0) -> nth_error cs' k = Some (Some c) ->
  -273.15 < T -> 0 < vp -> 0 <= c <= 1 ->
  exists clear L, nth_error out k = Some (Some clear) /\ nth_error out' k = Some (Some L) /\
    ((upper (p_lw_cloud prm) <> "CLOUD_DEARDORFF"%string \/ clear <= sigmaT4 T) -> clear <= L) /\
    (upper (p_lw_cloud prm) = "CLOUD_DEARDORFF"%string -> 0 < c -> sigmaT4 T < clear -> L < clear).
Proof.
  intros H H' HT HV HC HC' T0 V0 C01. destruct (longwave_inv _ _ _ _ _ _ H) as (emis & cloud & E & C & ->); auto.
  destruct (longwave_inv _ _ _ _ _ _ H') as (emis' & cloud' & E' & C' & ->); auto.
  rewrite E in E'. injection E' as <-. rewrite C in C'. injection C' as <-.
  destruct (longwave1_spec _ _ emis cloud T vp c E C) as (eps & cl & L & _ & E0 & EL & Pc & Ec & _ & A & B & _); auto.
  { unfold KELVIN. lra. }
  assert (PS : 0 < sigmaT4 T) by (apply sigmaT4_pos; unfold KELVIN; lra).
  exists cl, L. split; [rewrite (map3_nth _ _ _ _ _ _ _ _ HT HV HC); now rewrite E0|].
  split; [rewrite (map3_nth _ _ _ _ _ _ _ _ HT HV HC'); now rewrite EL|]. split.
  - intros [D|D]; apply A; auto. right. subst cl. apply Rmult_le_reg_r with (sigmaT4 T); lra.
  - intros D C0 S. apply B; auto. subst cl. apply Rmult_lt_reg_r with (sigmaT4 T); lra.
Qed.

Theorem longwave_default_bounds (Ts vps cs cs' : list fl) prm out out' k T vp c :
  upper (p_lw_type prm) = "PRATA"%string -> upper (p_lw_cloud prm) = "CLOUD_DEARDORFF"%string ->
  longwave Ts vps cs prm None = Ok out -> longwave Ts vps cs' prm None = Ok out' ->
  nth_error Ts k = Some (Some T) -> nth_error vps k = Some (Some vp) ->
  nth_error cs k = Some (Some 0) -> nth_error cs' k = Some (Some c) ->
  -273.15 < T -> 0 < vp -> 0 <= c <= 1 ->
  exists clear L, nth_error out k = Some (Some clear) /\ nth_error out' k = Some (Some L) /\
    0 < clear <= L /\ L <= 5.669e-8 * (T + 273.15) ^ 4.
Proof.
  intros N1 N2 H H' HT HV HC HC' T0 V0 C01. destruct (longwave_inv _ _ _ _ _ _ H) as (emis & cloud & E & C & ->); auto.
  destruct (longwave_inv _ _ _ _ _ _ H') as (emis' & cloud' & E' & C' & ->); auto.
  rewrite E in E'. injection E' as <-. rewrite C in C'. injection C' as <-.
  destruct (longwave1_spec _ _ emis cloud T vp c E C) as (eps & cl & L & Ee & E0 & EL & Pc & Ec & PL & A & _ & B); auto.
  { unfold KELVIN. lra. }
  rewrite N1 in E. destruct (prata_lt_1 emis (T + KELVIN) (vp * 10) E) as (eps' & Ee' & Pe); [unfold KELVIN; lra|lra|].
  rewrite Ee in Ee'. injection Ee' as <-.
  exists cl, L. split; [rewrite (map3_nth _ _ _ _ _ _ _ _ HT HV HC); now rewrite E0|].
  split; [rewrite (map3_nth _ _ _ _ _ _ _ _ HT HV HC'); now rewrite EL|].
  split; [split; auto; apply A; right; lra|]. apply B; auto; lra.
Qed.

(** with TVA emissivity and Deardorff clouds a humid summer hour loses
    longwave when clouds appear *)
Theorem longwave_clouds_reduce : exists prm out out',
  upper (p_lw_type prm) = "TVA"%string /\ upper (p_lw_cloud prm) = "CLOUD_DEARDORFF"%string /\
  longwave [Some 35] [Some 5.5] [Some 0] prm None = Ok [Some out] /\
  longwave [Some 35] [Some 5.5] [Some 1] prm None = Ok [Some out'] /\ out' < out.
Proof.
  exists (mkparams 60 false false "mtclim" "" "uniform" "tva" "cloud_deardorff" 0 0.75 1e-6 0.45 0.67 0.0065 0 100 47 (-121)).
  exists ((0 + (1 - 0) * (0.74 + 0.0049 * (5.5 * 10))) * STEFAN_B * (35 + KELVIN) ^ 4),
    ((1 + (1 - 1) * (0.74 + 0.0049 * (5.5 * 10))) * STEFAN_B * (35 + KELVIN) ^ 4).
  repeat split.
  apply Rmult_lt_compat_r; [apply pow_lt; unfold KELVIN; lra|].
  apply Rmult_lt_compat_r; [unfold STEFAN_B; lra|]. lra.
Qed.

(** ** supplied daily longwave *)
Lemma ts_per_day_steps ts : (0 < ts)%Z -> ts_per_day ts = Ok (steps ts).
Proof.
  intros H. unfold ts_per_day, steps. destruct (Z.eqb_spec ts 0); [lia|]. now rewrite Z.quot_div_nonneg by lia.
Qed.

Lemma zipw_ok {A B C} (f : A -> B -> C) a b : List.length a = List.length b -> zipw f a b = Ok (map2 f a b).
Proof. intros H. unfold zipw. now rewrite H, Nat.eqb_refl. Qed.
Lemma map2_length {A B C} (f : A -> B -> C) a b : List.length a = List.length b -> List.length (map2 f a b) = List.length a.
Proof. intros H. unfold map2. rewrite map_length, combine_length. lia. Qed.
Lemma map2_nth {A B C} (f : A -> B -> C) a : forall b k x y, nth_error a k = Some x -> nth_error b k = Some y ->
  nth_error (map2 f a b) k = Some (f x y).
Proof.
  unfold map2. induction a as [|x' a IH]; intros [|y' b] [|k] x y; simpl; try discriminate.
  - intros [= ->] [= ->]. reflexivity.
  - apply IH.
Qed.
Lemma map2_firstn {A B C} (f : A -> B -> C) n : forall a b, firstn n (map2 f a b) = map2 f (firstn n a) (firstn n b).
Proof.
  unfold map2. induction n as [|n IH]; intros a b; simpl; auto. destruct a, b; simpl; auto; try (now destruct (firstn n _)).
  now rewrite IH.
Qed.
Lemma map2_skipn {A B C} (f : A -> B -> C) n : forall a b, skipn n (map2 f a b) = map2 f (skipn n a) (skipn n b).
Proof.
  unfold map2. induction n as [|n IH]; intros a b; auto. destruct a, b; cbn [skipn combine map]; auto.
  now destruct (skipn n _).
Qed.
Lemma map2_day {A B C} (f : A -> B -> C) k d a b :
  day_part k d (map2 f a b) = map2 f (day_part k d a) (day_part k d b).
Proof. unfold day_part. now rewrite map2_skipn, map2_firstn. Qed.
Lemma map2_repeat_r {A B C} (f : A -> B -> C) y : forall a, map2 f a (repeat y (List.length a)) = map (fun x => f x y) a.
Proof. unfold map2. induction a as [|x a IH]; simpl; auto. now rewrite IH. Qed.

Lemma fsum_fmul c l : fsum (map (fun x => fmul x (Some c)) l) = fmul (fsum l) (Some c).
Proof.
  induction l as [|x l IH]; [unfold fsum; simpl; f_equal; lra|].
  cbn [map]. rewrite !fsum_cons, IH. destruct x, (fsum l); simpl; auto. f_equal. lra.
Qed.

Theorem longwave_supplied (Ts vps cs : list fl) prm base daily n :
  legal_time_step (p_time_step prm) ->
  longwave Ts vps cs prm None = Ok base ->
  List.length base = (n * steps (p_time_step prm))%nat -> List.length daily = n ->
  exists out, longwave Ts vps cs prm (Some daily) = Ok out /\
    List.length out = List.length base /\
    forall d v m, nth_error daily d = Some (Some v) ->
      fmean (day_part (steps (p_time_step prm)) d base) = Some m -> m <> 0 ->
      day_part (steps (p_time_step prm)) d out =
        map (fun x => fmul x (Some (v / m))) (day_part (steps (p_time_step prm)) d base) /\
      fmean (day_part (steps (p_time_step prm)) d out) = Some v.
Proof.
  intros L H Ln Ld. destruct (steps_mul _ L) as (Em & Sp & Tp). set (k := steps _) in *.
  assert (B : longwave Ts vps cs prm (Some daily) = longwave_rescale base daily (p_time_step prm)).
  { unfold longwave in *. destruct (emissivity_calc _); cbn [bind] in *; [|discriminate].
    destruct (cloud_calc _); cbn [bind] in *; [|discriminate]. now apply Ok_inj in H as ->. }
  rewrite B. unfold longwave_rescale. rewrite ts_per_day_steps by auto. fold k. cbn [bind].
  rewrite (reshape_ok base (Z.of_nat k) n); [|lia|now rewrite Nat2Z.id]. rewrite Nat2Z.id. cbn [bind].
  rewrite zipw_ok by (rewrite map_length, rows_length; auto). cbn [bind].
  set (F := map2 fdiv daily (map fmean (rows n k base))).
  assert (LF : List.length F = n).
  { unfold F. rewrite map2_length; auto. rewrite map_length, rows_length. auto. }
  assert (LR : List.length (np_repeat F k) = List.length base) by (rewrite np_repeat_length; lia).
  rewrite zipw_ok by auto. eexists. split; [reflexivity|].
  split; [now rewrite map2_length|].
  intros d v m Hv Hm M0. assert (D : (d < n)%nat) by (rewrite <- Ld; apply nth_error_Some; congruence).
  assert (FD : nth_error F d = Some (Some (v / m))).
  { unfold F. rewrite (map2_nth fdiv _ _ _ (Some v) (Some m)); auto.
    - now rewrite fdiv_some.
    - rewrite nth_error_map, rows_nth by auto. unfold day_part in Hm. cbn [option_map]. now rewrite Hm. }
  assert (LD : List.length (day_part k d base) = k) by (now apply day_part_length with n).
  assert (E : day_part k d (map2 fmul base (np_repeat F k)) = map (fun x => fmul x (Some (v / m))) (day_part k d base)).
  { rewrite map2_day, (np_repeat_day _ _ _ _ FD). rewrite <- LD at 2. apply map2_repeat_r. }
  split; auto. rewrite E. unfold fmean in *. rewrite map_length, fsum_fmul, LD in *.
  assert (K0 : INR k <> 0) by (apply not_0_INR; lia).
  destruct (fsum (day_part k d base)) as [s|]; [|discriminate]. rewrite fdiv_some in Hm by auto. injection Hm as <-.
  cbn [fmul flift2]. rewrite fdiv_some by auto. f_equal. field. split; auto. intros ->. apply M0. unfold Rdiv. lra.
Qed.
