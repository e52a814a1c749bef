(** Longwave radiation and water vapour. *)
From Coq Require Import ZArith Reals String List Bool Arith Lia Lra.
From Verif Require Import Model.Py Model.Fl Model.Np Model.Constants Model.Physics Model.Params Model.Disagg
  Spec.TimeSpec Spec.SeriesSpec Spec.BlackBodySpec Proofs.Base Proofs.RBase Proofs.ArrayProofs Proofs.PrecProofs
  Proofs.WindProofs Proofs.HumidProofs Proofs.LongwaveProofs.
Import ListNotations.
Local Open Scope list_scope.
Local Open Scope R_scope.

Lemma prata_mono w w' : 0 <= w -> w < w' ->
  (1 + w') * exp (- sqrt (1.2 + 3 * w')) < (1 + w) * exp (- sqrt (1.2 + 3 * w)).
Proof.
  intros H L. assert (S : sqrt (1.2 + 3 * w) < sqrt (1.2 + 3 * w')) by (apply sqrt_lt_1; lra).
  assert (P : 0 <= sqrt (1.2 + 3 * w)) by apply sqrt_pos.
  assert (A : sqrt (1.2 + 3 * w) * sqrt (1.2 + 3 * w) = 1.2 + 3 * w) by (apply sqrt_sqrt; lra).
  assert (B : sqrt (1.2 + 3 * w') * sqrt (1.2 + 3 * w') = 1.2 + 3 * w') by (apply sqrt_sqrt; lra).
  set (s := sqrt (1.2 + 3 * w)) in *. set (s' := sqrt (1.2 + 3 * w')) in *.
  pose proof (exp_cube (s' - s) ltac:(lra)) as C.
  replace (exp (- s)) with (exp (- s') * exp (s' - s)) by (rewrite <- exp_plus; f_equal; lra).
  pose proof (exp_pos (- s')) as X. set (d := s' - s) in *. set (E := exp d) in *.
  rewrite <- Rmult_assoc, (Rmult_comm (1 + w)), Rmult_assoc, (Rmult_comm (1 + w')).
  apply Rmult_lt_compat_l; auto. assert (D : 0 < d) by (unfold d; lra).
  assert (W : 1 + w = (s * s + 1.8) / 3) by lra. assert (W' : 1 + w' = ((s + d) * (s + d) + 1.8) / 3) by (replace (s + d) with s' by (unfold d; lra); lra).
  rewrite W, W'. apply Rlt_le_trans with ((s * s + 1.8) / 3 * (1 + d + d * d / 3)).
  - assert (0 < d * ((s - 1) * (s - 1) + 0.8)) by (apply Rmult_lt_0_compat; [lra|nra]).
    assert (0 <= d * d * (s * s - 1.2)) by (apply Rmult_le_pos; nra). nra.
  - apply Rmult_le_compat_l; [nra|]. assert (0 <= d * d * d) by (apply Rmult_le_pos; nra). nra.
Qed.

(** exp as a power of a small argument *)
Lemma exp_upper x n : (0 < n)%nat -> x < INR n -> exp x <= (/ (1 - x / INR n)) ^ n.
Proof.
  intros N L. assert (P : 0 < INR n) by now apply lt_0_INR.
  assert (Q : 0 < 1 - x / INR n).
  { assert (x / INR n < 1); [|lra]. apply Rmult_lt_reg_r with (INR n); auto. unfold Rdiv. rewrite Rmult_assoc, Rinv_l; lra. }
  replace (exp x) with (exp (x / INR n) ^ n).
  - apply pow_incr. split; [left; apply exp_pos|].
    pose proof (exp_ineq1_le (- (x / INR n))) as K. rewrite exp_Ropp in K.
    rewrite <- (Rinv_inv (exp (x / INR n))). apply Rinv_le_contravar; [exact Q|]. lra.
  - rewrite <- Rpower_pow by apply exp_pos. unfold Rpower. rewrite ln_exp. f_equal. field. lra.
Qed.

Lemma exp_idso Ta : 273.15 <= Ta -> exp (1500 / Ta) < 336.
Proof.
  intros H. apply Rle_lt_trans with (exp 5.4916).
  - left. apply exp_increasing. apply Rmult_lt_reg_r with Ta; [lra|]. unfold Rdiv. rewrite Rmult_assoc, Rinv_l by lra. lra.
  - eapply Rle_lt_trans; [apply (exp_upper 5.4916 64); [lia|simpl; lra]|]. simpl (INR 64).
    replace (64%R) with 64 by reflexivity. 
    set (y := / (1 - 5.4916 / _)). assert (Y : y <= 1.0939).
    { unfold y. replace (1.0939) with (/ (/ 1.0939)) by (apply Rinv_inv). apply Rinv_le_contravar; lra. }
    apply Rle_lt_trans with (1.0939 ^ 64); [apply pow_incr; split; auto; unfold y; left; apply Rinv_0_lt_compat; lra|].
    replace (1.0939 ^ 64) with ((((((1.0939 ^ 2) ^ 2) ^ 2) ^ 2) ^ 2) ^ 2) by ring.
    assert (A1 : 0 <= 1.0939 ^ 2 <= 1.1967) by (simpl; lra).
    assert (A2 : 0 <= (1.0939 ^ 2) ^ 2 <= 1.4321) by (generalize dependent (1.0939 ^ 2); intros; simpl; nra).
    assert (A3 : 0 <= ((1.0939 ^ 2) ^ 2) ^ 2 <= 2.051) by (generalize dependent ((1.0939 ^ 2) ^ 2); intros; simpl; nra).
    assert (A4 : 0 <= (((1.0939 ^ 2) ^ 2) ^ 2) ^ 2 <= 4.2067) by (generalize dependent (((1.0939 ^ 2) ^ 2) ^ 2); intros; simpl; nra).
    assert (A5 : 0 <= ((((1.0939 ^ 2) ^ 2) ^ 2) ^ 2) ^ 2 <= 17.6964) by (generalize dependent ((((1.0939 ^ 2) ^ 2) ^ 2) ^ 2); intros; simpl; nra).
    generalize dependent (((((1.0939 ^ 2) ^ 2) ^ 2) ^ 2) ^ 2). intros. simpl. nra.
Qed.

Lemma exp_2 : exp 2 < 13.5.
Proof.
  replace (exp 2) with (exp 1 * exp 1) by (rewrite <- exp_plus; f_equal; lra).
  pose proof exp_le_3. pose proof (exp_pos 1). nra.
Qed.

Lemma sixteen y : Rpower 16 y = Rpower 2 (4 * y).
Proof. replace 16 with (2 ^ 4) by lra. rewrite <- Rpower_pow by lra. rewrite Rpower_mult. f_equal. simpl. lra. Qed.

Theorem emissivity_curve name emis Ta : emissivity_calc name = Ok emis -> 0 < Ta ->
  exists g, (forall e, 0 < e -> emis (Some Ta) (Some e) = Some (g e)) /\
    (forall e e', 0 < e -> e < e' -> g e < g e') /\
    (forall e, 273.15 <= Ta <= 323.15 -> 0 < e <= 15 -> 0 < g e < 1).
Proof.
  intros HE T0. assert (POS : forall g, (forall e, 0 < e -> emis (Some Ta) (Some e) = Some (g e)) -> forall e, 0 < e -> 0 < g e).
  { intros g G e E. destruct (emissivity_pos name emis Ta e HE T0 E) as (x & X & P). rewrite G in X by auto. injection X as <-. auto. }
  assert (RED : (exists g, (forall e, 0 < e -> emis (Some Ta) (Some e) = Some (g e)) /\
    (forall e e', 0 < e -> e < e' -> g e < g e') /\ (273.15 <= Ta <= 323.15 -> g 15 < 1)) ->
    exists g, (forall e, 0 < e -> emis (Some Ta) (Some e) = Some (g e)) /\
    (forall e e', 0 < e -> e < e' -> g e < g e') /\
    (forall e, 273.15 <= Ta <= 323.15 -> 0 < e <= 15 -> 0 < g e < 1)).
  { intros (g & A & B & C). exists g. split; auto. split; auto. intros e T E. split; [apply (POS g A); lra|].
    destruct (Req_dec e 15) as [->|N]; auto. apply Rlt_trans with (g 15); auto. apply B; lra. }
  apply RED. clear RED POS. revert HE. unfold emissivity_calc. intros H.
  destruct (_ || _)%bool; [apply Ok_inj in H; subst emis; cbv beta|].
  { exists (fun e => 0.74 + 0.0049 * e). split; [reflexivity|]. split; intros; lra. }
  destruct (name =? "ANDERSON")%string; [apply Ok_inj in H; subst emis; cbv beta|].
  { exists (fun e => 0.68 + 0.036 * Rpower e 0.5). split; [intros; rewrite fpower_pos by auto; reflexivity|]. split.
    - intros e e' E L. pose proof (Rlt_Rpower_l e e' 0.5). lra.
    - intros _. pose proof (Rlt_Rpower_l 15 16 0.5 ltac:(lra) ltac:(lra)) as K. rewrite sixteen in K.
      replace (4 * 0.5) with (INR 2) in K by (simpl; lra). rewrite Rpower_pow in K by lra. lra. }
  destruct (name =? "BRUTSAERT")%string; [apply Ok_inj in H; subst emis; cbv beta|].
  { exists (fun e => 1.24 * Rpower (e / Ta) 0.14285714).
    assert (D : forall e, 0 < e -> 0 < e / Ta) by (intros; now apply div_pos). split; [|split].
    - intros e E. rewrite fdiv_some by lra. rewrite fpower_pos by auto. reflexivity.
    - intros e e' E L. assert (e / Ta < e' / Ta) by (apply Rmult_lt_compat_r; [now apply Rinv_0_lt_compat|lra]).
      pose proof (Rlt_Rpower_l (e / Ta) (e' / Ta) 0.14285714 ltac:(lra) (conj (D e E) H)). lra.
    - intros T. assert (K : Rpower (15 / Ta) 0.14285714 <= Rpower (/ 16) 0.14285714).
      { apply Rle_Rpower_l; [lra|]. split; [apply D; lra|]. apply Rmult_le_reg_r with Ta; auto. unfold Rdiv. rewrite Rmult_assoc, Rinv_l by lra. lra. }
      assert (S : Rpower (/ 16) 0.14285714 < / sqrt 2).
      { rewrite <- Rpower_sqrt by lra. rewrite <- (Rpower_Ropp 2). replace (Rpower (/ 16) 0.14285714) with (Rpower 2 (- (4 * 0.14285714))).
        - apply Rpower_lt; lra.
        - unfold Rpower. f_equal. rewrite ln_Rinv by lra. replace 16 with (2 ^ 4) by lra. rewrite <- (Rpower_pow 4 2) by lra.
          unfold Rpower at 1. rewrite ln_exp. simpl (INR 4). lra. }
      assert (Q : / sqrt 2 <= 0.75).
      { replace 0.75 with (/ (/ 0.75)) by apply Rinv_inv. apply Rinv_le_contravar; [lra|].
        replace (/ 0.75) with (sqrt (/ 0.75 * / 0.75)) by (apply sqrt_square; lra). apply sqrt_le_1; lra. }
      lra. }
  destruct (name =? "SATTERLUND")%string; [apply Ok_inj in H; subst emis; cbv beta|].
  { exists (fun e => 1.08 * (1 - exp (-1 * Rpower e (Ta / 2016)))). assert (Y : 0 < Ta / 2016) by lra. split; [|split].
    - intros e E. rewrite fdiv_some by lra. rewrite fpower_pos by auto. reflexivity.
    - intros e e' E L. pose proof (Rlt_Rpower_l e e' (Ta / 2016) Y (conj E L)) as K.
      pose proof (exp_increasing (-1 * Rpower e' (Ta / 2016)) (-1 * Rpower e (Ta / 2016)) ltac:(lra)). lra.
    - intros T. assert (K : Rpower 15 (Ta / 2016) < 2).
      { apply Rlt_trans with (Rpower 16 (Ta / 2016)); [apply Rlt_Rpower_l; lra|]. rewrite sixteen.
        rewrite <- (Rpower_1 2) at 2 by lra. apply Rpower_lt; lra. }
      pose proof (exp_increasing (Ropp 2) (-1 * Rpower 15 (Ta / 2016)) ltac:(lra)) as M. rewrite exp_Ropp in M.
      pose proof exp_2 as E2. pose proof (exp_pos 2) as P2.
      assert (/ 13.5 < / exp 2) by (apply Rinv_lt_contravar; [apply Rmult_lt_0_compat; lra|lra]). lra. }
  destruct (name =? "IDSO")%string; [apply Ok_inj in H; subst emis; cbv beta|].
  { exists (fun e => 0.7 + 5.95e-5 * e * exp (1500 / Ta)). pose proof (exp_pos (1500 / Ta)) as P. split; [|split].
    - intros e E. rewrite fdiv_some by lra. reflexivity.
    - intros e e' E L. assert (5.95e-5 * e * exp (1500 / Ta) < 5.95e-5 * e' * exp (1500 / Ta)) by (apply Rmult_lt_compat_r; lra). lra.
    - intros T. pose proof (exp_idso Ta ltac:(lra)). nra. }
  destruct (name =? "PRATA")%string; [apply Ok_inj in H; subst emis; cbv beta|discriminate].
  assert (X : forall e, 0 < e -> 0 < 46.5 * e / Ta) by (intros; apply div_pos; lra).
  exists (fun e => 1 - (1 + 46.5 * e / Ta) * exp (- sqrt (1.2 + 3 * (46.5 * e / Ta)))). split; [|split].
  - intros e E. specialize (X e E). cbn [fmul flift2]. rewrite fdiv_some by lra. cbn [fmul fadd flift2].
    unfold fsqrt. destruct (Rlt_dec _ 0); [lra|]. reflexivity.
  - intros e e' E L. assert (46.5 * e / Ta < 46.5 * e' / Ta) by (apply Rmult_lt_compat_r; [now apply Rinv_0_lt_compat|lra]).
    pose proof (prata_mono (46.5 * e / Ta) (46.5 * e' / Ta) (Rlt_le _ _ (X e E)) H). lra.
  - intros _. pose proof (prata_bounds (46.5 * 15 / Ta) (Rlt_le _ _ (X 15 ltac:(lra)))). lra.
Qed.

(** one step with more vapour *)
Theorem longwave_vapor (Ts vps vps' cs : list fl) prm out out' k T vp vp' c :
  longwave Ts vps cs prm None = Ok out -> longwave Ts vps' cs prm None = Ok out' ->
  nth_error Ts k = Some (Some T) -> nth_error cs k = Some (Some c) ->
  nth_error vps k = Some (Some vp) -> nth_error vps' k = Some (Some vp') ->
  -273.15 < T -> 0 < vp < vp' -> 0 <= c <= 1 ->
  exists L L', nth_error out k = Some (Some L) /\ nth_error out' k = Some (Some L') /\ 0 < L <= L' /\
    (L = L' <-> upper (p_lw_cloud prm) = "CLOUD_DEARDORFF"%string /\ c = 1).
Proof.
  intros H H' HT HC HV HV' T0 V C01. destruct (longwave_inv _ _ _ _ _ _ H) as (emis & cloud & E & C & ->); auto.
  destruct (longwave_inv _ _ _ _ _ _ H') as (emis' & cloud' & E' & C' & ->); auto.
  rewrite E in E'. injection E' as <-. rewrite C in C'. injection C' as <-.
  assert (TK : 0 < T + KELVIN) by (unfold KELVIN; lra).
  destruct (emissivity_curve _ _ (T + KELVIN) E TK) as (g & G & M & _).
  destruct (emissivity_pos _ _ (T + KELVIN) (vp * 10) E TK ltac:(lra)) as (x & X & P).
  pose proof (sigmaT4_pos T TK) as PS. rewrite G in X by lra. injection X as <-.
  pose proof (M (vp * 10) (vp' * 10) ltac:(lra) ltac:(lra)) as L. set (a := g (vp * 10)) in *. set (b := g (vp' * 10)) in *.
  assert (R : forall v y, 0 < v -> cloud (Some (g (v * 10))) (Some c) = Some y -> longwave1 emis cloud (Some T) (Some v) (Some c) = Some (y * sigmaT4 T)).
  { intros v y Hv Y. apply (longwave1_eq emis cloud T v c (g (v * 10))); auto. apply G. lra. }
  rewrite (map3_nth _ _ _ _ _ _ _ _ HT HV HC), (map3_nth _ _ _ _ _ _ _ _ HT HV' HC).
  destruct (cloud_cases _ cloud C) as [[N Cl]|[N Cl]].
  - rewrite (R vp _ (proj1 V) (Cl _ _)), (R vp' _ ltac:(lra) (Cl _ _)). fold a b. do 2 eexists. split; [reflexivity|]. split; [reflexivity|].
    assert (0 <= c ^ 2) by (apply pow_le; lra).
    assert (0 < (1 + 0.17 * c ^ 2) * a) by (apply Rmult_lt_0_compat; lra).
    assert ((1 + 0.17 * c ^ 2) * a < (1 + 0.17 * c ^ 2) * b) by (apply Rmult_lt_compat_l; lra).
    assert ((1 + 0.17 * c ^ 2) * a * sigmaT4 T < (1 + 0.17 * c ^ 2) * b * sigmaT4 T) by (apply Rmult_lt_compat_r; lra).
    split; [split; [apply Rmult_lt_0_compat; lra|lra]|]. split; [intros Q; lra|]. intros [Q _]. rewrite Q in N. destruct N; discriminate.
  - rewrite (R vp _ (proj1 V) (Cl _ _)), (R vp' _ ltac:(lra) (Cl _ _)). fold a b. do 2 eexists. split; [reflexivity|]. split; [reflexivity|].
    assert (0 < c + (1 - c) * a) by (destruct (Req_dec c 0) as [->|]; [lra|nra]).
    assert (c + (1 - c) * a <= c + (1 - c) * b) by nra.
    split; [split; [apply Rmult_lt_0_compat; lra|apply Rmult_le_compat_r; lra]|]. split.
    + intros Q. split; auto. apply Rmult_eq_reg_r in Q; [|lra]. assert (Z : (1 - c) * (b - a) = 0) by lra.
      apply Rmult_integral in Z as [Z|Z]; lra.
    + intros [_ ->]. f_equal. lra.
Qed.

(** a clear sky over a temperate place *)
Theorem longwave_below_black (Ts vps cs : list fl) prm out k T vp :
  longwave Ts vps cs prm None = Ok out ->
  nth_error Ts k = Some (Some T) -> nth_error vps k = Some (Some vp) -> nth_error cs k = Some (Some 0) ->
  0 <= T <= 50 -> 0 < vp <= 1.5 ->
  exists L, nth_error out k = Some (Some L) /\ 0 < L < 5.669e-8 * (T + 273.15) ^ 4.
Proof.
  intros H HT HV HC T0 V. destruct (longwave_inv _ _ _ _ _ _ H) as (emis & cloud & E & C & ->); auto.
  assert (TK : 0 < T + KELVIN) by (unfold KELVIN; lra).
  destruct (emissivity_curve _ _ (T + KELVIN) E TK) as (g & G & _ & B).
  destruct (longwave1_spec _ _ emis cloud T vp 0 E C TK ltac:(lra) ltac:(lra)) as (eps & cl & L & X & E0 & _ & Pc & Ec & _).
  rewrite G in X by lra. injection X as <-. specialize (B (vp * 10) ltac:(unfold KELVIN; lra) ltac:(lra)).
  exists cl. rewrite (map3_nth _ _ _ _ _ _ _ _ HT HV HC), E0. split; [reflexivity|]. split; auto.
  pose proof (sigmaT4_pos T TK) as PS. rewrite Ec. change (5.669e-8 * (T + 273.15) ^ 4) with (sigmaT4 T). nra.
Qed.

(** exactly when: option by option *)
Lemma rpower_lt_iff a b y : 0 < a -> 0 < b -> 0 < y -> Rpower a y < Rpower b y <-> a < b.
Proof.
  intros A B Y. split; intros H; [|now apply Rlt_Rpower_l]. destruct (Rlt_le_dec a b) as [L|L]; [exact L|].
  pose proof (Rle_Rpower_l b a y (Rlt_le _ _ Y) (conj B L)). lra.
Qed.

Lemma rpower_root b y : 0 < b -> y <> 0 -> Rpower (Rpower b (/ y)) y = b.
Proof. intros B Y. rewrite Rpower_mult, Rinv_l by exact Y. now apply Rpower_1. Qed.

Lemma emissivity_below name emis Ta e x : emissivity_calc name = Ok emis -> 0 < Ta -> 0 < e -> emis (Some Ta) (Some e) = Some x ->
  (x < 1 <-> below_one name Ta e).
Proof.
  intros H T0 E X. unfold emissivity_calc in H. unfold below_one.
  destruct (_ || _)%bool; [apply Ok_inj in H; subst emis; cbv beta in X; injection X as <-|].
  { assert (Q : 0.26 / 0.0049 * 0.0049 = 0.26) by (unfold Rdiv; rewrite Rmult_assoc, Rinv_l; lra). split; intros; nra. }
  destruct (name =? "ANDERSON")%string; [apply Ok_inj in H; subst emis; cbv beta in X; rewrite fpower_pos in X by exact E; injection X as <-|].
  { assert (P : 0 < 0.32 / 0.036) by lra. assert (R2 : Rpower ((0.32 / 0.036) ^ 2) 0.5 = 0.32 / 0.036).
    { rewrite <- Rpower_pow by exact P. rewrite Rpower_mult. replace (INR 2 * 0.5) with 1 by (simpl; lra). now apply Rpower_1. }
    rewrite <- (rpower_lt_iff e ((0.32 / 0.036) ^ 2) 0.5 E (pow_lt _ 2 P)) by lra. rewrite R2. split; intros; lra. }
  destruct (name =? "BRUTSAERT")%string; [apply Ok_inj in H; subst emis; cbv beta in X; rewrite fdiv_some in X by lra|].
  { rewrite fpower_pos in X by now apply div_pos. injection X as <-. assert (D : 0 < e / Ta) by now apply div_pos.
    assert (B : 0 < Rpower (/ 1.24) (/ 0.14285714)) by apply exp_pos.
    assert (A : e < Ta * Rpower (/ 1.24) (/ 0.14285714) <-> e / Ta < Rpower (/ 1.24) (/ 0.14285714)).
    { assert (Q : e = Ta * (e / Ta)) by (field; lra). rewrite Q at 1. split; intros K; [apply Rmult_lt_reg_l with Ta; auto|apply Rmult_lt_compat_l; auto]. }
    rewrite A, <- (rpower_lt_iff _ _ 0.14285714 D B) by lra. rewrite (rpower_root (/ 1.24)) by lra. split; intros; lra. }
  destruct (name =? "SATTERLUND")%string; [apply Ok_inj in H; subst emis; cbv beta in X; rewrite fdiv_some in X by lra; rewrite fpower_pos in X by exact E; injection X as <-|].
  { assert (Y : 0 < Ta / 2016) by lra. assert (L : 0 < ln 13.5) by (rewrite <- ln_1; apply ln_increasing; lra).
    replace (2016 / Ta) with (/ (Ta / 2016)) by (field; lra).
    rewrite <- (rpower_lt_iff e (Rpower (ln 13.5) (/ (Ta / 2016))) (Ta / 2016) E (exp_pos _) Y). rewrite (rpower_root (ln 13.5)) by lra.
    set (y := Rpower e (Ta / 2016)). replace (-1 * y) with (- y) by lra.
    assert (K : exp (- ln 13.5) = / 13.5) by (rewrite exp_Ropp, exp_ln; lra). split; intros Q.
    - destruct (Rlt_le_dec y (ln 13.5)) as [Z|Z]; [exact Z|]. assert (exp (- y) <= exp (- ln 13.5)) by (destruct Z as [Z| ->]; [left; apply exp_increasing; lra|lra]). lra.
    - pose proof (exp_increasing (- ln 13.5) (- y) ltac:(lra)). lra. }
  destruct (name =? "IDSO")%string; [apply Ok_inj in H; subst emis; cbv beta in X; rewrite fdiv_some in X by lra; injection X as <-|].
  { pose proof (exp_pos (1500 / Ta)) as P. rewrite exp_Ropp. set (z := exp (1500 / Ta)) in *.
    assert (Q : e < 0.3 / 5.95e-5 * / z <-> e * z < 0.3 / 5.95e-5).
    { assert (W : 0.3 / 5.95e-5 = 0.3 / 5.95e-5 * / z * z) by (rewrite Rmult_assoc, Rinv_l; lra). rewrite W at 2.
      split; intros K; [apply Rmult_lt_compat_r; auto|apply Rmult_lt_reg_r with z; auto]. }
    rewrite Q. assert (V : 5.95e-5 * (0.3 / 5.95e-5) = 0.3) by lra. split; intros; nra. }
  destruct (name =? "PRATA")%string; [apply Ok_inj in H; subst emis|discriminate].
  split; [trivial|intros _]. assert (W : 0 < 46.5 * e / Ta) by (apply div_pos; lra).
  cbn [fmul flift2] in X. rewrite fdiv_some in X by lra. cbn [fmul fadd flift2] in X. unfold fsqrt in X. destruct (Rlt_dec _ 0) in X; [lra|]. injection X as <-.
  pose proof (prata_bounds (46.5 * e / Ta) (Rlt_le _ _ W)). lra.
Qed.

Theorem longwave_below_black_iff (Ts vps cs : list fl) prm out k T vp :
  longwave Ts vps cs prm None = Ok out ->
  nth_error Ts k = Some (Some T) -> nth_error vps k = Some (Some vp) -> nth_error cs k = Some (Some 0) ->
  -273.15 < T -> 0 < vp ->
  exists L, nth_error out k = Some (Some L) /\ 0 < L /\
    (L < 5.669e-8 * (T + 273.15) ^ 4 <-> below_one (upper (p_lw_type prm)) (T + 273.15) (vp * 10)).
Proof.
  intros H HT HV HC T0 V. destruct (longwave_inv _ _ _ _ _ _ H) as (emis & cloud & E & C & ->); auto.
  assert (TK : 0 < T + KELVIN) by (unfold KELVIN; lra).
  destruct (longwave1_spec _ _ emis cloud T vp 0 E C TK ltac:(lra) ltac:(lra)) as (eps & cl & L & X & E0 & _ & Pc & Ec & _).
  exists cl. rewrite (map3_nth _ _ _ _ _ _ _ _ HT HV HC), E0. split; [reflexivity|]. split; auto.
  pose proof (sigmaT4_pos T TK) as PS. rewrite Ec. change (5.669e-8 * (T + 273.15) ^ 4) with (sigmaT4 T).
  rewrite <- (emissivity_below _ emis (T + 273.15) (vp * 10) eps E TK ltac:(lra) X). split; intros; nra.
Qed.

Definition sky (kind clouds : string) : params :=
  mkparams 60 false false "mtclim" "" "uniform" kind clouds 0 0.75 1e-6 0.45 0.67 0.0065 0 100 47 (-121).

Theorem longwave_above_black : exists L,
  longwave [Some 35] [Some 5.5] [Some 0] (sky "tva" "default") None = Ok [Some L] /\ 5.669e-8 * (35 + 273.15) ^ 4 < L.
Proof.
  exists ((1.0 + 0.17 * 0 ^ 2) * (0.74 + 0.0049 * (5.5 * 10)) * STEFAN_B * (35 + KELVIN) ^ 4). split; [reflexivity|].
  replace (5.669e-8 * (35 + 273.15) ^ 4) with (1 * STEFAN_B * (35 + KELVIN) ^ 4) by (unfold STEFAN_B, KELVIN; lra).
  apply Rmult_lt_compat_r; [apply pow_lt; unfold KELVIN; lra|]. apply Rmult_lt_compat_r; [unfold STEFAN_B; lra|]. simpl. lra.
Qed.

Theorem sky_case : forall kind, In kind ["DEFAULT"; "TVA"; "ANDERSON"; "BRUTSAERT"; "SATTERLUND"; "IDSO"; "PRATA"]%string ->
  exists L L', longwave [Some 10] [Some 0.5] [Some 0] (sky kind "default") None = Ok [Some L] /\
    longwave [Some 10] [Some 1] [Some 0] (sky kind "default") None = Ok [Some L'] /\ 0 < L < L' /\
    L' < 5.669e-8 * (10 + 273.15) ^ 4.
Proof.
  intros kind K. assert (E : exists emis, emissivity_calc (upper kind) = Ok emis).
  { cbn in K. repeat (destruct K as [<-|K]; [eexists; reflexivity|]). destruct K. }
  destruct E as [emis E].
  assert (F : forall v, exists out, longwave [Some 10] [Some v] [Some 0] (sky kind "default") None = Ok out /\ List.length out = 1%nat).
  { intros v. unfold longwave, sky, p_lw_type, p_lw_cloud. rewrite E. cbn [bind]. eexists. split; reflexivity. }
  destruct (F 0.5) as ([|o [|]] & A & NA); try discriminate. destruct (F 1) as ([|o' [|]] & B & NB); try discriminate.
  destruct (longwave_vapor _ _ _ _ _ _ _ 0 10 0.5 1 0 A B eq_refl eq_refl eq_refl eq_refl) as (L & L' & X & X' & P & Q); try lra.
  destruct (longwave_below_black _ _ _ _ _ 0 10 1 B eq_refl eq_refl eq_refl) as (L2 & Y & S); try lra.
  cbn in X, X', Y. injection X as ->. injection X' as ->. injection Y as ->. exists L, L2. split; [exact A|]. split; [exact B|]. split; [split; [lra|]|lra].
  destruct (Req_dec L L2) as [->|]; [|lra]. destruct (proj1 Q eq_refl) as [Z _]. discriminate.
Qed.
