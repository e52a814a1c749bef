(** Solar geometry: results per day, tables, failing latitudes. *)
From Coq Require Import ZArith Reals String List Bool Arith Lia Lra Ratan Classical.
From Verif Require Import Model.Py Model.Fl Model.Np Model.Constants Model.Physics
  Proofs.Base Proofs.StateProofs Proofs.ArrayProofs Proofs.PrecProofs Proofs.ReaderProofs Proofs.RBase Proofs.PiBounds
  Proofs.SolarProofs Spec.SeriesSpec Spec.SolarSpec.
Import ListNotations.
Local Open Scope R_scope.

Lemma trans_fraction elev lr : 0 < sg_trans elev lr < 1.
Proof. unfold sg_trans. apply power_fraction; [unfold TBASE; lra|apply exp_pos]. Qed.

Lemma Reqb_not a b : a <> b -> Reqb a b = false.
Proof. now rewrite Reqb_false. Qed.
Lemma Reqb_refl a : Reqb a a = true.
Proof. now apply Reqb_true. Qed.
Lemma Rltb_of a b : a < b -> Rltb a b = true.
Proof. now rewrite Rltb_true. Qed.
Lemma Rltb_not a b : b <= a -> Rltb a b = false.
Proof. now rewrite Rltb_false. Qed.

Section Day.
Variables (elev lat lr : R) (i : nat).
Hypothesis Hlat : -90 <= lat <= 90.

Theorem polar_night_zero : sg_daylength lat i = 0 <-> polar_night lat i.
Proof.
  rewrite (daylength_zero lat i), (hss_zero lat i Hlat). unfold polar_night.
  split; intros H h; specialize (H h); rewrite (cza_sun lat i Hlat) in *; auto.
Qed.

Lemma day_loop : exists b,
  fold_left (sg_step (sg_trans elev lr) lat i) (arange_R (- sg_hss lat i) (sg_hss lat i) sg_dh)
            (Ok {| acc_trans := 0; acc_flat := 0; acc_row := repeat 0 RAD_STEPS |}) = Ok b /\
  acc_flat b = flat lat i /\ acc_row b = raw_row lat i /\ 0 <= acc_trans b <= flat lat i /\
  (0 < flat lat i -> 0 < acc_trans b < flat lat i).
Proof.
  destruct (loop_spec lat i (sg_trans elev lr) (trans_fraction elev lr) (hours lat i)
     {| acc_trans := 0; acc_flat := 0; acc_row := repeat 0 RAD_STEPS |}) as (b & E & F & Rw & T & T').
  cbn [acc_flat acc_trans acc_row] in *. exists b. split; [exact E|].
  split; [unfold flat; lra|]. split; [now rewrite Rw, fold_upd|].
  unfold flat. split; [lra|]. intros Q. specialize (T' Q). lra.
Qed.

Theorem day_regular : 30 < sg_daylength lat i -> exists o,
  sg_day elev lat lr i = Ok o /\ sd_daylength o = sg_daylength lat i /\
  0 < sd_potrad o /\ 0 < sd_ttmax o < 1 /\
  (exists a b, daylight_block (sd_row o) a b) /\
  (forall x, In x (sd_row o) -> 0 <= x) /\ 0 < total (sd_row o) <= 1 /\
  (total (sd_row o) = 1 <-> ~ midnight_sun lat i).
Proof.
  intros H. destruct (day_long lat i H) as [Hp H2]. pose proof (flat_pos lat i Hlat Hp H2) as FP.
  destruct day_loop as (b & E & F & Rw & T & T'). specialize (T' FP).
  unfold sg_day. rewrite E. cbn [bind]. rewrite F, Rw. rewrite !Reqb_not by lra. rewrite Rltb_of by auto. cbn [negb andb].
  eexists. split; [reflexivity|]. cbn [sd_daylength sd_potrad sd_ttmax sd_row]. split; [reflexivity|].
  split; [apply div_pos; lra|]. split; [split; [apply div_pos; lra|apply div_lt; lra]|].
  assert (ET : total (map (fun x => x / flat lat i) (raw_row lat i)) = total (raw_row lat i) / flat lat i).
  { unfold Rdiv at 2. rewrite Rmult_comm, <- total_scale. f_equal. apply map_ext. intros x. unfold Rdiv. ring. }
  split.
  { destruct (raw_block lat i Hlat Hp H2) as (a & c & B1 & B2 & B3 & B4). exists a, c. split; [auto|]. split; [auto|].
    split; [now rewrite map_length|]. intros j Hj. rewrite <- (B4 j Hj).
    replace 0 with (0 / flat lat i) at 2 by lra. rewrite (map_nth (fun x => x / flat lat i)).
    split; intros Q; [|now apply div_pos]. destruct (Rlt_le_dec 0 (nth j (raw_row lat i) 0)) as [|W]; auto.
    exfalso. assert (nth j (raw_row lat i) 0 / flat lat i <= 0) by (apply div_le; lra). lra. }
  split.
  { intros x Hx. apply in_map_iff in Hx as (y & <- & Hy). apply div_nonneg; [|auto]. eapply raw_nonneg; eauto. }
  destruct (raw_total lat i Hlat Hp H2) as (P1 & P2 & P3). rewrite ET.
  split; [split; [apply div_pos; lra|apply div_le; lra]|]. split.
  - intros Q M. specialize (P2 M). assert (total (raw_row lat i) / flat lat i < 1) by (apply div_lt; lra). lra.
  - intros M. rewrite P3 by auto. apply Rinv_r. lra.
Qed.

Theorem day_dark : polar_night lat i -> sg_day elev lat lr i =
  Ok {| sd_row := repeat 0 RAD_STEPS; sd_daylength := 0; sd_potrad := 0; sd_ttmax := 0 |}.
Proof.
  intros H. apply polar_night_zero in H. pose proof H as Hz. apply (daylength_zero lat i) in Hz.
  assert (E : arange_R (- sg_hss lat i) (sg_hss lat i) sg_dh = []).
  { unfold arange_R. replace ((sg_hss lat i - - sg_hss lat i) / sg_dh) with 0 by (rewrite Hz; unfold Rdiv; lra).
    replace (Rceil 0) with 0%Z; [reflexivity|]. pose proof (Rceil_bounds 0) as B.
    assert (IZR (-1) < IZR (Rceil 0) < IZR 1) as [B1 B2] by (split; [lra|lra]). apply lt_IZR in B1, B2. lia. }
  unfold sg_day. rewrite E, H. cbn [fold_left bind]. rewrite Reqb_refl. reflexivity.
Qed.

Theorem day_short : 0 < sg_daylength lat i <= 30 -> sg_day elev lat lr i = Err ZeroDivisionError.
Proof.
  intros H. assert (D : 0 < 2 * sg_hss lat i * SEC_PER_RAD <= 30).
  { unfold sg_daylength, Rmin, SEC_PER_DAY in H. destruct (Rle_dec _ _); lra. }
  assert (Hp : 0 < sg_hss lat i) by (unfold SEC_PER_RAD in D; lra).
  assert (X : 0 <= x0 lat i) by (unfold x0; lra).
  assert (N : n_hours lat i = 1%nat).
  { pose proof (n_hours_bounds lat i Hp) as NB. unfold x0 in NB.
    assert (IZR 0 < IZR (Z.of_nat (n_hours lat i)) < IZR 2) as [N1 N2] by (rewrite <- INR_IZR_INZ; lra).
    apply lt_IZR in N1, N2. lia. }
  assert (F0 : flat lat i = 0).
  { unfold flat. rewrite (hours_eq lat i), N. cbn [seq map]. rewrite total_cons, total_nil.
    replace (hour lat i 0) with (- sg_hss lat i) by (unfold hour; cbn [INR]; ring).
    unfold beam_at. rewrite (cza_first_zero lat i Hlat X Hp). rewrite Rltb_not by lra. lra. }
  destruct day_loop as (b & E & F & _). unfold sg_day. rewrite E. cbn [bind]. rewrite F, F0.
  rewrite (Reqb_not (sg_daylength lat i)) by lra. rewrite Reqb_refl. reflexivity.
Qed.

Lemma day_cases : sg_daylength lat i = 0 \/ 0 < sg_daylength lat i <= 30 \/ 30 < sg_daylength lat i.
Proof. pose proof (daylength_range lat i). lra. Qed.

Theorem day_ok : (exists o, sg_day elev lat lr i = Ok o) <-> ~ (0 < sg_daylength lat i <= 30).
Proof.
  split.
  - intros [o E] H. rewrite day_short in E by auto. discriminate.
  - intros H. destruct day_cases as [Z|[S|L]]; [|contradiction|].
    + apply polar_night_zero in Z. rewrite day_dark by auto. eauto.
    + destruct (day_regular L) as (o & E & _). eauto.
Qed.

Theorem day_facts o : sg_day elev lat lr i = Ok o ->
  sd_daylength o = sg_daylength lat i /\ 0 <= sd_daylength o <= 86400 /\
  (sd_daylength o = 0 <-> polar_night lat i) /\ 0 <= sd_potrad o /\
  List.length (sd_row o) = RAD_STEPS /\ (forall x, In x (sd_row o) -> 0 <= x) /\
  (polar_night lat i -> sd_row o = repeat 0 RAD_STEPS /\ sd_potrad o = 0 /\ sd_ttmax o = 0) /\
  (~ polar_night lat i -> 0 < sd_potrad o /\ 0 < sd_ttmax o < 1 /\
     (exists a b, daylight_block (sd_row o) a b) /\ 0 < total (sd_row o) <= 1 /\
     (total (sd_row o) = 1 <-> ~ midnight_sun lat i)).
Proof.
  intros E. pose proof (daylength_range lat i) as DR. rewrite <- polar_night_zero.
  destruct day_cases as [Z|[S|L]].
  - pose proof Z as P. apply polar_night_zero in P. rewrite (day_dark P) in E. apply Ok_inj in E. subst o.
    cbn [sd_row sd_daylength sd_potrad sd_ttmax]. rewrite Z. rewrite repeat_length.
    repeat (split; [solve [auto|lra|intros; eapply Req_le, eq_sym, repeat_spec; eauto|tauto]|]).
    intros N. now exfalso.
  - rewrite day_short in E by auto. discriminate.
  - destruct (day_regular L) as (o' & E' & D & P & T & B & N & S & M). rewrite E' in E. apply Ok_inj in E. subst o'.
    rewrite D. assert (sg_daylength lat i <> 0) by lra.
    assert (List.length (sd_row o) = RAD_STEPS) by (destruct B as (a & b & _ & _ & B & _); auto).
    do 7 (split; [solve [auto|lra|tauto]|]). intros _. exact (conj P (conj T (conj B (conj S M)))).
Qed.
End Day.

(** ** the tables *)
Lemma Forall2_len {A B} (R : A -> B -> Prop) l l' : Forall2 R l l' -> List.length l = List.length l'.
Proof. induction 1; cbn; congruence. Qed.

Definition table_row (doy : nat) : nat := Nat.min (doy - 1) 364.

Lemma dayperyear_value : dayperyear = 366%nat.
Proof. reflexivity. Qed.

Theorem tables elev lat lr g : solar_geom elev lat lr = Ok g ->
  (forall doy, (1 <= doy <= 366)%nat -> exists o,
    sg_day elev lat lr (table_row doy) = Ok o /\
    nth_error (tiny_rad_fract g) (doy - 1) = Some (sd_row o) /\
    nth_error (sg_daylengths g) (doy - 1) = Some (sd_daylength o) /\
    nth_error (flat_potrad g) (doy - 1) = Some (sd_potrad o) /\
    nth_error (tt_max0 g) (doy - 1) = Some (sd_ttmax o)) /\
  List.length (tiny_rad_fract g) = 366%nat /\ List.length (sg_daylengths g) = 366%nat /\
  List.length (flat_potrad g) = 366%nat /\ List.length (tt_max0 g) = 366%nat.
Proof.
  unfold solar_geom. rewrite dayperyear_value. change (366 - 1)%nat with 365%nat. change (366 - 2)%nat with 364%nat.
  destruct (mapM _ _) as [days|] eqn:M; [|discriminate]. cbn [bind]. unfold getitem.
  destruct (nth_error days 364) as [last|] eqn:L; [|discriminate]. cbn [bind]. intros E. apply Ok_inj in E. subst g.
  cbn [tiny_rad_fract sg_daylengths flat_potrad tt_max0]. apply mapM_inv in M.
  assert (LD : List.length days = 365%nat) by (rewrite <- (Forall2_len _ _ _ M), seq_length; reflexivity).
  assert (N : forall k, (k < 365)%nat -> exists o, sg_day elev lat lr k = Ok o /\ nth_error days k = Some o).
  { intros k Hk. destruct (Forall2_nth _ _ _ M k k) as (o & Nk & Ok_); [now rewrite nth_error_seq0|]. eauto. }
  split; [|rewrite !map_length, app_length, LD; repeat split].
  intros doy Hd. unfold table_row.
  assert (X : exists o, sg_day elev lat lr (Nat.min (doy - 1) 364) = Ok o /\ nth_error (days ++ [last]) (doy - 1) = Some o).
  { destruct (Nat.le_gt_cases doy 365).
    - rewrite Nat.min_l by lia. destruct (N (doy - 1)%nat ltac:(lia)) as (o & O1 & O2). exists o. split; auto.
      rewrite nth_error_app1 by lia. auto.
    - rewrite Nat.min_r by lia. exists last. destruct (N 364%nat ltac:(lia)) as (o & O1 & O2).
      split; [congruence|]. rewrite nth_error_app2 by lia. rewrite LD. now replace (doy - 1 - 365)%nat with 0%nat by lia. }
  destruct X as (o & O1 & O2). exists o. split; [auto|]. rewrite !nth_error_map, O2. auto.
Qed.

Theorem geom_ok elev lat lr : -90 <= lat <= 90 ->
  (exists g, solar_geom elev lat lr = Ok g) <-> (forall i, (i < 365)%nat -> ~ (0 < sg_daylength lat i <= 30)).
Proof.
  intros Hl. unfold solar_geom. rewrite dayperyear_value. change (366 - 1)%nat with 365%nat. change (366 - 2)%nat with 364%nat.
  assert (X : (exists g, mapM (sg_day elev lat lr) (seq 0 365) = Ok g) <-> forall i, (i < 365)%nat -> ~ (0 < sg_daylength lat i <= 30)).
  { rewrite mapM_ok_iff. split; intros H i Hi.
    - apply (day_ok elev lat lr i Hl). apply H. apply in_seq. lia.
    - apply (day_ok elev lat lr i Hl). apply H. apply in_seq in Hi. lia. }
  rewrite <- X. split; intros [g E].
  - destruct (mapM _ _) as [days|]; [eauto|discriminate].
  - rewrite E. cbn [bind]. apply mapM_inv in E. unfold getitem.
    destruct (nth_error g 364) eqn:N; [cbn [bind]; eauto|]. apply nth_error_None in N.
    apply Forall2_len in E. rewrite seq_length in E. lia.
Qed.

Theorem geom_fails elev lat lr : -90 <= lat <= 90 ->
  (exists e, solar_geom elev lat lr = Err e) <-> (exists i, (i < 365)%nat /\ 0 < sg_daylength lat i <= 30).
Proof.
  intros Hl. pose proof (geom_ok elev lat lr Hl) as G. split.
  - intros [e E]. apply NNPP. intros N. destruct (proj2 G) as [g Eg]; [|congruence].
    intros i Hi H. apply N. eauto.
  - intros (i & Hi & H). destruct (solar_geom elev lat lr) as [g|e] eqn:E; eauto.
    exfalso. apply (proj1 G (ex_intro _ g eq_refl) i Hi H).
Qed.
