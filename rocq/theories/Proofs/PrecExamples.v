(** Corollaries in the form used by Properties/Precip.v and concrete cases. *)
From Coq Require Import ZArith Reals String List Bool Arith Lia Lra.
From Verif Require Import Model.Py Model.Fl Model.Np Model.Constants Model.Params Model.Disagg
  Spec.TimeSpec Spec.SeriesSpec Proofs.Base Proofs.ArrayProofs Proofs.PrecProofs Proofs.WindProofs.
Import ListNotations.
Local Open Scope list_scope.

Theorem prec_uniform_nonneg (P tmin : list fl) ts prm tpk dur out d p :
  legal_time_step ts -> p_utc_offset prm = false ->
  str_in (upper (p_prec_type prm)) ["TRIANGLE"; "MIX"]%string = false ->
  prec P tmin ts prm tpk dur = Ok out ->
  nth_error P d = Some (Some p) -> (0 <= p)%R ->
  forall x, In x (day_part (steps ts) d out) -> exists y, x = Some y /\ (0 <= y)%R.
Proof.
  intros L U T E Hp Pp x I. destruct (prec_uniform P tmin ts prm tpk dur L U T) as (o & E' & _ & D).
  rewrite E in E'. apply Ok_inj in E'. subst o. destruct (D d _ Hp) as [Dd _]. rewrite Dd in I.
  apply repeat_spec in I. destruct (steps_mul ts L) as (_ & Sp & _).
  rewrite fdiv_some in I by (apply not_0_INR; lia). eexists. split; [exact I|].
  apply Rmult_le_pos; auto. apply Rlt_le, Rinv_0_lt_compat, lt_0_INR. lia.
Qed.

Theorem prec_triangle_covered (P tmin : list fl) ts prm pk dur :
  legal_time_step ts -> p_utc_offset prm = false -> upper (p_prec_type prm) = "TRIANGLE"%string ->
  List.length pk = List.length P -> List.length dur = List.length P ->
  exists out, prec P tmin ts prm (Some pk) (Some dur) = Ok out /\
    List.length out = (List.length P * steps ts)%nat /\
    forall d p a b, nth_error P d = Some (Some p) -> nth_error pk d = Some (Some a) ->
      nth_error dur d = Some (Some b) -> covered a b ->
      fsum (day_part (steps ts) d out) = Some p /\
      ((0 <= p)%R -> forall x, In x (day_part (steps ts) d out) -> exists y, x = Some y /\ (0 <= y)%R).
Proof.
  intros L U T C1 C2. destruct (prec_triangle P tmin ts prm pk dur L U T C1 C2) as (out & E & Ln & D).
  exists out. split; auto. split; auto. intros d p a b Hp Ha Hb C. destruct (D d p a b Hp Ha Hb) as [D1 _]. now apply D1.
Qed.

Theorem prec_triangle_iff (P tmin : list fl) ts prm pk dur :
  legal_time_step ts -> p_utc_offset prm = false -> upper (p_prec_type prm) = "TRIANGLE"%string ->
  List.length pk = List.length P -> List.length dur = List.length P ->
  exists out, prec P tmin ts prm (Some pk) (Some dur) = Ok out /\
    forall d p a b, nth_error P d = Some (Some p) -> nth_error pk d = Some (Some a) ->
      nth_error dur d = Some (Some b) ->
      (day_part (steps ts) d out = repeat None (steps ts) <-> ~ covered a b) /\
      (fsum (day_part (steps ts) d out) = Some p <-> covered a b).
Proof.
  intros L U T C1 C2. destruct (prec_triangle P tmin ts prm pk dur L U T C1 C2) as (out & E & Ln & D).
  exists out. split; auto. intros d p a b Hp Ha Hb. destruct (D d p a b Hp Ha Hb) as [D1 D2].
  destruct (steps_mul ts L) as (_ & Sp & _).
  assert (X : day_part (steps ts) d out = repeat None (steps ts) -> fsum (day_part (steps ts) d out) = None).
  { intros ->. now apply fsum_repeat_none. }
  destruct (Classical_Prop.classic (covered a b)) as [C|C].
  - destruct (D1 C) as [S _]. split; split; intros H; auto; try contradiction.
    apply X in H. rewrite S in H. discriminate.
  - pose proof (D2 C) as N. split; split; intros H; auto; try contradiction.
    rewrite (X N) in H. discriminate.
Qed.

Lemma covered_example : covered 720 60 /\ covered 1439 0.5 /\ covered 0 1 /\
  upper (p_prec_type (with_prec_type "triangle" demo_params)) = "TRIANGLE"%string.
Proof.
  assert (E : forall z, (0 <= z < 1440)%Z -> forall b, (0 <= b)%R -> covered (IZR z) b).
  { intros z Hz b Hb. left. exists (Z.to_nat z). split.
    - apply Nat2Z.inj_lt. rewrite Z2Nat.id by lia. change (Z.of_nat MIN_PER_DAY) with 1440%Z. lia.
    - rewrite INR_IZR_INZ, Z2Nat.id by lia. lra. }
  repeat split; try (apply E; lra || lia).
Qed.

Lemma between_none a b n : (IZR n < a)%R -> (b < IZR (n + 1))%R -> forall m, ~ minute_in a b m.
Proof.
  intros Ha Hb m (_ & H1 & H2). rewrite INR_IZR_INZ in *.
  assert (IZR n < IZR (Z.of_nat m))%R by lra. assert (IZR (Z.of_nat m) < IZR (n + 1))%R by lra.
  apply lt_IZR in H, H0. lia.
Qed.
Lemma uncovered_example : ~ covered 720.5 0.5 /\ ~ covered 1439.5 0.25.
Proof.
  split; intros [[m H]|(m & m' & _ & H & _)]; revert H.
  - apply (between_none _ _ 720); simpl; lra.
  - apply (between_none _ _ 720); simpl; lra.
  - apply (between_none _ _ 1439); simpl; lra.
  - apply (between_none _ _ 1439); simpl; lra.
Qed.

Lemma legal_60 : legal_time_step 60.
Proof. unfold legal_time_step. repeat split; lia. Qed.

Lemma lost_example : exists out,
  prec [Some 5%R] [None] 60 (with_prec_type "triangle" demo_params) (Some [Some 720.5%R]) (Some [Some 0.5%R]) = Ok out /\
  out = repeat None 24.
Proof.
  destruct (prec_triangle [Some 5%R] [None] 60 (with_prec_type "triangle" demo_params) [Some 720.5%R] [Some 0.5%R] legal_60 eq_refl eq_refl eq_refl eq_refl)
    as (out & E & Ln & D).
  exists out. split; auto. destruct (D 0%nat _ _ _ eq_refl eq_refl eq_refl) as [_ N].
  specialize (N (proj1 uncovered_example)). change (steps 60) with 24%nat in *.
  unfold day_part in N. rewrite <- N. symmetry. apply firstn_all2. cbn [List.length] in Ln. simpl skipn. rewrite Ln. auto.
Qed.

Lemma mix_example :
  flt (nth 0 [Some (-1)%R; Some 0%R] None) (Some 0%R) = true /\
  flt (nth 1 [Some (-1)%R; Some 0%R] None) (Some 0%R) = false.
Proof.
  split.
  - change (Rltb (-1) 0 = true). apply Rltb_true. lra.
  - change (Rltb 0 0 = false). apply Rltb_false. lra.
Qed.

Lemma list_of_days {A} k (a b : list A) l : List.length l = (2 * k)%nat -> (0 < k)%nat ->
  day_part k 0 l = a -> day_part k 1 l = b -> l = a ++ b.
Proof.
  unfold day_part. intros Ln K <- <-. simpl. rewrite Nat.add_0_r.
  rewrite (firstn_all2 (skipn k l)) by (rewrite skipn_length; lia). symmetry. apply firstn_skipn.
Qed.

Lemma uniform_example :
  legal_time_step 60 /\ steps 60 = 24%nat /\
  prec [Some 24%R; Some 0%R] [None; None] 60 demo_params None None =
    Ok (repeat (Some 1%R) 24 ++ repeat (Some 0%R) 24).
Proof.
  split; [apply legal_60|]. split; [reflexivity|].
  destruct (prec_uniform [Some 24%R; Some 0%R] [None; None] 60 demo_params None None legal_60 eq_refl eq_refl)
    as (out & E & Ln & D).
  rewrite E. f_equal. destruct (D 0%nat _ eq_refl) as [D0 _]. destruct (D 1%nat _ eq_refl) as [D1 _].
  change (steps 60) with 24%nat in *.
  rewrite fdiv_some in D0, D1 by (simpl; lra).
  apply (list_of_days 24); auto; try lia; [rewrite D0|rewrite D1]; apply (f_equal (fun x => repeat (Some x) 24)); simpl; field.
Qed.

Lemma shape_example : legal_time_step 1 /\
  exists m, prec [Some 5%R] [None] 1 (with_prec_type "Triangle" demo_params) (Some [Some 720%R]) (Some [Some 60%R]) = Ok m /\
    List.length m = MIN_PER_DAY.
Proof.
  split; [apply legal_1|].
  destruct (prec_triangle [Some 5%R] [None] 1 (with_prec_type "Triangle" demo_params) [Some 720%R] [Some 60%R] legal_1 eq_refl eq_refl eq_refl eq_refl)
    as (out & E & Ln & _).
  exists out. split; [exact E|]. now rewrite Ln.
Qed.

Lemma Int_part_IZR' x z : (IZR z <= x < IZR z + 1)%R -> Int_part x = z.
Proof.
  intros [H1 H2]. symmetry. unfold Int_part. assert (up x = z + 1)%Z; [|lia].
  symmetry. apply tech_up; rewrite plus_IZR; lra.
Qed.
Lemma Rtrunc_pos x z : (0 <= x)%R -> (IZR z <= x < IZR z + 1)%R -> Rtrunc x = z.
Proof. intros P H. unfold Rtrunc. destruct (Rle_dec 0 x); [|lra]. now apply Int_part_IZR'. Qed.
Lemma Rtrunc_neg x z : (x < 0)%R -> (IZR z <= - x < IZR z + 1)%R -> Rtrunc x = (- z)%Z.
Proof. intros P H. unfold Rtrunc. destruct (Rle_dec 0 x); [lra|]. f_equal. now apply Int_part_IZR'. Qed.

Lemma INR_MIN : INR MIN_PER_DAY = 1440%R.
Proof. rewrite INR_IZR_INZ. reflexivity. Qed.

Lemma utc_example : utc_minutes (-121) = (-484)%Z /\ utc_minutes 90 = 360%Z /\
  exists m, prec [Some 5%R; Some 1%R] [] 1 (with_utc false demo_params) None None = Ok m.
Proof.
  unfold utc_minutes, DEG_PER_REV. rewrite INR_MIN. split; [|split].
  - apply (Rtrunc_neg _ 484); lra.
  - apply (Rtrunc_pos _ 360); lra.
  - destruct (prec_uniform [Some 5%R; Some 1%R] [] 1 (with_utc false demo_params) None None legal_1 eq_refl eq_refl) as (m & E & _).
    eauto.
Qed.

Theorem wind_tskc_local (x : list fl) ts prm :
  legal_time_step ts -> p_utc_offset prm = false ->
  exists out, wind x ts prm = Ok out /\ tskc x ts prm = Ok out /\
    List.length out = (List.length x * steps ts)%nat /\
    forall d v, nth_error x d = Some v -> day_part (steps ts) d out = repeat v (steps ts).
Proof. intros L U. destruct (daily_constant_local x ts prm L U) as (o & E & H). exists o. auto. Qed.

Theorem wind_tskc_utc (x : list fl) ts prm :
  legal_time_step ts -> p_utc_offset prm = true ->
  exists out, wind x ts prm = Ok out /\ tskc x ts prm = Ok out /\
    List.length out = (List.length x * steps ts)%nat /\
    (forall k, (k < List.length out)%nat ->
       nth_error out k = Some (fmean (map (fun j =>
         nth (Z.to_nat ((Z.of_nat (k * Z.to_nat ts + j) + utc_minutes (p_lon prm))
               mod (Z.of_nat (List.length x) * 1440) / 1440)) x None) (seq 0 (Z.to_nat ts))))) /\
    (forall lo hi, (forall v, In v x -> exists y, v = Some y /\ (lo <= y <= hi)%R) ->
       forall v, In v out -> exists y, v = Some y /\ (lo <= y <= hi)%R) /\
    fmean out = fmean x.
Proof. intros L U. destruct (daily_constant_utc x ts prm L U) as (o & E & H). exists o. auto. Qed.

Lemma wind_example :
  wind [Some 3%R; None; Some 5%R] 360 demo_params =
    Ok (repeat (Some 3%R) 4 ++ repeat None 4 ++ repeat (Some 5%R) 4).
Proof.
  assert (L : legal_time_step 360) by (unfold legal_time_step; repeat split; lia).
  destruct (wind_tskc_local [Some 3%R; None; Some 5%R] 360 demo_params L eq_refl) as (out & E & _ & Ln & D).
  rewrite E. f_equal. pose proof (D 0%nat _ eq_refl) as D0. pose proof (D 1%nat _ eq_refl) as D1. pose proof (D 2%nat _ eq_refl) as D2.
  change (steps 360) with 4%nat in *. cbn [List.length Nat.mul] in Ln. unfold day_part in *.
  do 13 (destruct out as [|? out]; [simpl in Ln; try lia|]); [|simpl in Ln; lia].
  simpl in D0, D1, D2. injection D0 as -> -> -> ->. injection D1 as -> -> -> ->. injection D2 as -> -> -> ->. reflexivity.
Qed.
