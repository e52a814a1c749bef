(** C123: constants and monthly tables through the storage type of the forcing. *)
From Coq Require Import ZArith Reals String List Bool Arith Lia Lra.
From Verif Require Import Model.Py Model.Fl Model.Calendar Model.State Model.Kinds Spec.KindsSpec
  Proofs.Base Proofs.StateProofs Proofs.ConfigProofs Proofs.UtcProofs.
Import ListNotations.
Local Open Scope string_scope.
Local Open Scope list_scope.

Lemma trunc_cut x : cut_off x (IZR (Rtrunc x)).
Proof.
  destruct (Rtrunc_spec x) as [A B]. split; [now eexists|]. split; [|split; intros H].
  - destruct (Rle_dec 0 x) as [H|H].
    + destruct (A H) as [A1 A2]. apply Rabs_def1; lra.
    + destruct (B ltac:(lra)) as [B1 B2]. apply Rabs_def1; lra.
  - destruct (A H) as [A1 _]. lra.
  - destruct (B H) as [B1 _]. lra.
Qed.

Lemma cut_whole x y : cut_off x y -> whole x -> y = x.
Proof.
  intros ([z ->] & H & _) [w ->]. f_equal.
  rewrite <- minus_IZR, <- abs_IZR in H. apply lt_IZR in H. lia.
Qed.

Lemma consts_fold {P} (g : R -> kvar P) consts : forall met : dict (kvar P), NoDup (keys consts) ->
  let m := fold_left (fun m kc => dict_set m (fst kc) (g (snd kc))) consts met in
  (forall k c, In (k, c) consts -> dict_get m k = Some (g c)) /\
  (forall k, ~ In k (keys consts) -> dict_get m k = dict_get met k).
Proof.
  induction consts as [|[k0 c0] consts IH]; intros met ND; cbn [fold_left fst snd].
  - split; [intros k c []|auto].
  - inversion ND as [|? ? N ND']; subst.
    destruct (IH (dict_set met k0 (g c0)) ND') as [A B]. split.
    + intros k c [E|Hin]; [|auto]. injection E as <- <-. rewrite B by auto.
      now rewrite dict_get_set, String.eqb_refl.
    + intros k Hk. rewrite B by (intros C; apply Hk; now right). rewrite dict_get_set.
      destruct (String.eqb_spec k k0); auto. subst. exfalso. apply Hk. now left.
Qed.

Lemma ok_same {A} (a b : A) : Ok a = Ok b -> a = b.
Proof. intros E. now injection E. Qed.

Lemma consts_kinds {P} nan_as k0 v0 (met : dict (kvar P)) (consts : dict R) out :
  NoDup (keys consts) -> apply_constants_kinds nan_as ((k0, v0) :: met) consts = Ok out ->
  (forall k c, In (k, c) consts ->
     dict_get out k = Some (mk_kvar (kv_kind v0) (fun _ => cast nan_as (kv_kind v0) (Some c)))) /\
  (forall k, ~ In k (keys consts) -> dict_get out k = dict_get ((k0, v0) :: met) k).
Proof.
  intros ND H. unfold apply_constants_kinds in H. destruct consts as [|kc consts].
  - injection H as <-. split; [intros k c []|auto].
  - apply ok_same in H. subst out.
    apply (consts_fold (fun c => mk_kvar (kv_kind v0) (fun _ => cast nan_as (kv_kind v0) (Some c)))). exact ND.
Qed.

Theorem kinds_total {P} nan_as (met : dict (kvar P)) (consts : dict R) :
  (exists out, apply_constants_kinds nan_as met consts = Ok out) <-> (met <> [] \/ consts = []).
Proof.
  unfold apply_constants_kinds. destruct consts as [|kc consts]; [split; eauto|].
  destruct met as [|[k v] met].
  - split; [intros [o H]; discriminate|intros [H|H]; [now elim H|discriminate]].
  - split; [|eauto]. intros _. left. discriminate.
Qed.

Theorem kinds_others {P} nan_as (met out : dict (kvar P)) (consts : dict R) k :
  NoDup (keys consts) -> apply_constants_kinds nan_as met consts = Ok out -> ~ In k (keys consts) ->
  dict_get out k = dict_get met k.
Proof.
  intros ND H N. destruct met as [|[k0 v0] met].
  - unfold apply_constants_kinds in H. destruct consts; [|discriminate]. now injection H as <-.
  - now apply (consts_kinds nan_as k0 v0 met consts out ND H).
Qed.

Theorem kinds_values {P} nan_as k0 v0 (met out : dict (kvar P)) (consts : dict R) k c :
  NoDup (keys consts) -> apply_constants_kinds nan_as ((k0, v0) :: met) consts = Ok out -> In (k, c) consts ->
  kv_kind v0 = KFloat \/ whole c ->
  exists f, dict_get out k = Some f /\ forall p, kv_at f p = Some c.
Proof.
  intros ND H Hin Q. destruct (consts_kinds nan_as k0 v0 met consts out ND H) as [A _].
  eexists. split; [exact (A k c Hin)|]. intros p. cbn [kv_at]. unfold cast. destruct (kv_kind v0); [reflexivity|].
  destruct Q as [Q|Q]; [discriminate|]. do 2 f_equal. now apply cut_whole; [apply trunc_cut|].
Qed.

Theorem kinds_cut {P} nan_as k0 v0 (met out : dict (kvar P)) (consts : dict R) k c :
  NoDup (keys consts) -> apply_constants_kinds nan_as ((k0, v0) :: met) consts = Ok out -> In (k, c) consts ->
  kv_kind v0 = KInt ->
  exists f y, dict_get out k = Some f /\ cut_off c y /\ forall p, kv_at f p = Some y.
Proof.
  intros ND H Hin Q. destruct (consts_kinds nan_as k0 v0 met consts out ND H) as [A _].
  eexists. exists (IZR (Rtrunc c)). split; [exact (A k c Hin)|]. split; [apply trunc_cut|].
  intros p. cbn [kv_at]. unfold cast. now rewrite Q.
Qed.

Theorem kinds_lost {P} nan_as k0 v0 (met : dict (kvar P)) k c :
  kv_kind v0 = KInt -> ~ whole c ->
  exists out f, apply_constants_kinds nan_as ((k0, v0) :: met) [(k, c)] = Ok out /\
    dict_get out k = Some f /\ forall p, kv_at f p <> Some c.
Proof.
  intros Q N. eexists. eexists. split; [reflexivity|]. cbn [fold_left fst snd].
  rewrite dict_get_set, String.eqb_refl. split; [reflexivity|]. intros p. cbn [kv_at]. unfold cast. rewrite Q.
  intros E. injection E as E. apply N. now exists (Rtrunc c).
Qed.

(** ** the monthly tables *)
Lemma zlookup_map (g : fl -> fl) param m :
  zlookup (map (fun mv => (fst mv, g (snd mv))) param) m = bind (zlookup param m) (fun v => Ok (g v)).
Proof.
  induction param as [|[m' v] param IH]; cbn [map zlookup fst snd]; [reflexivity|].
  now destruct (m =? m')%Z.
Qed.

Theorem monthly_kinds nan_as k param days (pr l : list fl) i d :
  List.length pr = List.length days -> convert_monthly_kinds nan_as k param days pr = Ok l ->
  nth_error days i = Some d -> month_of d <> 12%Z ->
  exists v, zlookup param (month_of d) = Ok v /\ nth_error l i = Some (cast nan_as k v).
Proof.
  intros Hl H Hd N. unfold convert_monthly_kinds in H.
  destruct (monthly_param _ days pr l i d Hl H Hd) as [A _]. destruct (A N) as (v & Ev & Hv).
  rewrite (zlookup_map (cast nan_as k)) in Ev. destruct (zlookup param (month_of d)) as [w|e]; [|discriminate].
  cbn [bind] in Ev. injection Ev as <-. exists w. now split.
Qed.

Theorem monthly_values nan_as k param days (pr l : list fl) i d x :
  List.length pr = List.length days -> convert_monthly_kinds nan_as k param days pr = Ok l ->
  nth_error days i = Some d -> month_of d <> 12%Z -> zlookup param (month_of d) = Ok (Some x) ->
  (k = KFloat \/ whole x -> nth_error l i = Some (Some x)) /\
  (k = KInt -> exists y, cut_off x y /\ nth_error l i = Some (Some y)).
Proof.
  intros Hl H Hd N Ex. destruct (monthly_kinds nan_as k param days pr l i d Hl H Hd N) as (v & Ev & Hv).
  rewrite Ex in Ev. injection Ev as <-. rewrite Hv. split.
  - intros Q. unfold cast. destruct k; [reflexivity|]. destruct Q as [Q|Q]; [discriminate|].
    do 3 f_equal. now apply cut_whole; [apply trunc_cut|].
  - intros ->. exists (IZR (Rtrunc x)). split; [apply trunc_cut|reflexivity].
Qed.

(** ** examples *)
Definition whole_forcing : dict (kvar nat) :=
  [("prec", mk_kvar KInt (fun t => Some (INR t))); ("t_min", mk_kvar KFloat (fun _ => Some 0.5%R))].

Lemma half_trunc : Rtrunc 0.5 = 0%Z.
Proof.
  destruct (trunc_cut 0.5) as (_ & _ & H & _).
  destruct (Rtrunc_spec 0.5) as [A _]. destruct (A ltac:(lra)) as [[A1 A2] A3].
  assert (IZR (Rtrunc 0.5) < IZR 1)%R by lra. apply lt_IZR in H0. apply le_IZR in A1. lia.
Qed.

Lemma half_not_whole : ~ whole 0.5.
Proof.
  intros [z E]. assert (IZR 0 < IZR z < IZR 1)%R by (rewrite <- E; lra). destruct H as [H1 H2].
  apply lt_IZR in H1. apply lt_IZR in H2. lia.
Qed.

Lemma wind_lost nan_as : exists out f, apply_constants_kinds nan_as whole_forcing [("wind", 0.5%R)] = Ok out /\
  dict_get out "wind" = Some f /\ forall t, kv_at f t = Some 0%R.
Proof.
  eexists. exists (mk_kvar KInt (fun _ => cast nan_as KInt (Some 0.5%R))).
  split; [reflexivity|]. split; [reflexivity|]. intros t.
  unfold kv_at, cast. now rewrite half_trunc.
Qed.

Lemma wind_kept nan_as : exists out f, apply_constants_kinds nan_as (rev whole_forcing) [("wind", 0.5%R); ("prec", 3%R)] = Ok out /\
  dict_get out "wind" = Some f /\ (forall t, kv_at f t = Some 0.5%R) /\
  dict_get out "t_min" = dict_get whole_forcing "t_min".
Proof. eexists. eexists. repeat split; reflexivity. Qed.

Lemma peak_lost nan_as :
  convert_monthly_kinds nan_as KInt (map (fun m => (Z.of_nat m, Some 0.5%R)) (seq 0 12)) [10987%Z] [Some 7%R]
    = Ok [Some 0%R] /\
  convert_monthly_kinds nan_as KFloat (map (fun m => (Z.of_nat m, Some 0.5%R)) (seq 0 12)) [10987%Z] [Some 7%R]
    = Ok [Some 0.5%R].
Proof.
  split.
  - unfold convert_monthly_kinds. rewrite map_map. cbn [seq map fst snd cast]. rewrite half_trunc. reflexivity.
  - reflexivity.
Qed.

Lemma monthly_lost nan_as param days (pr l : list fl) i d x :
  List.length pr = List.length days -> convert_monthly_kinds nan_as KInt param days pr = Ok l ->
  nth_error days i = Some d -> month_of d <> 12%Z -> zlookup param (month_of d) = Ok (Some x) -> ~ whole x ->
  nth_error l i <> Some (Some x).
Proof.
  intros Hl H Hd N Ex W E.
  destruct (monthly_values nan_as KInt param days pr l i d x Hl H Hd N Ex) as [_ A].
  destruct (A eq_refl) as (y & (Y & _) & Hy). rewrite E in Hy. injection Hy as ->. contradiction.
Qed.
