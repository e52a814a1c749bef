(** C115: the vapor pressure of every output step. *)
From Coq Require Import ZArith Reals String List Bool Arith Lia Lra.
From Verif Require Import Model.Py Model.Fl Model.Np Model.Constants Model.Physics Model.Interp Model.Params Model.Disagg
  Spec.TimeSpec Spec.SeriesSpec Spec.ShortSpec Spec.TempSpec Spec.FrameSpec Spec.StepSpec Spec.VaporSpec
  Proofs.Base Proofs.RBase Proofs.ArrayProofs Proofs.PrecProofs Proofs.WindProofs Proofs.LongwaveProofs Proofs.StateProofs Proofs.SolarTables
  Proofs.ShortwaveProofs Proofs.UtcProofs Proofs.SvpProofs Proofs.DisaggProofs Proofs.PchipProofs Proofs.TempProofs Proofs.FrameProofs Proofs.HumidProofs Proofs.VaporProofs
  Proofs.StepProofs Model.Mtclim Model.Cell Spec.DailySpec Spec.CellSpec Spec.SolarSpec Proofs.SolarExamples Proofs.SolarProofs Proofs.PassProofs Proofs.CellProofs Proofs.CellTotal Proofs.CellOutputs.
Import ListNotations.
Local Open Scope string_scope.
Local Open Scope list_scope.
Local Open Scope R_scope.

Lemma find_interval_at x t m k : (forall j, (j <= m)%nat -> x j < x (S j)) -> (k <= m)%nat -> x k <= t < x (S k) -> find_interval x t m = k.
Proof.
  intros I K T. destruct (find_interval_spec x t m) as (P & Q & S0). set (j := find_interval x t m) in *.
  assert (Mono : forall i d, (i + d <= S m)%nat -> x i <= x (i + d)%nat).
  { intros i d. induction d as [|d IH]; intros L; [rewrite Nat.add_0_r; lra|]. specialize (IH ltac:(lia)). specialize (I (i + d)%nat ltac:(lia)).
    replace (i + S d)%nat with (S (i + d)) by lia. lra. }
  destruct (Nat.lt_trichotomy j k) as [A|[A|A]]; [exfalso|exact A|exfalso].
  - specialize (S0 (S j) ltac:(lia)). pose proof (Mono (S j) (k - S j)%nat ltac:(lia)) as M. replace (S j + (k - S j))%nat with k in M by lia. lra.
  - destruct Q as [Q|Q]; [lia|]. pose proof (Mono (S k) (j - S k)%nat ltac:(lia)) as M. replace (S k + (j - S k))%nat with j in M by lia. lra.
Qed.

(** the interpolation at a time between two abscissae *)
Lemma interp_line a v f t i : interp1d a (map (fun z => fdiv z (Some MBAR_PER_BAR)) (map Some v)) = Ok f -> increasing a ->
  (S i < List.length a)%nat -> nth i a 0 <= t <= nth (S i) a 0 ->
  f t = Some (on_line (nth i a 0) (nth i v 0) (nth (S i) a 0) (nth (S i) v 0) t / 1000).
Proof.
  unfold interp1d. intros H I Hi T. destruct (Nat.eqb_spec (List.length a) (List.length (map (fun z => fdiv z (Some MBAR_PER_BAR)) (map Some v)))) as [L|]; [|discriminate].
  destruct (Nat.leb_spec 1 (List.length a)) as [L1|]; [|discriminate]. cbn [andb] in H. apply Ok_inj in H. subst f.
  unfold fl in *. rewrite !map_length in L.
  assert (Mono : forall i d, (i + d < List.length a)%nat -> nth i a 0 <= nth (i + d) a 0).
  { intros j d. induction d as [|d IH]; intros Q; [rewrite Nat.add_0_r; lra|]. specialize (IH ltac:(lia)). specialize (I (j + d)%nat ltac:(lia)).
    replace (j + S d)%nat with (S (j + d)) by lia. lra. }
  assert (A : nth 0 a 0 <= t) by (pose proof (Mono 0%nat i ltac:(lia)) as M; cbn [Nat.add] in M; lra).
  assert (B : t <= nth (List.length a - 1) a 0).
  { pose proof (Mono (S i) (List.length a - 1 - S i)%nat ltac:(lia)) as M. replace (S i + (List.length a - 1 - S i))%nat with (List.length a - 1)%nat in M by lia. lra. }
  unfold interp1d_eval. rewrite !Rltb_not by auto. cbn [orb]. destruct (Nat.eqb_spec (List.length a) 1) as [E|E]; [lia|]. cbv zeta.
  assert (Fi : forall k, (S k < List.length a)%nat -> nth k a 0 <= t <= nth (S k) a 0 ->
     fadd (nth k (map (fun z => fdiv z (Some MBAR_PER_BAR)) (map Some v)) None)
       (fmul (fdiv (fsub (nth (S k) (map (fun z => fdiv z (Some MBAR_PER_BAR)) (map Some v)) None) (nth k (map (fun z => fdiv z (Some MBAR_PER_BAR)) (map Some v)) None))
          (Some (nth (S k) a 0 - nth k a 0))) (Some (t - nth k a 0)))
     = Some (on_line (nth k a 0) (nth k v 0) (nth (S k) a 0) (nth (S k) v 0) t / 1000)).
  { intros k K Tk. specialize (I k K). rewrite !(nth_some_map v 0) by lia. unfold fadd, fmul, fsub, fdiv, flift2. destruct (Req_EM_T _ 0); [lra|].
    f_equal. unfold on_line. field. lra. }
  destruct (Rlt_le_dec t (nth (S i) a 0)) as [Q|Q].
  - rewrite (find_interval_at (fun k => nth k a 0) t (List.length a - 2) i); [now apply Fi|intros j J; apply I; lia|lia|lra].
  - assert (Te : t = nth (S i) a 0) by lra. destruct (Nat.eq_dec (S i) (List.length a - 1)) as [E2|E2].
    + assert (K : find_interval (fun k => nth k a 0) t (List.length a - 2) = i).
      { destruct (find_interval_spec (fun k => nth k a 0) t (List.length a - 2)) as (P & _ & S0). set (j := find_interval _ t _) in *.
        destruct (Nat.eq_dec j i) as [|N]; [assumption|]. specialize (S0 (S j) ltac:(lia)). cbn beta in S0.
        pose proof (Mono (S j) (S i - S j)%nat ltac:(lia)) as M. replace (S j + (S i - S j))%nat with (S i) in M by lia.
        pose proof (I i ltac:(lia)). assert (Hj : (S j <= i)%nat) by lia.
        pose proof (Mono (S j) (i - S j)%nat ltac:(lia)) as M2. replace (S j + (i - S j))%nat with i in M2 by lia. lra. }
      rewrite K. now apply Fi.
    + rewrite (find_interval_at (fun k => nth k a 0) t (List.length a - 2) (S i)); [|intros j J; apply I; lia|lia|].
      * rewrite Fi; [|lia|pose proof (I (S i) ltac:(lia)); lra]. f_equal. unfold on_line. rewrite Te.
        pose proof (I i ltac:(lia)). pose proof (I (S i) ltac:(lia)). field. split; lra.
      * pose proof (I (S i) ltac:(lia)). lra.
Qed.

Lemma svp_saturation T : -237.3 < T -> svp1 (Some T) = Some (saturation T).
Proof. intros H. rewrite svp1_some by exact H. now rewrite saturation_eq. Qed.

Theorem vapor_values df prm tiny tb te out v : good_options prm -> good_table (dl_doy df) tiny -> numbers df "vapor_pressure" v ->
  disaggregate df prm tiny tb te = Ok out ->
  let ts := p_time_step prm in let n := (List.length (dl_doy df) * steps ts)%nat in
  exists a b,
    set_min_max_hour tiny (map (fun d => d - 1)%nat (dl_doy df)) (List.length (dl_doy df)) ts (set_lon prm (remainder360 (p_lon prm))) = Ok (a, b) /\
    List.length a = List.length (dl_doy df) /\
    (forall k i T, (k < n)%nat -> (S i < List.length a)%nat -> nth i a 0 <= IZR ts * INR k <= nth (S i) a 0 -> entry out "temp" k T -> -237.3 < T ->
       entry out "vapor_pressure" k (Rmin (saturation T) (on_line (nth i a 0) (nth i v 0) (nth (S i) a 0) (nth (S i) v 0) (IZR ts * INR k)) / 1000)) /\
    (forall k j e, IZR ts * INR k < nth 0 a 0 -> first_from n (IZR ts) (nth 0 a 0) j -> IZR ts * INR j <= last a 0 ->
       (entry out "vapor_pressure" k e <-> entry out "vapor_pressure" j e)) /\
    (forall k j e, (k < n)%nat -> last a 0 < IZR ts * INR k -> last_until n (IZR ts) (last a 0) j -> nth 0 a 0 <= IZR ts * INR j ->
       (entry out "vapor_pressure" k e <-> entry out "vapor_pressure" j e)) /\
    ((forall k, (k < n)%nat -> ~ nth 0 a 0 <= IZR ts * INR k <= last a 0) -> forall k e, ~ entry out "vapor_pressure" k e).
Proof.
  intros G T V H ts n. destruct (vapor_columns _ _ _ _ _ _ _ G T V H) as (a & b & temps & vp0 & Hx & Al & La & _ & Lt & O1 & Hv & Lv & O2).
  fold ts n in Hx, Lt, Hv, Lv. exists a, b. split; [exact Hx|]. split; [exact La|].
  pose proof (alternate_incr _ _ Al) as I. pose proof (go_ts _ G) as Lg. assert (Tp : 0 < IZR ts) by (apply IZR_lt; apply Lg).
  assert (Ent : forall k e, entry out "vapor_pressure" k e <-> nth_error (fill_gaps vp0) k = Some (Some e)).
  { intros k e. split; [intros (w & W & N)|intros N; exists (fill_gaps vp0); auto].
    assert (w = fill_gaps vp0) by (apply Some_inj; unfold fl in *; congruence). subst w. exact N. }
  assert (Step : forall k, (k < n)%nat -> exists x, nth_error vp0 k = Some x /\
     (nth 0 a 0 <= IZR ts * INR k <= last a 0 -> exists u, x = Some u) /\ (IZR ts * INR k < nth 0 a 0 \/ last a 0 < IZR ts * INR k -> x = None)).
  { intros k K. destruct (vp_step v (map Some temps) a n ts vp0 k Hv I K) as (x & E & P & Q); [now rewrite map_length|]. exists x. split; [exact E|].
    split; [|exact Q]. intros Z. destruct (P Z) as (u & _ & ->). destruct (flt _ _) eqn:F; [|eauto].
    destruct (fdiv _ _) as [z|]; [eauto|discriminate F]. }
  split; [|split; [|split]].
  - intros k i Tk K Hi B (tv & Ht & Nt) H0. assert (tv = map Some temps) by (apply Some_inj; unfold fl in *; congruence). subst tv.
    rewrite Ent. apply fill_keep.
    unfold vapor_pressure in Hv. destruct (interp1d a _) as [f|] eqn:E; [|discriminate]. cbn [bind] in Hv.
    rewrite zipw_ok in Hv by (unfold svp; rewrite !map_length, seq_length; exact Lt). apply Ok_inj in Hv. subst vp0.
    rewrite (LongwaveProofs.map2_nth _ _ _ k (fdiv (svp1 (Some Tk)) (Some MBAR_PER_BAR)) (f (IZR ts * INR k))).
    + rewrite (interp_line a v f _ i E I Hi B), svp_saturation by exact H0. rewrite mbar. unfold fdiv. destruct (Req_EM_T 1000 0); [lra|].
      set (l := on_line _ _ _ _ _). cbn [flt]. unfold Rmin. f_equal. destruct (Rltb (saturation Tk / 1000) (l / 1000)) eqn:C.
      * apply Rltb_true in C. destruct (Rle_dec (saturation Tk) l); [reflexivity|lra].
      * apply Rltb_false in C. destruct (Rle_dec (saturation Tk) l); [|reflexivity]. f_equal. f_equal. lra.
    + unfold svp. rewrite nth_error_map, nth_error_map. unfold fl in *. rewrite Nt. reflexivity.
    + rewrite nth_error_map, nth_error_seq0 by exact K. reflexivity.
  - intros k j e Hk (Jn & Jt & Jf) Jl. rewrite !Ent. destruct (Step j Jn) as (x & Ex & P & _). destruct (P (conj Jt Jl)) as (u & ->).
    assert (Kj : (k < j)%nat).
    { destruct (Nat.lt_ge_cases k j) as [|Q]; [assumption|]. apply le_INR in Q. nra. }
    rewrite (fill_backward vp0 k j u Ex ltac:(lia)), (fill_keep _ _ _ Ex); [reflexivity|].
    intros i Hi. destruct (Step i ltac:(lia)) as (y & Ey & _ & Q). rewrite Ey. f_equal. apply Q. left. now apply Jf.
  - intros k j e Kn Hk (Jn & Jt & Jf) Jl. rewrite !Ent. destruct (Step j Jn) as (x & Ex & P & _). destruct (P (conj Jl Jt)) as (u & ->).
    assert (Kj : (j < k)%nat).
    { destruct (Nat.lt_ge_cases j k) as [|Q]; [assumption|]. apply le_INR in Q. nra. }
    rewrite (fill_forward vp0 k j u Ex), (fill_keep _ _ _ Ex); [reflexivity|unfold fl in *; lia|].
    intros i Hi. destruct (Step i ltac:(lia)) as (y & Ey & _ & Q). rewrite Ey. f_equal. apply Q. right. apply Jf. lia.
  - intros No k e. rewrite Ent. rewrite fill_empty.
    + intros N. assert (K : (k < n)%nat) by (rewrite <- Lv; apply nth_error_Some; unfold fl in *; congruence). destruct (Step k K) as (y & Ey & _ & Q).
      assert (y = None) by (apply Q; specialize (No k K); lra). subst. unfold fl in *. congruence.
    + intros x N. apply In_nth_error in N as [i N]. assert (K : (i < n)%nat) by (rewrite <- Lv; apply nth_error_Some; unfold fl in *; congruence).
      destruct (Step i K) as (y & Ey & _ & Q). assert (y = None) by (apply Q; specialize (No i K); lra). subst. unfold fl in *. congruence.
Qed.

(** ** two days at 0 C of rising vapor pressure *)
Definition moist_frame : daily :=
  mkdaily [("shortwave", [Some 100; Some 100]); ("daylength", [Some 43200; Some 43200]); ("t_min", [Some 0; Some 0]); ("t_max", [Some 0; Some 0]);
           ("vapor_pressure", [Some 400; Some 800]); ("tskc", [Some 0.5; Some 0.5]); ("prec", [Some 0; Some 0])] [1; 2]%nat.

Lemma moist_good : good_frame moist_frame (demo_step 60).
Proof.
  constructor.
  - discriminate.
  - eexists. split; reflexivity.
  - eexists. split; reflexivity.
  - exists [0; 0]. split; reflexivity.
  - exists [0; 0]. split; reflexivity.
  - eexists. split; reflexivity.
  - eexists. split; reflexivity.
  - eexists. split; reflexivity.
  - intros v H. discriminate H.
  - intros v H. discriminate H.
  - intros H. destruct (demo_uniform 60 H).
Qed.

Lemma dark_positions doy ts prm a b d : p_utc_offset prm = false -> days_valid doy -> (d < List.length doy)%nat ->
  set_min_max_hour dark_year (map (fun d => d - 1)%nat doy) (List.length doy) ts prm = Ok (a, b) -> nth d a 0 = 240 + 1440 * INR d - IZR ts.
Proof.
  intros U D L E. assert (Q : exists rows, mapM (getitem dark_year) (map (fun d => d - 1)%nat doy) = Ok rows /\ forall r, In r rows -> r = repeat 0 RAD_STEPS).
  { destruct (rows_found dark_year doy) as (rows & M & _); [apply (dark_good doy D)|apply (dark_good doy D)|]. exists rows. split; auto.
    apply mapM_inv in M. clear -M. induction M as [|y r ys rows H _ IH]; [intros ? []|]. intros x [<-|Hx]; auto.
    unfold getitem in H. destruct (nth_error dark_year y) eqn:Z; [|discriminate]. apply Ok_inj in H. subst. apply nth_error_In in Z. now apply repeat_spec in Z. }
  destruct Q as (rows & M & Q). destruct (times_of dark_year _ ts prm rows M) as (a' & b' & E' & La & _ & T).
  rewrite map_length in E', La. rewrite E in E'. apply Ok_inj in E'. injection E' as <- <-.
  assert (Lr : List.length rows = List.length doy) by (apply mapM_inv, Forall2_len in M; now rewrite map_length in M).
  destruct (nth_error rows d) as [r|] eqn:Er; [|apply nth_error_None in Er; lia]. destruct (T d r Er) as [-> _].
  rewrite (Q r) by (eapply nth_error_In; eauto). rewrite dark_rise. unfold shift_of. rewrite U. lra.
Qed.

Lemma map_some_inj (l l' : list R) : map Some l = map Some l' -> l = l'.
Proof. revert l'. induction l as [|z l IH]; intros [|z' l']; cbn; intros Q; try discriminate; auto. injection Q as -> Q. f_equal. auto. Qed.

Lemma saturation_0 : saturation 0 = 610.78.
Proof. unfold saturation. destruct (Rlt_dec 0 0); [lra|]. replace (17.269 * 0 / (237.3 + 0)) with 0 by (unfold Rdiv; ring). rewrite exp_0. lra. Qed.

Theorem moist_values : exists out, disaggregate moist_frame (demo_step 60) dark_year None None = Ok out /\
  entry out "vapor_pressure" 0 (400 / 1000) /\ entry out "vapor_pressure" 3 (400 / 1000) /\ entry out "vapor_pressure" 15 (600 / 1000) /\
  entry out "vapor_pressure" 27 (610.78 / 1000) /\ entry out "vapor_pressure" 47 (610.78 / 1000).
Proof.
  pose proof (demo_good 60 legal_60) as G. pose proof (dark_good _ days_12) as D.
  destruct (disaggregate_total moist_frame (demo_step 60) dark_year None None moist_good G D) as [out H]. cbn [pair_list option_map] in H.
  exists out. split; [exact H|]. assert (V : numbers moist_frame "vapor_pressure" [400; 800]) by (split; reflexivity).
  assert (N48 : (List.length (dl_doy moist_frame) * steps (p_time_step (demo_step 60)) = 48)%nat) by (vm_compute; reflexivity).
  destruct (vapor_columns moist_frame _ _ _ _ _ _ G D V H) as (a & b & temps & vp0 & Hx & Al & La & (tmin & tmax & C1 & C2 & Ht) & Lt & O1 & _).
  destruct (vapor_values moist_frame _ _ _ _ _ _ G D V H) as (a' & b' & Hx' & _ & Bet & Bef & Aft & _).
  assert (Eab : (a', b') = (a, b)) by (apply Ok_inj; rewrite <- Hx, <- Hx'; reflexivity). injection Eab as -> ->.
  cbv zeta in *. rewrite N48 in *.
  change (dl_doy moist_frame) with [1; 2]%nat in *. cbn [demo_step p_time_step] in *.
  assert (P : forall d, (d < 2)%nat -> nth d a 0 = 240 + 1440 * INR d - 60).
  { intros d L. apply (dark_positions [1; 2]%nat 60 (da_prm (demo_step 60)) a b); [reflexivity|exact days_12|exact L|exact Hx]. }
  pose proof (P 0%nat ltac:(lia)) as P0. pose proof (P 1%nat ltac:(lia)) as P1. cbn [INR] in P0, P1.
  cbn [List.length] in La. destruct a as [|a0 [|a1 [|]]]; try discriminate La. cbn [nth last List.length] in *.
  pose proof (f_equal (fun o => match o with Some l => l | None => [] end) C1) as C1'. pose proof (f_equal (fun o => match o with Some l => l | None => [] end) C2) as C2'.
  apply (map_some_inj [0; 0]) in C1', C2'. subst tmin tmax.
  destruct (temp_ok [a0; a1] b [0; 0] [0; 0] 48 60 None None Al) as (f & _ & Et & _ & Su); [discriminate|reflexivity|reflexivity|].
  cbn [pair_list option_map] in Et. rewrite Ht in Et. apply Ok_inj in Et.
  assert (Z : forall k, (k < 48)%nat -> entry out "temp" k 0).
  { intros k K. exists (map Some temps). split; [exact O1|]. subst temps. rewrite nth_error_map, nth_error_map, nth_error_seq0 by exact K. cbn [option_map]. do 2 f_equal.
    assert (Sr : 0 <= f (60 * INR k) <= 0); [|lra].
    refine (surrounded_range [a0; a1] b [0; 0] [0; 0] (day_before None [0; 0] [0; 0]) (day_after None [0; 0] [0; 0]) (60 * INR k) _ 0 0 eq_refl eq_refl _ (Su (60 * INR k) _)).
    - cbn. intros x I. repeat destruct I as [<-|I]; try lra.
    - assert (Cv : nth 0 (ext_times [a0; a1]) 0 <= 60 * INR k <= nth (List.length [1; 2]%nat + 1) (ext_times b) 0).
      { refine (covered_of dark_year [1; 2]%nat 60 (da_prm (demo_step 60)) _ _ _ [a0; a1] b _ legal_60 (or_introl eq_refl) Hx k _).
        - apply D.
        - apply D.
        - apply G.
        - discriminate.
        - exact (eq_ind_r (fun n => (k < n)%nat) K N48). }
      exact Cv. }
  assert (K3 : INR 3 = 3) by (simpl; lra). assert (K15 : INR 15 = 15) by (simpl; lra).
  assert (K27 : INR 27 = 27) by (simpl; lra). assert (K47 : INR 47 = 47) by (simpl; lra).
  assert (E3 : entry out "vapor_pressure" 3 (400 / 1000)).
  { pose proof (Bet 3%nat 0%nat 0 ltac:(lia) ltac:(lia) ltac:(rewrite K3; lra) (Z 3%nat ltac:(lia)) ltac:(lra)) as Q. rewrite saturation_0 in Q.
    replace (on_line a0 400 a1 800 (60 * INR 3)) with 400 in Q by (unfold on_line; rewrite K3, P0, P1; field).
    rewrite Rmin_right in Q by lra. exact Q. }
  assert (E27 : entry out "vapor_pressure" 27 (610.78 / 1000)).
  { pose proof (Bet 27%nat 0%nat 0 ltac:(lia) ltac:(lia) ltac:(rewrite K27; lra) (Z 27%nat ltac:(lia)) ltac:(lra)) as Q. rewrite saturation_0 in Q.
    replace (on_line a0 400 a1 800 (60 * INR 27)) with 800 in Q by (unfold on_line; rewrite K27, P0, P1; field).
    rewrite Rmin_left in Q by lra. exact Q. }
  split; [|split; [exact E3|split; [|split; [exact E27|]]]].
  - apply (Bef 0%nat 3%nat); [cbn [INR]; lra| |rewrite K3; lra|exact E3]. split; [lia|]. split; [rewrite K3; lra|].
    intros i I. assert (INR i <= 2) by (apply (le_INR i 2); lia). lra.
  - pose proof (Bet 15%nat 0%nat 0 ltac:(lia) ltac:(lia) ltac:(rewrite K15; lra) (Z 15%nat ltac:(lia)) ltac:(lra)) as Q. rewrite saturation_0 in Q.
    replace (on_line a0 400 a1 800 (60 * INR 15)) with 600 in Q by (unfold on_line; rewrite K15, P0, P1; field).
    rewrite Rmin_right in Q by lra. exact Q.
  - apply (Aft 47%nat 27%nat); [lia|rewrite K47; lra| |rewrite K27; lra|exact E27]. split; [lia|]. split; [rewrite K27; lra|].
    intros i I. assert (INR 28 <= INR i) by (apply le_INR; lia). assert (INR 28 = 28) by (simpl; lra). lra.
Qed.

(** ** a whole cell with supplied vapor pressure *)
Theorem cell_vapor fuel prm c out prm' v : p_method prm = "passthrough" -> good_options prm -> (p_time_step prm < 1440)%Z ->
  -90 <= cd_lat c <= 90 -> days_valid (dl_doy (cd_daily c)) -> numbers (cd_daily c) "vapor_pressure" v ->
  run_cell fuel prm c = Some (Ok out, prm') ->
  let ts := p_time_step prm in let n := (List.length (dl_doy (cd_daily c)) * steps ts)%nat in let place := set_lon prm (remainder360 (cd_lon c)) in
  exists a : list R,
    List.length a = List.length (dl_doy (cd_daily c)) /\
    (forall d, (d < List.length a)%nat -> exists row, usable row /\ nth d a 0 = rise_time row - shift_of place + 1440 * INR d - IZR ts) /\
    (forall k i T, (k < n)%nat -> (S i < List.length a)%nat -> nth i a 0 <= IZR ts * INR k <= nth (S i) a 0 -> entry out "temp" k T -> -237.3 < T ->
       entry out "vapor_pressure" k (Rmin (saturation T) (on_line (nth i a 0) (nth i v 0) (nth (S i) a 0) (nth (S i) v 0) (IZR ts * INR k)) / 1000)) /\
    (forall k j e, IZR ts * INR k < nth 0 a 0 -> first_from n (IZR ts) (nth 0 a 0) j -> IZR ts * INR j <= last a 0 ->
       (entry out "vapor_pressure" k e <-> entry out "vapor_pressure" j e)) /\
    (forall k j e, (k < n)%nat -> last a 0 < IZR ts * INR k -> last_until n (IZR ts) (last a 0) j -> nth 0 a 0 <= IZR ts * INR j ->
       (entry out "vapor_pressure" k e <-> entry out "vapor_pressure" j e)).
Proof.
  intros Me G Sub Hl Vd [V Lv] H ts n place.
  destruct (run_cell_inv _ _ _ _ _ H) as (g & dl & po & tt_ & df & Sg & _ & _ & _ & M & Hs & _). destruct (Hs Sub) as (s1 & s2 & _ & _ & X). clear Hs.
  destruct (method_keeps _ _ _ _ M) as (Doy & _). change (dl_doy df = dl_doy (cd_daily c)) in Doy.
  assert (V' : numbers df "vapor_pressure" v).
  { unfold run_method in M. change (p_method (located prm c)) with (p_method prm) in M. rewrite Me in M. cbn [String.eqb Ascii.eqb Bool.eqb] in M.
    assert (E : passthrough_run (with_sun (cd_daily c) dl po tt_) (located prm c) = Ok df) by congruence.
    destruct (passthrough_spec _ _ _ E) as (_ & (_ & K) & _). split; [|rewrite Doy; exact Lv]. apply K. rewrite sun_get. exact V. }
  assert (T : good_table (dl_doy df) (tiny_rad_fract g)).
  { rewrite Doy. destruct (geom_rows _ _ _ _ Hl Sg) as (L1 & L2 & L3). constructor; auto. apply days_in_table; auto. }
  assert (G' : good_options (located prm c)) by (destruct G; constructor; assumption).
  destruct (vapor_values df (located prm c) _ _ _ _ _ G' T V' X) as (a & b & E & La & Bet & Bef & Aft & _).
  change (p_time_step (located prm c)) with ts in *. rewrite Doy in *. fold n in Bet, Bef, Aft.
  exists a. split; [exact La|]. split; [|auto].
  destruct (extreme_times _ _ _ _ (dl_doy (cd_daily c)) ts place Hl Sg Vd (go_frac _ G)) as (a' & b' & E' & _ & _ & Pos).
  assert (Eab : (a', b') = (a, b)) by (apply Ok_inj; rewrite <- E, <- E'; reflexivity). injection Eab as -> ->.
  intros d D. destruct (Pos d ltac:(lia)) as (row & Ur & P & _). exists row. auto.
Qed.

Definition moist_cell : cell_data :=
  mk_cell_data 0 0 0
    (mkdaily [("t_min", map Some [10; 12]); ("t_max", map Some [20; 25]); ("prec", map Some [0; 5]);
              ("dtr", map Some [10; 13]); ("smoothed_dtr", map Some [11; 12]); ("seasonal_prec", map Some [400; 410]);
              ("shortwave", map Some [200; 250]); ("vapor_pressure", map Some [900; 1100])] [1; 2]%nat)
    (map Some [9; 9]) (map Some [21; 22]).

Theorem moist_cell_runs fuel : good_options (demo_method "passthrough" 60) /\ numbers (cd_daily moist_cell) "vapor_pressure" [900; 1100] /\
  exists out prm', run_cell fuel (demo_method "passthrough" 60) moist_cell = Some (Ok out, prm').
Proof.
  split; [apply demo_options, legal_60|]. split; [split; reflexivity|].
  destruct (equator_ok 0 0.0065) as [g G].
  refine (pass_cell_total fuel (demo_method "passthrough" 60) moist_cell g 9 22 eq_refl (demo_options _ _ legal_60) _ _ _ G eq_refl eq_refl).
  - constructor.
    + discriminate.
    + intros k [<-|[<-|[]]]; lia.
    + exists [10; 12]. split; reflexivity.
    + exists [20; 25]. split; reflexivity.
    + intros k [<-|[<-|[<-|[<-|[]]]]]; eexists; split; reflexivity.
    + intros k I v V. cbn [In] in I. destruct I as [<-|[<-|[<-|[<-|[<-|[<-|[<-|[<-|[]]]]]]]]]; try discriminate V. cbn in V. apply Some_inj in V. subst v. reflexivity.
    + intros I. exfalso. cbn in I. destruct I as [I|[I|[]]]; discriminate I.
  - eexists. split; reflexivity.
  - cbn [cd_lat moist_cell]. lra.
Qed.
