(** C89-C92 *)
From Coq Require Import ZArith QArith String Ascii List Bool Arith Lia.
From Verif Require Import Model.Py Model.Calendar Model.Datetime Model.Output Model.Header
  Spec.HeaderSpec Proofs.Base Proofs.DateProofs Proofs.YearProofs Proofs.ConfigProofs.
Import ListNotations.
Local Open Scope string_scope.
Local Open Scope list_scope.

(** ** Calendars *)
Section Days.
  Local Open Scope Z_scope.

  (** day within the year that begins in March *)
  Definition noleap_b (s : Z) : bool :=
    let '(m, d) := md_of s in
    if (m =? 2) && (d =? 29) then s =? 365
    else (noleap_cum m + d - 1 + (if m <=? 2 then 365 else 0) =? 59 + s) && (s <? 365).
  Lemma noleap_all : all_below 366 noleap_b = true.
  Proof. vm_compute. reflexivity. Qed.

  Definition num360 (s : Z) : Z :=
    let '(m, d) := md_of s in 30 * (m - 1) + d - 1 + (if m <=? 2 then 360 else 0).
  Definition d360_b (s : Z) : bool :=
    let '(m, d) := md_of s in (30 <? d) || ((60 <=? num360 s) && (num360 s <? 60 + 360)).
  Lemma d360_all : all_below 366 d360_b = true.
  Proof. vm_compute. reflexivity. Qed.
  Definition mono360_b (s : Z) : bool :=
    all_below 366 (fun s' => (s' <=? s) || (30 <? snd (md_of s)) || (30 <? snd (md_of s')) || (num360 s <? num360 s')).
  Lemma mono360_all : all_below 366 mono360_b = true.
  Proof. vm_compute. reflexivity. Qed.

  (** March year and day within it of a day number *)
  Definition mar_year (z : Z) : Z := yoe_of ((z + 719468) mod 146097) + (z + 719468) / 146097 * 400.
  Definition mar_day (z : Z) : Z := (z + 719468) mod 146097 - year_start (yoe_of ((z + 719468) mod 146097)).

  Lemma mar_civil z : let '(m, d) := md_of (mar_day z) in
    civil_from_days z = mkcivil (if m <=? 2 then mar_year z + 1 else mar_year z) m d /\ 0 <= mar_day z <= 365.
  Proof.
    pose proof (civil_eq z) as E. cbv zeta in E. unfold era_day in E.
    pose proof (Z.mod_pos_bound (z + 719468) 146097 ltac:(lia)) as B.
    destruct (yoe_spec _ B) as [Y D]. fold (mar_day z) in E, D. destruct (md_of (mar_day z)) as [m d]. split; auto.
  Qed.

  Lemma mar_order z z' : z < z' -> mar_year z < mar_year z' \/ mar_year z = mar_year z' /\ mar_day z < mar_day z'.
  Proof.
    intros L. unfold mar_year, mar_day.
    pose proof (Z.mod_pos_bound (z + 719468) 146097 ltac:(lia)) as B.
    pose proof (Z.mod_pos_bound (z' + 719468) 146097 ltac:(lia)) as B'.
    pose proof (Z.div_mod (z + 719468) 146097 ltac:(lia)) as D.
    pose proof (Z.div_mod (z' + 719468) 146097 ltac:(lia)) as D'.
    set (e := (z + 719468) / 146097) in *. set (e' := (z' + 719468) / 146097) in *.
    set (q := (z + 719468) mod 146097) in *. set (q' := (z' + 719468) mod 146097) in *.
    destruct (yoe_spec _ B) as [Y _]. destruct (yoe_spec _ B') as [Y' _].
    assert (C : e < e' \/ e = e' /\ q < q') by nia. destruct C as [C|[C Q]]; [left; nia|].
    rewrite C. pose proof (yoe_mono q q' ltac:(lia)). destruct (Z.eq_dec (yoe_of q) (yoe_of q')) as [E|N]; [right|left; lia].
    rewrite E. lia.
  Qed.

  Lemma fixed_num k z : match fixed_day_num k (civil_from_days z) with
    | Ok n => 0 <= mar_day z <= 365 /\ match k with
        | NoLeap => mar_day z < 365 /\ n = 365 * (mar_year z - 1) + 59 + mar_day z
        | Days360 => snd (md_of (mar_day z)) <= 30 /\ n = 360 * (mar_year z - 1) + num360 (mar_day z) end
    | Err e => e = ValueError end.
  Proof.
    pose proof (mar_civil z) as C. destruct (md_of (mar_day z)) as [m d] eqn:MD. destruct C as [-> R].
    destruct k; cbn [fixed_day_num c_month c_day c_year].
    - pose proof (all_below_spec _ _ noleap_all (mar_day z) ltac:(lia)) as K. unfold noleap_b in K. rewrite MD in K.
      destruct ((m =? 2) && (d =? 29)); [reflexivity|]. apply andb_true_iff in K as [K1 K2].
      apply Z.eqb_eq in K1. apply Z.ltb_lt in K2. split; auto. split; auto. destruct (m <=? 2); lia.
    - unfold num360. rewrite MD. cbn [snd]. destruct (Z.ltb_spec 30 d); [reflexivity|]. split; auto. split; auto.
      destruct (m <=? 2); lia.
  Qed.

  Lemma fixed_mono k z z' n n' : z < z' -> fixed_day_num k (civil_from_days z) = Ok n ->
    fixed_day_num k (civil_from_days z') = Ok n' -> n < n'.
  Proof.
    intros L H H'. pose proof (fixed_num k z) as A. pose proof (fixed_num k z') as A'. rewrite H in A. rewrite H' in A'.
    destruct A as [R A]. destruct A' as [R' A']. pose proof (mar_order _ _ L) as O. destruct k.
    - destruct A as [A1 A2]. destruct A' as [A1' A2']. nia.
    - destruct A as [A1 A2]. destruct A' as [A1' A2'].
      pose proof (all_below_spec _ _ d360_all (mar_day z) ltac:(lia)) as K.
      pose proof (all_below_spec _ _ d360_all (mar_day z') ltac:(lia)) as K'.
      pose proof (all_below_spec _ _ mono360_all (mar_day z) ltac:(lia)) as M. unfold mono360_b in M.
      pose proof (all_below_spec _ _ M (mar_day z') ltac:(lia)) as M'. cbv beta in M'. clear M.
      unfold d360_b in K, K'. destruct (md_of (mar_day z)) as [m d]. destruct (md_of (mar_day z')) as [m' d']. cbn [snd] in *.
      apply orb_true_iff in K as [K|K]; [lia|]. apply orb_true_iff in K' as [K'|K']; [lia|].
      apply andb_true_iff in K as [K K2]. apply andb_true_iff in K' as [K' K2'].
      destruct O as [O|[O O']]; [nia|]. rewrite O in A2.
      repeat (apply orb_true_iff in M'; destruct M' as [M'|M']); try lia.
  Qed.
End Days.

Section Stamps.
  Local Open Scope Z_scope.

  Lemma day_lt t t' : t < t' -> t / 1440 < t' / 1440 \/ t / 1440 = t' / 1440 /\ t mod 1440 < t' mod 1440.
  Proof. intros H. Z.to_euclidean_division_equations. lia. Qed.

  Lemma encode_ok c t n : date2num c t = Ok n -> denotes c n (civil_from_days (t / 1440)) (t mod 1440).
  Proof.
    intros H. split; [apply Z.mod_pos_bound; lia|]. destruct c as [|k]; cbn [date2num day_number] in *.
    - exists 10957, (t / 1440). split; [reflexivity|]. split; [f_equal; apply (civil_spec (t / 1440))|].
      injection H as <-. unfold midnight, origin_day, minutes_per_day.
      pose proof (Z.div_mod t 1440 ltac:(lia)). lia.
    - change (civil_from_days origin_day) with (mkcivil 2000 1 1) in H.
      destruct (fixed_day_num k (mkcivil 2000 1 1)) as [o|]; [|discriminate]. cbn [bind] in H.
      unfold day_of, minutes_per_day in H.
      destruct (fixed_day_num k (civil_from_days (t / 1440))) as [d|]; [|discriminate]. cbn [bind] in H.
      injection H as <-. exists o, d. auto.
  Qed.

  Lemma encode_order c t t' n n' : date2num c t = Ok n -> date2num c t' = Ok n' -> t < t' -> n < n'.
  Proof.
    intros H H' L. apply encode_ok in H as (M & a & b & A & B & ->). apply encode_ok in H' as (M' & a' & b' & A' & B' & ->).
    rewrite A in A'. injection A' as <-. destruct c as [|k]; cbn [day_number] in B, B'.
    - rewrite (proj1 (civil_spec _)) in B. rewrite (proj1 (civil_spec _)) in B'. injection B as <-. injection B' as <-.
      pose proof (Z.div_mod t 1440 ltac:(lia)). pose proof (Z.div_mod t' 1440 ltac:(lia)). lia.
    - destruct (day_lt _ _ L) as [D|[D E]].
      + pose proof (fixed_mono _ _ _ _ _ D B B'). lia.
      + rewrite D in B. rewrite B in B'. injection B' as <-. lia.
  Qed.

  Lemma mar_bounds z : -106753 <= z <= 106752 -> 1676 <= mar_year z <= 2262.
  Proof.
    intros H. pose proof (mar_order z 106753 ltac:(lia)) as A. pose proof (mar_order (-106754) z ltac:(lia)) as B.
    change (mar_year 106753) with 2262 in A. change (mar_year (-106754)) with 1677 in B. lia.
  Qed.

  Lemma encode_int32 c t n : pandas_stamp t -> date2num c t = Ok n -> int32 n.
  Proof.
    unfold pandas_stamp, int32. intros P H. destruct c as [|k]; cbn [date2num] in H.
    - injection H as <-. unfold midnight, origin_day, minutes_per_day. lia.
    - unfold day_of, minutes_per_day in H. pose proof (fixed_num k (t / 1440)) as F.
      assert (Z1 : -106753 <= t / 1440 <= 106752) by (Z.to_euclidean_division_equations; lia).
      pose proof (mar_bounds _ Z1) as Y. pose proof (Z.mod_pos_bound t 1440 ltac:(lia)) as M.
      change (civil_from_days origin_day) with (mkcivil 2000 1 1) in H.
      destruct (fixed_day_num k (civil_from_days (t / 1440))) as [d|]; [|destruct k; discriminate].
      destruct F as [R F]. destruct k; cbn [fixed_day_num c_month c_day c_year] in H; cbv [bind andb Z.eqb Z.ltb] in H.
      + injection H as <-. destruct F as [F ->]. change (noleap_cum 1) with 0. lia.
      + injection H as <-. destruct F as [F ->].
        pose proof (all_below_spec _ _ d360_all (mar_day (t / 1440)) ltac:(lia)) as K. unfold d360_b in K.
        destruct (md_of _) as [m dd]. cbn [snd] in F. apply orb_true_iff in K as [K|K]; [lia|].
        apply andb_true_iff in K as [K1 K2]. lia.
  Qed.

  Lemma encode_total c t : (exists n, date2num c t = Ok n) <-> (exists n, day_number c (civil_from_days (t / 1440)) = Ok n).
  Proof.
    destruct c as [|k]; cbn [date2num day_number]; [split; eauto|].
    change (civil_from_days origin_day) with (mkcivil 2000 1 1). unfold day_of, minutes_per_day.
    destruct k; cbn [fixed_day_num c_month c_day c_year]; cbv [bind andb Z.eqb Z.ltb Z.compare Pos.eqb Pos.compare Pos.compare_cont];
      destruct (_ : bool); split; intros [n H]; eauto; discriminate.
  Qed.

  Lemma encode_none t : (date2num (Fixed NoLeap) t = Err ValueError <->
      c_month (civil_from_days (t / 1440)) = 2 /\ c_day (civil_from_days (t / 1440)) = 29) /\
    (date2num (Fixed Days360) t = Err ValueError <-> c_day (civil_from_days (t / 1440)) = 31).
  Proof.
    pose proof (civil_spec (t / 1440)) as (_ & _ & D). cbn [date2num].
    change (civil_from_days origin_day) with (mkcivil 2000 1 1). unfold day_of, minutes_per_day.
    destruct (civil_from_days (t / 1440)) as [y m d]. cbn [c_month c_day] in *. split.
    - cbn [fixed_day_num c_month c_day c_year andb Z.eqb bind].
      destruct (Z.eqb_spec m 2), (Z.eqb_spec d 29); cbn [andb bind]; split; intros H; try discriminate; try (split; assumption); try reflexivity; destruct H; contradiction.
    - cbn [fixed_day_num c_month c_day c_year bind]. change (30 <? 1) with false. cbv iota. cbn [bind].
      destruct (Z.ltb_spec 30 d); cbn [bind]; split; intros X; try discriminate; try reflexivity; lia.
  Qed.
End Stamps.

(** ** Dictionaries *)
Lemma keys_set {V} (d : dict V) k v : keys (dict_set d k v) = if dict_mem d k then keys d else keys d ++ [k].
Proof.
  unfold dict_mem. induction d as [|[a x] d IH]; [reflexivity|]. cbn [dict_set dict_get].
  destruct (String.eqb_spec k a) as [->|N]; cbn [keys map fst]; [reflexivity|]. fold (keys d). fold (keys (dict_set d k v)).
  rewrite IH. destruct (dict_get d k); reflexivity.
Qed.
Lemma mem_keys {V} (d : dict V) k : dict_mem d k = true <-> In k (keys d).
Proof.
  unfold dict_mem. destruct (dict_get d k) as [v|] eqn:E; split; intros H; auto; try discriminate.
  - apply dict_get_In in E. change k with (fst (k, v)). now apply in_map.
  - apply dict_get_None in E. contradiction.
Qed.
Lemma mem_false {V} (d : dict V) k : dict_mem d k = false <-> ~ In k (keys d).
Proof. rewrite <- mem_keys. destruct (dict_mem d k); split; intros H; try congruence; try (now intros); exfalso; now apply H. Qed.
Lemma nodup_snoc {A} (l : list A) x : NoDup (l ++ [x]) <-> NoDup l /\ ~ In x l.
Proof.
  split.
  - intros H. apply NoDup_remove in H. now rewrite app_nil_r in H.
  - intros [H N]. apply (NoDup_Add (a := x) (l := l)); auto. rewrite <- (app_nil_r l) at 1. apply Add_app.
Qed.
Lemma nodup_left {A} (a b : list A) : NoDup (a ++ b) -> NoDup a.
Proof.
  induction a as [|x a IH]; intros H; [constructor|]. inversion H as [|y z N M]; subst. constructor; auto.
  intros I. apply N. apply in_app_iff. auto.
Qed.
Lemma nodup_right {A} (a b : list A) : NoDup (a ++ b) -> NoDup b.
Proof. induction a as [|x a IH]; intros H; auto. inversion H; auto. Qed.
Lemma nodup_set {V} (d : dict V) k v : NoDup (keys d) -> NoDup (keys (dict_set d k v)).
Proof.
  intros H. rewrite keys_set. destruct (dict_mem d k) eqn:E; auto. apply nodup_snoc. split; auto. now apply mem_false.
Qed.
Lemma nodup_update {V} (e : dict V) : forall d, NoDup (keys d) -> NoDup (keys (dict_update d e)).
Proof.
  unfold dict_update. induction e as [|[k v] e IH]; intros d H; cbn [fold_left]; auto. apply IH. now apply nodup_set.
Qed.
Lemma in_set {V} (d : dict V) k v x : In x (keys (dict_set d k v)) <-> x = k \/ In x (keys d).
Proof.
  rewrite keys_set. destruct (dict_mem d k) eqn:E.
  - apply mem_keys in E. split; auto. intros [->|H]; auto.
  - rewrite in_app_iff. cbn. intuition.
Qed.
Lemma in_update {V} (e : dict V) : forall d x, In x (keys d) -> In x (keys (dict_update d e)).
Proof.
  unfold dict_update. induction e as [|[k v] e IH]; intros d x H; cbn [fold_left]; auto. apply IH. apply in_set. auto.
Qed.
Lemma get_app {V} (a b : dict V) k : dict_get (a ++ b) k = match dict_get a k with Some v => Some v | None => dict_get b k end.
Proof. induction a as [|[x v] a IH]; cbn [app dict_get]; auto. destruct (String.eqb k x); auto. Qed.

Lemma str_in_iff s l : str_in s l = true <-> In s l.
Proof.
  unfold str_in. rewrite existsb_exists. split.
  - intros (x & I & E). apply String.eqb_eq in E. now subst.
  - intros I. exists s. split; auto. apply String.eqb_refl.
Qed.

(** ** Dimensions and variables *)
Lemma create_dims l : forall f f', foldM create_dimension l f = Ok f' -> NoDup (keys (nc_dims f)) ->
  NoDup (keys (nc_dims f) ++ map fst l) /\ f' = mk_ncfile (nc_dims f ++ l) (nc_vars f) (nc_attrs f).
Proof.
  induction l as [|d l IH]; intros f f' H N; cbn [foldM map] in *.
  - injection H as <-. rewrite !app_nil_r. destruct f; auto.
  - unfold create_dimension at 1 in H. destruct (dict_mem (nc_dims f) (fst d)) eqn:E; [discriminate|]. cbn [bind] in H.
    apply mem_false in E. apply IH in H as [K ->]; cbn [nc_dims nc_vars nc_attrs] in *.
    + unfold keys in *. rewrite map_app, <- app_assoc in K. cbn [map app] in K. split; auto. now rewrite <- app_assoc.
    + unfold keys in *. rewrite map_app. cbn [map]. apply nodup_snoc. auto.
Qed.

Lemma create_dims_ok l : forall f, NoDup (keys (nc_dims f) ++ map fst l) ->
  foldM create_dimension l f = Ok (mk_ncfile (nc_dims f ++ l) (nc_vars f) (nc_attrs f)).
Proof.
  induction l as [|d l IH]; intros f N; cbn [foldM map] in *.
  - rewrite app_nil_r. now destruct f.
  - unfold create_dimension at 1. replace (dict_mem (nc_dims f) (fst d)) with false.
    2:{ symmetry. apply mem_false. apply NoDup_remove_2 in N. rewrite in_app_iff in N. tauto. }
    cbn [bind]. rewrite IH; cbn [nc_dims nc_vars nc_attrs]; [now rewrite <- app_assoc|].
    unfold keys in *. now rewrite map_app, <- app_assoc.
Qed.

Section Create.
  Context {B : Type} (nm : B -> string) (vr : B -> ncvar).
  Let step f x := create_variable f (nm x) (vr x).
  Definition made (x : B) := (nm x, vr x).

  Lemma keys_made l : keys (map made l) = map nm l.
  Proof. unfold keys. rewrite map_map. reflexivity. Qed.

  Lemma create_vars l : forall f f', foldM step l f = Ok f' -> NoDup (keys (nc_vars f)) ->
    NoDup (keys (nc_vars f) ++ map nm l) /\ f' = mk_ncfile (nc_dims f) (nc_vars f ++ map made l) (nc_attrs f).
  Proof.
    induction l as [|d l IH]; intros f f' H N; cbn [foldM map] in *.
    - injection H as <-. rewrite !app_nil_r. destruct f; auto.
    - unfold step at 1, create_variable at 1 in H. destruct (dict_mem (nc_vars f) (nm d)) eqn:E; [discriminate|]. cbn [bind] in H.
      apply mem_false in E. apply IH in H as [K ->]; cbn [nc_dims nc_vars nc_attrs] in *.
      + unfold keys in *. rewrite map_app, <- app_assoc in K. cbn [map app fst] in K. split; auto. now rewrite <- app_assoc.
      + unfold keys in *. rewrite map_app. cbn [map fst]. apply nodup_snoc. auto.
  Qed.

  Lemma create_vars_ok l : forall f, NoDup (keys (nc_vars f) ++ map nm l) ->
    foldM step l f = Ok (mk_ncfile (nc_dims f) (nc_vars f ++ map made l) (nc_attrs f)).
  Proof.
    induction l as [|d l IH]; intros f N; cbn [foldM map] in *.
    - rewrite app_nil_r. now destruct f.
    - unfold step at 1, create_variable at 1. replace (dict_mem (nc_vars f) (nm d)) with false.
      2:{ symmetry. apply mem_false. apply NoDup_remove_2 in N. rewrite in_app_iff in N. tauto. }
      cbn [bind]. rewrite IH; cbn [nc_dims nc_vars nc_attrs]; [now rewrite <- app_assoc|].
      unfold keys in *. now rewrite map_app, <- app_assoc.
  Qed.
End Create.

Definition out_var (i : header_in) : ncvar :=
  mk_ncvar (hi_precision i) ("time" :: keys (hi_dims i))
    (Z.of_nat (List.length (hi_times i)) :: storage_chunks (hi_chunks i) (hi_dims i)) [] [].
Definition time_var (i : header_in) (nums : list Z) : ncvar :=
  mk_ncvar "i4" ["time"] [] (map inject_Z nums) [("calendar", AText (hi_calendar_name i))].
Definition coord_var (i : header_in) (d : string) : ncvar := mk_ncvar (hi_coord_type i d) [d] [] (hi_coords i d) [].
Definition defined_file (i : header_in) (nums : list Z) : ncfile :=
  mk_ncfile (("time", None) :: map (fun d => (fst d, Some (snd d))) (hi_dims i))
    (map (made snd (fun _ => out_var i)) (hi_outputs i) ++
     ("time", time_var i nums) :: map (made (fun d => d) (coord_var i)) (keys (hi_dims i))) [].

Lemma dim_keys (l : dimlist) : map fst (map (fun d => (fst d, Some (snd d))) l) = keys l.
Proof. rewrite map_map. reflexivity. Qed.

Lemma define_inv i label f : define_file i label = Ok f ->
  NoDup (all_names i) /\ label <> None /\
  exists nums, mapM (date2num (hi_calendar i)) (hi_times i) = Ok nums /\ f = defined_file i nums.
Proof.
  unfold define_file. intros H.
  destruct (foldM create_dimension _ _) as [f1|] eqn:E1; [|discriminate]. cbn [bind] in H.
  apply create_dims in E1 as [N1 ->]; [|constructor]. cbn [nc_dims nc_vars nc_attrs app keys map] in H.
  destruct (foldM _ (hi_outputs i) _) as [f2|] eqn:E2; [|discriminate]. cbn [bind] in H.
  apply (create_vars snd (fun _ => out_var i)) in E2 as [N2 ->]; [|constructor]. cbn [nc_dims nc_vars nc_attrs app] in H.
  destruct (dict_mem _ "time") eqn:T; [discriminate|]. cbn [bind] in H.
  destruct label as [utc|]; [|discriminate]. cbn [bind] in H.
  destruct (mapM _ (hi_times i)) as [nums|] eqn:M; [|discriminate]. cbn [bind] in H.
  unfold create_variable at 1 in H. cbn [nc_vars nc_dims nc_attrs] in H. rewrite T in H. cbn [bind] in H.
  apply (create_vars (fun d => d) (coord_var i)) in H as [N3 ->].
  - cbn [nc_vars nc_dims nc_attrs] in N3 |- *. unfold keys in N3 at 1. rewrite map_app in N3. fold (keys (map (made snd (fun _ => out_var i)) (hi_outputs i))) in N3.
    rewrite keys_made, map_id in N3. cbn [map fst] in N3. rewrite <- app_assoc in N3. cbn [app] in N3.
    split; [exact N3|]. split; [discriminate|]. exists nums. split; auto. unfold defined_file. now rewrite <- app_assoc.
  - cbn [nc_vars]. unfold keys. rewrite map_app. fold (keys (map (made snd (fun _ => out_var i)) (hi_outputs i))).
    cbn [map fst]. apply nodup_snoc. apply mem_false in T. split; auto. rewrite keys_made. exact N2.
Qed.

Lemma define_ok i utc nums : NoDup (all_names i) -> mapM (date2num (hi_calendar i)) (hi_times i) = Ok nums ->
  define_file i (Some utc) = Ok (defined_file i nums).
Proof.
  unfold define_file, all_names. intros N M.
  rewrite create_dims_ok.
  2:{ cbn [nc_dims keys map app fst]. rewrite dim_keys. now apply nodup_right in N. }
  cbn [bind nc_dims nc_vars nc_attrs app].
  rewrite (create_vars_ok snd (fun _ => out_var i)) by (cbn [nc_vars keys map app]; now apply nodup_left in N).
  cbn [bind nc_dims nc_vars nc_attrs app].
  assert (T : dict_mem (map (made snd (fun _ => out_var i)) (hi_outputs i)) "time" = false).
  { apply mem_false. rewrite keys_made. apply NoDup_remove_2 in N. rewrite in_app_iff in N. tauto. }
  rewrite T. cbn [bind]. rewrite M. cbn [bind]. unfold create_variable at 1. cbn [nc_vars nc_dims nc_attrs].
  rewrite T. cbn [bind]. rewrite (create_vars_ok (fun d => d) (coord_var i)).
  - cbn [nc_vars nc_dims nc_attrs]. unfold defined_file. now rewrite <- app_assoc.
  - cbn [nc_vars]. unfold keys at 1. rewrite map_app. fold (keys (map (made snd (fun _ => out_var i)) (hi_outputs i))).
    rewrite keys_made, map_id. cbn [map fst]. rewrite <- app_assoc. exact N.
Qed.

(** ** Attributes *)
Lemma set_attrs_err items e : fold_left (fun acc kv => do a <- acc;
   match snd kv with AOther => Err TypeError | v => Ok (dict_set a (fst kv) v) end) items (Err e) = Err e :> res (dict aval).
Proof. induction items; cbn [fold_left bind]; auto. Qed.

Lemma set_attrs_iff items : forall a b, set_attrs a items = Ok b <->
  Forall (fun kv => snd kv <> AOther) items /\ b = dict_update a items.
Proof.
  unfold set_attrs, dict_update. induction items as [|[k v] items IH]; intros a b; cbn [fold_left bind snd fst].
  - split; [intros H; injection H as <-; auto|intros [_ ->]; auto].
  - destruct v; cbn [bind].
    5:{ rewrite set_attrs_err. split; [discriminate|]. intros [F _]. inversion F. cbn in *. congruence. }
    all: rewrite IH; split; intros [F ->]; split; auto; [constructor; auto; discriminate|now inversion F].
Qed.

Definition with_attrs (v : ncvar) (a : dict aval) : ncvar := mk_ncvar (nv_type v) (nv_dims v) (nv_chunks v) (nv_values v) a.

Lemma set_var_iff f n items f' : set_var_attrs f n items = Ok f' <->
  exists v, dict_get (nc_vars f) n = Some v /\ Forall (fun kv => snd kv <> AOther) items /\
    f' = mk_ncfile (nc_dims f) (dict_set (nc_vars f) n (with_attrs v (dict_update (nv_attrs v) items))) (nc_attrs f).
Proof.
  unfold set_var_attrs, dict_getitem. destruct (dict_get (nc_vars f) n) as [v|]; cbn [bind].
  - destruct (set_attrs (nv_attrs v) items) as [a|e] eqn:E; cbn [bind].
    + apply set_attrs_iff in E as [F ->]. split.
      * intros H. injection H as <-. eauto.
      * intros (w & W & _ & ->). now injection W as <-.
    + split; [discriminate|]. intros (w & W & F & _). injection W as <-.
      rewrite (proj2 (set_attrs_iff _ _ _) (conj F eq_refl)) in E. discriminate.
  - split; [discriminate|]. intros (w & W & _). discriminate.
Qed.

Lemma get_set {V} (d : dict V) k v x : dict_get (dict_set d k v) x = if String.eqb x k then Some v else dict_get d x.
Proof. rewrite dict_get_set. now rewrite String.eqb_sym. Qed.

Section Describe.
  Variable at_of : string -> dict aval.
  Let step f (kv : string * string) := set_var_attrs f (snd kv) (at_of (fst kv)).

  Lemma attr_loop l : forall f f', foldM step l f = Ok f' ->
    Forall (fun kv => In (snd kv) (keys (nc_vars f)) /\ Forall (fun x => snd x <> AOther) (at_of (fst kv))) l /\
    nc_dims f' = nc_dims f /\ nc_attrs f' = nc_attrs f /\ keys (nc_vars f') = keys (nc_vars f) /\
    (forall n, ~ In n (map snd l) -> dict_get (nc_vars f') n = dict_get (nc_vars f) n) /\
    (NoDup (map snd l) -> forall k n v, In (k, n) l -> dict_get (nc_vars f) n = Some v ->
       dict_get (nc_vars f') n = Some (with_attrs v (dict_update (nv_attrs v) (at_of k)))).
  Proof.
    induction l as [|[k n] l IH]; intros f f' H; cbn [foldM map] in *.
    - injection H as <-. repeat split; auto. intros _ k n v [].
    - destruct (step f (k, n)) as [g|] eqn:E; [|discriminate]. cbn [bind] in H.
      unfold step in E. cbn [fst snd] in E. apply set_var_iff in E as (v & G & F & ->).
      apply IH in H as (A & D & T & K & O & S). cbn [nc_dims nc_vars nc_attrs] in *.
      assert (KS : forall w, keys (dict_set (nc_vars f) n w) = keys (nc_vars f)).
      { intros w. rewrite keys_set. unfold dict_mem. now rewrite G. }
      rewrite KS in *. split.
      { constructor; auto. cbn [snd fst]. split; auto. apply mem_keys. unfold dict_mem. now rewrite G. }
      repeat split; auto.
      + intros m M. rewrite O by (intros X; apply M; right; exact X). rewrite get_set.
        destruct (String.eqb_spec m n) as [->|]; auto. exfalso. apply M. now left.
      + intros N k' n' v' I G'. inversion N as [|x y N1 N2]; subst. destruct I as [I|I].
        * injection I as <- <-. rewrite G in G'. injection G' as <-. rewrite O by auto. rewrite get_set, String.eqb_refl. reflexivity.
        * apply S; auto. rewrite get_set. destruct (String.eqb_spec n' n) as [->|]; auto.
          exfalso. apply N1. change n with (snd (k', n)). now apply in_map.
  Qed.

  Lemma attr_loop_ok l : forall f,
    Forall (fun kv => In (snd kv) (keys (nc_vars f)) /\ Forall (fun x => snd x <> AOther) (at_of (fst kv))) l ->
    exists f', foldM step l f = Ok f'.
  Proof.
    induction l as [|[k n] l IH]; intros f H; cbn [foldM]; [eauto|]. inversion H as [|x y [I F] R]; subst. cbn [fst snd] in *.
    apply mem_keys in I. unfold dict_mem in I. destruct (dict_get (nc_vars f) n) as [v|] eqn:G; [|discriminate].
    assert (E : step f (k, n) = Ok (mk_ncfile (nc_dims f) (dict_set (nc_vars f) n (with_attrs v (dict_update (nv_attrs v) (at_of k)))) (nc_attrs f))).
    { unfold step. cbn [fst snd]. apply set_var_iff. eauto. }
    rewrite E. cbn [bind]. apply IH. cbn [nc_vars].
    replace (keys (dict_set _ _ _)) with (keys (nc_vars f)); auto. rewrite keys_set. unfold dict_mem. now rewrite G.
  Qed.
End Describe.

(** ** Recorded parameters *)
Lemma list_remove c s : list_ascii_of_string (remove_char c s) = filter (fun x => negb (Ascii.eqb c x)) (list_ascii_of_string s).
Proof.
  induction s as [|a s IH]; [reflexivity|]. cbn [remove_char list_ascii_of_string filter].
  destruct (Ascii.eqb c a); cbn [negb list_ascii_of_string]; congruence.
Qed.
Lemma filter_filter {A} (p q : A -> bool) l : filter p (filter q l) = filter (fun x => q x && p x) l.
Proof.
  induction l as [|x l IH]; [reflexivity|]. cbn [filter]. destruct (q x); cbn [andb filter]; [|assumption].
  destruct (p x); congruence.
Qed.
Lemma unquote_plain s : unquote s = plain s.
Proof.
  unfold unquote, plain. rewrite <- (string_of_list_ascii_of_string (remove_char _ _)). f_equal.
  rewrite !list_remove, filter_filter. apply filter_ext. intros a. unfold is_quote.
  rewrite (Ascii.eqb_sym a "'"), (Ascii.eqb_sym a """"). now rewrite negb_orb.
Qed.
Lemma join_texts l : forall s, join l = Ok s <-> option_map (String.concat ", ") (texts l) = Some s.
Proof.
  induction l as [|[a|] l IH]; intros s; cbn [join texts].
  - cbn. split; intros H; injection H as <-; reflexivity.
  - destruct l as [|b l].
    + cbn. split; intros H; injection H as <-; reflexivity.
    + destruct (join (b :: l)) as [t|e]; cbn [bind].
      * pose proof (proj1 (IH t) eq_refl) as K. destruct (texts (b :: l)) as [ts|] eqn:T; [|discriminate].
        cbn [option_map] in K |- *. injection K as <-.
        assert (NE : exists x ts', ts = x :: ts').
        { cbn [texts] in T. destruct b as [b|]; [|discriminate]. destruct (texts l); [|discriminate]. cbn in T. injection T as <-. eauto. }
        destruct NE as (x & ts' & ->). split; intros H; injection H as <-; reflexivity.
      * split; [discriminate|]. intros H. destruct (texts (b :: l)) as [ts|]; [|discriminate].
        exfalso. pose proof (proj2 (IH (String.concat ", " ts)) eq_refl). discriminate.
  - cbn. split; discriminate.
Qed.

Section Recorded.
  Variable py_str : pvalue -> string.

  Lemma shown_iff k v a : shown py_str k v = Some a <-> attribute py_str k v = Ok a /\ a <> AOther.
  Proof.
    unfold shown, attribute. replace (str_in k as_text) with ((k =? "start") || (k =? "stop") || (k =? "utc_offset") || (k =? "period_ending"))%string%bool.
    2:{ unfold str_in, as_text. cbn [existsb]. now rewrite orb_false_r, !orb_assoc. }
    destruct (_ || _)%bool.
    - rewrite unquote_plain. split; [intros H; injection H as <-; split; [auto|discriminate]|intros [H _]; now injection H as <-].
    - destruct v as [s|z|q|b| |t|[j|]|l]; rewrite ?unquote_plain;
        try (split; [intros H; injection H as <-; split; [auto|discriminate]|intros [H _]; now injection H as <-]);
        try (split; [discriminate|intros [H N]; injection H as <-; contradiction]);
        try (split; [discriminate|intros [H N]; discriminate]).
      destruct (join l) as [t|e] eqn:J; cbn [bind].
      + apply join_texts in J. destruct (texts l) as [ts|]; [|discriminate]. cbn [option_map] in *. injection J as <-.
        rewrite unquote_plain. split; [intros H; injection H as <-; split; [auto|discriminate]|intros [H _]; now injection H as <-].
      + split; [|intros [H _]; discriminate]. intros H. destruct (texts l) as [ts|] eqn:T; [|discriminate].
        assert (K : join l = Ok (String.concat ", " ts)) by (apply join_texts; now rewrite T). congruence.
  Qed.

  Lemma skip_iff k : not_recorded k <-> (str_in k skip_params || str_in k skip_later)%bool = true.
  Proof.
    rewrite orb_true_iff, !str_in_iff, <- in_app_iff. reflexivity.
  Qed.

  Lemma record_step k v r g : record_params py_str ((k, v) :: r) g =
    if (str_in k skip_params || str_in k skip_later)%bool then record_params py_str r g
    else match attribute py_str k v with Ok a => record_params py_str r (dict_set g k a) | Err e => (g, Err e) end.
  Proof. cbn [record_params]. destruct (str_in k skip_params); cbn [orb]; [reflexivity|]. now destruct (str_in k skip_later). Qed.

  Lemma record_nodup params : forall g, NoDup (keys g) -> NoDup (keys (fst (record_params py_str params g))).
  Proof.
    induction params as [|[k v] r IH]; intros g N; [exact N|]. rewrite record_step. destruct (_ || _)%bool; auto.
    destruct (attribute py_str k v); cbn [fst]; auto. apply IH. now apply nodup_set.
  Qed.

  Lemma record_keeps params k : (not_recorded k \/ ~ In k (keys params)) -> forall g,
    dict_get (fst (record_params py_str params g)) k = dict_get g k.
  Proof.
    induction params as [|[x v] r IH]; intros H g; [reflexivity|]. rewrite record_step.
    assert (H' : not_recorded k \/ ~ In k (keys r)).
    { destruct H as [H|H]; auto. right. intros I. apply H. now right. }
    destruct (str_in x skip_params || str_in x skip_later)%bool eqn:S; auto.
    destruct (attribute py_str x v); cbn [fst]; auto. rewrite IH by assumption. rewrite get_set.
    destruct (String.eqb_spec k x) as [->|]; auto. exfalso. destruct H as [H|H].
    - apply skip_iff in H. congruence.
    - apply H. now left.
  Qed.

  Lemma record_all params : forall g, snd (record_params py_str params g) = Ok tt -> NoDup (keys params) ->
    forall k v, In (k, v) params -> ~ not_recorded k -> exists a, attribute py_str k v = Ok a /\
      dict_get (fst (record_params py_str params g)) k = Some a.
  Proof.
    induction params as [|[x w] r IH]; intros g H N k v I R; [destruct I|]. inversion N as [|y z N1 N2]; subst.
    rewrite record_step in *. destruct I as [I|I].
    - injection I as -> ->. destruct (_ || _)%bool eqn:S; [exfalso; apply R; now apply skip_iff|].
      destruct (attribute py_str k v) as [a|]; [|discriminate]. exists a. split; auto.
      rewrite record_keeps by (right; exact N1). now rewrite get_set, String.eqb_refl.
    - destruct (_ || _)%bool; [eapply IH; eauto|]. destruct (attribute py_str x w); [|discriminate]. eapply IH; eauto.
  Qed.

  Lemma record_ok params : forall g, (forall k v, In (k, v) params -> ~ not_recorded k -> exists a, attribute py_str k v = Ok a) ->
    snd (record_params py_str params g) = Ok tt.
  Proof.
    induction params as [|[x w] r IH]; intros g H; [reflexivity|]. rewrite record_step.
    destruct (_ || _)%bool eqn:S; [apply IH; intros; eapply H; eauto; now right|].
    destruct (H x w) as [a A]; [now left|rewrite skip_iff; congruence|]. rewrite A. apply IH. intros; eapply H; eauto; now right.
  Qed.

  (** ** Histories *)
  Record tidy (history : string) (p : process) : Prop := {
    td_params : NoDup (keys (pc_params p));
    td_global : NoDup (keys (pc_global p));
    td_base : forall k, (not_recorded k \/ ~ In k (keys (pc_params p))) ->
       dict_get (pc_global p) k = dict_get (base_global history) k }.

  Lemma write_params p i : pc_params (fst (write_header py_str p i)) = pc_params p /\ pc_label (fst (write_header py_str p i)) = pc_label p.
  Proof.
    unfold write_header. destruct (define_file i (pc_label p)); cbn [fst]; auto.
    destruct (record_params _ _ _); cbn [fst pc_params pc_label]; auto.
  Qed.

  Lemma reached_tidy history defaults p : NoDup (keys defaults) -> reached py_str history defaults p -> tidy history p.
  Proof.
    intros N H. induction H as [|p given load H IH|p i H IH].
    - constructor; cbn [pc_params pc_global]; auto. cbn. repeat constructor; cbn; intuition discriminate.
    - destruct IH as [A B C]. assert (P : exists q, NoDup (keys q) /\ (forall k, In k (keys (pc_params p)) -> In k (keys q)) /\
         pc_params (fst (new_object p given load)) = q /\ pc_global (fst (new_object p given load)) = pc_global p).
      { unfold new_object. destruct load as [rs|e].
        - destruct (utc_given _); cbn [fst pc_params pc_global]; eexists; (split; [|split; [|split; reflexivity]]);
            [now apply nodup_update, nodup_update|intros; now apply in_update, in_update|now apply nodup_update, nodup_update|intros; now apply in_update, in_update].
        - cbn [fst pc_params pc_global]. eexists. split; [|split; [|split; reflexivity]]; [now apply nodup_update|intros; now apply in_update]. }
      destruct P as (q & Q1 & Q2 & Q3 & Q4). constructor; rewrite ?Q3, ?Q4; auto.
      intros k [K|K]; apply C; auto.
    - destruct IH as [A B C]. destruct (write_params p i) as [W _]. constructor; rewrite ?W; auto.
      + unfold write_header. destruct (define_file _ _); cbn [fst pc_global]; auto.
        pose proof (record_nodup (pc_params p) _ B) as R. destruct (record_params _ _ _). exact R.
      + intros k K. rewrite <- C by assumption. unfold write_header. destruct (define_file _ _); cbn [fst pc_global]; auto.
        pose proof (record_keeps (pc_params p) k K (pc_global p)) as R. destruct (record_params _ _ _). exact R.
  Qed.

  Lemma base_values history k v : dict_get (base_global history) k = Some v -> v <> AOther.
  Proof. intros H. apply dict_get_In in H. cbn in H. intuition; match goal with H : (_, _) = (_, _) |- _ => injection H as <- <- end; discriminate. Qed.

  Lemma update_nil {V} (e : dict V) k : NoDup (keys e) -> dict_get (dict_update [] e) k = dict_get e k.
  Proof. intros N. rewrite dict_get_update by assumption. destruct (dict_get e k); reflexivity. Qed.

  (** ** The whole header *)
  Definition label_attrs (p : process) : dict aval := match pc_label p with Some utc => time_attrs utc | None => [] end.

  Lemma defined_keys i nums : keys (nc_vars (defined_file i nums)) = all_names i.
  Proof.
    unfold defined_file, all_names, keys. cbn [nc_vars]. rewrite map_app. cbn [map fst]. f_equal; [apply keys_made|].
    f_equal. unfold made. rewrite map_map. now rewrite map_id.
  Qed.

  Lemma label_plain p : Forall (fun kv => snd kv <> AOther) (label_attrs p).
  Proof. unfold label_attrs. destruct (pc_label p) as [[|]|]; repeat constructor; discriminate. Qed.

  Lemma write_inv p i f : snd (write_header py_str p i) = Ok f ->
    let g := fst (record_params py_str (pc_params p) (pc_global p)) in
    exists nums f1, NoDup (all_names i) /\ pc_label p <> None /\
      mapM (date2num (hi_calendar i)) (hi_times i) = Ok nums /\
      snd (record_params py_str (pc_params p) (pc_global p)) = Ok tt /\
      Forall (fun kv => snd kv <> AOther) g /\
      f1 = mk_ncfile (nc_dims (defined_file i nums))
             (dict_set (nc_vars (defined_file i nums)) "time"
                (with_attrs (time_var i nums) (dict_update (nv_attrs (time_var i nums)) (label_attrs p)))) (dict_update [] g) /\
      foldM (fun f kv => set_var_attrs f (snd kv) (hi_var_attrs i (fst kv))) (hi_outputs i) f1 = Ok f.
  Proof.
    unfold write_header. destruct (define_file i (pc_label p)) as [f0|] eqn:D; [|discriminate].
    apply define_inv in D as (N & L & nums & M & ->). destruct (record_params _ _ _) as [g r] eqn:E. cbn [fst snd].
    intros H. destruct r as [[]|]; [|discriminate]. cbn [bind] in H. unfold describe_file in H.
    destruct (set_attrs _ g) as [ga|] eqn:S; [|discriminate]. apply set_attrs_iff in S as [F ->]. cbn [bind] in H.
    destruct (set_var_attrs _ "time" _) as [f1|] eqn:V; [|discriminate]. apply set_var_iff in V as (v & G & F' & ->).
    cbn [nc_vars nc_dims nc_attrs bind] in *. 
    assert (T : dict_get (nc_vars (defined_file i nums)) "time" = Some (time_var i nums)).
    { unfold defined_file. cbn [nc_vars]. rewrite get_app. replace (dict_get (map _ (hi_outputs i)) "time") with (@None ncvar); [reflexivity|].
      symmetry. apply dict_get_None. rewrite keys_made. unfold all_names in N. apply NoDup_remove_2 in N. rewrite in_app_iff in N. tauto. }
    rewrite T in G. injection G as <-. exists nums. eexists. repeat (split; [eassumption || reflexivity|]). exact H.
  Qed.
End Recorded.

Section Final.
  Variable py_str : pvalue -> string.
  Variables (history : string) (defaults : dict pvalue).
  Hypothesis ND : NoDup (keys defaults).
  Local Notation reached := (reached py_str history defaults).
  Local Notation write_header := (write_header py_str).

  (** the attributes recorded for the process *)
  Lemma recorded_global p k : reached p -> snd (record_params py_str (pc_params p) (pc_global p)) = Ok tt ->
    (forall v, dict_get (pc_params p) k = Some v -> ~ not_recorded k ->
       exists a, attribute py_str k v = Ok a /\ dict_get (fst (record_params py_str (pc_params p) (pc_global p))) k = Some a) /\
    (not_recorded k \/ dict_get (pc_params p) k = None ->
       dict_get (fst (record_params py_str (pc_params p) (pc_global p))) k = dict_get (base_global history) k).
  Proof.
    intros H E. apply (reached_tidy _ _ _ _ ND) in H as [A B C]. split.
    - intros v G NR. eapply record_all; eauto. now apply dict_get_In.
    - intros K. rewrite record_keeps by (destruct K as [K|K]; [now left|right; now apply dict_get_None]).
      apply C. destruct K as [K|K]; [now left|right; now apply dict_get_None].
  Qed.

  Lemma skip_dec k : not_recorded k \/ ~ not_recorded k.
  Proof. rewrite skip_iff. destruct (_ || _)%bool; auto. Qed.

  Theorem header_attrs p i f : reached p -> snd (write_header p i) = Ok f ->
    forall k, (forall v, dict_get (pc_params p) k = Some v -> ~ not_recorded k ->
                 exists a, shown py_str k v = Some a /\ dict_get (nc_attrs f) k = Some a) /\
              (not_recorded k \/ dict_get (pc_params p) k = None ->
                 dict_get (nc_attrs f) k = dict_get (base_global history) k).
  Proof.
    intros H W k. apply write_inv in W as (nums & f1 & N & L & M & S & F & -> & Q).
    apply attr_loop in Q as (_ & _ & A & _). cbn [nc_attrs] in A. rewrite A.
    pose proof (reached_tidy _ _ _ _ ND H) as [_ B _]. rewrite update_nil by now apply record_nodup.
    destruct (recorded_global p k H S) as [X Y]. split; [|exact Y].
    intros v G NR. destruct (X v G NR) as (a & E & E'). exists a. split; auto. apply shown_iff. split; auto.
    apply dict_get_In in E'. rewrite Forall_forall in F. exact (F _ E').
  Qed.

  Theorem header_attributes p i f : reached p -> snd (write_header p i) = Ok f ->
    forall k, (forall v, dict_get (pc_params p) k = Some v -> ~ not_recorded k ->
                 exists a, shown py_str k v = Some a /\ dict_get (nc_attrs f) k = Some a) /\
              (not_recorded k \/ dict_get (pc_params p) k = None ->
                 dict_get (nc_attrs f) k = own_attribute history k).
  Proof. exact (header_attrs p i f). Qed.

  Theorem header_iff p i : reached p -> ((exists f, snd (write_header p i) = Ok f) <-> header_ok py_str p i).
  Proof.
    intros H. pose proof (reached_tidy _ _ _ _ ND H) as [A B _]. split.
    - intros [f W]. pose proof (header_attrs p i f H W) as G. apply write_inv in W as (nums & f1 & N & L & M & S & F & E & Q).
      constructor; auto.
      + intros t I. apply encode_total. apply mapM_inv in M. clear - M I.
        induction M as [|x y l r E M IH]; [destruct I|]. destruct I as [<-|I]; eauto.
      + intros k v K NR. destruct (proj1 (G k) v K NR) as (a & -> & _). discriminate.
      + intros k n a v I I'. apply attr_loop in Q as [Q _]. rewrite Forall_forall in Q.
        destruct (Q _ I) as [_ Q']. rewrite Forall_forall in Q'. exact (Q' _ I').
    - intros [N L D P V]. destruct (pc_label p) as [utc|] eqn:E; [|contradiction].
      assert (M : exists nums, mapM (date2num (hi_calendar i)) (hi_times i) = Ok nums).
      { clear - D. induction (hi_times i) as [|t l IH]; cbn [mapM]; [eauto|].
        destruct (proj2 (encode_total _ _) (D t (or_introl eq_refl))) as [n ->].
        destruct IH as [ns ->]; [intros; apply D; now right|]. cbn [bind]. eauto. }
      destruct M as [nums M]. unfold write_header. rewrite E, (define_ok i utc nums N M).
      assert (S : snd (record_params py_str (pc_params p) (pc_global p)) = Ok tt).
      { apply record_ok. intros k v I NR. specialize (P k v (dict_get_NoDup _ _ _ A I) NR).
        destruct (shown py_str k v) as [a|] eqn:S; [|contradiction]. apply shown_iff in S as [S _]. eauto. }
      assert (F : Forall (fun kv => snd kv <> AOther) (fst (record_params py_str (pc_params p) (pc_global p)))).
      { apply Forall_forall. intros [k a] I. cbn [snd].
        apply (dict_get_NoDup _ _ _ (record_nodup _ _ _ B)) in I. destruct (recorded_global p k H S) as [X Y].
        assert (C : (exists v, dict_get (pc_params p) k = Some v /\ ~ not_recorded k) \/ (not_recorded k \/ dict_get (pc_params p) k = None)).
        { destruct (skip_dec k); auto. destruct (dict_get (pc_params p) k); eauto. }
        destruct C as [(v & G & NR)|C].
        - destruct (X v G NR) as (b & T & T'). rewrite T' in I. injection I as ->.
          specialize (P k v G NR). destruct (shown py_str k v) as [c|] eqn:Sh; [|contradiction]. apply shown_iff in Sh as [Sh Sn]. congruence.
        - rewrite (Y C) in I. now apply base_values in I. }
      destruct (record_params _ _ _) as [g r]. cbn [fst snd] in *. subst r. cbn [bind]. unfold describe_file.
      rewrite (proj2 (set_attrs_iff _ _ _) (conj F eq_refl)). cbn [bind].
      destruct (dict_get_Some_key (nc_vars (defined_file i nums)) "time") as [tv T].
      { rewrite defined_keys. unfold all_names. apply in_app_iff. right. now left. }
      assert (SV : exists f2, set_var_attrs (mk_ncfile (nc_dims (defined_file i nums)) (nc_vars (defined_file i nums))
         (dict_update (nc_attrs (defined_file i nums)) g)) "time" (time_attrs utc) = Ok f2 /\ keys (nc_vars f2) = all_names i).
      { eexists. split.
        - apply set_var_iff. exists tv. split; [exact T|]. split; [|reflexivity].
          pose proof (label_plain p) as LP. unfold label_attrs in LP. now rewrite E in LP.
        - cbn [nc_vars]. rewrite keys_set. unfold dict_mem. rewrite T. apply defined_keys. }
      destruct SV as (f2 & -> & K). cbn [bind]. apply attr_loop_ok. apply Forall_forall. intros [k n] I. cbn [fst snd]. split.
      + rewrite K. unfold all_names. apply in_app_iff. left. change n with (snd (k, n)). now apply in_map.
      + apply Forall_forall. intros [a v] I'. cbn [snd]. eapply V; eauto.
  Qed.

  Lemma update_get {V} (d e : dict V) k : NoDup (keys e) ->
    dict_get (dict_update d e) k = match dict_get e k with Some v => Some v | None => dict_get d k end.
  Proof. apply dict_get_update. Qed.

  (** the finished file *)
  Theorem header_structure p i f : snd (write_header p i) = Ok f ->
    nc_dims f = ("time", None) :: map (fun d => (fst d, Some (snd d))) (hi_dims i) /\
    keys (nc_vars f) = all_names i /\ NoDup (all_names i) /\
    (forall k n, In (k, n) (hi_outputs i) -> exists v, dict_get (nc_vars f) n = Some v /\
       nv_type v = hi_precision i /\ nv_dims v = "time" :: keys (hi_dims i) /\
       nv_chunks v = Z.of_nat (List.length (hi_times i)) :: storage_chunks (hi_chunks i) (hi_dims i) /\
       (NoDup (keys (hi_var_attrs i k)) -> forall a, dict_get (nv_attrs v) a = dict_get (hi_var_attrs i k) a)) /\
    (forall d, In d (keys (hi_dims i)) -> exists v, dict_get (nc_vars f) d = Some v /\
       nv_type v = hi_coord_type i d /\ nv_dims v = [d] /\ nv_values v = hi_coords i d).
  Proof.
    intros W. apply write_inv in W as (nums & f1 & N & L & M & S & F & E & Q).
    apply attr_loop in Q as (_ & D & _ & K & O & A). rewrite E in *. cbn [nc_dims nc_vars] in *.
    assert (KT : keys (dict_set (nc_vars (defined_file i nums)) "time"
       (with_attrs (time_var i nums) (dict_update (nv_attrs (time_var i nums)) (label_attrs p)))) = all_names i).
    { rewrite keys_set. replace (dict_mem _ "time") with true; [apply defined_keys|]. symmetry. apply mem_keys.
      rewrite defined_keys. unfold all_names. apply in_app_iff. right. now left. }
    assert (NN : NoDup (keys (nc_vars (defined_file i nums)))) by now rewrite defined_keys.
    assert (NO : NoDup (map snd (hi_outputs i))) by now apply nodup_left in N.
    split; [rewrite D; reflexivity|]. split; [now rewrite K|]. split; [exact N|]. split.
    - intros k n I. exists (with_attrs (out_var i) (dict_update [] (hi_var_attrs i k))).
      assert (NT : n <> "time").
      { intros ->. unfold all_names in N. apply NoDup_remove_2 in N. apply N. apply in_app_iff. left.
        change "time" with (snd (k, "time")). now apply in_map. }
      split; [|repeat split; intros ND' a; apply update_nil; exact ND'].
      apply (A NO k n (out_var i) I). rewrite get_set.
      destruct (String.eqb_spec n "time"); [contradiction|]. apply dict_get_NoDup; auto.
      unfold defined_file. cbn [nc_vars]. apply in_app_iff. left. apply in_map_iff. exists (k, n). auto.
    - intros d I. exists (coord_var i d). split; [|auto].
      rewrite O. 2:{ intros X. clear - X I N. unfold all_names in N. apply in_split in X as (a & b & X). rewrite X, <- app_assoc in N. cbn [app] in N.
        apply NoDup_remove_2 in N. apply N. rewrite !in_app_iff. right. right. now right. }
      rewrite get_set. destruct (String.eqb_spec d "time") as [->|NT].
      { exfalso. unfold all_names in N. apply NoDup_remove_2 in N. apply N. apply in_app_iff. now right. }
      apply dict_get_NoDup; auto. unfold defined_file. cbn [nc_vars]. apply in_app_iff. right. right. apply in_map_iff. exists d. auto.
  Qed.

  Theorem header_time p i f : snd (write_header p i) = Ok f ->
    exists v nums, dict_get (nc_vars f) "time" = Some v /\ nv_type v = "i4" /\ nv_dims v = ["time"] /\
      nv_values v = map inject_Z nums /\
      mapM (date2num (hi_calendar i)) (hi_times i) = Ok nums /\
      nv_attrs v = dict_update [("calendar", AText (hi_calendar_name i))] (label_attrs p) /\ pc_label p <> None.
  Proof.
    intros W. apply write_inv in W as (nums & f1 & N & L & M & S & F & E & Q).
    apply attr_loop in Q as (_ & D & _ & K & O & A). rewrite E in *. cbn [nc_dims nc_vars] in *.
    exists (with_attrs (time_var i nums) (dict_update (nv_attrs (time_var i nums)) (label_attrs p))), nums.
    split; [|repeat split; assumption || reflexivity].
    rewrite O by (intros X; unfold all_names in N; apply NoDup_remove_2 in N; apply N; apply in_app_iff; now left).
    now rewrite get_set, String.eqb_refl.
  Qed.

  Theorem times_encoded p i f : snd (write_header p i) = Ok f ->
    exists v nums, dict_get (nc_vars f) "time" = Some v /\ nv_type v = "i4" /\ nv_dims v = ["time"] /\
      nv_values v = map inject_Z nums /\
      dict_get (nv_attrs v) "calendar" = Some (AText (hi_calendar_name i)) /\
      dict_get (nv_attrs v) "units" = Some (AText "minutes since 2000-01-01 00:00:00.0") /\
      Forall2 (fun t n => denotes (hi_calendar i) n (civil_from_days (t / 1440)) (t mod 1440) /\
                          (pandas_stamp t -> int32 n)) (hi_times i) nums.
  Proof.
    intros W. apply header_time in W as (v & nums & G & T & D & V & M & A & L). exists v, nums.
    repeat (split; [assumption|]). rewrite A. unfold label_attrs. destruct (pc_label p) as [utc|]; [|contradiction].
    split; [destruct utc; reflexivity|]. split; [destruct utc; reflexivity|].
    apply mapM_inv in M. clear - M. induction M as [|t n l r E M IH]; constructor; auto. split; [now apply encode_ok|]. intros P. eapply encode_int32; eauto.
  Qed.

  (** ** The label of the time axis *)
  Lemma object_label p given load q : new_object p given load = (q, Ok tt) ->
    exists v, dict_get (pc_params q) "utc_offset" = Some v /\ pc_label q = Some (truthy v).
  Proof.
    unfold new_object. destruct load as [rs|]; [|discriminate]. unfold utc_given, dict_getitem.
    destruct (dict_get (dict_update _ rs) "utc_offset") as [v|] eqn:E; cbn [bind]; [|discriminate].
    intros H. injection H as <-. exists v. split; auto.
  Qed.

  Lemma headers_keep p q : headers_only py_str p q -> pc_params q = pc_params p /\ pc_label q = pc_label p.
  Proof.
    induction 1 as [p|p q i H [A B]]; auto. destruct (write_params py_str q i) as [C D]. split; congruence.
  Qed.

  Theorem label_right p given load q q' i f : new_object p given load = (q, Ok tt) -> headers_only py_str q q' ->
    snd (write_header q' i) = Ok f ->
    exists u v, dict_get (pc_params q') "utc_offset" = Some u /\ dict_get (nc_vars f) "time" = Some v /\
      dict_get (nv_attrs v) "standard_name" = Some (AText (if truthy u then "utc_time" else "local_time")) /\
      dict_get (nv_attrs v) "long_name" = Some (AText (if truthy u then "UTC time" else "local time at grid location")).
  Proof.
    intros N H W. apply object_label in N as (u & U & L). apply headers_keep in H as [HP HL].
    apply header_time in W as (v & nums & G & T & D & V & M & A & _). exists u, v. rewrite HP. repeat (split; [assumption|]).
    rewrite A. unfold label_attrs. rewrite HL, L. destruct (truthy u); split; reflexivity.
  Qed.
  Lemma truthy_iff v : truthy v = false <-> counts_false v.
  Proof.
    unfold counts_false. split.
    - destruct v as [t|z|q|b| |m|j|l]; cbn [truthy]; intros H; try discriminate.
      + destruct (String.eqb_spec t ""); [left; congruence|discriminate].
      + destruct (Z.eqb_spec z 0); [right; left; congruence|discriminate].
      + destruct (Z.eqb_spec (Qnum q) 0) as [E|E]; [|discriminate]. right. right. left. exists q. split; [reflexivity|].
        unfold Qeq. rewrite E. reflexivity.
      + subst b. auto 10.
      + auto 10.
      + destruct j as [t|]; [|discriminate]. destruct (String.eqb_spec t "{}"); [subst; auto 10|discriminate].
      + destruct l; [auto 10|discriminate].
    - intros [->|[->|[(q & -> & Q)|[->|[->|[->| ->]]]]]]; try reflexivity. cbn [truthy].
      unfold Qeq in Q. cbn in Q. destruct (Z.eqb_spec (Qnum q) 0) as [E|E]; [reflexivity|lia].
  Qed.

  Theorem label_says p given load q q' i f : new_object p given load = (q, Ok tt) -> headers_only py_str q q' ->
    snd (write_header q' i) = Ok f ->
    exists u v, dict_get (pc_params q') "utc_offset" = Some u /\ dict_get (nc_vars f) "time" = Some v /\
      (~ counts_false u -> dict_get (nv_attrs v) "standard_name" = Some (AText "utc_time") /\
                           dict_get (nv_attrs v) "long_name" = Some (AText "UTC time")) /\
      (counts_false u -> dict_get (nv_attrs v) "standard_name" = Some (AText "local_time") /\
                         dict_get (nv_attrs v) "long_name" = Some (AText "local time at grid location")).
  Proof.
    intros N H W. destruct (label_right p given load q q' i f N H W) as (u & v & U & V & A & B).
    exists u, v. split; [exact U|]. split; [exact V|]. rewrite <- truthy_iff. destruct (truthy u); split; intros X; auto; try congruence; now elim X.
  Qed.
End Final.

(** ** Cases *)
Definition demo_str (v : pvalue) : string :=
  match v with PvBool true => "True" | PvBool false => "False" | PvStr s => s | _ => "2000-01-01 00:00:00" end.
Definition demo_defaults : dict pvalue :=
  [("method", PvStr "mtclim"); ("utc_offset", PvBool false); ("time_step", PvInt 60); ("verbose", PvNone)].
Definition demo_process : process :=
  fst (new_object (mk_process demo_defaults (base_global "h") None)
         [("iter_dims", PvList [Some "lat"; Some "lon"]); ("out_prefix", PvStr "it's")] (Ok [("start", PvTime 0)])).
Definition demo_header (c : calendar) (n : string) (ts : list Z) (outs : list (string * string)) : header_in :=
  mk_header_in [("lat", 2%nat); ("lon", 1%nat)] (fun d => if String.eqb d "lat" then [10; 20]%Q else [5]%Q) (fun _ => "f8") []
    outs "f4" c n (fun k => if String.eqb k "temp" then [("units", AText "C"); ("missing_value", ANan)] else []) ts.
Definition demo_in := demo_header Standard "standard" [15778080; 15778140]%Z [("temp", "tas"); ("prec", "pr")].

Lemma demo_reached : reached demo_str "h" demo_defaults demo_process.
Proof. apply object_made, at_start. Qed.

Lemma demo_written : match snd (write_header demo_str demo_process demo_in) with
  | Ok f => keys (nc_vars f) = ["tas"; "pr"; "time"; "lat"; "lon"] /\
      option_map nv_values (dict_get (nc_vars f) "time") = Some [0; 60]%Q /\
      option_map nv_values (dict_get (nc_vars f) "lat") = Some [10; 20]%Q /\
      option_map nv_attrs (dict_get (nc_vars f) "tas") = Some [("units", AText "C"); ("missing_value", ANan)] /\
      dict_get (nc_attrs f) "iter_dims" = Some (AText "lat, lon") /\
      dict_get (nc_attrs f) "out_prefix" = Some (AText "its") /\
      dict_get (nc_attrs f) "utc_offset" = Some (AText "False") /\
      dict_get (nc_attrs f) "time_step" = Some (AInt 60) /\
      dict_get (nc_attrs f) "title" = Some (AText "Output from MetSim") /\
      dict_get (nc_attrs f) "verbose" = None
  | Err _ => False end.
Proof. vm_compute. repeat split. Qed.

Lemma demo_case : reached demo_str "h" demo_defaults demo_process /\
  match snd (write_header demo_str demo_process demo_in) with
  | Ok f => keys (nc_vars f) = ["tas"; "pr"; "time"; "lat"; "lon"] /\
      option_map nv_values (dict_get (nc_vars f) "time") = Some [0; 60]%Q /\
      option_map nv_values (dict_get (nc_vars f) "lat") = Some [10; 20]%Q /\
      option_map nv_attrs (dict_get (nc_vars f) "tas") = Some [("units", AText "C"); ("missing_value", ANan)] /\
      dict_get (nc_attrs f) "iter_dims" = Some (AText "lat, lon") /\
      dict_get (nc_attrs f) "out_prefix" = Some (AText "its") /\
      dict_get (nc_attrs f) "utc_offset" = Some (AText "False") /\
      dict_get (nc_attrs f) "time_step" = Some (AInt 60) /\
      dict_get (nc_attrs f) "title" = Some (AText "Output from MetSim") /\
      dict_get (nc_attrs f) "verbose" = None
  | Err _ => False end.
Proof. split; [exact demo_reached|exact demo_written]. Qed.

Lemma demo_rejected :
  snd (write_header demo_str demo_process (demo_header Standard "standard" [0%Z] [("temp", "lat")])) = Err RuntimeError /\
  snd (write_header demo_str demo_process (demo_header Standard "standard" [0%Z] [("temp", "x"); ("prec", "x")])) = Err RuntimeError /\
  snd (write_header demo_str (mk_process demo_defaults (base_global "h") None) demo_in) = Err KeyError /\
  snd (write_header demo_str (fst (new_object demo_process [("x", PvBool true)] (Ok []))) demo_in) = Err TypeError /\
  snd (write_header demo_str demo_process (demo_header (Fixed NoLeap) "noleap" [15863040%Z] [])) = Err ValueError.
Proof. vm_compute. repeat split. Qed.

Lemma demo_times :
  (* 2000-03-01 01:00 *)
  date2num Standard 15864540 = Ok 86460%Z /\ date2num (Fixed NoLeap) 15864540 = Ok 85020%Z /\ date2num (Fixed Days360) 15864540 = Ok 86460%Z /\
  (* 1999-12-31 *)
  date2num Standard 15776640 = Ok (-1440)%Z /\ date2num (Fixed NoLeap) 15776640 = Ok (-1440)%Z.
Proof. vm_compute. repeat split. Qed.

(** a constructor that fails after it has stored its options *)
Definition demo_later : process := fst (new_object demo_process [("utc_offset", PvBool true)] (Err KeyError)).
Lemma demo_mislabelled : exists p i f u v, reached demo_str "h" demo_defaults p /\
  snd (write_header demo_str p i) = Ok f /\ dict_get (pc_params p) "utc_offset" = Some u /\ ~ counts_false u /\
  dict_get (nc_vars f) "time" = Some v /\ dict_get (nv_attrs v) "standard_name" = Some (AText "local_time") /\
  dict_get (nc_attrs f) "utc_offset" = Some (AText "True").
Proof.
  exists demo_later, demo_in. destruct (snd (write_header demo_str demo_later demo_in)) as [f|] eqn:E; [|vm_compute in E; discriminate].
  exists f, (PvBool true). destruct (dict_get (nc_vars f) "time") as [v|] eqn:G.
  - exists v. split; [apply object_made, demo_reached|]. split; [reflexivity|]. split; [reflexivity|].
    split; [intros X; apply truthy_iff in X; discriminate X|]. split; [reflexivity|].
    vm_compute in E. injection E as <-. vm_compute in G. injection G as <-. split; reflexivity.
  - exfalso. vm_compute in E. injection E as <-. vm_compute in G. discriminate.
Qed.
Lemma demo_labelled : match snd (write_header demo_str (fst (new_object demo_process [("utc_offset", PvBool true)] (Ok []))) demo_in) with
  | Ok f => match dict_get (nc_vars f) "time" with
            | Some v => dict_get (nv_attrs v) "standard_name" = Some (AText "utc_time") | None => False end
  | Err _ => False end.
Proof. vm_compute. reflexivity. Qed.
Lemma demo_recorded : reached demo_str "h" demo_defaults demo_process /\
  match snd (write_header demo_str demo_process demo_in) with
  | Ok f => dict_get (nc_attrs f) "iter_dims" = Some (AText "lat, lon") /\ dict_get (nc_attrs f) "verbose" = None
  | Err _ => False end.
Proof. split; [exact demo_reached|vm_compute; split; reflexivity]. Qed.
