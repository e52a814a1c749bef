From Coq Require Import ZArith String Ascii List Bool Arith Lia Sorting.Sorted.
From Verif Require Import Model.Py Model.Calendar Model.Datetime Model.Output
  Spec.TimeSpec Proofs.Base Proofs.ChunkProofs Proofs.OutputProofs.
Import ListNotations.
Local Open Scope list_scope.
Local Open Scope Z_scope.

(** ** civil dates: one era of 400 years is checked by computation *)
Definition yoe_of (doe : Z) : Z := (doe - doe / 1460 + doe / 36524 - doe / 146096) / 365.
Definition year_start (y : Z) : Z := 365 * y + y / 4 - y / 100.
Definition md_of (doy : Z) : Z * Z :=
  let mp := (5 * doy + 2) / 153 in
  ((if mp <? 10 then mp + 3 else mp - 9), doy - (153 * mp + 2) / 5 + 1).
Definition era_day (doe : Z) : Z * Z * Z :=    (* yoe, month, day *)
  let '(m, d) := md_of (doe - year_start (yoe_of doe)) in (yoe_of doe, m, d).

Fixpoint all_below (n : positive) (p : Z -> bool) : bool :=
  match n with
  | xH => p 0
  | xO m => all_below m (fun i => p (2 * i)) && all_below m (fun i => p (2 * i + 1))
  | xI m => all_below m (fun i => p (2 * i)) && all_below m (fun i => p (2 * i + 1)) && p (Zpos (xO m))
  end.

Lemma all_below_spec n : forall p, all_below n p = true -> forall i, 0 <= i < Zpos n -> p i = true.
Proof.
  induction n as [m IH|m IH|]; simpl; intros p H i Hi.
  - apply andb_true_iff in H as [H H3]. apply andb_true_iff in H as [H1 H2].
    destruct (Z.eq_dec i (Zpos (xO m))) as [->|N]; auto.
    destruct (Z.Even_or_Odd i) as [[j ->]|[j ->]].
    + apply (IH _ H1 j). lia.
    + apply (IH _ H2 j). lia.
  - apply andb_true_iff in H as [H1 H2].
    destruct (Z.Even_or_Odd i) as [[j ->]|[j ->]].
    + apply (IH _ H1 j). lia.
    + apply (IH _ H2 j). lia.
  - replace i with 0 by lia. auto.
Qed.

Lemma yoe_mono a b : 0 <= a <= b -> yoe_of a <= yoe_of b.
Proof.
  intros H. unfold yoe_of. apply Z.div_le_mono; [lia|].
  assert (H1 : b / 36524 - a / 36524 >= b / 146096 - a / 146096).
  { change 146096 with (36524*4). rewrite <- !Z.div_div by lia.
    pose proof (Z.div_le_mono a b 36524). Z.to_euclidean_division_equations. lia. }
  assert (H2 : b / 1460 - a / 1460 <= b - a).
  { Z.to_euclidean_division_equations. lia. }
  lia.
Qed.

(** every year of the era begins and ends where the formula says *)
Definition year_end (y : Z) : Z := if y =? 399 then 146096 else year_start (y + 1) - 1.
Definition year_ok_b (y : Z) : bool :=
  (yoe_of (year_start y) =? y) && (yoe_of (year_end y) =? y) && (0 <=? year_start y)
  && (year_start y <=? year_end y) && (year_end y - year_start y <=? 365).
Lemma years_all : all_below 400 year_ok_b = true.
Proof. vm_compute. reflexivity. Qed.

Definition doy_ok_b (doy : Z) : bool :=
  let '(m, d) := md_of doy in
  (1 <=? m) && (m <=? 12) && (1 <=? d) && (d <=? 31) &&
  ((153 * ((m + 9) mod 12) + 2) / 5 + d - 1 =? doy).
Lemma doys_all : all_below 366 doy_ok_b = true.
Proof. vm_compute. reflexivity. Qed.

Lemma yoe_spec doe : 0 <= doe < 146097 ->
  0 <= yoe_of doe < 400 /\ 0 <= doe - year_start (yoe_of doe) <= 365.
Proof.
  intros H. set (y := yoe_of doe).
  assert (Y : 0 <= y < 400).
  { pose proof (yoe_mono 0 doe ltac:(lia)) as A. pose proof (yoe_mono doe 146096 ltac:(lia)) as B.
    change (yoe_of 0) with 0 in A. change (yoe_of 146096) with 399 in B. fold y in A, B. lia. }
  assert (OK : forall z, 0 <= z < 400 -> yoe_of (year_start z) = z /\ yoe_of (year_end z) = z /\
     0 <= year_start z <= year_end z /\ year_end z - year_start z <= 365).
  { intros z Hz. pose proof (all_below_spec _ _ years_all z Hz) as K. unfold year_ok_b in K.
    repeat (apply andb_true_iff in K; destruct K as [K ?K]). repeat split; lia. }
  split; auto. pose proof (OK y Y) as (E1 & E2 & E3 & E4).
  assert (year_start y <= doe).
  { destruct (Z.le_gt_cases (year_start y) doe); auto. exfalso.
    destruct (Z.eq_dec y 0) as [E0|N].
    - rewrite E0 in H0. change (year_start 0) with 0 in H0. lia.
    - destruct (OK (y - 1) ltac:(lia)) as (_ & F2 & F3 & _). revert F2 F3. unfold year_end.
      destruct (Z.eqb_spec (y - 1) 399); [lia|]. replace (y - 1 + 1) with y by lia. intros F2 F3.
      pose proof (yoe_mono doe (year_start y - 1) ltac:(lia)). fold y in H1. lia. }
  assert (doe <= year_end y).
  { destruct (Z.le_gt_cases doe (year_end y)) as [|G]; auto. exfalso. revert G. unfold year_end.
    destruct (Z.eqb_spec y 399); [lia|]. intros G.
    destruct (OK (y + 1) ltac:(lia)) as (F1 & _ & F3 & _).
    pose proof (yoe_mono (year_start (y + 1)) doe ltac:(lia)). fold y in H1. lia. }
  lia.
Qed.

Lemma era_spec doe : 0 <= doe < 146097 ->
  let '(yoe, m, d) := era_day doe in
  0 <= yoe < 400 /\ 1 <= m <= 12 /\ 1 <= d <= 31 /\
  yoe * 365 + yoe / 4 - yoe / 100 + ((153 * ((m + 9) mod 12) + 2) / 5 + d - 1) = doe.
Proof.
  intros H. destruct (yoe_spec doe H) as [Y D]. unfold era_day.
  pose proof (all_below_spec _ _ doys_all (doe - year_start (yoe_of doe)) ltac:(lia)) as K.
  unfold doy_ok_b in K. destruct (md_of _) as [m d].
  repeat (apply andb_true_iff in K; destruct K as [K ?K]). apply Z.eqb_eq in K0.
  repeat split; try lia. rewrite K0. unfold year_start. lia.
Qed.

Lemma civil_eq z :
  let era := (z + 719468) / 146097 in
  let '(yoe, m, d) := era_day ((z + 719468) mod 146097) in
  civil_from_days z = mkcivil (if m <=? 2 then yoe + era * 400 + 1 else yoe + era * 400) m d.
Proof.
  unfold era_day, md_of, yoe_of, year_start, civil_from_days. cbv zeta.
  replace (z + 719468 - (z + 719468) / 146097 * 146097) with ((z + 719468) mod 146097).
  - reflexivity.
  - rewrite Z.mod_eq by lia. lia.
Qed.

Lemma civil_spec z :
  let c := civil_from_days z in
  days_from_civil c = z /\ 1 <= c_month c <= 12 /\ 1 <= c_day c <= 31.
Proof.
  cbv zeta. pose proof (civil_eq z) as E. cbv zeta in E.
  pose proof (Z.mod_pos_bound (z + 719468) 146097 ltac:(lia)) as B.
  pose proof (era_spec _ B) as K.
  destruct (era_day ((z + 719468) mod 146097)) as [[yoe m] d]. rewrite E. cbn [c_year c_month c_day].
  destruct K as (Y & M & D & K0).
  split; [|split; auto].
  unfold days_from_civil. cbn [c_year c_month c_day]. cbv zeta. set (era := (z + 719468) / 146097) in *.
  assert (Yr : (if m <=? 2 then (if m <=? 2 then yoe + era * 400 + 1 else yoe + era * 400) - 1
                else if m <=? 2 then yoe + era * 400 + 1 else yoe + era * 400) = yoe + era * 400)
    by (destruct (m <=? 2); lia).
  rewrite Yr. rewrite Z.div_add by lia. rewrite (Z.div_small yoe 400) by lia.
  replace (yoe + era * 400 - (0 + era) * 400) with yoe by lia.
  rewrite K0. pose proof (Z.div_mod (z + 719468) 146097 ltac:(lia)). fold era in H. lia.
Qed.

Theorem civil_injective z z' : civil_from_days z = civil_from_days z' -> z = z'.
Proof.
  intros H. pose proof (civil_spec z) as [A _]. pose proof (civil_spec z') as [B _].
  rewrite <- A, <- B. now rewrite H.
Qed.

(** ** decimal formatting *)
Lemma digits_nat f : forall n acc, (n < f)%nat ->
  digits_val 0 (nat_digits f n acc) = digits_val (Z.of_nat n) acc.
Proof.
  induction f as [|f IH]; intros n acc H; [lia|]. cbn [nat_digits].
  assert (Dig : Z.of_nat (nat_of_ascii (ascii_of_nat (48 + n mod 10)) - 48) = Z.of_nat (n mod 10)).
  { rewrite nat_ascii_embedding; [lia|]. pose proof (Nat.mod_upper_bound n 10). lia. }
  destruct (Nat.ltb_spec n 10).
  - cbn [digits_val]. rewrite Dig. rewrite Nat.mod_small by lia. f_equal.
  - rewrite IH.
    + cbn [digits_val]. rewrite Dig. f_equal.
      pose proof (Nat.div_mod n 10 ltac:(lia)). lia.
    + pose proof (Nat.div_lt n 10 ltac:(lia) ltac:(lia)). lia.
Qed.

Lemma digits_nat_str n : digits_val 0 (nat_str n) = Z.of_nat n.
Proof. unfold nat_str. rewrite digits_nat by lia. reflexivity. Qed.

Lemma nat_digits_length f : forall n acc w, (n < f)%nat -> (n < 10 ^ S w)%nat ->
  (String.length (nat_digits f n acc) <= S w + String.length acc)%nat.
Proof.
  induction f as [|f IH]; intros n acc w H Hw; [lia|]. cbn [nat_digits].
  destruct (Nat.ltb_spec n 10); [simpl; lia|].
  destruct w as [|w]; [simpl in Hw; lia|].
  etransitivity; [apply (IH _ _ w)|].
  - pose proof (Nat.div_lt n 10 ltac:(lia) ltac:(lia)). lia.
  - apply Nat.div_lt_upper_bound; [lia|]. simpl in *. lia.
  - simpl. lia.
Qed.

Lemma zeros_length k : String.length (zeros k) = k.
Proof. induction k; simpl; auto. Qed.
Lemma append_length a b : String.length (a ++ b)%string = (String.length a + String.length b)%nat.
Proof. induction a; simpl; auto. Qed.
Lemma digits_zeros k s : digits_val 0 (zeros k ++ s)%string = digits_val 0 s.
Proof. induction k; simpl; auto. Qed.

Lemma pad_length w n : 0 <= n < 10 ^ Z.of_nat (S w) -> String.length (pad (S w) n) = S w.
Proof.
  intros H. unfold pad. rewrite append_length, zeros_length.
  assert (String.length (nat_str (Z.to_nat n)) <= S w)%nat.
  { unfold nat_str. etransitivity; [apply (nat_digits_length _ _ _ w)|]; try lia.
    - apply Nat2Z.inj_lt. rewrite Z2Nat.id by lia. rewrite Nat2Z.inj_pow. simpl (Z.of_nat 10). lia.
    - simpl. lia. }
  lia.
Qed.

Lemma pad_value w n : 0 <= n -> digits_val 0 (pad w n) = n.
Proof. intros H. unfold pad. rewrite digits_zeros, digits_nat_str. lia. Qed.

Lemma pad_inj w n n' : 0 <= n -> 0 <= n' -> pad w n = pad w n' -> n = n'.
Proof. intros H H' E. rewrite <- (pad_value w n), <- (pad_value w n') by auto. now rewrite E. Qed.

Lemma append_inj_l a : forall a' b b', String.length a = String.length a' ->
  (a ++ b)%string = (a' ++ b')%string -> a = a' /\ b = b'.
Proof.
  induction a as [|c a IH]; intros [|c' a'] b b'; simpl; try discriminate; auto.
  intros [= L] [= -> E]. destruct (IH a' b b' L E) as [-> ->]. auto.
Qed.
Lemma append_cancel a : forall b b', (a ++ b)%string = (a ++ b')%string -> b = b'.
Proof. induction a as [|c a IH]; simpl; intros b b' E; auto. inversion E; auto. Qed.

Definition year_ok (c : civil) : Prop := 0 <= c_year c <= 9999.
Definition md_ok (c : civil) : Prop := 1 <= c_month c <= 12 /\ 1 <= c_day c <= 31.

Lemma date_str_length c : year_ok c -> md_ok c -> String.length (date_str c) = 8%nat.
Proof.
  intros Y [M D]. unfold year_ok in Y. unfold date_str. rewrite !append_length.
  rewrite (pad_length 3), (pad_length 1), (pad_length 1); auto; simpl; lia.
Qed.

Lemma date_str_inj c c' s s' : year_ok c -> md_ok c -> year_ok c' -> md_ok c' ->
  (date_str c ++ s)%string = (date_str c' ++ s')%string -> c = c' /\ s = s'.
Proof.
  intros Y M Y' M' E.
  apply append_inj_l in E as [E ->]; [|now rewrite !date_str_length].
  split; auto. unfold date_str in E. unfold year_ok, md_ok in *.
  apply append_inj_l in E as [E1 E]; [|rewrite !(pad_length 3); auto; simpl; lia].
  apply append_inj_l in E as [E2 E3]; [|rewrite !(pad_length 1); auto; simpl; lia].
  apply pad_inj in E1; [|lia|lia]. apply pad_inj in E2; [|lia|lia]. apply pad_inj in E3; [|lia|lia].
  destruct c, c'; simpl in *; subst; auto.
Qed.

(** ** file names *)
Definition stamp_year_ok (t : Z) : Prop := 0 <= c_year (civil_from_days (day_of t)) <= 9999.

Theorem filename_dates dir prefix g g' name t0 r t0' r' :
  g = t0 :: r -> g' = t0' :: r' ->
  (forall t, In t g -> stamp_year_ok t) -> (forall t, In t g' -> stamp_year_ok t) ->
  output_filename dir prefix g = Ok name -> output_filename dir prefix g' = Ok name ->
  day_of t0 = day_of t0' /\ day_of (last g t0) = day_of (last g' t0').
Proof.
  intros Eg Eg' Y Y' H H'. unfold output_filename, output_suffix in *. rewrite Eg in H. rewrite Eg' in H'.
  cbn [bind] in H, H'. rewrite <- Eg in H. rewrite <- Eg' in H'.
  injection H as H. injection H' as H'. rewrite <- H' in H. clear H'.
  apply append_cancel in H. injection H as H. apply append_cancel in H. injection H as H.
  assert (IL : In (last g t0) g) by (apply (last_In _ t0); congruence).
  assert (IL' : In (last g' t0') g') by (apply (last_In _ t0'); congruence).
  assert (MD : forall t, md_ok (civil_from_days (day_of t))).
  { intros t. pose proof (civil_spec (day_of t)) as (_ & A & B). split; auto. }
  assert (A0 : In t0 g) by (rewrite Eg; now left). assert (A0' : In t0' g') by (rewrite Eg'; now left).
  assert (As : forall a b c : string, ((a ++ b) ++ c)%string = (a ++ (b ++ c))%string).
  { induction a as [|x a IH]; intros; simpl; auto. now rewrite IH. }
  rewrite !As in H.
  apply date_str_inj in H as [E1 H]; auto; [|apply Y; auto|apply Y'; auto].
  simpl in H. injection H as H.
  apply date_str_inj in H as [E2 _]; auto; [|apply Y; auto|apply Y'; auto].
  apply civil_injective in E1. apply civil_injective in E2. auto.
Qed.

Theorem filenames_distinct bin times dir prefix g g' name :
  monotone_bins bin -> whole_day_bins bin -> StronglySorted Z.lt times ->
  (forall t, In t times -> stamp_year_ok t) ->
  In g (group_times bin times) -> In g' (group_times bin times) ->
  output_filename dir prefix g = Ok name -> output_filename dir prefix g' = Ok name -> g = g'.
Proof.
  intros Mono Wd S Y I I' H H'.
  destruct g as [|t0 r] eqn:Eg; [discriminate|]. destruct g' as [|t0' r'] eqn:Eg'; [discriminate|].
  rewrite <- Eg in *. rewrite <- Eg' in *.
  assert (J0 : In t0 g) by (rewrite Eg; now left). assert (J0' : In t0' g') by (rewrite Eg'; now left).
  destruct (filename_dates dir prefix g g' name t0 r t0' r') as [D _]; auto.
  { intros t Ht. apply Y. now apply (group_member bin times g t). }
  { intros t Ht. apply Y. now apply (group_member bin times g' t). }
  apply Wd in D.
  assert (F : forall g t, In g (group_times bin times) -> In t g -> g = filter (fun x => bin x =? bin t) times).
  { clear. intros g t Hg Ht. unfold group_times in Hg. destruct times as [|a l] eqn:E; [easy|]. rewrite <- E in *.
    apply in_map_iff in Hg as (b & <- & _). apply filter_In in Ht as [_ Hb]. apply Z.eqb_eq in Hb. now subst. }
  rewrite (F g t0), (F g' t0') by auto. now rewrite D.
Qed.

(** ** years *)
Lemma early_all : all_below 306 (fun doy => 3 <=? fst (md_of doy)) = true.
Proof. vm_compute. reflexivity. Qed.

Lemma era_year doe : 0 <= doe < 146037 ->
  let '(yoe, m, d) := era_day doe in yoe + (if m <=? 2 then 1 else 0) <= 399.
Proof.
  intros H. destruct (yoe_spec doe ltac:(lia)) as [Y D]. unfold era_day.
  destruct (Z.eq_dec (yoe_of doe) 399) as [E|N].
  - rewrite E in *. change (year_start 399) with 145731 in *.
    pose proof (all_below_spec _ _ early_all (doe - 145731) ltac:(lia)) as K. cbv beta in K.
    destruct (md_of _) as [m d]. simpl in K. destruct (Z.leb_spec m 2); lia.
  - destruct (md_of _) as [m d]. destruct (m <=? 2); lia.
Qed.

Lemma four_digit t : four_digit_year t -> stamp_year_ok t.
Proof.
  unfold four_digit_year, stamp_year_ok, day_of, minutes_per_day. intros H.
  set (z := t / 1440). assert (Hz : -719468 <= z < 2932897).
  { unfold z. split; [apply Z.div_le_lower_bound; lia|apply Z.div_lt_upper_bound; lia]. }
  pose proof (civil_eq z) as E. cbv zeta in E.
  pose proof (Z.mod_pos_bound (z + 719468) 146097 ltac:(lia)) as B.
  pose proof (era_spec _ B) as K.
  pose proof (Z.div_mod (z + 719468) 146097 ltac:(lia)) as DM.
  assert (Q : 0 <= (z + 719468) / 146097 <= 24).
  { split; [apply Z.div_pos; lia|]. apply Z.lt_succ_r. apply Z.div_lt_upper_bound; lia. }
  pose proof (era_year ((z + 719468) mod 146097)) as L.
  destruct (era_day ((z + 719468) mod 146097)) as [[yoe m] d]. rewrite E. cbn [c_year].
  destruct K as (K & _).
  set (era := (z + 719468) / 146097) in *. set (doe := (z + 719468) mod 146097) in *.
  destruct (Z.eq_dec era 24) as [E24|N].
  - assert (L' : yoe + (if m <=? 2 then 1 else 0) <= 399) by (apply L; lia).
    destruct (m <=? 2); lia.
  - destruct (m <=? 2); lia.
Qed.

Theorem filenames_distinct' bin times dir prefix g g' name :
  monotone_bins bin -> whole_day_bins bin -> StronglySorted Z.lt times ->
  (forall t, In t times -> four_digit_year t) ->
  In g (group_times bin times) -> In g' (group_times bin times) ->
  output_filename dir prefix g = Ok name -> output_filename dir prefix g' = Ok name -> g = g'.
Proof. intros A B C D. apply filenames_distinct; auto. intros t Ht. apply four_digit; auto. Qed.

Theorem filename_dates' dir prefix g g' name t0 r t0' r' :
  g = t0 :: r -> g' = t0' :: r' ->
  (forall t, In t (g ++ g') -> four_digit_year t) ->
  output_filename dir prefix g = Ok name -> output_filename dir prefix g' = Ok name ->
  t0 / 1440 = t0' / 1440 /\ last g t0 / 1440 = last g' t0' / 1440.
Proof.
  intros A B Y H H'. apply (filename_dates dir prefix g g' name t0 r t0' r'); auto;
  intros t Ht; apply four_digit, Y, in_or_app; auto.
Qed.

(** ** the whole path: axis, groups, records *)
Theorem times_concat freq start n ts pe :
  legal_time_step ts -> 1 <= n ->
  match freq with Some bin => monotone_bins bin | None => True end ->
  exists axis groups, output_axis start (start + (n - 1) * 1440) ts pe = Ok axis /\
    get_output_times freq start (start + (n - 1) * 1440) ts pe = Ok groups /\
    concat groups = axis.
Proof.
  intros L Hn M. destruct (output_axis_exact start n ts pe L Hn) as (axis & E & _ & _ & S).
  exists axis. unfold get_output_times. rewrite E. cbn [bind]. destruct freq as [bin|].
  - eexists. split; [reflexivity|]. split; [reflexivity|]. now apply groups_concat.
  - eexists. split; [reflexivity|]. split; [reflexivity|]. simpl. apply app_nil_r.
Qed.

Lemma whole_records {A} axis (values : list A) : StronglySorted Z.lt axis -> axis <> [] ->
  List.length values = List.length axis -> file_records axis values axis = values.
Proof.
  intros S N L. unfold file_records. destruct axis as [|t0 r] eqn:E; [congruence|]. rewrite <- E in *.
  assert (F : filter (fun p => (t0 <=? fst p) && (fst p <=? last axis t0))%bool (combine axis values)
              = combine axis values).
  { rewrite (filter_ext_In _ (fun _ => true)); [induction (combine axis values); simpl; congruence|].
    intros [t v] I. apply in_combine_l in I. cbn [fst]. apply andb_true_iff. rewrite !Z.leb_le. split.
    - rewrite E in I, S. destruct I as [->|I]; [lia|]. inversion S as [|? ? ? F]; subst.
      rewrite Forall_forall in F. specialize (F t I). lia.
    - apply (sorted_last Z.le); auto; [lia|]. clear - S. induction S as [|a l S IH F]; constructor; auto.
      rewrite Forall_forall in *. intros x Hx. specialize (F x Hx). lia. }
  rewrite F. clear - L. revert values L. induction axis as [|t axis IH]; intros [|v values]; simpl; try discriminate; auto.
  intros [= L]. now rewrite IH.
Qed.

Theorem records_exact {A} freq start n ts pe axis groups (values : list A) g :
  legal_time_step ts -> 1 <= n ->
  match freq with Some bin => monotone_bins bin | None => True end ->
  output_axis start (start + (n - 1) * 1440) ts pe = Ok axis ->
  get_output_times freq start (start + (n - 1) * 1440) ts pe = Ok groups ->
  List.length values = List.length axis -> In g groups ->
  List.length (file_records axis values g) = List.length g /\
  forall k i t, nth_error g k = Some t -> nth_error axis i = Some t ->
    nth_error (file_records axis values g) k = nth_error values i.
Proof.
  intros L Hn M Ha Hg Lv Ig. destruct (output_axis_exact start n ts pe L Hn) as (axis' & E & Len & _ & S).
  rewrite Ha in E. injection E as <-. unfold get_output_times in Hg. rewrite Ha in Hg. cbn [bind] in Hg.
  destruct freq as [bin|]; injection Hg as <-.
  - now apply (records_match bin).
  - destruct Ig as [<-|[]].
    assert (N : axis <> []).
    { intros ->. destruct L as (P & D & R). pose proof (mod0_div _ _ P D).
      simpl in Len. assert (1 <= 1440 / ts) by nia. nia. }
    rewrite whole_records by auto. split; auto.
    intros k i t Hk Hi. assert (k = i); [|congruence].
    eapply (proj1 (NoDup_nth_error axis)); [now apply sorted_NoDup| |congruence].
    apply nth_error_Some. congruence.
Qed.
