(** C116 *)
From Coq Require Import ZArith QArith Qround String Ascii List Bool Arith Lia Sorting.Sorted.
From Verif Require Import Model.Py Model.Calendar Model.Datetime Model.Output Model.Header Model.DateRange
  Spec.HeaderSpec Spec.UnitsSpec Spec.CalendarSpec Proofs.Base Proofs.DateProofs Proofs.YearProofs Proofs.HeaderProofs
  Proofs.UnitsProofs Proofs.OutputProofs Proofs.PeriodProofs Proofs.StateProofs.
Import ListNotations.
Local Open Scope list_scope.
Local Open Scope Z_scope.

(** ** dates of the standard calendar *)
Lemma yoe_iff y doe : 0 <= y < 400 -> year_start y <= doe <= year_end y -> yoe_of doe = y.
Proof.
  intros Y D. pose proof (all_below_spec _ _ years_all y Y) as K. unfold year_ok_b in K.
  repeat (apply andb_true_iff in K; destruct K as [K ?K]).
  pose proof (yoe_mono (year_start y) doe ltac:(lia)). pose proof (yoe_mono doe (year_end y) ltac:(lia)). lia.
Qed.

Lemma yoe_end doe : 0 <= doe < 146097 -> doe <= year_end (yoe_of doe).
Proof.
  intros H. destruct (yoe_spec doe H) as [Y D]. destruct (Z.le_gt_cases doe (year_end (yoe_of doe))) as [|G]; auto. exfalso.
  revert G. unfold year_end. destruct (Z.eqb_spec (yoe_of doe) 399); [lia|]. intros G.
  pose proof (all_below_spec _ _ years_all (yoe_of doe + 1) ltac:(lia)) as K. unfold year_ok_b in K.
  repeat (apply andb_true_iff in K; destruct K as [K ?K]).
  pose proof (yoe_mono (year_start (yoe_of doe + 1)) doe ltac:(lia)). lia.
Qed.

(** a March year of 366 days ends in a leap year *)
Definition leap_end_b (y : Z) : bool := Bool.eqb (year_end y - year_start y =? 365) (is_leap (y + 1)).
Lemma leap_end_all : all_below 400 leap_end_b = true.
Proof. vm_compute. reflexivity. Qed.
Definition leap_len_b (y : Z) : bool := (year_end y - year_start y =? 365) || (year_end y - year_start y =? 364).
Lemma leap_len_all : all_below 400 leap_len_b = true.
Proof. vm_compute. reflexivity. Qed.

(** day of the March year of a month and day of a leap year *)
Definition mar_of (m d : Z) : Z := (153 * ((m + 9) mod 12) + 2) / 5 + d - 1.
Definition leap_month (m : Z) : Z := month_days 4 m.
Definition md_b (m : Z) : bool :=
  all_below 31 (fun d => negb (d + 1 <=? leap_month (m + 1)) ||
    (let s := mar_of (m + 1) (d + 1) in (0 <=? s) && (s <=? 365) && Bool.eqb (s =? 365) ((m + 1 =? 2) && (d + 1 =? 29)) &&
      (fst (md_of s) =? m + 1) && (snd (md_of s) =? d + 1))).
Lemma md_all : all_below 12 md_b = true.
Proof. vm_compute. reflexivity. Qed.
Definition bound_b (s : Z) : bool := let '(m, d) := md_of s in (d <=? leap_month m) && Bool.eqb (s =? 365) ((m =? 2) && (d =? 29)).
Lemma bound_all : all_below 366 bound_b = true.
Proof. vm_compute. reflexivity. Qed.

Lemma month_days_leap y m : month_days y m = (if (m =? 2) && negb (is_leap y) then 28 else leap_month m).
Proof. unfold leap_month, month_days. destruct (m =? 2); cbn [andb]; auto. destruct (is_leap y); reflexivity. Qed.

Definition real_date (c : civil) : Prop := 1 <= c_month c <= 12 /\ 1 <= c_day c <= month_days (c_year c) (c_month c).

Lemma civil_real z : real_date (civil_from_days z).
Proof.
  pose proof (civil_spec z) as (_ & M & D). split; auto. split; [lia|].
  pose proof (civil_eq z) as E. cbv zeta in E. unfold era_day in E.
  pose proof (Z.mod_pos_bound (z + 719468) 146097 ltac:(lia)) as B.
  pose proof (yoe_end _ B) as L. destruct (yoe_spec _ B) as [Y S].
  set (q := (z + 719468) mod 146097) in *. set (y := yoe_of q) in *. set (e := (z + 719468) / 146097) in *.
  set (s := q - year_start y) in *.
  pose proof (all_below_spec _ _ bound_all s ltac:(lia)) as K. unfold bound_b in K.
  destruct (md_of s) as [m d]. rewrite E in *. cbn [c_year c_month c_day] in *. apply andb_true_iff in K as [K K'].
  rewrite month_days_leap. destruct (Z.eqb_spec m 2) as [->|N]; cbn [andb]; [|lia].
  change (2 <=? 2) with true. cbv iota. replace (y + e * 400 + 1) with (y + 1 + e * 400) by lia. rewrite is_leap_era.
  pose proof (all_below_spec _ _ leap_end_all y Y) as LE. unfold leap_end_b in LE.
  destruct (is_leap (y + 1)); cbn [negb]; [lia|]. apply eqb_prop in LE. apply Z.eqb_neq in LE.
  pose proof (all_below_spec _ _ leap_len_all y Y) as LL. unfold leap_len_b in LL. 
  destruct (Z.eqb_spec d 29) as [->|N].
  - apply eqb_prop in K'. cbn in K'. apply Z.eqb_eq in K'. lia.
  - change (leap_month 2) with 29 in K. lia.
Qed.

Lemma real_civil c : real_date c -> civil_from_days (days_from_civil c) = c.
Proof.
  destruct c as [y m d]. unfold real_date. cbn [c_year c_month c_day]. intros [M D].
  pose proof (all_below_spec _ _ md_all (m - 1) ltac:(lia)) as K0. unfold md_b in K0.
  replace (m - 1 + 1) with m in K0 by lia.
  rewrite month_days_leap in D.
  assert (DL : d <= leap_month m).
  { destruct (Z.eqb_spec m 2) as [->|]; [change (leap_month 2) with 29|cbn [andb] in D; lia]. cbn [andb] in D. destruct (is_leap y); cbn [negb] in D; [change (leap_month 2) with 29 in D|]; lia. }
  assert (L31 : leap_month m <= 31). { unfold leap_month, month_days. change (is_leap 4) with true. cbv iota. destruct (m =? 2); [lia|]. destruct (_ || _); lia. }
  pose proof (all_below_spec _ _ K0 (d - 1) ltac:(lia)) as K. cbv beta in K. clear K0. replace (d - 1 + 1) with d in K by lia.
  apply orb_true_iff in K as [K|K]; [apply negb_true_iff in K; lia|]. cbv zeta in K.
  set (s := mar_of m d) in *. repeat (apply andb_true_iff in K; destruct K as [K ?K]).
  destruct (md_of s) as [m' d'] eqn:MD. cbn [fst snd] in *. apply Z.eqb_eq in K0, K1. subst m' d'. apply eqb_prop in K2.
  assert (ML : m <= 2 <-> 306 <= s).
  { destruct (Z.le_gt_cases 306 s) as [G|G].
    - pose proof (all_below_spec _ _ late_all (s - 306) ltac:(lia)) as Q. cbv beta in Q.
      replace (306 + (s - 306)) with s in Q by lia. rewrite MD in Q. cbn [fst] in Q. lia.
    - pose proof (all_below_spec _ _ early_all s ltac:(lia)) as Q. cbv beta in Q. rewrite MD in Q. cbn [fst] in Q. lia. }
  set (yy := if m <=? 2 then y - 1 else y).
  assert (DF : days_from_civil (mkcivil y m d) = yy / 400 * 146097 + (year_start (yy mod 400) + s) - 719468).
  { unfold days_from_civil. cbn [c_year c_month c_day]. cbv zeta. fold yy. fold (mar_of m d). fold s. unfold year_start.
    replace (yy - yy / 400 * 400) with (yy mod 400) by (rewrite Z.mod_eq by lia; lia). lia. }
  pose proof (Z.mod_pos_bound yy 400 ltac:(lia)) as YB. pose proof (Z.div_mod yy 400 ltac:(lia)) as YD.
  pose proof (all_below_spec _ _ years_all _ YB) as V. unfold year_ok_b in V.
  repeat (apply andb_true_iff in V; destruct V as [V ?V]).
  assert (SE : year_start (yy mod 400) + s <= year_end (yy mod 400)).
  { pose proof (all_below_spec _ _ leap_len_all _ YB) as LL. unfold leap_len_b in LL.
    pose proof (all_below_spec _ _ leap_end_all _ YB) as LE. unfold leap_end_b in LE.
    destruct (Z.eq_dec s 365) as [E|N]; [|lia].
    rewrite E in K2. change (365 =? 365) with true in K2. symmetry in K2. apply andb_true_iff in K2 as [E1 E2].
    apply Z.eqb_eq in E1, E2.
    assert (YY : yy = y - 1) by (unfold yy; rewrite E1; reflexivity).
    rewrite E1, E2 in D. change (2 =? 2) with true in D. cbn [andb] in D.
    assert (LY : is_leap (yy mod 400 + 1) = is_leap y).
    { rewrite <- (is_leap_era (yy mod 400 + 1) (yy / 400)). f_equal. lia. }
    rewrite LY in LE. destruct (is_leap y); cbn [negb] in D; [|lia]. apply eqb_prop in LE. lia. }
  assert (Q1 : year_end (yy mod 400) <= 146096).
  { pose proof (all_below_spec 400 (fun y => year_end y <=? 146096) ltac:(vm_compute; reflexivity) _ YB) as Q. cbv beta in Q. lia. }
  pose proof (civil_eq (days_from_civil (mkcivil y m d))) as E. cbv zeta in E.
  set (doe := year_start (yy mod 400) + s) in *.
  assert (T1 : (yy / 400 * 146097 + doe - 719468 + 719468) / 146097 = yy / 400).
  { replace (yy / 400 * 146097 + doe - 719468 + 719468) with (doe + yy / 400 * 146097) by lia.
    rewrite Z.div_add, (Z.div_small doe) by lia. lia. }
  assert (T2 : (yy / 400 * 146097 + doe - 719468 + 719468) mod 146097 = doe).
  { replace (yy / 400 * 146097 + doe - 719468 + 719468) with (doe + yy / 400 * 146097) by lia.
    rewrite Z.mod_add by lia. apply Z.mod_small. lia. }
  rewrite DF in E. rewrite T1, T2 in E. unfold era_day in E. rewrite (yoe_iff (yy mod 400) doe YB ltac:(lia)) in E.
  replace (doe - year_start (yy mod 400)) with s in E by (unfold doe; lia). rewrite MD in E. rewrite DF, E.
  f_equal. unfold yy in *. destruct (m <=? 2); lia.
Qed.

(** ** dates of the other calendars *)
Definition month_b (d : Z) : bool :=
  let m := fixed_month d in (1 <=? m) && (m <=? 12) && (noleap_cum m <=? d) &&
    (d - noleap_cum m + 1 <=? month_days 1 m) && (noleap_cum m + (d - noleap_cum m + 1) - 1 =? d).
Lemma month_all : all_below 365 month_b = true.
Proof. vm_compute. reflexivity. Qed.
Definition cum_b (m : Z) : bool :=
  all_below 31 (fun d => negb (d + 1 <=? month_days 1 (m + 1)) ||
    let n := noleap_cum (m + 1) + d in (0 <=? n) && (n <? 365) && (fixed_month n =? m + 1)).
Lemma cum_all : all_below 12 cum_b = true.
Proof. vm_compute. reflexivity. Qed.

Lemma month_days_1 y m : month_days 1 m <= month_days y m.
Proof. rewrite !month_days_leap. change (is_leap 1) with false. destruct (Z.eqb_spec m 2) as [->|]; cbn [andb negb]; [|lia].
  destruct (is_leap y); cbn [negb]; [change (leap_month 2) with 29|]; lia. Qed.

Lemma month_days_le y m : month_days y m <= 31.
Proof. unfold month_days. destruct (m =? 2); [destruct (is_leap y); lia|]. destruct (_ || _); lia. Qed.

Lemma month_days_30 y m : m <> 2 -> 30 <= month_days y m.
Proof. unfold month_days. intros H. destruct (Z.eqb_spec m 2); [easy|]. destruct (_ || _); lia. Qed.

(** the date that a day number names has that number *)
Lemma fixed_date_num k n : fixed_day_num k (fixed_date k n) = Ok n.
Proof.
  destruct k; cbn [fixed_date fixed_day_num c_year c_month c_day]; cbv zeta.
  - pose proof (Z.mod_pos_bound n 365 ltac:(lia)) as B. pose proof (Z.div_mod n 365 ltac:(lia)) as D.
    pose proof (all_below_spec _ _ month_all _ B) as K. unfold month_b in K. cbv zeta in K.
    repeat (apply andb_true_iff in K; destruct K as [K ?K]).
    set (m := fixed_month (n mod 365)) in *.
    assert (NL : (m =? 2) && (n mod 365 - noleap_cum m + 1 =? 29) = false).
    { destruct (Z.eqb_spec m 2) as [->|]; cbn [andb]; auto. change (month_days 1 2) with 28 in *. apply Z.eqb_neq. lia. }
    rewrite NL. f_equal. lia.
  - pose proof (Z.mod_pos_bound n 30 ltac:(lia)) as B. destruct (Z.ltb_spec 30 (n mod 30 + 1)); [lia|]. f_equal.
    Z.to_euclidean_division_equations. lia.
Qed.

Lemma fixed_date_month k n : 1 <= c_month (fixed_date k n) <= 12 /\ 1 <= c_day (fixed_date k n).
Proof.
  destruct k; cbn [fixed_date c_month c_day]; cbv zeta.
  - pose proof (Z.mod_pos_bound n 365 ltac:(lia)) as B.
    pose proof (all_below_spec _ _ month_all _ B) as K. unfold month_b in K. cbv zeta in K.
    repeat (apply andb_true_iff in K; destruct K as [K ?K]). lia.
  - Z.to_euclidean_division_equations. lia.
Qed.

Lemma ok_eq {A} (x y : A) : Ok x = Ok y -> x = y.
Proof. congruence. Qed.

Lemma fixed_date_of k z n : fixed_day_num k (civil_from_days z) = Ok n -> fixed_date k n = civil_from_days z.
Proof.
  pose proof (civil_real z) as R0. destruct (civil_from_days z) as [y m d]. unfold real_date in R0.
  cbn [c_year c_month c_day] in R0. destruct R0 as [M D].
  destruct k; cbn [fixed_date fixed_day_num c_year c_month c_day]; cbv zeta.
  - destruct ((m =? 2) && (d =? 29)) eqn:NL; [discriminate|]. intros H. apply ok_eq in H. subst n.
    assert (D1 : d <= month_days 1 m).
    { rewrite month_days_leap in D. rewrite month_days_leap. change (is_leap 1) with false. cbn [negb].
      destruct (Z.eqb_spec m 2) as [->|]; cbn [andb] in *; [|lia]. apply Z.eqb_neq in NL.
      destruct (is_leap y); cbn [negb] in D; [change (leap_month 2) with 29 in D|]; lia. }
    pose proof (month_days_le 1 m) as L.
    pose proof (all_below_spec _ _ cum_all (m - 1) ltac:(lia)) as K. unfold cum_b in K.
    replace (m - 1 + 1) with m in K by lia.
    pose proof (all_below_spec _ _ K (d - 1) ltac:(lia)) as K1. cbv beta zeta in K1. replace (d - 1 + 1) with d in K1 by lia.
    apply orb_true_iff in K1 as [K1|K1]; [apply negb_true_iff in K1; lia|].
    repeat (apply andb_true_iff in K1; destruct K1 as [K1 ?K1]).
    replace (365 * (y - 1) + noleap_cum m + d - 1) with (noleap_cum m + (d - 1) + (y - 1) * 365) by lia.
    set (p := noleap_cum m + (d - 1)) in *.
    assert (E1 : (p + (y - 1) * 365) / 365 = y - 1) by (rewrite Z.div_add, (Z.div_small p) by lia; lia).
    assert (E2 : (p + (y - 1) * 365) mod 365 = p) by (rewrite Z.mod_add by lia; apply Z.mod_small; lia).
    cbn [fixed_date]. cbv zeta. rewrite E1, E2. apply Z.eqb_eq in K0. rewrite K0. f_equal; unfold p; lia.
  - destruct (Z.ltb_spec 30 d); [discriminate|]. intros H0. apply ok_eq in H0. subst n.
    assert (E1 : (360 * (y - 1) + 30 * (m - 1) + d - 1) / 360 = y - 1) by (Z.to_euclidean_division_equations; lia).
    assert (E2 : (360 * (y - 1) + 30 * (m - 1) + d - 1) mod 360 / 30 = m - 1) by (Z.to_euclidean_division_equations; lia).
    assert (E3 : (360 * (y - 1) + 30 * (m - 1) + d - 1) mod 30 = d - 1) by (Z.to_euclidean_division_equations; lia).
    cbn [fixed_date]. rewrite E1, E2, E3. f_equal; lia.
Qed.

Lemma real_of_num k z n : fixed_day_num k (civil_from_days z) = Ok n -> real_day k n = Ok z.
Proof.
  intros H. unfold real_day. rewrite (fixed_date_of _ _ _ H). destruct (civil_real z) as [M D].
  destruct (Z.leb_spec (c_day (civil_from_days z)) (month_days (c_year (civil_from_days z)) (c_month (civil_from_days z)))); [|lia].
  f_equal. apply civil_spec.
Qed.

Lemma num_of_real k z n : real_day k n = Ok z -> fixed_day_num k (civil_from_days z) = Ok n.
Proof.
  unfold real_day. destruct (Z.leb_spec (c_day (fixed_date k n)) (month_days (c_year (fixed_date k n)) (c_month (fixed_date k n)))) as [L|]; [|discriminate].
  intros H. injection H as <-. rewrite real_civil; [apply fixed_date_num|]. pose proof (fixed_date_month k n). split; lia.
Qed.

Lemma real_day_err k n e : real_day k n = Err e -> e = ValueError.
Proof. unfold real_day. destruct (_ <=? _); congruence. Qed.

Lemma real_noleap n : exists z, real_day NoLeap n = Ok z.
Proof.
  unfold real_day. cbn [fixed_date c_year c_month c_day]. cbv zeta.
  pose proof (Z.mod_pos_bound n 365 ltac:(lia)) as B.
  pose proof (all_below_spec _ _ month_all _ B) as K. unfold month_b in K. cbv zeta in K.
  repeat (apply andb_true_iff in K; destruct K as [K ?K]).
  pose proof (month_days_1 (n / 365 + 1) (fixed_month (n mod 365))).
  destruct (Z.leb_spec (n mod 365 - noleap_cum (fixed_month (n mod 365)) + 1) (month_days (n / 365 + 1) (fixed_month (n mod 365)))); [eauto|lia].
Qed.

(** the only dates of the 360 day calendar without a real date *)
Lemma real_360 n : (exists z, real_day Days360 n = Ok z) \/
  exists y, n = 360 * (y - 1) + 58 /\ is_leap y = false \/ n = 360 * (y - 1) + 59.
Proof.
  unfold real_day. cbn [fixed_date c_year c_month c_day]. 
  destruct (Z.leb_spec (n mod 30 + 1) (month_days (n / 360 + 1) (n mod 360 / 30 + 1))) as [|G]; [left; eauto|right].
  exists (n / 360 + 1). destruct (Z.eq_dec (n mod 360 / 30 + 1) 2) as [E|N].
  - rewrite E in G. unfold month_days in G. change (2 =? 2) with true in G. cbv iota in G.
    destruct (is_leap (n / 360 + 1)); [right|].
    + Z.to_euclidean_division_equations. lia.
    + assert (n mod 30 = 28 \/ n mod 30 = 29) as [H|H] by (Z.to_euclidean_division_equations; lia).
      * left. split; [Z.to_euclidean_division_equations; lia|reflexivity].
      * right. Z.to_euclidean_division_equations; lia.
  - pose proof (month_days_30 (n / 360 + 1) _ N). pose proof (Z.mod_pos_bound n 30 ltac:(lia)). lia.
Qed.

Lemma feb_30 y : real_day Days360 (360 * (y - 1) + 59) = Err ValueError.
Proof.
  unfold real_day. cbn [fixed_date c_year c_month c_day].
  assert (E1 : (360 * (y - 1) + 59) / 360 = y - 1) by (Z.to_euclidean_division_equations; lia).
  assert (E2 : (360 * (y - 1) + 59) mod 360 / 30 = 1) by (Z.to_euclidean_division_equations; lia).
  assert (E3 : (360 * (y - 1) + 59) mod 30 = 29) by (Z.to_euclidean_division_equations; lia).
  rewrite E1, E2, E3. unfold month_days. change (1 + 1 =? 2) with true. cbv iota. destruct (is_leap _); reflexivity.
Qed.

(** ** minutes *)
Lemma has_num k t : has_date k t = true <-> exists n, fixed_day_num k (civil_from_days (t / 1440)) = Ok n.
Proof.
  unfold has_date, date_of, fixed_day_num. destruct k.
  - destruct (_ && _); cbn [negb]; split; eauto; [discriminate|intros [n H]; discriminate].
  - destruct (Z.leb_spec (c_day (civil_from_days (t / 1440))) 30), (Z.ltb_spec 30 (c_day (civil_from_days (t / 1440)))); try lia; split; eauto;
      try discriminate. intros [n H1]; discriminate.
Qed.

Lemma minute_iff k t A : minute_num (Fixed k) t = Ok A <->
  fixed_day_num k (civil_from_days (t / 1440)) = Ok (A / 1440) /\ A mod 1440 = t mod 1440.
Proof.
  cbn [minute_num]. unfold day_of, minutes_per_day. destruct (fixed_day_num k (civil_from_days (t / 1440))) as [n|e]; cbn [bind].
  - pose proof (Z.mod_pos_bound t 1440 ltac:(lia)) as B. split.
    + intros H. apply ok_eq in H. subst A. rewrite Z.add_comm. rewrite Z.div_add, Z.mod_add, Z.div_small, Z.mod_mod by lia. split; f_equal; lia.
    + intros [H1 H2]. apply ok_eq in H1. f_equal. pose proof (Z.div_mod A 1440 ltac:(lia)). lia.
  - split; [discriminate|intros [H _]; discriminate].
Qed.

Lemma minute_order k t t' A A' : minute_num (Fixed k) t = Ok A -> minute_num (Fixed k) t' = Ok A' -> (t < t' <-> A < A').
Proof.
  intros H H'. apply minute_iff in H as [H M]. apply minute_iff in H' as [H' M'].
  pose proof (Z.div_mod t 1440 ltac:(lia)) as D. pose proof (Z.div_mod t' 1440 ltac:(lia)) as D'.
  pose proof (Z.div_mod A 1440 ltac:(lia)) as E. pose proof (Z.div_mod A' 1440 ltac:(lia)) as E'.
  pose proof (Z.mod_pos_bound t 1440 ltac:(lia)). pose proof (Z.mod_pos_bound t' 1440 ltac:(lia)).
  destruct (Z.lt_trichotomy (t / 1440) (t' / 1440)) as [L|[Q|L]].
  - pose proof (fixed_mono _ _ _ _ _ L H H'). lia.
  - rewrite Q in H. rewrite H in H'. apply ok_eq in H'. lia.
  - pose proof (fixed_mono _ _ _ _ _ L H' H). lia.
Qed.

Lemma minute_le k t t' A A' : minute_num (Fixed k) t = Ok A -> minute_num (Fixed k) t' = Ok A' -> (t <= t' <-> A <= A').
Proof.
  intros H H'. pose proof (minute_order _ _ _ _ _ H' H) as [P Q].
  split; intros L; [destruct (Z.le_gt_cases A A') as [|G]; [auto|apply Q in G]|destruct (Z.le_gt_cases t t') as [|G]; [auto|apply P in G]]; lia.
Qed.

(** the time stamp of minute [n] *)
Definition back (k : fixed_calendar) (n : Z) : Z :=
  match real_day k (n / 1440) with Ok d => d * 1440 + n mod 1440 | Err _ => 0 end.

Lemma back_minute k n z : real_day k (n / 1440) = Ok z -> minute_num (Fixed k) (back k n) = Ok n.
Proof.
  intros H. unfold back. rewrite H. apply minute_iff. pose proof (Z.mod_pos_bound n 1440 ltac:(lia)) as B.
  rewrite Z.add_comm, Z.div_add, Z.mod_add, Z.div_small, Z.mod_mod by lia. split; [|auto]. apply num_of_real. auto.
Qed.

Lemma minute_back k t n : minute_num (Fixed k) t = Ok n -> back k n = t /\ exists z, real_day k (n / 1440) = Ok z.
Proof.
  intros H. apply minute_iff in H as [H M]. apply real_of_num in H. unfold back. rewrite H. split; [|eauto].
  pose proof (Z.div_mod t 1440 ltac:(lia)). lia.
Qed.

Lemma floor_day q n : (q == inject_Z n)%Q -> Qfloor (q / inject_Z minutes_per_day) = n / 1440.
Proof. intros H. unfold minutes_per_day. rewrite (Zdiv_Qdiv n 1440). apply Qfloor_comp. rewrite H. reflexivity. Qed.

Lemma real_stamp_ok k q n z : (q == inject_Z n)%Q -> real_day k (n / 1440) = Ok z ->
  exists r, real_stamp (Fixed k) q = Ok r /\ (r == inject_Z (back k n))%Q.
Proof.
  intros E H. cbn [real_stamp]. cbv zeta. rewrite (floor_day _ _ E), H. cbn [bind]. eexists. split; [reflexivity|].
  unfold back. rewrite H. rewrite E. unfold midnight, minutes_per_day, Qminus.
  rewrite <- inject_Z_opp, <- !inject_Z_plus. pose proof (Z.div_mod n 1440 ltac:(lia)).
  replace (z * 1440 + (n + - (n / 1440 * 1440))) with (z * 1440 + n mod 1440) by lia. reflexivity.
Qed.

Lemma real_stamp_err k q n e : (q == inject_Z n)%Q -> real_day k (n / 1440) = Err e -> real_stamp (Fixed k) q = Err ValueError.
Proof. intros E H. cbn [real_stamp]. cbv zeta. rewrite (floor_day _ _ E), H. cbn [bind]. f_equal. eapply real_day_err; eauto. Qed.

(** ** ranges *)
Lemma in_zrange a s n x : In x (zrange a s n) <-> exists i, 0 <= i < n /\ x = a + i * s.
Proof.
  unfold zrange. rewrite in_map_iff. split.
  - intros (i & <- & I). apply in_seq in I. exists (Z.of_nat i). lia.
  - intros (i & I & ->). exists (Z.to_nat i). rewrite Z2Nat.id by lia. split; [auto|]. apply in_seq. lia.
Qed.

Lemma map_sorted f l : (forall x y, In x l -> In y l -> x < y -> f x < f y) -> StronglySorted Z.lt l -> StronglySorted Z.lt (map f l).
Proof.
  induction l as [|x l IH]; intros M S; cbn [map]; constructor; inversion S as [|? ? S1 F1]; subst.
  - apply IH; auto. intros; apply M; auto; now right.
  - rewrite Forall_forall in *. intros y I. apply in_map_iff in I as (w & <- & I). apply M; [now left|now right|auto].
Qed.

Lemma filter_sorted p l : StronglySorted Z.lt l -> StronglySorted Z.lt (filter p l).
Proof.
  induction 1 as [|x l S IH F]; cbn [filter]; [constructor|]. destruct (p x); auto. constructor; auto.
  rewrite Forall_forall in *. intros y I. apply filter_In in I. apply F, I.
Qed.

Section Range.
  Variables (k : fixed_calendar) (a b ts A B : Z).
  Hypotheses (T0 : 0 < ts) (TD : 1440 mod ts = 0) (AB : a <= b) (M : (b - a) mod ts = 0)
    (HA : minute_num (Fixed k) a = Ok A) (HB : minute_num (Fixed k) b = Ok B).

  Lemma range_order : A <= B.
  Proof.
    destruct (Z.eq_dec a b) as [E|N]; [rewrite E in HA; rewrite HA in HB; apply ok_eq in HB; lia|].
    pose proof (proj1 (minute_order _ _ _ _ _ HA HB)). lia.
  Qed.

  (** numbers and stamps differ by whole days *)
  Lemma day_steps : exists c, 1440 = c * ts.
  Proof. exists (1440 / ts). pose proof (Z.div_mod 1440 ts ltac:(lia)). lia. Qed.

  Lemma same_phase t n : minute_num (Fixed k) t = Ok n -> ((n - A) mod ts = 0 <-> (t - a) mod ts = 0).
  Proof.
    intros H. apply minute_iff in H as [_ H]. pose proof (proj2 (proj1 (minute_iff _ _ _) HA)) as H'.
    destruct day_steps as [c C].
    pose proof (Z.div_mod t 1440 ltac:(lia)) as D1. pose proof (Z.div_mod a 1440 ltac:(lia)) as D2.
    pose proof (Z.div_mod n 1440 ltac:(lia)) as D3. pose proof (Z.div_mod A 1440 ltac:(lia)) as D4.
    assert (E : n - A = t - a + (n / 1440 - A / 1440 - t / 1440 + a / 1440) * c * ts).
    { rewrite <- Z.mul_assoc, <- C. lia. }
    rewrite E, Z.mod_add by lia. reflexivity.
  Qed.

  Lemma range_even : (B - A) mod ts = 0.
  Proof. apply (same_phase b B HB). exact M. Qed.

  Lemma range_nums : exists l, date_range_other A B ts = Ok l /\ same_stamps l (zrange A ts ((B - A) / ts + 1)).
  Proof.
    destruct (even_axis A B ts T0 range_order range_even) as (l & l' & H & H' & _ & F & _). exists l. split; auto.
    unfold pd_date_range in H'. destruct (ts =? 0); [discriminate|]. apply ok_eq in H'. subst l'. exact F.
  Qed.

  Lemma num_bounds n : In n (zrange A ts ((B - A) / ts + 1)) <-> A <= n <= B /\ (n - A) mod ts = 0.
  Proof.
    rewrite in_zrange. pose proof range_even as RE. pose proof (Z.div_mod (B - A) ts ltac:(lia)) as D. split.
    - intros (i & I & ->). split; [nia|]. replace (A + i * ts - A) with (0 + i * ts) by lia. rewrite Z.mod_add by lia. apply Z.mod_0_l. lia.
    - intros (I & E). exists ((n - A) / ts). pose proof (Z.div_mod (n - A) ts ltac:(lia)) as D'. split; [|nia].
      split; [apply Z.div_pos; lia|]. pose proof (Z.div_le_mono (n - A) (B - A) ts ltac:(lia) ltac:(lia)). lia.
  Qed.

  Lemma stamp_bounds t : In t (stamps a b ts) <-> a <= t <= b /\ (t - a) mod ts = 0.
  Proof.
    change (stamps a b ts) with (zrange a ts ((b - a) / ts + 1)).
    rewrite in_zrange. pose proof (Z.div_mod (b - a) ts ltac:(lia)) as D. pose proof (Z.mod_pos_bound (b - a) ts T0). split.
    - intros (i & I & ->). split; [nia|]. replace (a + i * ts - a) with (0 + i * ts) by lia. rewrite Z.mod_add by lia. apply Z.mod_0_l. lia.
    - intros (I & E). exists ((t - a) / ts). pose proof (Z.div_mod (t - a) ts ltac:(lia)) as D'. split; [|nia].
      split; [apply Z.div_pos; lia|]. pose proof (Z.div_le_mono (t - a) (b - a) ts ltac:(lia) ltac:(lia)). lia.
  Qed.

  Lemma day_range n : A <= n <= B -> A / 1440 <= n / 1440 <= B / 1440.
  Proof. intros H. split; apply Z.div_le_mono; lia. Qed.

  Lemma range_good : (forall d, A / 1440 <= d <= B / 1440 -> exists z, real_day k d = Ok z) ->
    exists l r, date_range_other A B ts = Ok l /\ mapM (real_stamp (Fixed k)) l = Ok r /\
      same_stamps r (filter (has_date k) (stamps a b ts)) /\ List.length r = Z.to_nat ((B - A) / ts + 1).
  Proof.
    intros G. destruct range_nums as (l & Hl & F). exists l.
    assert (R : exists r, mapM (real_stamp (Fixed k)) l = Ok r /\ same_stamps r (map (back k) (zrange A ts ((B - A) / ts + 1)))).
    { assert (N : forall n, In n (zrange A ts ((B - A) / ts + 1)) -> exists z, real_day k (n / 1440) = Ok z).
      { intros n I. apply G, day_range. apply num_bounds. exact I. }
      revert F N. generalize (zrange A ts ((B - A) / ts + 1)) as ns. clear Hl. induction 1 as [|q n l ns E F IH]; intros N; [exists []; split; [reflexivity|constructor]|].
      destruct IH as (r & Hr & Fr). { intros; apply N; now right. }
      destruct (N n (or_introl eq_refl)) as [z Hz]. destruct (real_stamp_ok k q n z E Hz) as (x & Hx & Ex).
      exists (x :: r). cbn [mapM map]. rewrite Hx. cbn [bind]. rewrite Hr. cbn [bind]. split; [reflexivity|]. constructor; auto. }
    destruct R as (r & Hr & Fr). exists r. split; auto. split; auto.
    enough (E : map (back k) (zrange A ts ((B - A) / ts + 1)) = filter (has_date k) (stamps a b ts)).
    { split; [now rewrite <- E|]. apply Forall2_len in Fr. rewrite Fr, map_length. unfold zrange. now rewrite map_length, seq_length. }
    apply sorted_unique.
    - apply map_sorted; [|apply zrange_sorted; lia]. intros x y Ix Iy L. apply num_bounds in Ix, Iy.
      destruct (G (x / 1440)) as [zx Zx]; [apply day_range; tauto|]. destruct (G (y / 1440)) as [zy Zy]; [apply day_range; tauto|].
      apply (minute_order k _ _ x y); eauto using back_minute.
    - apply filter_sorted. change (stamps a b ts) with (zrange a ts ((b - a) / ts + 1)). apply zrange_sorted. lia.
    - intros t. rewrite filter_In, stamp_bounds, in_map_iff. split.
      + intros (n & <- & I). apply num_bounds in I as (I & E). destruct (G (n / 1440) (day_range _ I)) as [z Zn].
        pose proof (back_minute _ _ _ Zn) as Bn. split; [split|].
        * split; [apply (minute_le _ _ _ _ _ HA Bn)|apply (minute_le _ _ _ _ _ Bn HB)]; lia.
        * apply (same_phase _ _ Bn). exact E.
        * apply has_num. apply minute_iff in Bn as [Bn _]. eauto.
      + intros ((I & E) & H). apply has_num in H as [d Hd].
        assert (Bt : minute_num (Fixed k) t = Ok (d * 1440 + t mod 1440)).
        { apply minute_iff. pose proof (Z.mod_pos_bound t 1440 ltac:(lia)).
          rewrite (Z.add_comm (d * 1440)), Z.div_add, Z.mod_add, (Z.div_small (t mod 1440)), Z.mod_mod by lia. auto. }
        exists (d * 1440 + t mod 1440). split; [apply (minute_back _ _ _ Bt)|]. apply num_bounds. split.
        * split; [apply (minute_le _ _ _ _ _ HA Bt)|apply (minute_le _ _ _ _ _ Bt HB)]; lia.
        * apply (same_phase _ _ Bt). exact E.
  Qed.

  Lemma range_bad d e : A / 1440 < d < B / 1440 -> real_day k d = Err e ->
    exists l, date_range_other A B ts = Ok l /\ mapM (real_stamp (Fixed k)) l = Err ValueError.
  Proof.
    intros I H. destruct range_nums as (l & Hl & F). exists l. split; auto.
    destruct day_steps as [c C].
    set (n := A + (d - A / 1440) * 1440).
    assert (D : n / 1440 = d) by (unfold n; rewrite Z.div_add by lia; lia).
    assert (J : In n (zrange A ts ((B - A) / ts + 1))).
    { apply num_bounds. split.
      - pose proof (Z.div_mod A 1440 ltac:(lia)). pose proof (Z.div_mod B 1440 ltac:(lia)).
        pose proof (Z.mod_pos_bound A 1440 ltac:(lia)). pose proof (Z.mod_pos_bound B 1440 ltac:(lia)). unfold n. nia.
      - unfold n. replace (A + (d - A / 1440) * 1440 - A) with (0 + (d - A / 1440) * c * ts) by (rewrite <- Z.mul_assoc, <- C; lia).
        rewrite Z.mod_add by lia. apply Z.mod_0_l. lia. }
    apply In_nth_error in J as [i J].
    assert (Q : exists q, nth_error l i = Some q /\ (q == inject_Z n)%Q).
    { clear - F J. revert i J. unfold same_stamps in F. induction F as [|x y l l' E F IH]; intros [|i] J; try discriminate.
      - cbn in J. injection J as ->. exists x. auto.
      - apply IH. exact J. }
    destruct Q as (q & Q & E). apply nth_error_In in Q.
    rewrite <- D in H. apply (mapM_Err_kind _ _ q ValueError Q (real_stamp_err _ _ _ _ E H)).
    intros y e' _ Hy. cbn [real_stamp] in Hy. cbv zeta in Hy.
    destruct (real_day k (Qfloor (y / inject_Z minutes_per_day))) eqn:W; cbn [bind] in Hy; [discriminate|].
    injection Hy as <-. eapply real_day_err; eauto.
  Qed.
End Range.

(** ** [date_range] *)
Lemma every_step freq ts : every freq ts -> freq_step freq = Ok ts.
Proof.
  intros (u & s & I & H). unfold freq_step.
  assert (K : exists w, In (w, s) [(Minutes, "T"); (Hours, "H"); (Days, "D")]%string /\ minutes_in w = u).
  { cbn [In] in I. destruct I as [I|[I|[I|[]]]]; injection I as <- <-; eexists; (split; [cbn [In]; eauto|reflexivity]). }
  destruct K as (w & J & <-). destruct H as [[-> ->]|(n & -> & ->)].
  - rewrite (proj2 (freq_roundtrip 0 w s J)). cbn [bind fst snd]. f_equal. lia.
  - rewrite (proj1 (freq_roundtrip n w s J)). reflexivity.
Qed.

Lemma every_minutes n : every (freq_minutes n) (Z.of_nat n).
Proof. exists 1, "T"%string. split; [now left|]. right. exists n. split; [reflexivity|lia]. Qed.

Lemma named_not name k : named name k -> is_standard name = false /\ cf_calendar name = Some (Fixed k).
Proof. unfold named. cbn [In]. intros [H|[H|[H|[]]]]; injection H as <- <-; split; reflexivity. Qed.

Lemma no_date k t : has_date k t = false -> minute_num (Fixed k) t = Err ValueError.
Proof.
  intros H. cbn [minute_num]. unfold day_of, minutes_per_day. pose proof (has_num k t) as N. rewrite H in N.
  pose proof (fixed_num k (t / 1440)) as F. destruct (fixed_day_num k (civil_from_days (t / 1440))) as [n|e]; cbn [bind]; [|now rewrite F].
  destruct N as [_ N]. discriminate N. eauto.
Qed.

Lemma with_date k t : has_date k t = true -> exists n, minute_num (Fixed k) t = Ok n.
Proof. intros H. apply has_num in H as [n H]. cbn [minute_num]. unfold day_of, minutes_per_day. rewrite H. cbn [bind]. eauto. Qed.

Theorem missing_ends name k freq ts a b : named name k -> every freq ts ->
  has_date k a = false \/ has_date k b = false -> date_range name a b freq = Some (Err ValueError).
Proof.
  intros N Ev H. destruct (named_not _ _ N) as [S C]. unfold date_range. rewrite S, C, (every_step _ _ Ev). cbn [bind].
  destruct (has_date k a) eqn:HA.
  - destruct H as [H|H]; [discriminate|]. destruct (with_date _ _ HA) as [n ->]. cbn [bind]. now rewrite (no_date _ _ H).
  - now rewrite (no_date _ _ HA).
Qed.

Lemma fixed_unfold name k freq ts a b A B : named name k -> every freq ts ->
  minute_num (Fixed k) a = Ok A -> minute_num (Fixed k) b = Ok B ->
  date_range name a b freq = Some (do l <- date_range_other A B ts; mapM (real_stamp (Fixed k)) l).
Proof.
  intros N Ev HA HB. destruct (named_not _ _ N) as [S C]. unfold date_range. rewrite S, C, (every_step _ _ Ev). cbn [bind].
  now rewrite HA, HB.
Qed.

Lemma noleap_len name freq ts a b A B : named name NoLeap -> every freq ts -> 0 < ts -> 1440 mod ts = 0 -> a <= b -> (b - a) mod ts = 0 ->
  minute_num (Fixed NoLeap) a = Ok A -> minute_num (Fixed NoLeap) b = Ok B ->
  exists l, date_range name a b freq = Some (Ok l) /\ same_stamps l (filter (has_date NoLeap) (stamps a b ts)) /\
    List.length l = Z.to_nat ((B - A) / ts + 1).
Proof.
  intros N Ev T0 TD AB M HA HB. rewrite (fixed_unfold _ _ _ _ _ _ _ _ N Ev HA HB).
  destruct (range_good NoLeap a b ts A B T0 TD AB M HA HB) as (l & r & H1 & H2 & H3 & H4). { intros d _. apply real_noleap. }
  exists r. rewrite H1. cbn [bind]. rewrite H2. split; [reflexivity|]. split; [exact H3|exact H4].
Qed.

Theorem noleap_range name freq ts a b : named name NoLeap -> every freq ts -> 0 < ts -> 1440 mod ts = 0 -> a <= b -> (b - a) mod ts = 0 ->
  has_date NoLeap a = true -> has_date NoLeap b = true ->
  exists l, date_range name a b freq = Some (Ok l) /\ same_stamps l (filter (has_date NoLeap) (stamps a b ts)).
Proof.
  intros N Ev T0 TD AB M HA HB. destruct (with_date _ _ HA) as [A EA]. destruct (with_date _ _ HB) as [B EB].
  destruct (noleap_len name freq ts a b A B) as (l & H1 & H2 & _); eauto.
Qed.

(** first of March *)
Lemma march_first y : civil_from_days (days_from_civil (mkcivil y 3 1)) = mkcivil y 3 1.
Proof. apply real_civil. unfold real_date. cbn [c_year c_month c_day]. change (month_days y 3) with 31. lia. Qed.

Lemma march_num y : minute_num (Fixed Days360) (1440 * days_from_civil (mkcivil y 3 1)) = Ok ((360 * (y - 1) + 60) * 1440).
Proof.
  apply minute_iff. rewrite Z.mul_comm, !Z.div_mul, !Z.mod_mul by lia. rewrite march_first. split; [|reflexivity].
  cbn [fixed_day_num c_year c_month c_day]. change (30 <? 1) with false. cbv iota. f_equal. lia.
Qed.

Theorem range_360 name freq ts a b : named name Days360 -> every freq ts -> 0 < ts -> 1440 mod ts = 0 -> a <= b -> (b - a) mod ts = 0 ->
  has_date Days360 a = true -> has_date Days360 b = true ->
  (crosses_february a b -> date_range name a b freq = Some (Err ValueError)) /\
  (~ crosses_february a b -> exists l, date_range name a b freq = Some (Ok l) /\
     same_stamps l (filter (has_date Days360) (stamps a b ts))).
Proof.
  intros N Ev T0 TD AB M HA HB. destruct (with_date _ _ HA) as [A EA]. destruct (with_date _ _ HB) as [B EB].
  rewrite (fixed_unfold _ _ _ _ _ _ _ _ N Ev EA EB).
  destruct (minute_back _ _ _ EA) as [_ [za Za]]. destruct (minute_back _ _ _ EB) as [_ [zb Zb]].
  pose proof (Z.div_mod A 1440 ltac:(lia)) as DA. pose proof (Z.div_mod B 1440 ltac:(lia)) as DB.
  pose proof (Z.mod_pos_bound A 1440 ltac:(lia)) as MA. pose proof (Z.mod_pos_bound B 1440 ltac:(lia)) as MB.
  split.
  - intros (y & C1 & C2). pose proof (march_num y) as F.
    pose proof (proj1 (minute_order _ _ _ _ _ EA F) C1) as L1. pose proof (proj1 (minute_le _ _ _ _ _ F EB) C2) as L2.
    destruct (range_bad Days360 a b ts A B T0 TD AB M EA EB (360 * (y - 1) + 59) ValueError) as (l & H1 & H2).
    + assert (A / 1440 <> 360 * (y - 1) + 59) by (intros E; rewrite E, feb_30 in Za; discriminate). lia.
    + apply feb_30.
    + rewrite H1. cbn [bind]. now rewrite H2.
  - intros NC. destruct (range_good Days360 a b ts A B T0 TD AB M EA EB) as (l & r & H1 & H2 & H3 & _).
    + intros d I. destruct (real_360 d) as [R|(y & R)]; [auto|]. exfalso. apply NC. exists y. pose proof (march_num y) as F.
      assert (ER : exists e, real_day Days360 d = Err e).
      { destruct R as [[-> L]| ->]; [|rewrite feb_30; eauto]. unfold real_day. cbn [fixed_date c_year c_month c_day].
        assert (E1 : (360 * (y - 1) + 58) / 360 = y - 1) by (Z.to_euclidean_division_equations; lia).
        assert (E2 : (360 * (y - 1) + 58) mod 360 / 30 = 1) by (Z.to_euclidean_division_equations; lia).
        assert (E3 : (360 * (y - 1) + 58) mod 30 = 28) by (Z.to_euclidean_division_equations; lia).
        rewrite E1, E2, E3. unfold month_days. change (1 + 1 =? 2) with true. cbv iota. replace (y - 1 + 1) with y by lia. rewrite L.
        change (28 + 1 <=? 28) with false. eauto. }
      destruct ER as [e ER].
      assert (D1 : A / 1440 <> d) by (intros E; rewrite <- E, Za in ER; discriminate).
      assert (D2 : B / 1440 <> d) by (intros E; rewrite <- E, Zb in ER; discriminate).
      assert (D3 : B / 1440 <> 360 * (y - 1) + 59) by (intros E; rewrite E, feb_30 in Zb; discriminate).
      split; [apply (minute_order _ _ _ _ _ EA F); lia|].
      apply (minute_le _ _ _ _ _ F EB). lia.
    + exists r. rewrite H1. cbn [bind]. rewrite H2. split; [reflexivity|exact H3].
Qed.

(** ** calendars whose dates are those of the standard one *)
Theorem standard_range name freq ts a b : In name ["standard"; "gregorian"]%string -> every freq ts -> 0 < ts ->
  exists l, date_range name a b freq = Some (Ok l) /\ same_stamps l (stamps a b ts).
Proof.
  intros N Ev T0. unfold date_range. assert (S : is_standard name = true) by (cbn [In] in N; destruct N as [<-|[<-|[]]]; reflexivity).
  rewrite S, (every_step _ _ Ev). cbn [bind]. unfold pd_date_range. destruct (Z.eqb_spec ts 0); [lia|]. cbn [bind].
  eexists. split; [reflexivity|]. change (stamps a b ts) with (zrange a ts ((b - a) / ts + 1)).
  generalize (zrange a ts ((b - a) / ts + 1)) as l. unfold same_stamps. induction l; cbn [map]; constructor; auto. reflexivity.
Qed.

Lemma proleptic_unfold freq ts a b : every freq ts ->
  date_range "proleptic_gregorian" a b freq =
  Some (do l <- date_range_other (a - midnight default_origin) (b - midnight default_origin) ts; mapM (real_stamp Standard) l).
Proof. intros Ev. unfold date_range. change (is_standard "proleptic_gregorian") with false. cbv iota. rewrite (every_step _ _ Ev). reflexivity. Qed.

Lemma real_stamps l : mapM (real_stamp Standard) l = Ok (map (fun q => q + inject_Z (midnight default_origin))%Q l).
Proof. apply mapM_Ok. reflexivity. Qed.

Theorem proleptic_range freq ts a b : every freq ts -> 0 < ts -> a <= b -> (b - a) mod ts = 0 ->
  exists l, date_range "proleptic_gregorian" a b freq = Some (Ok l) /\ same_stamps l (stamps a b ts).
Proof.
  intros Ev T0 AB M. rewrite (proleptic_unfold _ _ _ _ Ev). set (o := midnight default_origin).
  destruct (even_axis (a - o) (b - o) ts T0 ltac:(lia)) as (l & l' & H & H' & _ & F & _). { replace (b - o - (a - o)) with (b - a) by lia. auto. }
  rewrite H. cbn [bind]. rewrite real_stamps. eexists. split; [reflexivity|]. fold o.
  unfold pd_date_range in H'. destruct (ts =? 0); [discriminate|]. apply ok_eq in H'. subst l'.
  replace (b - o - (a - o)) with (b - a) in F by lia.
  assert (E : stamps a b ts = map (fun x => x + o) (zrange (a - o) ts ((b - a) / ts + 1))).
  { unfold stamps, zrange. rewrite map_map. apply map_ext. intros i. lia. }
  rewrite E. clear - F. unfold same_stamps. induction F as [|x y l l' X F IH]; cbn [map]; constructor; auto.
  rewrite X, <- inject_Z_plus. reflexivity.
Qed.

Theorem proleptic_uneven freq ts a b : every freq ts -> 0 < ts -> a + ts < b -> (b - a) mod ts <> 0 ->
  exists l, date_range "proleptic_gregorian" a b freq = Some (Ok l) /\ ~ same_stamps l (stamps a b ts).
Proof.
  intros Ev T0 AB M. rewrite (proleptic_unfold _ _ _ _ Ev). set (o := midnight default_origin).
  destruct (uneven_axis (a - o) (b - o) ts T0 ltac:(lia)) as (l & H & NE). { replace (b - o - (a - o)) with (b - a) by lia. auto. }
  rewrite H. cbn [bind]. rewrite real_stamps. eexists. split; [reflexivity|]. fold o. intros F. apply NE.
  intros k x Hk.
  assert (G : forall i y, nth_error (stamps a b ts) i = Some y -> y = a + Z.of_nat i * ts).
  { unfold stamps. intros i y Hy. rewrite nth_error_map in Hy. set (w := Z.to_nat ((b - a) / ts + 1)) in *.
    destruct (nth_error (seq 0 w) i) eqn:Q; [|discriminate].
    assert (i < w)%nat by (rewrite <- (seq_length w 0); apply nth_error_Some; congruence).
    rewrite nth_error_seq0 in Q by auto. injection Q as <-. cbn in Hy. congruence. }
  assert (P : exists y, nth_error (stamps a b ts) k = Some y /\ (x + inject_Z o == inject_Z y)%Q).
  { clear - F Hk. revert F Hk. generalize (stamps a b ts) as l'. revert k. unfold same_stamps.
    induction l as [|q l IH]; intros [|k] l' F Hk; try discriminate; inversion F as [|? y ? l'' E F1]; subst.
    - cbn in Hk. injection Hk as ->. exists y. auto.
    - apply (IH k l''); auto. }
  destruct P as (y & P & E). apply G in P. subst y.
  assert (X : (x == x + inject_Z o - inject_Z o)%Q) by (clear; ring). rewrite X, E. unfold Qminus. rewrite <- inject_Z_opp, <- inject_Z_plus.
  replace (a + Z.of_nat k * ts + - o) with (a - o + Z.of_nat k * ts) by lia. reflexivity.
Qed.

(** ** the axis of the output files *)
Definition axis_end (ts : Z) : Z := if ts <? 1440 then 1440 - ts else 0.

Lemma axis_end_eq ts : 0 < ts -> 1440 mod ts = 0 -> axis_end ts = 1440 - ts.
Proof. intros H M. unfold axis_end. destruct (Z.ltb_spec ts 1440); [auto|]. destruct (Z.eq_dec ts 1440); [lia|]. rewrite Z.mod_small in M by lia. discriminate. Qed.

Lemma axis_even d d' ts : 0 < ts -> 1440 mod ts = 0 -> (1440 * d' + 1440 - ts - 1440 * d) mod ts = 0.
Proof.
  intros T0 TD. destruct (day_steps ts T0 TD) as [c C].
  assert (E : 1440 * d' + 1440 - ts - 1440 * d = 0 + (c * (d' + 1 - d) - 1) * ts).
  { replace (1440 * d' + 1440 - ts - 1440 * d) with (1440 * (d' + 1 - d) - ts) by lia. rewrite C. ring. }
  rewrite E.
  rewrite Z.mod_add by lia. apply Z.mod_0_l. lia.
Qed.

Theorem proleptic_axis d d' ts pe : (0 < ts)%nat -> 1440 mod Z.of_nat ts = 0 -> d <= d' ->
  exists l l', calendar_axis "proleptic_gregorian" (1440 * d) (1440 * d') ts pe = Some (Ok l) /\
    output_axis (1440 * d) (1440 * d') (Z.of_nat ts) pe = Ok l' /\ same_stamps l l'.
Proof.
  intros T0 TD D. unfold calendar_axis, output_axis. cbv zeta. fold (axis_end (Z.of_nat ts)). rewrite axis_end_eq by lia.
  set (o := if pe then Z.of_nat ts else 0).
  assert (L : Z.of_nat ts <= 1440). { destruct (Z.le_gt_cases (Z.of_nat ts) 1440); auto. rewrite Z.mod_small in TD by lia. discriminate. }
  destruct (proleptic_range (freq_minutes ts) (Z.of_nat ts) (1440 * d + o) (1440 * d' + o + (1440 - Z.of_nat ts)) (every_minutes ts) ltac:(lia) ltac:(lia)) as (l & H & S).
  { replace (1440 * d' + o + (1440 - Z.of_nat ts) - (1440 * d + o)) with (1440 * d' + 1440 - Z.of_nat ts - 1440 * d) by lia. apply axis_even; lia. }
  unfold pd_date_range. destruct (Z.eqb_spec (Z.of_nat ts) 0); [lia|]. eexists l, _. split; [exact H|]. split; [reflexivity|]. exact S.
Qed.

Lemma has_day k d r : 0 <= r < 1440 -> has_date k (1440 * d + r) = has_date k (1440 * d).
Proof.
  intros H. unfold has_date, date_of. replace ((1440 * d + r) / 1440) with d by (Z.to_euclidean_division_equations; lia).
  replace (1440 * d / 1440) with d by (Z.to_euclidean_division_equations; lia). reflexivity.
Qed.

Theorem noleap_axis name d d' ts : named name NoLeap -> (0 < ts)%nat -> 1440 mod Z.of_nat ts = 0 -> d <= d' ->
  has_date NoLeap (1440 * d) = true -> has_date NoLeap (1440 * d') = true ->
  exists l, calendar_axis name (1440 * d) (1440 * d') ts false = Some (Ok l) /\
    same_stamps l (filter (has_date NoLeap) (stamps (1440 * d) (1440 * d' + (1440 - Z.of_nat ts)) (Z.of_nat ts))) /\
    Z.of_nat (List.length l) * Z.of_nat ts = 1440 * Z.of_nat (List.length (filter (has_date NoLeap) (stamps (1440 * d) (1440 * d') 1440))).
Proof.
  intros N T0 TD D HA HB. unfold calendar_axis. cbv zeta. fold (axis_end (Z.of_nat ts)). rewrite axis_end_eq by lia. rewrite !Z.add_0_r.
  assert (L : Z.of_nat ts <= 1440). { destruct (Z.le_gt_cases (Z.of_nat ts) 1440); auto. rewrite Z.mod_small in TD by lia. discriminate. }
  set (s := Z.of_nat ts) in *.
  assert (HE : has_date NoLeap (1440 * d' + (1440 - s)) = true) by (rewrite has_day by lia; auto).
  destruct (with_date _ _ HA) as [A EA]. destruct (with_date _ _ HE) as [B EB]. destruct (with_date _ _ HB) as [B' EB'].
  destruct (noleap_len name (freq_minutes ts) s (1440 * d) (1440 * d' + (1440 - s)) A B N (every_minutes ts) ltac:(lia) TD ltac:(lia)) as (l & H1 & H2 & H3); auto.
  { replace (1440 * d' + (1440 - s) - 1440 * d) with (1440 * d' + 1440 - s - 1440 * d) by lia. apply axis_even; lia. }
  destruct (noleap_len name "D" 1440 (1440 * d) (1440 * d') A B' N) as (l' & _ & K2 & K3); auto; try lia.
  { exists 1440, "D"%string. split; [cbn [In]; auto|left; auto]. } { replace (1440 * d' - 1440 * d) with ((d' - d) * 1440) by lia. apply Z.mod_mul. lia. }
  exists l. split; auto. split; auto. apply Forall2_len in K2. rewrite <- K2, K3, H3.
  apply minute_iff in EA as [EA MA]. apply minute_iff in EB as [EB MB]. apply minute_iff in EB' as [EB' MB'].
  replace ((1440 * d' + (1440 - s)) / 1440) with (1440 * d' / 1440) in EB by (Z.to_euclidean_division_equations; lia).
  rewrite EB in EB'. apply ok_eq in EB'.
  replace (1440 * d mod 1440) with 0 in MA by (Z.to_euclidean_division_equations; lia).
  replace (1440 * d' mod 1440) with 0 in MB' by (Z.to_euclidean_division_equations; lia).
  replace ((1440 * d' + (1440 - s)) mod 1440) with (1440 - s) in MB by (Z.to_euclidean_division_equations; lia).
  assert (EE : B = B' + (1440 - s)) by (pose proof (Z.div_mod B 1440 ltac:(lia)); pose proof (Z.div_mod B' 1440 ltac:(lia)); lia).
  assert (OR : A <= B').
  { destruct (Z.eq_dec d d') as [->|]; [rewrite EA in EB; apply ok_eq in EB; pose proof (Z.div_mod A 1440 ltac:(lia)); pose proof (Z.div_mod B' 1440 ltac:(lia)); lia|].
    assert (F : A / 1440 < B / 1440).
    { apply (fixed_mono NoLeap (1440 * d / 1440) (1440 * d' / 1440)); auto. Z.to_euclidean_division_equations; lia. }
    pose proof (Z.div_mod A 1440 ltac:(lia)); pose proof (Z.div_mod B' 1440 ltac:(lia)); lia. }
  pose proof (Z.div_mod 1440 s ltac:(lia)) as C. rewrite TD in C. set (c := 1440 / s) in *. clearbody c.
  assert (F1 : exists u, B' - A = u * 1440). { exists (B' / 1440 - A / 1440). pose proof (Z.div_mod A 1440 ltac:(lia)); pose proof (Z.div_mod B' 1440 ltac:(lia)); lia. }
  destruct F1 as [u U]. rewrite EE. replace (B' + (1440 - s) - A) with ((u * c + c - 1) * s) by nia. rewrite U, !Z.div_mul by lia.
  rewrite !Z2Nat.id by nia. nia.
Qed.

(** period-ending stamps: the end of the last step of 28 February of a leap
    year is no date of the calendar *)
Theorem noleap_ending name d d' ts : named name NoLeap -> (0 < ts)%nat -> 1440 mod Z.of_nat ts = 0 ->
  has_date NoLeap (1440 * (d' + 1)) = false -> calendar_axis name (1440 * d) (1440 * d') ts true = Some (Err ValueError).
Proof.
  intros N T0 TD H. unfold calendar_axis. cbv zeta. fold (axis_end (Z.of_nat ts)). rewrite axis_end_eq by lia.
  apply (missing_ends name NoLeap _ (Z.of_nat ts)); auto using every_minutes. right.
  replace (1440 * d' + Z.of_nat ts + (1440 - Z.of_nat ts)) with (1440 * (d' + 1)) by lia. exact H.
Qed.
