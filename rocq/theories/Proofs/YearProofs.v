(** Day of year (C69). *)
From Coq Require Import ZArith Bool Lia.
From Verif Require Import Model.Calendar Proofs.DateProofs.
Local Open Scope Z_scope.

Lemma late_all : all_below 60 (fun k => fst (md_of (306 + k)) <=? 2) = true.
Proof. vm_compute. reflexivity. Qed.

Lemma jan_first y : days_from_civil (mkcivil y 1 1) =
  (y - 1) / 400 * 146097 + year_start ((y - 1) mod 400) + 306 - 719468.
Proof.
  unfold days_from_civil. cbn [c_year c_month c_day]. cbv zeta. change (1 <=? 2) with true. cbv iota.
  change ((153 * ((1 + 9) mod 12) + 2) / 5 + 1 - 1) with 306. unfold year_start.
  replace (y - 1 - (y - 1) / 400 * 400) with ((y - 1) mod 400) by (rewrite Z.mod_eq by lia; lia). lia.
Qed.

Lemma leap_step y : 1 <= y < 400 -> 
  (year_start y - year_start (y - 1) = 365 \/ year_start y - year_start (y - 1) = 366 /\ is_leap y = true).
Proof.
  intros H. pose proof (all_below_spec 399 (fun k => (year_start (k + 1) - year_start k =? 365) ||
     ((year_start (k + 1) - year_start k =? 366) && is_leap (k + 1))) ltac:(vm_compute; reflexivity) (y - 1) ltac:(lia)) as K.
  cbv beta in K. replace (y - 1 + 1) with y in K by lia. apply orb_true_iff in K as [K|K]; [left; lia|].
  apply andb_true_iff in K as [K K']. right. split; [lia|auto].
Qed.

Lemma is_leap_era y era : is_leap (y + era * 400) = is_leap y.
Proof.
  unfold is_leap. replace (y + era * 400) with (y + (era * 100) * 4) at 1 by lia. rewrite Z.mod_add by lia.
  replace (y + era * 400) with (y + (era * 4) * 100) at 1 by lia. rewrite Z.mod_add by lia.
  rewrite Z.mod_add by lia. reflexivity.
Qed.

Theorem dayofyear_range d : 1 <= dayofyear d <= 366 /\
  (dayofyear d = 366 -> is_leap (c_year (civil_from_days d)) = true).
Proof.
  unfold dayofyear. pose proof (civil_eq d) as E. cbv zeta in E.
  pose proof (Z.mod_pos_bound (d + 719468) 146097 ltac:(lia)) as B.
  pose proof (Z.div_mod (d + 719468) 146097 ltac:(lia)) as DM.
  set (era := (d + 719468) / 146097) in *. set (doe := (d + 719468) mod 146097) in *.
  destruct (yoe_spec doe B) as [Y S]. unfold era_day in E. set (yoe := yoe_of doe) in *.
  set (s := doe - year_start yoe) in *.
  destruct (md_of s) as [m dd] eqn:MD. rewrite E. cbn [c_year]. clear E.
  assert (MS : m <= 2 <-> 306 <= s).
  { destruct (Z.le_gt_cases 306 s) as [G|G].
    - pose proof (all_below_spec _ _ late_all (s - 306) ltac:(lia)) as K. cbv beta in K.
      replace (306 + (s - 306)) with s in K by lia. rewrite MD in K. cbn [fst] in K. lia.
    - pose proof (all_below_spec _ _ early_all s ltac:(lia)) as K. cbv beta in K. rewrite MD in K. cbn [fst] in K. lia. }
  rewrite jan_first. destruct (Z.leb_spec m 2).
  - replace (yoe + era * 400 + 1 - 1) with (yoe + era * 400) by lia. rewrite Z.div_add, Z.mod_add by lia.
    rewrite Z.div_small, Z.mod_small by lia. unfold s in *. split; lia.
  - rewrite is_leap_era. destruct (Z.eq_dec yoe 0) as [Z0|N0].
    + assert (SE : s = doe) by (unfold s; rewrite Z0; change (year_start 0) with 0; lia). clearbody s. rewrite Z0 in *. replace (0 + era * 400 - 1) with (399 + (era - 1) * 400) by lia. rewrite Z.div_add, Z.mod_add by lia.
      change (399 / 400) with 0. change (399 mod 400) with 399. change (year_start 399) with 145731.
      split; [lia|reflexivity].
    + replace (yoe + era * 400 - 1) with (yoe - 1 + era * 400) by lia. rewrite Z.div_add, Z.mod_add by lia.
      rewrite Z.div_small, Z.mod_small by lia. destruct (leap_step yoe ltac:(lia)) as [L|[L L']]; unfold s in *; split; lia || auto.
Qed.
