(** C116: the time stamps of runs in other calendars. *)
From Coq Require Import ZArith QArith Qround String List Bool.
From Verif Require Import Model.Py Model.Calendar Model.Datetime Model.Header Model.Output Model.DateRange
  Spec.CalendarSpec Proofs.DateRangeProofs.
Import ListNotations.
Local Open Scope list_scope.
Local Open Scope Z_scope.

(** C116: the standard calendar, and a calendar of 365 days: the stamps of
    the standard calendar without those of 29 February *)
Theorem C116_standard : forall name freq ts a b, In name ["standard"; "gregorian"]%string -> every freq ts -> 0 < ts ->
  exists l, date_range name a b freq = Some (Ok l) /\ same_stamps l (stamps a b ts).
Proof. exact standard_range. Qed.
Print Assumptions C116_standard.

Theorem C116_noleap : forall name freq ts a b, named name NoLeap -> every freq ts -> 0 < ts -> 1440 mod ts = 0 ->
  a <= b -> (b - a) mod ts = 0 -> has_date NoLeap a = true -> has_date NoLeap b = true ->
  exists l, date_range name a b freq = Some (Ok l) /\ same_stamps l (filter (has_date NoLeap) (stamps a b ts)).
Proof. exact noleap_range. Qed.
Print Assumptions C116_noleap.

(** C116: the calendar most files name is the standard one when the step
    divides the span *)
Theorem C116_proleptic : forall freq ts a b, every freq ts -> 0 < ts -> a <= b -> (b - a) mod ts = 0 ->
  exists l, date_range "proleptic_gregorian" a b freq = Some (Ok l) /\ same_stamps l (stamps a b ts).
Proof. exact proleptic_range. Qed.
Print Assumptions C116_proleptic.

(** 2000-02-27 to 2000-03-02 *)
Example C116_case : every "D" 1440 /\ named "noleap" NoLeap /\ civil_from_days 11016 = mkcivil 2000 2 29 /\
  has_date NoLeap 15860160 = true /\ has_date NoLeap 15865920 = true /\
  stamps 15860160 15865920 1440 = map midnight [11014; 11015; 11016; 11017; 11018] /\
  filter (has_date NoLeap) (stamps 15860160 15865920 1440) = map midnight [11014; 11015; 11017; 11018] /\
  option_map (fun r => match r with Ok l => map (fun q => Qfloor q / 1440) l | Err _ => [] end)
    (date_range "noleap" 15860160 15865920 "D") = Some [11014; 11015; 11017; 11018].
Proof.
  split; [exists 1440, "D"%string; split; [cbn [In]; auto|left; auto]|]. split; [cbn; auto|].
  repeat split; vm_compute; reflexivity.
Qed.

(** C116 is false for proleptic_gregorian otherwise: its name is misspelt
    in the list of names that pandas handles, and linspace stretches the
    steps *)
Theorem C116_proleptic_refuted : forall freq ts a b, every freq ts -> 0 < ts -> a + ts < b -> (b - a) mod ts <> 0 ->
  exists l, date_range "proleptic_gregorian" a b freq = Some (Ok l) /\ ~ same_stamps l (stamps a b ts).
Proof. exact proleptic_uneven. Qed.
Print Assumptions C116_proleptic_refuted.

Example C116_proleptic_case : every "60T" 60 /\ stamps 0 150 60 = [0; 60; 120] /\
  option_map (fun r => match r with Ok l => map Qred l | Err _ => [] end) (date_range "proleptic_gregorian" 0 150 "60T") =
    Some [0; 75; 150]%Q /\
  option_map (fun r => match r with Ok l => map Qred l | Err _ => [] end) (date_range "standard" 0 150 "60T") =
    Some [0; 60; 120]%Q.
Proof. split; [exact (every_minutes 60)|]. repeat split; vm_compute; reflexivity. Qed.

(** C116: 360 days: exactly the ranges that do not pass the end of a
    February have an index *)
Theorem C116_days360_partial : forall name freq ts a b, named name Days360 -> every freq ts -> 0 < ts -> 1440 mod ts = 0 ->
  a <= b -> (b - a) mod ts = 0 -> has_date Days360 a = true -> has_date Days360 b = true ->
  (crosses_february a b -> date_range name a b freq = Some (Err ValueError)) /\
  (~ crosses_february a b -> exists l, date_range name a b freq = Some (Ok l) /\
     same_stamps l (filter (has_date Days360) (stamps a b ts))).
Proof. exact range_360. Qed.
Print Assumptions C116_days360_partial.

(** 2001-03-30 to 2001-04-01 skips the 31st; 2001-02-28 to 2001-03-01 fails *)
Example C116_days360_case : crosses_february (midnight 11381) (midnight 11382) /\
  date_range "360_day" (midnight 11381) (midnight 11382) "D" = Some (Err ValueError) /\
  civil_from_days 11381 = mkcivil 2001 2 28 /\ civil_from_days 11411 = mkcivil 2001 3 30 /\
  option_map (fun r => match r with Ok l => map (fun q => civil_from_days (Qfloor q / 1440)) l | Err _ => [] end)
    (date_range "360_day" (midnight 11411) (midnight 11413) "D") = Some [mkcivil 2001 3 30; mkcivil 2001 4 1].
Proof. split; [exists 2001; vm_compute; split; [reflexivity|discriminate]|]. repeat split; vm_compute; reflexivity. Qed.

(** C116 is false when an end of the range is not in the calendar *)
Theorem C116_missing_refuted : forall name k freq ts a b, named name k -> every freq ts ->
  has_date k a = false \/ has_date k b = false -> date_range name a b freq = Some (Err ValueError).
Proof. exact missing_ends. Qed.
Print Assumptions C116_missing_refuted.

Example C116_missing_case : has_date NoLeap (midnight 11016) = false /\ has_date Days360 (midnight 11412) = false /\
  has_date NoLeap (midnight 11412) = true /\ has_date Days360 (midnight 11016) = true.
Proof. repeat split; vm_compute; reflexivity. Qed.

(** C116: the axis of the output files *)
Theorem C116_output_axis : forall d d' ts pe, (0 < ts)%nat -> 1440 mod Z.of_nat ts = 0 -> d <= d' ->
  exists l l', calendar_axis "proleptic_gregorian" (1440 * d) (1440 * d') ts pe = Some (Ok l) /\
    output_axis (1440 * d) (1440 * d') (Z.of_nat ts) pe = Ok l' /\ same_stamps l l'.
Proof. exact proleptic_axis. Qed.
Print Assumptions C116_output_axis.

Theorem C116_noleap_axis : forall name d d' ts, named name NoLeap -> (0 < ts)%nat -> 1440 mod Z.of_nat ts = 0 -> d <= d' ->
  has_date NoLeap (1440 * d) = true -> has_date NoLeap (1440 * d') = true ->
  exists l, calendar_axis name (1440 * d) (1440 * d') ts false = Some (Ok l) /\
    same_stamps l (filter (has_date NoLeap) (stamps (1440 * d) (1440 * d' + (1440 - Z.of_nat ts)) (Z.of_nat ts))) /\
    Z.of_nat (List.length l) * Z.of_nat ts = 1440 * Z.of_nat (List.length (filter (has_date NoLeap) (stamps (1440 * d) (1440 * d') 1440))).
Proof. exact noleap_axis. Qed.
Print Assumptions C116_noleap_axis.

Example C116_axis_case :
  option_map (fun r => match r with Ok l => List.length l | Err _ => 0%nat end) (calendar_axis "noleap" (1440 * 11014) (1440 * 11018) 360 false) = Some 16%nat /\
  option_map (fun r => match r with Ok l => List.length l | Err _ => 0%nat end) (calendar_axis "standard" (1440 * 11014) (1440 * 11018) 360 false) = Some 20%nat.
Proof. split; vm_compute; reflexivity. Qed.

(** C116 is false for period-ending output: a run of 365 day years that ends
    on 28 February of a leap year has no axis *)
Theorem C116_ending_refuted : forall name d d' ts, named name NoLeap -> (0 < ts)%nat -> 1440 mod Z.of_nat ts = 0 ->
  has_date NoLeap (1440 * (d' + 1)) = false -> calendar_axis name (1440 * d) (1440 * d') ts true = Some (Err ValueError).
Proof. exact noleap_ending. Qed.
Print Assumptions C116_ending_refuted.

Example C116_ending_case : has_date NoLeap (1440 * (11015 + 1)) = false /\ named "365_day" NoLeap /\
  option_map (fun r => match r with Ok l => List.length l | Err _ => 0%nat end) (calendar_axis "365_day" (1440 * 11014) (1440 * 11015) 360 false) = Some 8%nat.
Proof. split; [vm_compute; reflexivity|]. split; [cbn; auto|vm_compute; reflexivity]. Qed.
