(** C09-C12, C111: output time axis, files and records. *)
From Coq Require Import ZArith String List Bool Arith Lia Sorting.Sorted.
From Verif Require Import Model.Py Model.Calendar Model.Output Spec.TimeSpec
  Proofs.OutputProofs Proofs.DateProofs Proofs.FileProofs.
Import ListNotations.
Local Open Scope list_scope.
Local Open Scope Z_scope.

(** C09: [n] days give n*1440/ts stamps, ts minutes apart from the start. *)
Theorem C09_output_axis_exact : forall start n ts (pe : bool),
  legal_time_step ts -> 1 <= n ->
  exists axis, output_axis start (start + (n - 1) * 1440) ts pe = Ok axis /\
    List.length axis = Z.to_nat (n * (1440 / ts)) /\
    (forall k, (k < List.length axis)%nat ->
       nth_error axis k = Some (start + (Z.of_nat k + (if pe then 1 else 0)) * ts)) /\
    StronglySorted Z.lt axis.
Proof. exact output_axis_exact. Qed.
Print Assumptions C09_output_axis_exact.

Example C09_case :
  legal_time_step 180 /\
  output_axis 14400 (14400 + (2 - 1) * 1440) 180 true =
    Ok [14580; 14760; 14940; 15120; 15300; 15480; 15660; 15840;
        16020; 16200; 16380; 16560; 16740; 16920; 17100; 17280].
Proof. split; [unfold legal_time_step; repeat split; lia|reflexivity]. Qed.

(** C10: the files' time stamps concatenated are the whole axis. *)
Theorem C10_files_cover_axis : forall freq start n ts pe,
  legal_time_step ts -> 1 <= n ->
  match freq with Some bin => monotone_bins bin | None => True end ->
  exists axis groups, output_axis start (start + (n - 1) * 1440) ts pe = Ok axis /\
    get_output_times freq start (start + (n - 1) * 1440) ts pe = Ok groups /\
    concat groups = axis.
Proof. exact times_concat. Qed.
Print Assumptions C10_files_cover_axis.

(** C10: each stamp is in exactly one file. *)
Theorem C10_one_file_per_stamp : forall bin times t,
  monotone_bins bin -> StronglySorted Z.lt times -> In t times ->
  exists i, (i < List.length (group_times bin times))%nat /\ In t (nth i (group_times bin times) []) /\
    forall j, (j < List.length (group_times bin times))%nat ->
      In t (nth j (group_times bin times) []) -> j = i.
Proof. exact groups_unique. Qed.
Print Assumptions C10_one_file_per_stamp.

(** C10: when the bins are whole days and none is skipped, or there is one
    file, the headers stand in files of different names that have the whole
    axis between them; partial, because of what the bins must be. *)
Theorem C10_files_by_name_partial : forall freq start n ts pe dir prefix, legal_time_step ts -> 1 <= n ->
  match freq with Some bin => monotone_bins bin /\ whole_day_bins bin /\ daily_steps bin | None => True end ->
  four_digit_year start -> four_digit_year (start + n * 1440) ->
  exists axis groups files, output_axis start (start + (n - 1) * 1440) ts pe = Ok axis /\
    get_output_times freq start (start + (n - 1) * 1440) ts pe = Ok groups /\
    write_headers dir prefix groups = Ok files /\ NoDup (keys files) /\ map snd files = groups /\ concat groups = axis /\
    forall nm g, In (nm, g) files -> g <> [] /\ output_filename dir prefix g = Ok nm.
Proof. exact files_by_name. Qed.
Print Assumptions C10_files_by_name_partial.

(** C10 fails for hourly files: all of a day have the same name, and only
    the last of them is left *)
Theorem C10_hourly_refuted : ~ forall freq bin start n ts pe dir prefix axis groups files, legal_time_step ts -> 1 <= n ->
  calendar_bin freq = Some bin -> four_digit_year start -> four_digit_year (start + n * 1440) ->
  output_axis start (start + (n - 1) * 1440) ts pe = Ok axis ->
  get_output_times (Some bin) start (start + (n - 1) * 1440) ts pe = Ok groups -> write_headers dir prefix groups = Ok files ->
  forall t, In t axis -> exists nm g, In (nm, g) files /\ In t g.
Proof. exact hourly_lost. Qed.
Print Assumptions C10_hourly_refuted.

Example C10_hourly_case : exists bin, calendar_bin "H" = Some bin /\
  get_output_times (Some bin) 0 (0 + (1 - 1) * 1440) 60 false = Ok (map (fun t => [t]) hours) /\
  write_headers "out" "forcing" (map (fun t => [t]) hours) = Ok [("out/forcing_19700101-19700101.nc"%string, [1380])].
Proof. exact (ex_intro _ (fun t => t / 60) (conj eq_refl (conj hours_groups hours_files))). Qed.

Example C10_case :
  monotone_bins two_days /\ whole_day_bins two_days /\
  group_times two_days [0; 720; 1440; 2160; 2880; 3600] = [[0; 720; 1440; 2160]; [2880; 3600]].
Proof.
  split; [intros t t' H; now apply Z.div_le_mono|]. split; [|reflexivity].
  intros t t' H. unfold two_days. change 2880 with (1440 * 2).
  rewrite <- !Z.div_div by lia. now rewrite H.
Qed.

(** C11: with whole-day bins two different groups get different names. *)
Theorem C11_file_names_distinct : forall bin times dir prefix g g' name,
  monotone_bins bin -> whole_day_bins bin -> StronglySorted Z.lt times ->
  (forall t, In t times -> four_digit_year t) ->
  In g (group_times bin times) -> In g' (group_times bin times) ->
  output_filename dir prefix g = Ok name -> output_filename dir prefix g' = Ok name -> g = g'.
Proof. exact filenames_distinct'. Qed.
Print Assumptions C11_file_names_distinct.

(** C11: a file name determines the first and last date of its group. *)
Theorem C11_name_determines_dates : forall dir prefix g g' name t0 r t0' r',
  g = t0 :: r -> g' = t0' :: r' ->
  (forall t, In t (g ++ g') -> four_digit_year t) ->
  output_filename dir prefix g = Ok name -> output_filename dir prefix g' = Ok name ->
  t0 / 1440 = t0' / 1440 /\ last g t0 / 1440 = last g' t0' / 1440.
Proof. exact filename_dates'. Qed.
Print Assumptions C11_name_determines_dates.

(** C11: a file name shows the first and the last date of its group. *)
Theorem C11_name_shows_dates : forall dir prefix g nm, (forall t, In t g -> four_digit_year t) -> output_filename dir prefix g = Ok nm ->
  exists t0 r a b, g = t0 :: r /\ nm = (dir ++ "/" ++ prefix ++ "_" ++ a ++ "-" ++ b ++ ".nc")%string /\
    date_text a (t0 / 1440) /\ date_text b (last g t0 / 1440).
Proof. exact name_shows_dates. Qed.
Print Assumptions C11_name_shows_dates.

Example C11_case :
  map (output_filename "out" "forcing") (group_times two_days [0; 720; 1440; 2160; 2880; 3600]) =
  [Ok "out/forcing_19700101-19700102.nc"%string; Ok "out/forcing_19700103-19700103.nc"%string].
Proof. reflexivity. Qed.

(** the hypothesis on bins is needed: hourly files of one day collide, and
    an empty bin has no file name at all *)
Example C11_hourly_files_collide :
  let bin := fun t => t / 60 in
  group_times bin [0; 30; 60; 90] = [[0; 30]; [60; 90]] /\
  output_filename "out" "forcing" [0; 30] = output_filename "out" "forcing" [60; 90] /\
  group_times bin [0; 180] = [[0]; []; []; [180]] /\
  output_filename "out" "forcing" [] = Err IndexError.
Proof. repeat split. Qed.

(** C12: record k of a file is the value at the file's k-th time stamp. *)
Theorem C12_records_match_stamps : forall A freq start n ts pe axis groups (values : list A) g,
  legal_time_step ts -> 1 <= n ->
  match freq with Some bin => monotone_bins bin | None => True end ->
  output_axis start (start + (n - 1) * 1440) ts pe = Ok axis ->
  get_output_times freq start (start + (n - 1) * 1440) ts pe = Ok groups ->
  List.length values = List.length axis -> In g groups ->
  List.length (file_records axis values g) = List.length g /\
  forall k i t, nth_error g k = Some t -> nth_error axis i = Some t ->
    nth_error (file_records axis values g) k = nth_error values i.
Proof. exact @records_exact. Qed.
Print Assumptions C12_records_match_stamps.

Example C12_case :
  file_records [0; 720; 1440; 2160; 2880; 3600] [10; 11; 12; 13; 14; 15] [2880; 3600] = [14; 15].
Proof. reflexivity. Qed.

(** C111: with files of days, weeks, months or years the files of a run have
    different names, hold the whole axis between them, and two stamps are in
    the same file exactly if they are of the same period. *)
Theorem C111_calendar_files : forall freq same start n ts pe dir prefix, In (freq, same) periods -> legal_time_step ts -> 1 <= n ->
  four_digit_year start -> four_digit_year (start + n * 1440) ->
  exists bin axis groups files, calendar_bin freq = Some bin /\ output_axis start (start + (n - 1) * 1440) ts pe = Ok axis /\
    get_output_times (Some bin) start (start + (n - 1) * 1440) ts pe = Ok groups /\
    write_headers dir prefix groups = Ok files /\ NoDup (keys files) /\ map snd files = groups /\ concat groups = axis /\
    forall nm g, In (nm, g) files -> output_filename dir prefix g = Ok nm /\
      forall t, In t g -> forall t', In t' axis -> (In t' g <-> same t t').
Proof. exact calendar_files. Qed.
Print Assumptions C111_calendar_files.

(** Two daily stamps on each side of the end of February 2000; with stamps
    at the ends of the steps the value of the last day of the month is in the
    file of the next one. *)
Example C111_case : exists bin, calendar_bin "M" = Some bin /\
  (do groups <- get_output_times (Some bin) (11015 * 1440) (11015 * 1440 + (4 - 1) * 1440) 1440 false; write_headers "out" "forcing" groups) =
    Ok [("out/forcing_20000228-20000229.nc", [15861600; 15863040]); ("out/forcing_20000301-20000302.nc", [15864480; 15865920])]%string /\
  (do groups <- get_output_times (Some bin) (11015 * 1440) (11015 * 1440 + (4 - 1) * 1440) 1440 true; write_headers "out" "forcing" groups) =
    Ok [("out/forcing_20000229-20000229.nc", [15863040]); ("out/forcing_20000301-20000303.nc", [15864480; 15865920; 15867360])]%string.
Proof. eexists. split; [reflexivity|]. split; vm_compute; reflexivity. Qed.
