(** The files of a run identified by their names: C10 and C111. *)
From Coq Require Import ZArith String List Bool Arith Lia Sorting.Sorted.
From Verif Require Import Model.Py Model.Calendar Model.Datetime Model.Output
  Spec.TimeSpec Proofs.Base Proofs.ConfigProofs Proofs.OutputProofs Proofs.DateProofs.
Import ListNotations.
Local Open Scope list_scope.
Local Open Scope Z_scope.

(** ** no bin is skipped *)
Lemma reached (f : nat -> Z) n : (forall k, (k < n)%nat -> f (S k) <= f k + 1) ->
  forall b, f 0%nat <= b <= f n -> exists j, (j <= n)%nat /\ f j = b.
Proof.
  induction n as [|n IH]; intros H b B.
  - exists 0%nat. split; [lia|lia].
  - destruct (Z.eq_dec (f (S n)) b) as [E|N]; [exists (S n); split; [lia|auto]|].
    specialize (H n ltac:(lia)) as Hn. destruct (IH ltac:(intros k K; apply H; lia) b ltac:(lia)) as (j & J & E).
    exists j. split; [lia|auto].
Qed.

Lemma last_nth {A} (l : list A) d : last l d = nth (List.length l - 1) l d.
Proof.
  induction l as [|a l IH]; [reflexivity|]. destruct l as [|b l]; [reflexivity|].
  change (last (a :: b :: l) d) with (last (b :: l) d). rewrite IH. cbn [List.length]. 
  replace (S (S (List.length l)) - 1)%nat with (S (S (List.length l) - 1)) by lia. reflexivity.
Qed.

Lemma groups_filled bin times : (forall k, (S k < List.length times)%nat -> bin (nth (S k) times 0) <= bin (nth k times 0) + 1) ->
  forall g, In g (group_times bin times) -> g <> [].
Proof.
  intros H g I. unfold group_times in I. destruct times as [|t0 r] eqn:E; [easy|]. rewrite <- E in *.
  apply in_map_iff in I as (b & <- & I). unfold zrange in I. apply in_map_iff in I as (i & <- & I). apply in_seq in I.
  assert (L : (0 < List.length times)%nat) by (rewrite E; cbn [List.length]; lia).
  destruct (reached (fun k => bin (nth k times 0)) (List.length times - 1)) with (b := bin t0 + Z.of_nat i * 1) as (j & J & B).
  - intros k K. apply H. lia.
  - rewrite last_nth in I. rewrite (nth_indep times t0 0) in I by lia. split.
    + rewrite E. cbn [nth]. lia.
    + lia.
  - intros F. assert (X : In (nth j times 0) []) by (rewrite <- F; apply filter_In; split; [apply nth_In; lia|lia]). easy.
Qed.

(** ** the axis has steps of at most a day *)
Lemma axis_steps start n ts pe axis : legal_time_step ts -> 1 <= n -> output_axis start (start + (n - 1) * 1440) ts pe = Ok axis ->
  StronglySorted Z.lt axis /\ axis <> [] /\ (forall k, (S k < List.length axis)%nat -> nth (S k) axis 0 = nth k axis 0 + ts) /\
  (forall t, In t axis -> start <= t <= start + n * 1440).
Proof.
  intros L Hn H. destruct (output_axis_exact start n ts pe L Hn) as (a & E & Len & N & S). rewrite H in E. injection E as <-.
  destruct L as (P & D & R). pose proof (mod0_div _ _ P D) as Q. assert (1 <= 1440 / ts) by nia.
  split; [exact S|]. split; [intros ->; cbn [List.length] in Len; nia|]. split.
  - intros k K. rewrite (nth_error_nth _ _ 0 (N (Datatypes.S k) K)), (nth_error_nth _ _ 0 (N k ltac:(lia))). lia.
  - intros t I. apply In_nth_error in I as (k & I).
    assert (K : (k < List.length axis)%nat) by (apply nth_error_Some; congruence). rewrite (N k K) in I. injection I as <-.
    destruct pe; nia.
Qed.

Lemma daily_step bin ts t : monotone_bins bin -> daily_steps bin -> ts <= 1440 -> bin (t + ts) <= bin t + 1.
Proof. intros M D L. pose proof (D t). pose proof (M (t + ts) (t + 1440) ltac:(lia)). lia. Qed.

(** ** names *)
Lemma names_exist dir prefix groups : (forall g, In g groups -> g <> []) ->
  exists names, file_names dir prefix groups = Ok names.
Proof.
  unfold file_names. induction groups as [|g groups IH]; intros H; [now exists []|].
  destruct (IH (fun x I => H x (or_intror I))) as (names & E). cbn [mapM].
  assert (Ng : g <> []) by (apply H; now left). destruct g as [|t0 r]; [congruence|]. unfold output_filename at 1, output_suffix. cbn [bind].
  rewrite E. cbn [bind]. eexists. reflexivity.
Qed.

Lemma names_of dir prefix groups names : file_names dir prefix groups = Ok names ->
  Forall2 (fun g nm => output_filename dir prefix g = Ok nm) groups names.
Proof. unfold file_names. intros H. now apply mapM_inv in H. Qed.

Lemma names_distinct bin times dir prefix names :
  monotone_bins bin -> whole_day_bins bin -> StronglySorted Z.lt times -> (forall t, In t times -> four_digit_year t) ->
  file_names dir prefix (group_times bin times) = Ok names -> NoDup names.
Proof.
  intros M W S Y H. pose proof (names_of _ _ _ _ H) as F. pose proof (Forall2_len _ _ _ F) as L.
  apply NoDup_nth_error. intros i j Hi E.
  assert (Hj : (j < List.length names)%nat) by (apply nth_error_Some; rewrite <- E; now apply nth_error_Some).
  destruct (nth_error names i) as [nm|] eqn:Ei; [|apply nth_error_None in Ei; lia]. symmetry in E.
  set (gs := group_times bin times) in *.
  assert (At : forall k x, nth_error names k = Some x -> output_filename dir prefix (nth k gs []) = Ok x).
  { clear - F. induction F as [|g x gs names P F IH]; intros k y K; [destruct k; discriminate|].
    destruct k as [|k]; [injection K as <-; exact P|]. exact (IH k y K). }
  pose proof (At i nm Ei) as Ni. pose proof (At j nm E) as Nj.
  assert (Ii : In (nth i gs []) gs) by (apply nth_In; lia). assert (Ij : In (nth j gs []) gs) by (apply nth_In; lia).
  pose proof (filenames_distinct' bin times dir prefix _ _ nm M W S Y Ii Ij Ni Nj) as G.
  destruct (nth i gs []) as [|t r] eqn:Gi; [discriminate|].
  assert (T : In t times) by (apply (group_member bin times (t :: r) t); auto; now left).
  destruct (groups_unique bin times t M S T) as (k & _ & _ & U).
  rewrite (U i), (U j); try (fold gs; lia); auto.
  - fold gs. rewrite <- G. now left.
  - fold gs. rewrite Gi. now left.
Qed.

Lemma headers_of dir prefix groups names : file_names dir prefix groups = Ok names -> NoDup names ->
  write_headers dir prefix groups = Ok (combine names groups) /\ keys (combine names groups) = names /\ map snd (combine names groups) = groups.
Proof.
  intros H N. pose proof (Forall2_len _ _ _ (names_of _ _ _ _ H)) as L.
  assert (K : keys (combine names groups) = names /\ map snd (combine names groups) = groups).
  { clear - L. revert names L. induction groups as [|g groups IH]; intros [|x names]; cbn; try discriminate; auto.
    intros [= L]. destruct (IH names L) as [A B]. unfold keys in *. rewrite A, B. auto. }
  split; [|exact K]. unfold write_headers. rewrite H. cbn [bind]. rewrite dict_of_nodup; [reflexivity|]. now rewrite (proj1 K).
Qed.

Theorem files_by_name freq start n ts pe dir prefix : legal_time_step ts -> 1 <= n ->
  match freq with Some bin => monotone_bins bin /\ whole_day_bins bin /\ daily_steps bin | None => True end ->
  four_digit_year start -> four_digit_year (start + n * 1440) ->
  exists axis groups files, output_axis start (start + (n - 1) * 1440) ts pe = Ok axis /\
    get_output_times freq start (start + (n - 1) * 1440) ts pe = Ok groups /\
    write_headers dir prefix groups = Ok files /\ NoDup (keys files) /\ map snd files = groups /\ concat groups = axis /\
    forall nm g, In (nm, g) files -> g <> [] /\ output_filename dir prefix g = Ok nm.
Proof.
  intros L Hn F Y0 Y1. destruct (times_concat freq start n ts pe L Hn) as (axis & groups & A & G & C); [destruct freq; tauto|].
  destruct (axis_steps _ _ _ _ _ L Hn A) as (S & Ne & St & Rg).
  assert (Y : forall t, In t axis -> four_digit_year t) by (intros t I; apply Rg in I; unfold four_digit_year in *; lia).
  assert (X : (forall g, In g groups -> g <> []) /\ forall names, file_names dir prefix groups = Ok names -> NoDup names).
  { unfold get_output_times in G. rewrite A in G. cbn [bind] in G. destruct freq as [bin|]; injection G as <-.
    - destruct F as (M & W & D). split.
      + apply groups_filled. intros k K. rewrite St by exact K. apply daily_step; auto. destruct L as (_ & _ & L). lia.
      + intros names. now apply names_distinct.
    - split; [intros g [<-|[]]; exact Ne|]. intros names H. pose proof (Forall2_len _ _ _ (names_of _ _ _ _ H)) as Ln.
      destruct names as [|x [|y r]]; cbn [List.length] in Ln; try discriminate. constructor; [easy|constructor]. }
  destruct X as [X1 X2]. destruct (names_exist dir prefix groups X1) as (names & E).
  destruct (headers_of dir prefix groups names E (X2 names E)) as (H1 & H2 & H3).
  exists axis, groups, (combine names groups). split; [exact A|]. split; [exact G|]. split; [exact H1|].
  split; [rewrite H2; auto|]. split; [exact H3|]. split; [exact C|].
  intros nm g I. split; [apply X1; now apply in_combine_r in I|].
  pose proof (names_of _ _ _ _ E) as F2. clear - I F2. revert nm g I. induction F2 as [|g0 x gs names P F2 IH]; intros nm g I; [easy|].
  destruct I as [[= <- <-]|I]; [exact P|auto].
Qed.

(** ** hourly files *)
Definition hours : list Z := map (fun k => 60 * Z.of_nat k) (seq 0 24).
Lemma hours_axis : output_axis 0 (0 + (1 - 1) * 1440) 60 false = Ok hours.
Proof. vm_compute. reflexivity. Qed.
Lemma hours_groups : get_output_times (Some (fun t => t / 60)) 0 (0 + (1 - 1) * 1440) 60 false = Ok (map (fun t => [t]) hours).
Proof. vm_compute. reflexivity. Qed.
Lemma hours_files : write_headers "out" "forcing" (map (fun t => [t]) hours) = Ok [("out/forcing_19700101-19700101.nc"%string, [1380])].
Proof. vm_compute. reflexivity. Qed.

Lemma hourly_lost : ~ forall freq bin start n ts pe dir prefix axis groups files, legal_time_step ts -> 1 <= n ->
  calendar_bin freq = Some bin -> four_digit_year start -> four_digit_year (start + n * 1440) ->
  output_axis start (start + (n - 1) * 1440) ts pe = Ok axis ->
  get_output_times (Some bin) start (start + (n - 1) * 1440) ts pe = Ok groups -> write_headers dir prefix groups = Ok files ->
  forall t, In t axis -> exists nm g, In (nm, g) files /\ In t g.
Proof.
  intros H. destruct (H "H"%string (fun t => t / 60) 0 1 60 false "out"%string "forcing"%string hours (map (fun t => [t]) hours)
    [("out/forcing_19700101-19700101.nc"%string, [1380])]) with (t := 0) as (nm & g & I & T).
  - unfold legal_time_step; repeat split; lia.
  - lia.
  - reflexivity.
  - unfold four_digit_year; lia.
  - unfold four_digit_year; lia.
  - exact hours_axis.
  - exact hours_groups.
  - exact hours_files.
  - left. reflexivity.
  - destruct I as [[= <- <-]|[]]. destruct T as [T|[]]. discriminate.
Qed.

(** ** months and years *)
Definition month_number (d : Z) : Z := 12 * c_year (civil_from_days d) + c_month (civil_from_days d).

(** months since March of the first year of the era *)
Definition era_month (doe : Z) : Z := 12 * yoe_of doe + (5 * (doe - year_start (yoe_of doe)) + 2) / 153.

Lemma month_number_eq d : month_number d = 4800 * ((d + 719468) / 146097) + era_month ((d + 719468) mod 146097) + 3.
Proof.
  unfold month_number, era_month. pose proof (civil_eq d) as E. cbv zeta in E.
  destruct (yoe_spec ((d + 719468) mod 146097) (Z.mod_pos_bound (d + 719468) 146097 ltac:(lia))) as [_ D]. unfold era_day, md_of in E.
  set (doe := (d + 719468) mod 146097) in *. set (mp := (5 * (doe - year_start (yoe_of doe)) + 2) / 153) in *. cbv zeta in E.
  assert (M : 0 <= mp <= 11) by (unfold mp; Z.to_euclidean_division_equations; lia).
  rewrite E. cbn [c_year c_month]. destruct (Z.ltb_spec mp 10).
  - destruct (Z.leb_spec (mp + 3) 2); lia.
  - destruct (Z.leb_spec (mp - 9) 2); lia.
Qed.

Lemma year_from_month d : c_year (civil_from_days d) = (month_number d - 1) / 12.
Proof.
  unfold month_number. destruct (civil_spec d) as (_ & M & _). apply (Z.div_unique _ _ _ (c_month (civil_from_days d) - 1)); lia.
Qed.

Lemma year_start_grows a b : 0 <= a <= b -> 365 * (b - a) <= year_start b - year_start a.
Proof. intros H. unfold year_start. Z.to_euclidean_division_equations. lia. Qed.

Lemma era_month_steps doe : 0 <= doe < 146096 -> era_month doe <= era_month (doe + 1) <= era_month doe + 1.
Proof.
  intros H. unfold era_month. destruct (yoe_spec doe ltac:(lia)) as [Y D]. destruct (yoe_spec (doe + 1) ltac:(lia)) as [Y' D'].
  pose proof (yoe_mono doe (doe + 1) ltac:(lia)) as M. set (y := yoe_of doe) in *. set (y' := yoe_of (doe + 1)) in *.
  pose proof (year_start_grows y y' ltac:(lia)) as G. destruct (Z.eq_dec y' y) as [E|N].
  - rewrite E in *. set (q := doe - year_start y) in *. replace (doe + 1 - year_start y) with (q + 1) by (unfold q; lia).
    Z.to_euclidean_division_equations. lia.
  - assert (E : y' = y + 1) by lia.
    assert (Q : 364 <= doe - year_start y <= 365) by lia. assert (Q' : 0 <= doe + 1 - year_start y' <= 1) by lia.
    replace ((5 * (doe - year_start y) + 2) / 153) with 11 by (Z.to_euclidean_division_equations; lia).
    replace ((5 * (doe + 1 - year_start y') + 2) / 153) with 0 by (Z.to_euclidean_division_equations; lia). lia.
Qed.

Lemma month_steps d : month_number d <= month_number (d + 1) <= month_number d + 1.
Proof.
  rewrite !month_number_eq. replace (d + 1 + 719468) with (d + 719468 + 1) by lia. set (z := d + 719468).
  pose proof (Z.div_mod z 146097 ltac:(lia)) as DM. pose proof (Z.mod_pos_bound z 146097 ltac:(lia)) as MB.
  set (q := z / 146097) in *. set (r := z mod 146097) in *.
  destruct (Z.eq_dec r 146096) as [Er|Er].
  - replace ((z + 1) / 146097) with (q + 1) by (apply (Z.div_unique _ _ _ 0); lia).
    replace ((z + 1) mod 146097) with 0 by (apply (Z.mod_unique _ _ (q + 1)); lia). rewrite Er.
    change (era_month 146096) with 4799. change (era_month 0) with 0. lia.
  - replace ((z + 1) / 146097) with q by (apply (Z.div_unique _ _ _ (r + 1)); lia).
    replace ((z + 1) mod 146097) with (r + 1) by (apply (Z.mod_unique _ _ q); lia).
    pose proof (era_month_steps r ltac:(lia)). lia.
Qed.

Lemma year_steps d : c_year (civil_from_days d) <= c_year (civil_from_days (d + 1)) <= c_year (civil_from_days d) + 1.
Proof. rewrite !year_from_month. pose proof (month_steps d). Z.to_euclidean_division_equations. lia. Qed.

Lemma steps_bins (h : Z -> Z) : (forall d, h d <= h (d + 1) <= h d + 1) ->
  let bin := fun t => h (day_of t) in monotone_bins bin /\ whole_day_bins bin /\ daily_steps bin.
Proof.
  intros H bin. assert (M : forall k d, h d <= h (d + Z.of_nat k)).
  { induction k as [|k IH]; intros d; [rewrite Z.add_0_r; lia|]. specialize (IH d). pose proof (H (d + Z.of_nat k)).
    replace (d + Z.of_nat (S k)) with (d + Z.of_nat k + 1) by lia. lia. }
  unfold bin, day_of, minutes_per_day. split; [|split].
  - intros t t' L. pose proof (Z.div_le_mono t t' 1440 ltac:(lia) L).
    specialize (M (Z.to_nat (t' / 1440 - t / 1440)) (t / 1440)). rewrite Z2Nat.id in M by lia.
    replace (t / 1440 + (t' / 1440 - t / 1440)) with (t' / 1440) in M by lia. exact M.
  - intros t t' E. now rewrite E.
  - intros t. replace ((t + 1440) / 1440) with (t / 1440 + 1) by (Z.to_euclidean_division_equations; lia).
    apply H.
Qed.

(** ** every frequency of [periods] *)
Lemma week_steps d : (d + 3) / 7 <= (d + 1 + 3) / 7 <= (d + 3) / 7 + 1.
Proof. Z.to_euclidean_division_equations. lia. Qed.

Lemma calendar_bins freq same : In (freq, same) periods -> exists bin, calendar_bin freq = Some bin /\
  (monotone_bins bin /\ whole_day_bins bin /\ daily_steps bin) /\ forall t t', bin t = bin t' <-> same t t'.
Proof.
  assert (D : monotone_bins day_of /\ whole_day_bins day_of /\ daily_steps day_of) by (apply (steps_bins (fun d => d)); intros; lia).
  assert (W : let b := fun t => (day_of t + 3) / 7 in monotone_bins b /\ whole_day_bins b /\ daily_steps b) by (apply (steps_bins (fun d => (d + 3) / 7)), week_steps).
  pose proof (steps_bins month_number month_steps) as Mo. pose proof (steps_bins (fun d => c_year (civil_from_days d)) year_steps) as Ye.
  assert (D' : forall t t', day_of t = day_of t' <-> same_date t t').
  { intros t t'. unfold same_date, date_of. change (t / 1440) with (day_of t). change (t' / 1440) with (day_of t'). split; [now intros ->|apply civil_injective]. }
  assert (W' : forall t t', (day_of t + 3) / 7 = (day_of t' + 3) / 7 <-> same_week t t').
  { intros t t'. unfold same_week, monday_of. change (t / 1440) with (day_of t). change (t' / 1440) with (day_of t'). generalize (day_of t) (day_of t'). intros a b.
    pose proof (Z.div_mod (a + 3) 7). pose proof (Z.div_mod (b + 3) 7). lia. }
  assert (M' : forall t t', month_number (day_of t) = month_number (day_of t') <-> same_month t t').
  { intros t t'. unfold same_month, month_number, date_of. change (t / 1440) with (day_of t). change (t' / 1440) with (day_of t').
    pose proof (civil_spec (day_of t)) as (_ & A & _). pose proof (civil_spec (day_of t')) as (_ & B & _). lia. }
  assert (Y' : forall t t', c_year (civil_from_days (day_of t)) = c_year (civil_from_days (day_of t')) <-> same_year t t') by (intros; reflexivity).
  intros I. unfold periods in I.
  repeat (destruct I as [[= <- <-]|I]; [eexists; split; [reflexivity|]; first [exact (conj D D')|exact (conj W W')|exact (conj Mo M')|exact (conj Ye Y')]|]).
  easy.
Qed.

Theorem calendar_files freq same start n ts pe dir prefix : In (freq, same) periods -> legal_time_step ts -> 1 <= n ->
  four_digit_year start -> four_digit_year (start + n * 1440) ->
  exists bin axis groups files, calendar_bin freq = Some bin /\ output_axis start (start + (n - 1) * 1440) ts pe = Ok axis /\
    get_output_times (Some bin) start (start + (n - 1) * 1440) ts pe = Ok groups /\
    write_headers dir prefix groups = Ok files /\ NoDup (keys files) /\ map snd files = groups /\ concat groups = axis /\
    forall nm g, In (nm, g) files -> output_filename dir prefix g = Ok nm /\
      forall t, In t g -> forall t', In t' axis -> (In t' g <-> same t t').
Proof.
  intros I L Hn Y0 Y1. destruct (calendar_bins _ _ I) as (bin & B & P & Q).
  destruct (files_by_name (Some bin) start n ts pe dir prefix L Hn P Y0 Y1) as (axis & groups & files & A & G & W & N & Ms & C & F).
  exists bin, axis, groups, files. split; [exact B|]. split; [exact A|]. split; [exact G|]. split; [exact W|]. split; [exact N|].
  split; [exact Ms|]. split; [exact C|]. intros nm g J. destruct (F nm g J) as (_ & O). split; [exact O|]. intros t T t' T'.
  assert (Ig : In g groups) by (rewrite <- Ms; apply in_map_iff; exists (nm, g); auto).
  unfold get_output_times in G. rewrite A in G. cbn [bind] in G. injection G as <-.
  destruct (group_member bin axis g t Ig T) as (_ & K). rewrite (K t' T'). rewrite <- Q. split; auto.
Qed.

(** ** the dates in a name *)
Lemma append_nil s : append s "" = s.
Proof. induction s as [|c s IH]; cbn; [reflexivity|]. now rewrite IH. Qed.
Lemma append_assoc' a b c : append (append a b) c = append a (append b c).
Proof. induction a as [|x a IH]; cbn; [reflexivity|]. now rewrite IH. Qed.

Lemma zeros_digits k : number_text (zeros k).
Proof. induction k as [|k IH]; intros i c H; [destruct i; discriminate|]. destruct i as [|i]; [injection H as <-; cbv; lia|exact (IH i c H)]. Qed.

Lemma nat_digits_text f : forall n acc, number_text acc -> number_text (nat_digits f n acc).
Proof.
  induction f as [|f IH]; intros n acc A; [exact A|]. cbn [nat_digits].
  assert (B : number_text (String (Ascii.ascii_of_nat (48 + n mod 10)) acc)).
  { intros [|i] c H; [|exact (A i c H)]. assert (E : c = Ascii.ascii_of_nat (48 + n mod 10)) by (cbn [String.get] in H; congruence). rewrite E. clear. assert (Q : (n mod 10 < 10)%nat) by (apply Nat.mod_upper_bound; discriminate). revert Q. generalize (n mod 10)%nat. intros q Q.
    rewrite (Ascii.nat_ascii_embedding (48 + q)) by lia. lia. }
  destruct (n <? 10)%nat; [exact B|]. now apply IH.
Qed.

Lemma append_text a b : number_text a -> number_text b -> number_text (append a b).
Proof.
  intros A B. induction a as [|x a IH]; [exact B|]. intros [|i] c H.
  - exact (A 0%nat c H).
  - refine (IH _ i c H). intros j d J. exact (A (S j) d J).
Qed.

Lemma pad_text w n : number_text (pad w n).
Proof. apply append_text; [apply zeros_digits|]. apply nat_digits_text. intros i c H. destruct i; discriminate. Qed.

Lemma number_digits s : number_text s -> forall acc, number_value acc s = digits_val acc s.
Proof.
  induction s as [|c s IH]; intros H acc; [reflexivity|]. cbn [number_value digits_val].
  rewrite IH by (intros i d J; exact (H (S i) d J)). pose proof (H 0%nat c eq_refl). f_equal. lia.
Qed.

Lemma substring_whole s t : substring 0 (String.length s) (append s t) = s.
Proof. induction s as [|c s IH]; cbn; [now destruct t|]. now rewrite IH. Qed.
Lemma substring_skip s : forall k n t, substring (String.length s + k) n (append s t) = substring k n t.
Proof. induction s as [|c s IH]; intros k n t; cbn; auto. Qed.

Lemma date_str_text d : 0 <= c_year (civil_from_days d) <= 9999 -> date_text (date_str (civil_from_days d)) d.
Proof.
  intros Y. destruct (civil_spec d) as (E & M & D). set (c := civil_from_days d) in *. clearbody c. split; [apply date_str_length; [exact Y|split; assumption]|].
  assert (T : number_text (date_str c)) by (unfold date_str; apply append_text; [apply pad_text|apply append_text; apply pad_text]). split; [exact T|].
  assert (L4 : String.length (pad 4 (c_year c)) = 4%nat) by (apply (pad_length 3); change (10 ^ Z.of_nat 4) with 10000; lia).
  assert (L2 : String.length (pad 2 (c_month c)) = 2%nat) by (apply (pad_length 1); change (10 ^ Z.of_nat 2) with 100; lia).
  assert (L2' : String.length (pad 2 (c_day c)) = 2%nat) by (apply (pad_length 1); change (10 ^ Z.of_nat 2) with 100; lia).
  unfold date_str.
  assert (S1 : substring 0 4 (append (pad 4 (c_year c)) (append (pad 2 (c_month c)) (pad 2 (c_day c)))) = pad 4 (c_year c)) by (rewrite <- L4 at 1; apply substring_whole).
  assert (S2 : substring 4 2 (append (pad 4 (c_year c)) (append (pad 2 (c_month c)) (pad 2 (c_day c)))) = pad 2 (c_month c)).
  { replace 4%nat with (String.length (pad 4 (c_year c)) + 0)%nat at 1 by lia. rewrite substring_skip. rewrite <- L2 at 1. apply substring_whole. }
  assert (S3 : substring 6 2 (append (pad 4 (c_year c)) (append (pad 2 (c_month c)) (pad 2 (c_day c)))) = pad 2 (c_day c)).
  { replace 6%nat with (String.length (pad 4 (c_year c)) + (String.length (pad 2 (c_month c)) + 0))%nat by lia. rewrite !substring_skip.
    rewrite <- L2' at 1. rewrite <- (append_nil (pad 2 (c_day c))) at 2. apply substring_whole. }
  rewrite S1, S2, S3, !number_digits by apply pad_text. rewrite !pad_value by lia. rewrite <- E. now destruct c.
Qed.

Theorem name_shows_dates dir prefix g nm : (forall t, In t g -> four_digit_year t) -> output_filename dir prefix g = Ok nm ->
  exists t0 r a b, g = t0 :: r /\ nm = (dir ++ "/" ++ prefix ++ "_" ++ a ++ "-" ++ b ++ ".nc")%string /\
    date_text a (t0 / 1440) /\ date_text b (last g t0 / 1440).
Proof.
  intros Y H. destruct g as [|t0 r] eqn:G; [discriminate|]. rewrite <- G in *. exists t0, r. unfold output_filename, output_suffix in H. rewrite G in H. cbn [bind] in H. rewrite <- G in H.
  injection H as <-. exists (date_str (civil_from_days (day_of t0))), (date_str (civil_from_days (day_of (last g t0)))).
  split; [exact G|]. split.
  - rewrite !append_assoc'. reflexivity.
  - split; apply date_str_text, four_digit, Y.
    + rewrite G. now left.
    + apply (last_In _ t0); [congruence|reflexivity].
Qed.
