(** Binary forcing files, file lists, variable mapping, time stamps,
    constants. *)
From Coq Require Import ZArith Reals String Ascii List Bool Arith Lia Lra Permutation.
From Verif Require Import Model.Py Model.Fl Model.Np Model.Config Model.Reader Spec.ReaderSpec
  Proofs.Base Proofs.ArrayProofs Proofs.StateProofs.
Import ListNotations.
Local Open Scope list_scope.

Lemma nth_error_upd {A} (l : list A) : forall i x j,
  nth_error (upd i x l) j = if (j =? i)%nat then option_map (fun _ => x) (nth_error l i) else nth_error l j.
Proof.
  induction l as [|y l IH]; intros [|i] x [|j]; cbn; auto.
  destruct (j =? i)%nat; auto.
Qed.
Lemma upd_length' {A} (l : list A) : forall i x, List.length (upd i x l) = List.length l.
Proof. induction l as [|y l IH]; intros [|i] x; cbn; auto. Qed.

Section Bin.
Variables (vars : list bin_var) (bytes : list Z).
Let nv := List.length vars.
Let v0 := mk_bin_var 0 false.

(** how many of the first k words belong to variable v *)
Definition count (nv v k : nat) : nat := ((k + (nv - 1 - v)) / nv)%nat.

Definition bin_inv (k : nat) (data : list (list R)) : Prop :=
  List.length data = nv /\
  forall v, (v < nv)%nat ->
    nth_error data v = Some (map (fun d => word_value bytes (nth v vars v0) (d * nv + v)) (seq 0 (count nv v k))).

Lemma count_same k : (0 < nv)%nat -> count nv (k mod nv) (S k) = S (k / nv) /\ count nv (k mod nv) k = (k / nv)%nat.
Proof.
  intros H. pose proof (Nat.div_mod k nv ltac:(lia)) as E. pose proof (Nat.mod_upper_bound k nv ltac:(lia)).
  unfold count. set (i := (k mod nv)%nat) in *. set (q := (k / nv)%nat) in *.
  replace (S k + (nv - 1 - i))%nat with (0 + (S q) * nv)%nat by nia.
  replace (k + (nv - 1 - i))%nat with ((nv - 1) + q * nv)%nat by nia.
  rewrite !Nat.div_add by lia. rewrite !Nat.div_small by lia. lia.
Qed.

Lemma count_other k v : (v < nv)%nat -> v <> (k mod nv)%nat -> count nv v (S k) = count nv v k.
Proof.
  intros H N. pose proof (Nat.div_mod k nv ltac:(lia)) as E. pose proof (Nat.mod_upper_bound k nv ltac:(lia)).
  unfold count. set (i := (k mod nv)%nat) in *. set (q := (k / nv)%nat) in *.
  destruct (Nat.lt_ge_cases v i).
  - replace (S k + (nv - 1 - v))%nat with ((i - v) + (S q) * nv)%nat by nia.
    replace (k + (nv - 1 - v))%nat with ((i - v - 1) + (S q) * nv)%nat by nia.
    rewrite !Nat.div_add by lia. rewrite !Nat.div_small by lia. lia.
  - replace (S k + (nv - 1 - v))%nat with ((S i + nv - 1 - v) + q * nv)%nat by nia.
    replace (k + (nv - 1 - v))%nat with ((i + nv - 1 - v) + q * nv)%nat by nia.
    rewrite !Nat.div_add by lia. rewrite !Nat.div_small by lia. lia.
Qed.

Lemma count_full v n : (v < nv)%nat -> count nv v (nv * n) = n.
Proof.
  intros H. unfold count. replace (nv * n + (nv - 1 - v))%nat with ((nv - 1 - v) + n * nv)%nat by nia.
  rewrite Nat.div_add by lia. rewrite Nat.div_small by lia. lia.
Qed.

Lemma count_all k n : (0 < nv)%nat -> (forall v, (v < nv)%nat -> count nv v k = n) -> k = (nv * n)%nat.
Proof.
  intros H C. pose proof (C 0%nat H) as C0. pose proof (C (nv - 1)%nat ltac:(lia)) as C1.
  unfold count in *. replace (k + (nv - 1 - (nv - 1)))%nat with k in C1 by lia.
  pose proof (Nat.div_mod k nv ltac:(lia)) as E. pose proof (Nat.mod_upper_bound k nv ltac:(lia)).
  rewrite C1 in E. destruct (Nat.eq_dec (k mod nv) 0) as [Z|NZ]; [lia|]. exfalso.
  replace (k + (nv - 1 - 0))%nat with ((k mod nv - 1) + S n * nv)%nat in C0 by nia.
  rewrite Nat.div_add in C0 by lia. rewrite Nat.div_small in C0 by lia. lia.
Qed.

Lemma skipn_two k lo hi rest : skipn (2 * k) bytes = lo :: hi :: rest ->
  lo = nth (2 * k) bytes 0%Z /\ hi = nth (2 * k + 1) bytes 0%Z /\ rest = skipn (2 * S k) bytes /\
  (2 * S k <= List.length bytes)%nat.
Proof.
  intros H. assert (L : List.length (skipn (2 * k) bytes) = S (S (List.length rest))) by now rewrite H.
  rewrite skipn_length in L.
  assert (H0 : forall j, nth j (skipn (2 * k) bytes) 0%Z = nth (2 * k + j) bytes 0%Z).
  { intros j. rewrite <- (firstn_skipn (2 * k) bytes) at 2. rewrite app_nth2; rewrite firstn_length, Nat.min_l by lia; [|lia].
    f_equal. lia. }
  pose proof (H0 0%nat) as A. pose proof (H0 1%nat) as B. rewrite H in A, B. cbn [nth] in A, B.
  rewrite Nat.add_0_r in A. split; auto. split; auto. split; [|lia].
  replace (2 * S k)%nat with (2 * k + 2)%nat by lia. rewrite <- skipn_skipn', H. reflexivity.
Qed.

Lemma unpack_word s lo hi : unpack s lo hi = if s then signed_word (lo + 256 * hi)%Z else (lo + 256 * hi)%Z.
Proof.
  unfold unpack, as_signed, signed_word, word. destruct s; auto.
  destruct (Z.leb_spec 32768 (lo + 256 * hi)), (Z.ltb_spec (lo + 256 * hi) 32768); auto; lia.
Qed.

Lemma bin_inv_step k data c v : (0 < nv)%nat -> bin_inv k data ->
  nth_error vars (k mod nv) = Some v -> nth_error data (k mod nv) = Some c ->
  bin_inv (S k) (upd (k mod nv) (c ++ [word_value bytes v k]) data).
Proof.
  intros Hn (L & I) Hv Hc. split; [now rewrite upd_length'|].
  intros w Hw. rewrite nth_error_upd. destruct (Nat.eqb_spec w (k mod nv)) as [->|N].
  - destruct (count_same k Hn) as [E1 E2]. rewrite Hc. cbn [option_map]. f_equal.
    rewrite E1, seq_S, map_app. cbn [map].
    specialize (I _ Hw). rewrite Hc, E2 in I.
    apply (f_equal (fun o => match o with Some x => x | None => c end)) in I. rewrite <- I.
    do 2 f_equal. rewrite (nth_error_nth _ _ _ Hv). f_equal.
    pose proof (Nat.div_mod k nv ltac:(lia)). lia.
  - rewrite count_other by auto. now apply I.
Qed.

Lemma bin_loop_sound fuel : forall k data data', (0 < nv)%nat -> (2 * k <= List.length bytes)%nat ->
  bin_inv k data -> bin_loop vars fuel (k mod nv) (skipn (2 * k) bytes) data = Ok data' ->
  exists k', (k <= k' <= k + fuel)%nat /\ (2 * k' <= List.length bytes)%nat /\ bin_inv k' data' /\
             (k' = k + fuel \/ 2 * k' = List.length bytes)%nat.
Proof.
  induction fuel as [|fuel IH]; intros k data data' Hn Hk I H; cbn [bin_loop] in H.
  - apply res_inj in H. subst. exists k. repeat split; try lia; apply I.
  - destruct (skipn (2 * k) bytes) as [|lo [|hi rest]] eqn:S; [|discriminate|].
    + apply res_inj in H. subst. exists k. split; [lia|]. split; auto. split; auto. right.
      apply (f_equal (@List.length Z)) in S. rewrite skipn_length in S. cbn in S. lia.
    + apply skipn_two in S as (-> & -> & -> & L2).
      destruct (nth_error vars (k mod nv)) as [v|] eqn:Ev; [|discriminate].
      destruct (nth_error data (k mod nv)) as [c|] eqn:Ec; [|discriminate].
      destruct (Req_EM_T (bv_scale v) 0); [discriminate|].
      rewrite unpack_word in H. fold nv in H.
      change ((IZR (if bv_signed v then signed_word (nth (2 * k) bytes 0 + 256 * nth (2 * k + 1) bytes 0)%Z
                    else (nth (2 * k) bytes 0 + 256 * nth (2 * k + 1) bytes 0)%Z) / bv_scale v)%R)
        with (word_value bytes v k) in H.
      replace ((k mod nv + 1) mod nv)%nat with (S k mod nv)%nat in H
        by (rewrite Nat.add_mod_idemp_l by lia; f_equal; lia).
      apply IH in H; auto using bin_inv_step.
      destruct H as (k' & A & B & C & D). exists k'. repeat split; try lia; apply C.
Qed.

Lemma bin_loop_total fuel : forall k data, (0 < nv)%nat -> (forall v, In v vars -> bv_scale v <> 0%R) ->
  List.length data = nv ->
  (2 * (k + fuel) <= List.length bytes \/ exists w, List.length bytes = 2 * w)%nat ->
  exists data', bin_loop vars fuel (k mod nv) (skipn (2 * k) bytes) data = Ok data'.
Proof.
  induction fuel as [|fuel IH]; intros k data Hn Hs Hd Hl; cbn [bin_loop]; [eauto|].
  destruct (skipn (2 * k) bytes) as [|lo [|hi rest]] eqn:S; [eauto| |].
  - exfalso. apply (f_equal (@List.length Z)) in S. rewrite skipn_length in S. cbn in S.
    destruct Hl as [Hl|(w & Hl)]; lia.
  - apply skipn_two in S as (-> & -> & -> & L2).
    assert (Hm : (k mod nv < nv)%nat) by (apply Nat.mod_upper_bound; lia).
    destruct (nth_error vars (k mod nv)) as [v|] eqn:Ev; [|apply nth_error_None in Ev; fold nv in Ev; lia].
    destruct (nth_error data (k mod nv)) as [c|] eqn:Ec; [|apply nth_error_None in Ec; lia].
    destruct (Req_EM_T (bv_scale v) 0) as [Z|_].
    { exfalso. apply (Hs v); auto. eapply nth_error_In; eauto. }
    fold nv. replace ((k mod nv + 1) mod nv)%nat with (S k mod nv)%nat
      by (rewrite Nat.add_mod_idemp_l by lia; f_equal; lia).
    apply IH; auto. + now rewrite upd_length'. + destruct Hl; [left; lia|right; auto].
Qed.

Lemma bin_inv_0 : bin_inv 0 (repeat [] nv).
Proof.
  split; [apply repeat_length|]. intros v Hv. unfold count. rewrite Nat.div_small by lia. cbn [seq map].
  now apply nth_error_repeat.
Qed.

Lemma bin_start n : (0 < nv)%nat -> bin_loop vars (4 * n) 0 bytes (repeat [] nv) =
  bin_loop vars (4 * n) (0 mod nv) (skipn (2 * 0) bytes) (repeat [] nv).
Proof. intros H. rewrite Nat.mod_0_l by lia. reflexivity. Qed.

(** C53: what is read is right, for any number of variables *)
Theorem read_binary_sound n cols : vars <> [] -> read_binary bytes vars n = Ok cols ->
  List.length cols = nv /\ (2 * (nv * n) <= List.length bytes)%nat /\
  forall v d bv, nth_error vars v = Some bv -> (d < n)%nat ->
    exists c, nth_error cols v = Some c /\ List.length c = n /\
              nth_error c d = Some (word_value bytes bv (d * nv + v)).
Proof.
  intros Hv H. assert (Hn : (0 < nv)%nat) by (unfold nv; destruct vars; [congruence|cbn; lia]).
  unfold read_binary in H. fold nv in H. rewrite bin_start in H by auto.
  destruct (bin_loop _ _ _ _ _) as [cs|] eqn:E; [|discriminate]. cbn [bind] in H.
  destruct (forallb _ cs) eqn:F; [|discriminate]. apply res_inj in H. subst cs.
  apply bin_loop_sound in E; auto using bin_inv_0; [|lia].
  destruct E as (k & K1 & K2 & (L & I) & K3).
  assert (C : forall v, (v < nv)%nat -> count nv v k = n).
  { intros v Hlt. rewrite forallb_forall in F. specialize (I v Hlt).
    pose proof (F _ (nth_error_In _ _ I)) as Q. apply Nat.eqb_eq in Q.
    now rewrite map_length, seq_length in Q. }
  apply count_all in C as Ck; auto. split; auto. split; [lia|].
  intros v d bv Hb Hd. assert (Hlt : (v < nv)%nat) by (apply nth_error_Some; now rewrite Hb).
  rewrite (I v Hlt), (C v Hlt). eexists. split; [reflexivity|]. rewrite map_length, seq_length. split; auto.
  rewrite nth_error_map, nth_error_seq0 by auto. cbn [option_map]. now rewrite (nth_error_nth _ _ _ Hb).
Qed.

Theorem read_binary_total n : vars <> [] -> (forall v, In v vars -> bv_scale v <> 0%R) ->
  (nv = 4%nat /\ (2 * (4 * n) <= List.length bytes)%nat) \/
  ((nv <= 4)%nat /\ List.length bytes = (2 * (nv * n))%nat) ->
  exists cols, read_binary bytes vars n = Ok cols.
Proof.
  intros Hv Hs Hl. assert (Hn : (0 < nv)%nat) by (unfold nv; destruct vars; [congruence|cbn; lia]).
  unfold read_binary. fold nv. rewrite bin_start by auto.
  destruct (bin_loop_total (4 * n) 0 (repeat [] nv)) as (cs & E); auto using repeat_length.
  { destruct Hl as [[A B]|[A B]]; [left; lia|right; exists (nv * n)%nat; lia]. }
  rewrite E. cbn [bind]. apply bin_loop_sound in E; auto using bin_inv_0; [|lia].
  destruct E as (k & K1 & K2 & (L & I) & K3).
  assert (k = (nv * n)%nat) as -> by (destruct Hl as [[A B]|[A B]]; nia).
  replace (forallb _ cs) with true; [eauto|]. symmetry. apply forallb_forall. intros c Hc.
  apply In_nth_error in Hc as (v & Hc). assert (Hlt : (v < nv)%nat) by (rewrite <- L; apply nth_error_Some; now rewrite Hc).
  rewrite (I v Hlt) in Hc. injection Hc as <-. rewrite map_length, seq_length, count_full by auto. apply Nat.eqb_refl.
Qed.

(** more than four variables: never read *)
Theorem read_binary_many n : (4 < nv)%nat -> (0 < n)%nat -> exists e, read_binary bytes vars n = Err e.
Proof.
  intros Hn Hd. destruct (read_binary bytes vars n) as [cols|e] eqn:H; [exfalso|eauto].
  unfold read_binary in H. fold nv in H. rewrite bin_start in H by lia.
  destruct (bin_loop _ _ _ _ _) as [cs|] eqn:E; [|discriminate]. cbn [bind] in H.
  destruct (forallb _ cs) eqn:F; [|discriminate]. apply res_inj in H. subst cs.
  apply bin_loop_sound in E; auto using bin_inv_0; [|lia|lia].
  destruct E as (k & K1 & K2 & (L & I) & K3).
  assert (C : forall v, (v < nv)%nat -> count nv v k = n).
  { intros v Hlt. rewrite forallb_forall in F. specialize (I v Hlt).
    pose proof (F _ (nth_error_In _ _ I)) as Q. apply Nat.eqb_eq in Q.
    now rewrite map_length, seq_length in Q. }
  apply count_all in C; [|lia]. nia.
Qed.

(** fewer than four variables and a file longer than needed: rejected *)
Theorem read_binary_few n : (0 < nv < 4)%nat -> (0 < n)%nat -> (2 * (4 * n) <= List.length bytes)%nat ->
  exists e, read_binary bytes vars n = Err e.
Proof.
  intros Hn Hd Hb. destruct (read_binary bytes vars n) as [cols|e] eqn:H; [exfalso|eauto].
  unfold read_binary in H. fold nv in H. rewrite bin_start in H by lia.
  destruct (bin_loop _ _ _ _ _) as [cs|] eqn:E; [|discriminate]. cbn [bind] in H.
  destruct (forallb _ cs) eqn:F; [|discriminate]. apply res_inj in H. subst cs.
  apply bin_loop_sound in E; auto using bin_inv_0; [|lia|lia].
  destruct E as (k & K1 & K2 & (L & I) & K3).
  assert (C : forall v, (v < nv)%nat -> count nv v k = n).
  { intros v Hlt. rewrite forallb_forall in F. specialize (I v Hlt).
    pose proof (F _ (nth_error_In _ _ I)) as Q. apply Nat.eqb_eq in Q.
    now rewrite map_length, seq_length in Q. }
  apply count_all in C; [|lia]. nia.
Qed.
End Bin.

(** C54: truncated files *)
Theorem truncated_fails bytes vars n : vars <> [] -> (List.length bytes < 2 * (List.length vars * n))%nat ->
  exists e, read_binary bytes vars n = Err e.
Proof.
  intros Hv Hl. destruct (read_binary bytes vars n) as [cols|e] eqn:H; [exfalso|eauto].
  apply read_binary_sound in H as (_ & L & _); auto. lia.
Qed.

Lemma bytes_of_length zs : List.length (flat_map bytes_of zs) = (2 * List.length zs)%nat.
Proof. induction zs as [|z zs IH]; cbn [flat_map List.length]; auto. rewrite app_length, IH. cbn. lia. Qed.

Lemma word_of_encoded zs : forall k z, nth_error zs k = Some z -> word_of (flat_map bytes_of zs) k = (z mod 65536)%Z.
Proof.
  induction zs as [|y zs IH]; intros [|k] z H; try discriminate.
  - cbn in H. injection H as ->. unfold word_of. cbn [flat_map]. unfold bytes_of.
    change (2 * 0)%nat with 0%nat. cbn [Nat.add List.app nth].
    pose proof (Z.div_mod (z mod 65536) 256 ltac:(lia)). lia.
  - cbn [nth_error] in H. rewrite <- (IH _ _ H). unfold word_of. cbn [flat_map]. unfold bytes_of at 1 3.
    replace (2 * S k)%nat with (S (S (2 * k))) by lia. replace (S (S (2 * k)) + 1)%nat with (S (S (2 * k + 1))) by lia.
    reflexivity.
Qed.

Lemma decode_word v z : representable v z ->
  (if bv_signed v then signed_word (z mod 65536)%Z else (z mod 65536)%Z) = z.
Proof.
  unfold representable, signed_word. destruct (bv_signed v); intros H.
  - destruct (Z.le_gt_cases 0 z).
    + rewrite Z.mod_small by lia. destruct (Z.ltb_spec z 32768); lia.
    + replace (z mod 65536)%Z with (z + 65536)%Z.
      * destruct (Z.ltb_spec (z + 65536) 32768); lia.
      * rewrite <- (Z.mod_add z 1) by lia. rewrite Z.mod_small by lia. lia.
  - apply Z.mod_small. lia.
Qed.

Theorem write_read zs vars n : vars <> [] -> (List.length vars <= 4)%nat ->
  (forall v, In v vars -> bv_scale v <> 0%R) -> List.length zs = (List.length vars * n)%nat ->
  (forall v d bv z, nth_error vars v = Some bv -> nth_error zs (d * List.length vars + v) = Some z -> representable bv z) ->
  exists cols, read_binary (flat_map bytes_of zs) vars n = Ok cols /\
    forall v d bv z, nth_error vars v = Some bv -> (d < n)%nat ->
      nth_error zs (d * List.length vars + v) = Some z ->
      exists c, nth_error cols v = Some c /\ List.length c = n /\ nth_error c d = Some (IZR z / bv_scale bv)%R.
Proof.
  intros Hv H4 Hs Hz Hr.
  destruct (read_binary_total vars (flat_map bytes_of zs) n) as (cols & E); auto.
  { right. split; auto. rewrite bytes_of_length, Hz. lia. }
  exists cols. split; auto. intros v d bv z Hb Hd Hzk.
  apply read_binary_sound in E as (_ & _ & S); auto. destruct (S v d bv Hb Hd) as (c & C1 & C2 & C3).
  exists c. split; auto. split; auto. rewrite C3. f_equal. unfold word_value.
  rewrite (word_of_encoded _ _ _ Hzk), decode_word; eauto.
Qed.

(** ** C55: file lists *)
Section Vic.
Context {V : Type}.
Variables (pf : string -> option R) (dom : vic_domain) (read : string -> res V).

(** the effect of one file: nothing, one cell, or an uncaught exception *)
Definition effect (job : string) : res (option (nat * nat * V)) :=
  let body :=
    do ll <- parse_job pf job;
    do i <- find_coord (vd_lat dom) (fst ll) 0;
    do j <- find_coord (vd_lon dom) (snd ll) 0;
    if fgt (vd_mask dom i j) (Some 0%R)
    then do cols <- read job; Ok (Some (i, j, cols))
    else Ok None in
  match body with
  | Ok x => Ok x
  | Err ValueError | Err KeyError => Ok None
  | Err e => Err e
  end.

Definition put (met : met_grid V) (e : option (nat * nat * V)) : met_grid V :=
  match e with
  | Some (i, j, cols) => fun i' j' => if ((i' =? i) && (j' =? j))%nat%bool then Some cols else met i' j'
  | None => met
  end.

Lemma vic_job_effect met job : vic_job pf dom read (Ok met) job = do e <- effect job; Ok (put met e).
Proof.
  unfold vic_job, effect. cbn [bind].
  match goal with |- context [match ?b with Ok _ => _ | Err _ => _ end] => destruct b as [[[[i j] cols]|]|e] end;
    try reflexivity.
  destruct e; reflexivity.
Qed.

Lemma vic_err e jobs : fold_left (vic_job pf dom read) jobs (Err e) = Err e.
Proof. induction jobs as [|job jobs IH]; cbn; auto. Qed.

Lemma process_fold jobs : forall met,
  fold_left (vic_job pf dom read) jobs (Ok met) =
  do es <- mapM effect jobs; Ok (fold_left put es met).
Proof.
  induction jobs as [|job jobs IH]; intros met; [reflexivity|].
  cbn [fold_left]. rewrite vic_job_effect. cbn [mapM].
  destruct (effect job) as [e|e]; cbn [bind].
  - rewrite IH. destruct (mapM effect jobs); reflexivity.
  - apply vic_err.
Qed.

Lemma effect_target job i j cols : effect job = Ok (Some (i, j, cols)) -> target pf dom job i j /\ read job = Ok cols.
Proof.
  unfold effect, target. destruct (parse_job pf job) as [[lat lon]|e]; cbn [bind fst snd]; [|destruct e; discriminate].
  destruct (find_coord (vd_lat dom) lat 0) as [a|e] eqn:A; cbn [bind]; [|destruct e; discriminate].
  destruct (find_coord (vd_lon dom) lon 0) as [b|e] eqn:B; cbn [bind]; [|destruct e; discriminate].
  destruct (fgt _ _) eqn:F; cbn [bind]; [|discriminate].
  destruct (read job) as [cs|e]; cbn [bind]; [|destruct e; discriminate].
  intros H. apply res_inj in H. injection H as <- <- <-. split; auto. exists lat, lon. auto.
Qed.

Lemma find_coord_err xs x : forall k e, find_coord xs x k = Err e -> e = KeyError.
Proof.
  induction xs as [|y xs IH]; intros k e H; cbn in H; [congruence|].
  destruct (Req_EM_T x y); [discriminate|eauto].
Qed.
Lemma parse_job_err job e : parse_job pf job = Err e -> e = ValueError.
Proof.
  unfold parse_job. destruct (last3 _) as [|? [|? [|? [|]]]]; try congruence.
  destruct (pf s0), (pf s1); congruence.
Qed.

Lemma effect_none job : (forall i j, ~ target pf dom job i j) -> effect job = Ok None.
Proof.
  intros N. unfold effect.
  destruct (parse_job pf job) as [[lat lon]|e] eqn:P; cbn [bind fst snd].
  2:{ apply parse_job_err in P. now subst. }
  destruct (find_coord (vd_lat dom) lat 0) as [a|e] eqn:A; cbn [bind].
  2:{ apply find_coord_err in A. now subst. }
  destruct (find_coord (vd_lon dom) lon 0) as [b|e] eqn:B; cbn [bind].
  2:{ apply find_coord_err in B. now subst. }
  destruct (fgt _ _) eqn:F; auto. exfalso. apply (N a b). exists lat, lon. auto.
Qed.

Theorem irrelevant_file a job b : (forall i j, ~ target pf dom job i j) ->
  process_vic pf dom read (a ++ job :: b) = process_vic pf dom read (a ++ b).
Proof.
  intros N. unfold process_vic. rewrite !fold_left_app. cbn [fold_left]. f_equal.
  destruct (fold_left (vic_job pf dom read) a (Ok (fun _ _ => None))) as [met|e]; [|reflexivity].
  rewrite vic_job_effect, effect_none by auto. reflexivity.
Qed.

Lemma cell_dec i j (es : list (option (nat * nat * V))) :
  (exists c, In (Some (i, j, c)) es) \/ (forall c, ~ In (Some (i, j, c)) es).
Proof.
  induction es as [|e es [(c & IH)|IH]]; [right; intros c []|left; exists c; now right|].
  destruct e as [[[a b] c]|].
  - destruct (Nat.eq_dec a i) as [->|Ha]; [destruct (Nat.eq_dec b j) as [->|Hb]|].
    + left. exists c. now left.
    + right. intros c' [E|H]; [congruence|exact (IH c' H)].
    + right. intros c' [E|H]; [congruence|exact (IH c' H)].
  - right. intros c' [E|H]; [discriminate|exact (IH c' H)].
Qed.

Lemma fold_put es : forall met i j,
  (forall c, In (Some (i, j, c)) es -> forall c', In (Some (i, j, c')) es -> c = c') ->
  (forall c, In (Some (i, j, c)) es -> fold_left put es met i j = Some c) /\
  ((forall c, ~ In (Some (i, j, c)) es) -> fold_left put es met i j = met i j).
Proof.
  induction es as [|e es IH]; intros met i j U; [split; [intros c []|auto]|].
  cbn [fold_left]. destruct (IH (put met e) i j) as [I1 I2].
  { intros c Hc c' Hc'. eapply U; right; eauto. }
  split.
  - intros c [->|Hc]; [|auto].
    destruct (cell_dec i j es) as [(c' & Hin)|Hout].
    { assert (c = c') by (eapply U; [now left|now right]). subst. auto. }
    rewrite I2 by exact Hout. cbn [put]. now rewrite !Nat.eqb_refl.
  - intros N. rewrite I2 by (intros c Hc; apply (N c); now right).
    destruct e as [[[a b] c]|]; auto. cbn [put].
    destruct (Nat.eqb_spec i a), (Nat.eqb_spec j b); auto. subst. exfalso. apply (N c). now left.
Qed.

(** no two files for the same cell *)
Definition distinct_targets (jobs : list string) : Prop :=
  forall a b i j, In a jobs -> In b jobs -> target pf dom a i j -> target pf dom b i j -> a = b.

Lemma mapM_ok_iff {A B} (f : A -> res B) l : (exists r, mapM f l = Ok r) <-> (forall x, In x l -> exists y, f x = Ok y).
Proof.
  induction l as [|x l IH].
  - split; [intros _ y []|intros _; now exists []].
  - cbn [mapM]. split.
    + intros (r & H). destruct (f x) as [y|] eqn:E; [|discriminate]. cbn [bind] in H.
      destruct (mapM f l) as [ys|] eqn:E2; [|discriminate].
      intros z [<-|Hz]; [eauto|]. apply IH; eauto.
    + intros H. destruct (H x (or_introl eq_refl)) as (y & ->). cbn [bind].
      destruct (proj2 IH) as (ys & ->). { intros z Hz. apply H. now right. } cbn [bind]. eauto.
Qed.

Lemma mapM_In {A B} (f : A -> res B) l r y : mapM f l = Ok r -> (In y r <-> exists x, In x l /\ f x = Ok y).
Proof.
  intros H. apply mapM_inv in H. induction H as [|x z l r E F IH]; [split; [intros []|intros (x & [] & _)]|].
  cbn [In]. rewrite IH. split.
  - intros [<-|(w & Hw & Ew)]; eauto.
  - intros (w & [<-|Hw] & Ew); [left|right; eauto]. rewrite E in Ew. now apply res_inj in Ew.
Qed.

Lemma process_spec jobs g : distinct_targets jobs -> process_vic pf dom read jobs = Ok g ->
  forall i j,
    (forall job cols, In job jobs -> effect job = Ok (Some (i, j, cols)) -> g i j = Some cols) /\
    ((forall job cols, In job jobs -> effect job <> Ok (Some (i, j, cols))) -> g i j = None).
Proof.
  intros D H i j. unfold process_vic in H. rewrite process_fold in H.
  destruct (mapM effect jobs) as [es|] eqn:E; [|discriminate]. cbn [bind] in H. apply res_inj in H. subst g.
  destruct (fold_put es (fun _ _ => None) i j) as [A B].
  { intros c Hc c' Hc'. apply (mapM_In _ _ _ _ E) in Hc as (a & Ha & Ea). apply (mapM_In _ _ _ _ E) in Hc' as (b & Hb & Eb).
    destruct (effect_target _ _ _ _ Ea) as [Ta _], (effect_target _ _ _ _ Eb) as [Tb _].
    assert (a = b) by (eapply D; eauto). subst. rewrite Ea in Eb. apply res_inj in Eb. congruence. }
  split.
  - intros job cols Hj Ej. apply A. apply (mapM_In _ _ _ _ E). eauto.
  - intros N. apply B. intros c Hc. apply (mapM_In _ _ _ _ E) in Hc as (a & Ha & Ea). eapply N; eauto.
Qed.

Theorem order_irrelevant jobs jobs' g : Permutation jobs jobs' -> distinct_targets jobs ->
  process_vic pf dom read jobs = Ok g ->
  exists g', process_vic pf dom read jobs' = Ok g' /\ forall i j, g' i j = g i j.
Proof.
  intros P D H.
  assert (D' : distinct_targets jobs').
  { intros a b i j Ha Hb. apply D; eapply Permutation_in; try eassumption; now apply Permutation_sym. }
  assert (Hok : exists g', process_vic pf dom read jobs' = Ok g').
  { unfold process_vic in *. rewrite process_fold in *.
    destruct (proj2 (mapM_ok_iff effect jobs')) as (es & ->); [|cbn [bind]; eauto].
    intros x Hx. apply (proj1 (mapM_ok_iff effect jobs)).
    - destruct (mapM effect jobs); [eauto|discriminate].
    - eapply Permutation_in; [apply Permutation_sym|]; eauto. }
  destruct Hok as (g' & H'). exists g'. split; auto. intros i j.
  destruct (process_spec _ _ D H i j) as [A B], (process_spec _ _ D' H' i j) as [A' B'].
  assert (C : (exists job cols, In job jobs /\ effect job = Ok (Some (i, j, cols))) \/
              (forall job cols, In job jobs -> effect job <> Ok (Some (i, j, cols)))).
  { clear. induction jobs as [|a jobs IH]; [right; intros ? ? []|].
    destruct IH as [(job & cols & Hj & E)|N]; [left; exists job, cols; split; auto; now right|].
    destruct (effect a) as [[[[i' j'] c]|]|] eqn:E.
    - destruct (Nat.eq_dec i i') as [->|Hi]; [destruct (Nat.eq_dec j j') as [->|Hj]|].
      + left. exists a, c. split; auto. now left.
      + right. intros job cols [<-|Hin]; [congruence|auto].
      + right. intros job cols [<-|Hin]; [congruence|auto].
    - right. intros job cols [<-|Hin]; [congruence|auto].
    - right. intros job cols [<-|Hin]; [congruence|auto]. }
  destruct C as [(job & cols & Hj & E)|N].
  - rewrite (A job cols Hj E). apply (A' job cols); auto. eapply Permutation_in; eauto.
  - rewrite (B N). apply B'. intros job cols Hj. apply N. eapply Permutation_in; [apply Permutation_sym|]; eauto.
Qed.

(** a cell's data are those of its own file *)
Theorem own_file jobs g job i j cols : distinct_targets jobs -> process_vic pf dom read jobs = Ok g ->
  In job jobs -> target pf dom job i j -> read job = Ok cols -> g i j = Some cols.
Proof.
  intros D H Hj T R. destruct (process_spec _ _ D H i j) as [A _]. apply (A job); auto.
  destruct T as (lat & lon & P & Hi & Hl & F). unfold effect. rewrite P. cbn [bind fst snd].
  rewrite Hi. cbn [bind]. rewrite Hl. cbn [bind]. rewrite F, R. reflexivity.
Qed.

(** a cell whose file could not be decoded (ValueError, KeyError) stays missing *)
Theorem failed_file jobs g job i j e : distinct_targets jobs -> process_vic pf dom read jobs = Ok g ->
  In job jobs -> target pf dom job i j -> read job = Err e -> g i j = None.
Proof.
  intros D H Hj T R. destruct (process_spec _ _ D H i j) as [_ B]. apply B.
  intros job' cols Hj' E. destruct (effect_target _ _ _ _ E) as [T' R'].
  assert (job' = job) by (eapply D; eauto). subst. congruence.
Qed.
End Vic.
