(** C63-C65 *)
From Coq Require Import ZArith Reals String Ascii List Bool Arith Lia Lra QArith Qreals Qfield.
From Verif Require Import Model.Py Model.Fl Model.Np Model.Constants Model.Physics Model.Interp Model.Params Model.Disagg
  Model.Units Model.Calendar Model.Datetime Spec.UnitsSpec Proofs.Base Proofs.StateProofs Proofs.ArrayProofs Proofs.DateProofs Proofs.SvpProofs.
Import ListNotations.
Local Open Scope string_scope.
Local Open Scope list_scope.

(** ** C63 *)
Lemma converter_inv k u c : converter_for k u = Ok c -> exists cs, In (k, cs) converters /\ In (u, c) cs.
Proof.
  unfold converter_for, dict_getitem. destruct (dict_get converters k) as [cs|] eqn:E; [|discriminate]. cbn [bind].
  destruct (dict_get cs u) as [c'|] eqn:E'; [|discriminate]. intros H. apply res_inj in H. subst c'.
  exists cs. split; now apply dict_get_In.
Qed.

Theorem conversions_right k u c d ts x : converter_for k u = Ok c -> dict_get default_units k = Some d ->
  (k, u) <> ("air_pressure", "hPa") -> (0 < ts)%Z ->
  exists y, c (Some x) ts = Some y /\ si u (IZR ts) y = si d (IZR ts) x.
Proof.
  intros H D N T. apply IZR_lt in T. cbv beta in T. apply converter_inv in H as (cs & H & Hc). apply dict_get_In in D.
  unfold converters in H. cbn [In] in H.
  repeat (destruct H as [H|H]; [injection H as <- <-; cbn [In default_units] in D;
    repeat (destruct D as [D|D]; [try discriminate D; injection D as <-|]); try (now destruct D);
    cbn [In] in Hc; repeat (destruct Hc as [Hc|Hc]; [injection Hc as <- <-|]); try (now destruct Hc); try congruence|]);
  try (now destruct H); unfold ident;
  try (eexists; split; [reflexivity|]; cbv -[IZR Rplus Rmult Rinv Rdiv Rminus Ropp Rlt Q2R]; lra).
  all: cbn [fdiv fmul flift2]; unfold MIN_PER_HOUR, SEC_PER_MIN;
    repeat match goal with |- context [Req_EM_T ?a ?b] => destruct (Req_EM_T a b) as [?|_]; [exfalso; lra|]; cbn [fdiv] end;
    eexists; (split; [reflexivity|]); cbv -[IZR Rplus Rmult Rinv Rdiv Rminus Ropp Rlt Q2R]; try lra; field; lra.
Qed.

Theorem hPa_wrong : exists c y, converter_for "air_pressure" "hPa" = Ok c /\ dict_get default_units "air_pressure" = Some "kPa" /\
  c (Some 100%R) 60%Z = Some y /\ si "hPa" 60 y = (10 * si "kPa" 60 100)%R.
Proof.
  eexists. eexists. split; [reflexivity|]. split; [reflexivity|]. split; [reflexivity|].
  cbv -[IZR Rplus Rmult Rinv Rdiv Rminus Ropp Rlt Q2R]. lra.
Qed.

(** sub-daily vapor pressure is in kPa, its default unit says Pa *)
Theorem vapor_pressure_kPa : exists vpd tmp tt out,
  vpd = [Some 1000; Some 1000]%R /\ Disagg.vapor_pressure vpd tmp tt 1 60 = Ok out /\ out = [Some 1%R] /\
  dict_get default_units "vapor_pressure" = Some "Pa".
Proof.
  exists [Some 1000; Some 1000]%R, [Some 20%R], [0; 1440]%R, [Some 1%R]. split; [reflexivity|]. split; [|split; reflexivity].
  unfold Disagg.vapor_pressure, interp1d. cbn [List.length map Nat.eqb Nat.leb andb bind seq].
  unfold interp1d_eval. cbn [nth Nat.sub find_interval INR].
  unfold MBAR_PER_BAR.
  repeat match goal with |- context [fdiv (Some ?a) (Some 1000.0%R)] => rewrite (fdiv_some a 1000.0) by lra end.
  replace (Rltb (60 * 0) 0) with false by (symmetry; apply Rltb_false; lra).
  replace (Rltb 1440 (60 * 0)) with false by (symmetry; apply Rltb_false; lra). cbn [orb].
  cbn [Nat.eqb]. unfold svp. cbn [map]. rewrite svp1_some by lra.
  cbn [fsub flift2]. rewrite (fdiv_some (1000 / 1000.0 - 1000 / 1000.0)) by lra. cbn [fmul fadd flift2].
  rewrite (fdiv_some (svp_R 20)) by lra.
  unfold zipw. cbn [List.length Nat.eqb]. unfold map2. cbn [combine map fst snd flt].
  assert (S : (1000 < svp_R 20)%R).
  { unfold svp_R, svp_E. destruct (Rlt_dec 20 0); [lra|].
    assert (H := exp_ineq1 (17.269 * 20 / (237.3 + 20))%R).
    assert (1.3 < 17.269 * 20 / (237.3 + 20))%R by (apply RBase.lt_div; lra). specialize (H ltac:(lra)). lra. }
  replace (Rltb (svp_R 20 / 1000.0) _) with false.
  - do 3 f_equal. replace (60 * 0 - 0)%R with 0%R by lra. rewrite Rmult_0_r. lra.
  - symmetry. apply Rltb_false. apply RBase.le_div; [lra|]. replace (60 * 0 - 0)%R with 0%R by lra. rewrite Rmult_0_r. lra.
Qed.

(** ** C64 *)
Theorem depth_invariant u ts (l : list fl) c : converter_for "prec" u = Ok c -> (0 < ts)%Z ->
  fsum (map (option_map (depth u (IZR ts))) (map (fun x => c x ts) l)) = fsum l.
Proof.
  intros H T. apply IZR_lt in T. f_equal. rewrite map_map. rewrite <- (map_id l) at 2. apply map_ext. intros [x|].
  - apply converter_inv in H as (cs & H & Hc). unfold converters in H. cbn [In] in H.
    repeat (destruct H as [H|H]; [try discriminate H; injection H as <-;
      cbn [In] in Hc; repeat (destruct Hc as [Hc|Hc]; [injection Hc as <- <-|]); try (now destruct Hc)|]);
    try (now destruct H); unfold ident; [reflexivity| |];
    cbn [fdiv fmul flift2]; unfold MIN_PER_HOUR, SEC_PER_MIN;
    repeat match goal with |- context [Req_EM_T ?a ?b] => destruct (Req_EM_T a b) as [?|_]; [exfalso; lra|]; cbn [fdiv] end;
    cbn [option_map]; f_equal; cbv -[IZR Rplus Rmult Rinv Rdiv Rminus Ropp Rlt Q2R]; field; lra.
  - apply converter_inv in H as (cs & H & Hc). unfold converters in H. cbn [In] in H.
    repeat (destruct H as [H|H]; [try discriminate H; injection H as <-;
      cbn [In] in Hc; repeat (destruct Hc as [Hc|Hc]; [injection Hc as <- <-; reflexivity|]); try (now destruct Hc)|]);
    now destruct H.
Qed.

(** ** C65 *)
Lemma linspace_Q_length a b n : List.length (linspace_Q a b n) = Z.to_nat n.
Proof.
  unfold linspace_Q. destruct (Z.leb_spec n 1).
  - destruct (Z.leb_spec n 0); [now destruct n|]. replace n with 1%Z by lia. reflexivity.
  - now rewrite map_length, seq_length.
Qed.

Theorem even_axis a b s : (0 < s)%Z -> (a <= b)%Z -> ((b - a) mod s = 0)%Z ->
  exists l l', date_range_other a b s = Ok l /\ pd_date_range a b s = Ok l' /\
  List.length l = Z.to_nat ((b - a) / s + 1)%Z /\ Forall2 (fun x y => x == inject_Z y)%Q l l' /\ evenly l a s /\ last l' a = b.
Proof.
  intros Sp AB M. unfold date_range_other, pd_date_range.
  destruct (Z.eqb_spec s 0); [lia|]. rewrite Z.quot_div_nonneg by lia. set (q := ((b - a) / s)%Z).
  assert (Q0 : (0 <= q)%Z) by (apply Z.div_pos; lia). destruct (Z.ltb_spec (q + 1) 0) as [?|_]; [lia|].
  assert (E : (b - a = q * s)%Z) by (pose proof (Z.div_mod (b - a) s); unfold q; lia).
  exists (linspace_Q a b (q + 1)%Z), (zrange a s (q + 1)%Z). split; [auto|]. split; [auto|]. split; [apply linspace_Q_length|].
  assert (Ev : evenly (linspace_Q a b (q + 1)%Z) a s).
  { intros k x H. assert (Hk : (k < Z.to_nat (q + 1)%Z)%nat).
    { rewrite <- (linspace_Q_length a b (q + 1)%Z). apply nth_error_Some. congruence. }
    unfold linspace_Q in H. destruct (Z.leb_spec (q + 1) 1).
    - destruct (Z.leb_spec (q + 1) 0); [lia|]. destruct k as [|k]; [|lia]. cbn in H. injection H as <-.
      unfold Qeq, inject_Z; cbn [Qnum Qden]. lia.
    - rewrite nth_error_map in H. rewrite nth_error_seq0 in H by auto. cbn [option_map] in H. injection H as <-.
      rewrite E. replace (q + 1 - 1)%Z with q by lia. rewrite inject_Z_plus, !inject_Z_mult.
      field. unfold Qeq, inject_Z; cbn [Qnum Qden]. lia. }
  split; [|split; [exact Ev|]].
  - assert (L : List.length (linspace_Q a b (q + 1)%Z) = List.length (zrange a s (q + 1)%Z)).
    { rewrite linspace_Q_length. unfold zrange. now rewrite map_length, seq_length. }
    assert (P : forall k y, nth_error (zrange a s (q + 1)%Z) k = Some y -> y = (a + Z.of_nat k * s)%Z).
    { unfold zrange. intros k y H. rewrite nth_error_map in H. destruct (nth_error (seq 0 (Z.to_nat (q + 1)%Z)) k) eqn:N; [|discriminate].
      assert (k < Z.to_nat (q + 1)%Z)%nat by (rewrite <- (seq_length (Z.to_nat (q + 1)%Z) 0); apply nth_error_Some; congruence).
      rewrite nth_error_seq0 in N by auto. injection N as <-. cbn in H. congruence. }
    revert L P Ev. unfold evenly. generalize (linspace_Q a b (q + 1)%Z) as l, (zrange a s (q + 1)%Z) as l'. clear.
    intros l l'.
    assert (G : forall (l : list Q) (l' : list Z) (f : nat -> Z), List.length l = List.length l' ->
       (forall k y, nth_error l' k = Some y -> y = f k) -> (forall k x, nth_error l k = Some x -> (x == inject_Z (f k))%Q) ->
       Forall2 (fun x y => x == inject_Z y)%Q l l').
    { clear. induction l as [|x l IH]; intros [|y l'] f L P Q; try discriminate; constructor.
      - rewrite (P 0%nat y eq_refl). apply (Q 0%nat). reflexivity.
      - apply (IH l' (fun k => f (S k))); [now injection L|intros; now apply P|intros; now apply Q]. }
    intros L P Ev. apply (G l l' (fun k => (a + Z.of_nat k * s)%Z)); auto.
  - unfold zrange. replace (Z.to_nat (q + 1)%Z) with (S (Z.to_nat q)) by lia. rewrite seq_S, map_app. cbn [map].
    rewrite last_last. lia.
Qed.

(** otherwise the spacing is not the step *)
Theorem uneven_axis a b s : (0 < s)%Z -> (a + s < b)%Z -> ((b - a) mod s <> 0)%Z ->
  exists l, date_range_other a b s = Ok l /\ ~ evenly l a s.
Proof.
  intros Sp AB M. unfold date_range_other. destruct (Z.eqb_spec s 0); [lia|]. rewrite Z.quot_div_nonneg by lia.
  set (q := ((b - a) / s)%Z).
  assert (Q1 : (1 <= q)%Z) by (apply Z.div_le_lower_bound; lia). destruct (Z.ltb_spec (q + 1) 0) as [?|_]; [lia|].
  eexists. split; [reflexivity|]. intros Ev.
  assert (E : (b - a = q * s + (b - a) mod s)%Z) by (pose proof (Z.div_mod (b - a) s); unfold q; lia).
  assert (N : nth_error (linspace_Q a b (q + 1)%Z) (Z.to_nat q) = Some (inject_Z a + inject_Z (Z.of_nat (Z.to_nat q)) * (inject_Z (b - a) / inject_Z (q + 1 - 1)%Z))%Q).
  { unfold linspace_Q. destruct (Z.leb_spec (q + 1) 1); [lia|]. rewrite nth_error_map, nth_error_seq0 by lia. reflexivity. }
  apply Ev in N. rewrite Z2Nat.id in N by lia. replace (q + 1 - 1)%Z with q in N by lia.
  assert (X : (inject_Z a + inject_Z q * (inject_Z (b - a) / inject_Z q) == inject_Z b)%Q).
  { setoid_replace (inject_Z q * (inject_Z (b - a) / inject_Z q))%Q with (inject_Z (b - a)).
    - rewrite <- inject_Z_plus. replace (a + (b - a))%Z with b by lia. reflexivity.
    - field. unfold Qeq, inject_Z; cbn [Qnum Qden]. lia. }
  rewrite X in N. unfold Qeq, inject_Z in N; cbn [Qnum Qden] in N. lia.
Qed.

Lemma is_digit_char n : (n < 10)%nat -> is_digit (ascii_of_nat (48 + n)) = true.
Proof. intros H. do 10 (destruct n as [|n]; [reflexivity|]). lia. Qed.

Lemma span_digits f : forall n acc rest, (n < f)%nat -> 
  (forall c r, rest = String c r -> is_digit c = false) ->
  span is_digit acc = (acc, "") ->
  span is_digit (append (nat_digits f n acc) rest) = (nat_digits f n acc, rest).
Proof.
  intros n acc rest.
  assert (Sp : forall a rest, (forall c r, rest = String c r -> is_digit c = false) -> span is_digit a = (a, "") -> span is_digit (append a rest) = (a, rest)).
  { clear. induction a as [|c a IH]; intros rest Hr Ha; cbn [append span].
    - destruct rest as [|c r]; [reflexivity|]. cbn [span]. now rewrite (Hr c r eq_refl).
    - cbn [span] in Ha. destruct (is_digit c); [|discriminate]. destruct (span is_digit a) as [x y] eqn:E. injection Ha as -> ->.
      rewrite IH; auto. }
  intros H Hr Ha. apply Sp; auto. clear rest Hr.
  revert n acc H Ha. induction f as [|f IH]; intros n acc H Ha; [lia|]. cbn [nat_digits].
  assert (D : span is_digit (String (ascii_of_nat (48 + n mod 10)) acc) = (String (ascii_of_nat (48 + n mod 10)) acc, "")).
  { cbn [span]. rewrite is_digit_char by (apply Nat.mod_upper_bound; lia). now rewrite Ha. }
  destruct (Nat.ltb_spec n 10); [exact D|]. apply IH; auto. pose proof (Nat.div_lt n 10). lia.
Qed.

Lemma nat_str_nonempty n : exists c s, nat_str n = String c s.
Proof.
  unfold nat_str. cbn [nat_digits].
  assert (G : forall f n c s, exists c' s', nat_digits f n (String c s) = String c' s').
  { clear. induction f as [|f IH]; intros n c s; cbn [nat_digits]; [eauto|]. destruct (n <? 10)%nat; eauto. }
  destruct (n <? 10)%nat; eauto.
Qed.

Theorem freq_roundtrip n u s : In (u, s) [(Minutes, "T"); (Hours, "H"); (Days, "D")] ->
  decode_freq (append (nat_str n) s) = Ok (Z.of_nat n, u) /\ decode_freq s = Ok (1%Z, u).
Proof.
  intros H. assert (Hs : units_from_freq s = Ok u /\ exists c, s = String c "" /\ is_digit c = false /\ is_alpha c = true).
  { destruct H as [H|[H|[H|[]]]]; injection H as <- <-; split; try reflexivity; eexists; repeat split. }
  destruct Hs as (Hu & c & -> & Nd & Al). unfold decode_freq.
  destruct (nat_str_nonempty n) as (c0 & s0 & E). split.
  - assert (L : (1 <? String.length (append (nat_str n) (String c "")))%nat = true).
    { apply Nat.ltb_lt. rewrite E. cbn. clear. induction s0; cbn; lia. }
    rewrite L. unfold nat_str. rewrite span_digits; [|lia|intros ? ? Q; now injection Q as <- _|reflexivity].
    fold (nat_str n). cbn [span]. rewrite Al. rewrite E. rewrite Hu. cbn [bind]. rewrite <- E, digits_nat_str. reflexivity.
  - cbn [String.length Nat.ltb Nat.leb]. rewrite Hu. reflexivity.
Qed.
