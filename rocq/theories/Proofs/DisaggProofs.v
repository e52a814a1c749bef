(** What a successful [disaggregate] computed. *)
From Coq Require Import ZArith Reals String List Bool Arith Lia.
From Verif Require Import Model.Py Model.Fl Model.Np Model.Constants Model.Physics
  Model.Interp Model.Params Model.Disagg Proofs.Base.
Import ListNotations.
Local Open Scope string_scope.
Local Open Scope list_scope.

Ltac inv_bind H :=
  match type of H with
  | bind ?r _ = Ok _ =>
      let E := fresh "E" in let a := fresh "v" in
      destruct r as [a|] eqn:E; [cbn [bind] in H | discriminate H]
  end.

Lemma ffill_from_length l : forall x, List.length (ffill_from x l) = List.length l.
Proof. induction l as [|[y|] l IH]; intros x; simpl; auto. Qed.
Lemma fill_gaps_length l : List.length (fill_gaps l) = List.length l.
Proof. unfold fill_gaps, bfill, ffill. now rewrite rev_length, ffill_from_length, rev_length, ffill_from_length. Qed.

(** the parameters and the daily frame [disaggregate] works on *)
Definition da_prm (prm : params) : params := set_lon prm (remainder360 (p_lon prm)).
Definition da_df (df : daily) (prm : params) : daily :=
  if ((p_method prm =? "passthrough") && negb (p_sw_averaging prm =? "daylight"))%bool
  then set_col df "daylength" (repeat (Some 86400.0%R) (List.length (dl_doy df))) else df.

Lemma dict_get_map {A B} (f : A -> B) (d : dict A) k :
  dict_get (map (fun nv => (fst nv, f (snd nv))) d) k = option_map f (dict_get d k).
Proof. induction d as [|[k' v] d IH]; simpl; auto. destruct (k =? k'); auto. Qed.

Theorem disaggregate_inv df prm tiny tb te out :
  disaggregate df prm tiny tb te = Ok out ->
  let prm' := da_prm prm in let df' := da_df df prm in
  let ts := p_time_step prm in let n_days := List.length (dl_doy df) in
  exists tpd sw0 dayl sw tTmin tTmax tmin tmax tminR tmaxR tmp vpd vp0 ck0 ck lw pr0 pr,
    let n := (n_days * tpd)%nat in
    let temps := map Some tmp in let vp := fill_gaps vp0 in
    let ap := map (fun t => pressure1 t (Some (p_elev prm)) (Some (p_lapse_rate prm))) temps in
    ts_per_day ts = Ok tpd /\
    (col df' "shortwave" = Ok sw0 /\ col df' "daylength" = Ok dayl /\
     shortwave sw0 dayl (dl_doy df) tiny prm' = Ok sw) /\
    set_min_max_hour tiny (map (fun d => d - 1)%nat (dl_doy df)) n_days ts prm' = Ok (tTmin, tTmax) /\
    (col df' "t_min" = Ok tmin /\ col df' "t_max" = Ok tmax /\ finite tmin = Ok tminR /\
     finite tmax = Ok tmaxR /\ temp tminR tmaxR n tTmin tTmax ts tb te = Ok tmp) /\
    (col df' "vapor_pressure" = Ok vpd /\ vapor_pressure vpd temps tTmin n ts = Ok vp0) /\
    (col df' "tskc" = Ok ck0 /\ tskc ck0 ts prm' = Ok ck) /\
    longwave temps vp ck prm' (dict_get (dl_cols df') "longwave") = Ok lw /\
    (col df' "prec" = Ok pr0 /\
     prec pr0 tmin ts prm' (dict_get (dl_cols df') "t_pk") (dict_get (dl_cols df') "dur") = Ok pr) /\
    (List.length sw = n /\ List.length tmp = n /\ List.length vp0 = n /\ List.length ck = n /\
     List.length lw = n /\ List.length pr = n) /\
    let base := [("shortwave", sw); ("temp", temps); ("vapor_pressure", vp);
                 ("rel_humid", map2 relative_humidity1 vp temps); ("air_pressure", ap);
                 ("spec_humid", map2 specific_humidity1 vp ap); ("tskc", ck);
                 ("longwave", lw); ("prec", pr)] in
    match dict_get (dl_cols df') "wind" with
    | Some w0 => exists w, wind w0 ts prm' = Ok w /\ List.length w = n /\
                 out = map (fun nv => (fst nv, fill_gaps (snd nv))) (base ++ [("wind", w)])
    | None => out = map (fun nv => (fst nv, fill_gaps (snd nv))) base
    end.
Proof.
  intros H. cbv zeta. unfold disaggregate, disaggregate_over in H. cbv zeta in H.
  change (set_lon prm (remainder360 (p_lon prm))) with (da_prm prm) in H.
  change (p_time_step (da_prm prm)) with (p_time_step prm) in H.
  change (p_method (da_prm prm)) with (p_method prm) in H.
  change (p_sw_averaging (da_prm prm)) with (p_sw_averaging prm) in H.
  change (p_elev (da_prm prm)) with (p_elev prm) in H.
  change (p_lapse_rate (da_prm prm)) with (p_lapse_rate prm) in H.
  fold (da_df df prm) in H.
  assert (Doy : dl_doy (da_df df prm) = dl_doy df) by (unfold da_df; destruct (_ && _)%bool; reflexivity).
  rewrite Doy in H.
  Ltac asg H := match type of H with
    | bind (if (?a =? ?b)%nat then _ else _) _ = Ok _ =>
      let L := fresh "L" in destruct (Nat.eqb_spec a b) as [L|]; [cbn [bind] in H|discriminate H] end.
  inv_bind H. rename v into tpd. inv_bind H. inv_bind H. inv_bind H. asg H.
  inv_bind H. destruct v2 as [tTmin tTmax]. do 4 inv_bind H. inv_bind H. asg H.
  inv_bind H. inv_bind H. asg H. asg H. asg H. asg H.
  inv_bind H. inv_bind H. asg H. inv_bind H. asg H. inv_bind H. inv_bind H. asg H.
  rewrite map_length in L0. rewrite fill_gaps_length in L1.
  do 18 eexists. cbv zeta.
  split; [reflexivity|]. split; [eauto|]. split; [reflexivity|]. split; [eauto 10|]. split; [eauto|].
  split; [eauto|]. split; [eassumption|]. split; [eauto|]. split; [repeat split; eassumption|].
  cbn [dict_set String.eqb Ascii.eqb Bool.eqb] in H.
  destruct (dict_get (dl_cols (da_df df prm)) "wind") as [w0|] eqn:W.
  - destruct (wind w0 (p_time_step prm) (da_prm prm)) as [w|] eqn:Ew; cbn [bind] in H; [|discriminate].
    asg H. injection H as <-. eexists. split; [reflexivity|]. split; [auto|]. reflexivity.
  - cbn [bind] in H. injection H as <-. reflexivity.
Qed.
