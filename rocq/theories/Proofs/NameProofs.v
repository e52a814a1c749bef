(** Splitting texts; names of forcing files. *)
From Coq Require Import ZArith Reals String Ascii List Bool Arith Lia.
From Verif Require Import Model.Py Model.Fl Model.Reader Spec.ReaderSpec.
Import ListNotations.
Local Open Scope list_scope.

Lemma rev_app_nil s : forall t, string_rev_app s t = (string_rev s ++ t)%string.
Proof.
  unfold string_rev. assert (G : forall s a b, string_rev_app s (a ++ b)%string = (string_rev_app s a ++ b)%string).
  { intros u. induction u as [|c u IH]; intros a b; cbn [string_rev_app]; auto.
    change (String c (a ++ b)%string) with ((String c a) ++ b)%string. apply IH. }
  intros t. exact (G s EmptyString t).
Qed.

Lemma append_nil_r s : (s ++ "")%string = s.
Proof. induction s as [|c s IH]; cbn; congruence. Qed.

Lemma append_assoc' a b c : ((a ++ b) ++ c)%string = (a ++ (b ++ c))%string.
Proof. induction a as [|x a IH]; cbn; congruence. Qed.

Lemma split_none c s : lacks c s -> forall cur, split_char c s cur = [(string_rev cur ++ s)%string].
Proof.
  induction s as [|x s IH]; intros H cur; cbn [split_char].
  - now rewrite append_nil_r.
  - destruct H as [H1 H2]. destruct (Ascii.eqb_spec c x); [congruence|]. rewrite IH by auto.
    f_equal. unfold string_rev at 1. cbn [string_rev_app]. rewrite rev_app_nil, append_assoc'. reflexivity.
Qed.

Lemma split_at c a b : forall cur,
  split_char c (a ++ String c b)%string cur = split_char c a cur ++ split_char c b EmptyString.
Proof.
  induction a as [|x a IH]; intros cur; cbn [append split_char].
  - now rewrite Ascii.eqb_refl.
  - destruct (Ascii.eqb c x); [|apply IH]. cbn [List.app]. f_equal. apply IH.
Qed.

Lemma split_nonempty c s : forall cur, split_char c s cur <> [].
Proof. induction s as [|x s IH]; intros cur; cbn [split_char]; [discriminate|]. destruct (Ascii.eqb c x); [discriminate|auto]. Qed.

Lemma basename_dir dir name : lacks "/" name -> basename (dir ++ "/" ++ name)%string = name.
Proof.
  intros H. unfold basename. cbn [append]. rewrite split_at, (split_none "/" name) by auto. now rewrite last_last.
Qed.

Lemma lacks_app c a b : lacks c a -> lacks c b -> lacks c (a ++ b)%string.
Proof. induction a as [|x a IH]; cbn; auto. intros [H1 H2] Hb. auto. Qed.

(** C55 *)
Theorem file_position pf dir pre lat lon :
  lacks "/" pre -> lacks "/" lat -> lacks "/" lon -> lacks "_" lat -> lacks "_" lon ->
  parse_job pf (dir ++ "/" ++ pre ++ "_" ++ lat ++ "_" ++ lon)%string =
  match pf lat, pf lon with Some a, Some b => Ok (a, b) | _, _ => Err ValueError end.
Proof.
  intros H1 H2 H3 H4 H5. unfold parse_job.
  assert (U : lacks "/" "_") by (cbn; split; [discriminate|auto]).
  rewrite basename_dir.
  2:{ apply lacks_app; auto. apply lacks_app; auto. apply lacks_app; auto. apply lacks_app; auto. } cbn [append].
  rewrite split_at, split_at, (split_none "_" lat), (split_none "_" lon) by auto. change (string_rev "") with EmptyString. cbn [append].
  destruct (exists_last (split_nonempty "_" pre EmptyString)) as (l & x & ->).
  unfold last3. rewrite <- app_assoc. cbn [List.app]. rewrite app_length. cbn [List.length].
  replace (List.length l + 3 - 3)%nat with (List.length l + 0)%nat by lia.
  rewrite skipn_app, skipn_all2 by lia. replace (List.length l + 0 - List.length l)%nat with 0%nat by lia. reflexivity.
Qed.
