(** Small facts about real numbers. *)
From Coq Require Import ZArith Reals Lra.
Local Open Scope R_scope.

Lemma le_div a b c : 0 < c -> a * c <= b -> a <= b / c.
Proof.
  intros C H. apply Rmult_le_reg_r with c; auto. replace (b / c * c) with b by (field; lra). auto.
Qed.
Lemma lt_div a b c : 0 < c -> a * c < b -> a < b / c.
Proof.
  intros C H. apply Rmult_lt_reg_r with c; auto. replace (b / c * c) with b by (field; lra). auto.
Qed.
Lemma div_le a b c : 0 < c -> b <= a * c -> b / c <= a.
Proof.
  intros C H. apply Rmult_le_reg_r with c; auto. replace (b / c * c) with b by (field; lra). auto.
Qed.
Lemma div_lt a b c : 0 < c -> b < a * c -> b / c < a.
Proof.
  intros C H. apply Rmult_lt_reg_r with c; auto. replace (b / c * c) with b by (field; lra). auto.
Qed.
Lemma div_pos a b : 0 < a -> 0 < b -> 0 < a / b.
Proof. intros. apply lt_div; lra. Qed.
Lemma div_nonneg a b : 0 <= a -> 0 < b -> 0 <= a / b.
Proof. intros. apply le_div; lra. Qed.
