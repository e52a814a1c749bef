(** Bounds of pi. *)
From Coq Require Import Reals Lra Machin.
Local Open Scope R_scope.

Lemma PI_lower : 3.1415926500 < PI.
Proof.
  destruct (PI_2_3_7_ineq 5) as [H _]. cbn [Nat.mul Nat.add] in H.
  unfold sum_f_R0, tg_alt, PI_2_3_7_tg, Ratan_seq in H. cbn [pow Nat.mul Nat.add INR] in H. lra.
Qed.
Lemma PI_upper : PI < 3.1415926600.
Proof.
  destruct (PI_2_3_7_ineq 5) as [_ H]. cbn [Nat.mul Nat.add] in H.
  unfold sum_f_R0, tg_alt, PI_2_3_7_tg, Ratan_seq in H. cbn [pow Nat.mul Nat.add INR] in H. lra.
Qed.
