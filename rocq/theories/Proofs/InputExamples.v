(** Concrete input files. *)
From Coq Require Import ZArith Reals String Ascii List Bool Arith Lia Lra.
From Verif Require Import Model.Py Model.Fl Model.Np Model.Reader Spec.ReaderSpec
  Proofs.Base Proofs.StateProofs Proofs.ReaderProofs.
Import ListNotations.
Local Open Scope string_scope.
Local Open Scope list_scope.

Definition vic_vars : list bin_var :=
  [mk_bin_var 40 false; mk_bin_var 100 true; mk_bin_var 100 true; mk_bin_var 100 true].

Lemma vic_day :
  read_binary [100; 0; 26; 4; 206; 255; 44; 1]%Z vic_vars 1 = Ok [[100 / 40]; [1050 / 100]; [-50 / 100]; [300 / 100]]%R.
Proof.
  unfold read_binary, vic_vars. cbn [List.length Nat.mul Nat.add repeat bin_loop nth_error bv_scale bv_signed].
  change (1 mod 4)%nat with 1%nat. cbn [Nat.add]. change (2 mod 4)%nat with 2%nat. cbn [Nat.add].
  change (3 mod 4)%nat with 3%nat. cbn [Nat.add nth_error upd bv_scale bv_signed app].
  destruct (Req_EM_T 40 0) as [|_]; [lra|]. cbn [nth_error upd bv_scale bv_signed app].
  destruct (Req_EM_T 100 0) as [|_]; [lra|]. reflexivity.
Qed.

Lemma vic_truncated : flat_map bytes_of [100; 1050; -50; 300]%Z = [100; 0; 26; 4; 206; 255; 44; 1]%Z /\
  read_binary [100; 0; 26; 4; 206; 255]%Z vic_vars 1 = Err ValueError.
Proof.
  split; [reflexivity|].
  unfold read_binary, vic_vars. cbn [List.length Nat.mul Nat.add repeat bin_loop nth_error bv_scale bv_signed].
  change (1 mod 4)%nat with 1%nat. cbn [Nat.add]. change (2 mod 4)%nat with 2%nat. cbn [Nat.add].
  change (3 mod 4)%nat with 3%nat. cbn [Nat.add nth_error upd bv_scale bv_signed app].
  destruct (Req_EM_T 40 0) as [|_]; [lra|]. cbn [nth_error upd bv_scale bv_signed app].
  destruct (Req_EM_T 100 0) as [|_]; [lra|]. reflexivity.
Qed.

(** a domain with latitudes 1, 3 and longitude 2; float() on the digits *)
Definition demo_float (s : string) : option R :=
  if s =? "1" then Some 1%R else if s =? "2" then Some 2%R else if s =? "3" then Some 3%R else None.
Definition demo_dom : vic_domain := mk_vic_domain [1; 3]%R [2]%R (fun _ _ => Some 1%R).

Lemma demo_jobs : distinct_targets demo_float demo_dom ["/data/f_1_2"; "/data/readme"; "/data/f_3_2"] /\
  target demo_float demo_dom "/data/f_3_2" 1 0 /\ (forall i j, ~ target demo_float demo_dom "/data/readme" i j).
Proof.
  assert (R : forall i j, ~ target demo_float demo_dom "/data/readme" i j).
  { intros i j (a & b & H & _). discriminate H. }
  assert (A : forall i j, target demo_float demo_dom "/data/f_1_2" i j -> i = 0%nat).
  { intros i j (a & b & H & Hi & _). cbn in H. apply res_inj in H. injection H as <- <-.
    cbn in Hi. destruct (Req_EM_T 1 1) as [_|C]; [|lra]. now injection Hi. }
  assert (B : forall i j, target demo_float demo_dom "/data/f_3_2" i j -> i = 1%nat).
  { intros i j (a & b & H & Hi & _). cbn in H. apply res_inj in H. injection H as <- <-.
    cbn in Hi. destruct (Req_EM_T 3 1) as [C|_]; [lra|]. destruct (Req_EM_T 3 3) as [_|C]; [|lra]. now injection Hi. }
  split; [|split; auto].
  - intros x y i j Hx Hy Tx Ty.
    destruct Hx as [<-|[<-|[<-|[]]]], Hy as [<-|[<-|[<-|[]]]]; auto; try (exfalso; eapply R; eassumption);
      exfalso; apply A in Tx || apply B in Tx; apply A in Ty || apply B in Ty; congruence.
  - exists 3%R, 2%R. cbn. destruct (Req_EM_T 3 1) as [C|_]; [lra|]. destruct (Req_EM_T 3 3) as [_|C]; [|lra].
    destruct (Req_EM_T 2 2) as [_|C]; [|lra]. repeat split. cbn. unfold Rltb. destruct (Rlt_dec 0 1); [auto|lra].
Qed.
