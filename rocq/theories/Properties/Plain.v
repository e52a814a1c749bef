(** C112: dimensions without coordinates. *)
From Coq Require Import ZArith Reals String List Bool Arith.
From Verif Require Import Model.Py Model.Output Model.Align Model.Unlabelled Spec.GridSpec Spec.PlainSpec Proofs.PlainProofs.
Import ListNotations.
Local Open Scope string_scope.
Local Open Scope list_scope.

(** C112, the part that holds: when neither the domain nor the file has
    coordinates, every cell of every worker gets what the file holds at the
    cell's own position. *)
Theorem C112_by_position_partial : forall {V} (ds : plain V) dom sl l,
  bare dom -> bare (pl_axes ds) -> NoDup (keys dom) ->
  (forall k a, In (k, a) (pl_axes ds) -> exists d, In (k, d) dom /\ (ax_size d <= ax_size a)%nat) ->
  In l (indices (map (@List.length nat) (axes_ranges (label_reals (number_axes dom)) sl))) ->
  exists p, plain_cell ds dom sl l = Ok (pl_at ds p) /\
    Forall2 (fun n ka => exists d, stands_at dom (globalize (axes_ranges (label_reals (number_axes dom)) sl) l) (fst ka) d n) p (pl_axes ds).
Proof. exact @by_position. Qed.
Print Assumptions C112_by_position_partial.

(** in general, dimension by dimension: the same label when both sides have
    labels, the same position when neither has, the label as position or the
    position as label otherwise *)
Theorem C112_taken : forall {V} (ds : plain V) dom sl l v,
  In l (indices (map (@List.length nat) (axes_ranges (label_reals (number_axes dom)) sl))) ->
  incl (keys (pl_axes ds)) (keys dom) -> (forall k a, In (k, a) (pl_axes ds) -> whole_axis a) ->
  plain_cell ds dom sl l = Ok v ->
  exists p, v = pl_at ds p /\
    Forall2 (fun n ka => (n < ax_size (snd ka))%nat /\
       exists d m, stands_at dom (globalize (axes_ranges (label_reals (number_axes dom)) sl) l) (fst ka) d m /\ taken d m (snd ka) n) p (pl_axes ds).
Proof. exact @plain_taken. Qed.
Print Assumptions C112_taken.

Example C112_case : map (plain_cell bare_file bare_axes []) (indices [3; 2]%nat) = map Ok [0; 1; 10; 11; 20; 21]%nat /\
  plain_cell bare_file bare_axes [("lat", mkslice (Some 1%nat) (Some 3%nat))] [1; 0]%nat = Ok 20%nat.
Proof. split; reflexivity. Qed.

(** real labels of the domain stop the run when the file has none *)
Theorem C112_real_labels : forall {V} (ds : plain V) dom sl l k a d xs, NoDup (keys dom) ->
  In (k, a) (pl_axes ds) -> ax_labels a = None -> In (k, d) dom -> ax_labels d = Some (Reals xs) ->
  exists e, plain_cell ds dom sl l = Err e.
Proof. exact @real_labels. Qed.
Print Assumptions C112_real_labels.

Example C112_real_labels_case : plain_cell bare_file [("lat", mk_axis 3 (Some (Reals [47; 48; 49]%R))); ("lon", mk_axis 2 None)] [] [0; 0]%nat = Err TypeError.
Proof. reflexivity. Qed.

(** C112 is false when the domain has whole numbers as labels and the file
    has none: with three rows at the degrees -1, 0 and 1 all cells are read
    without an error, and the first row is read from the last row of the file. *)
Theorem C112_refuted : exists (ds : plain nat) dom l v n m d a,
  bare (pl_axes ds) /\ map (fun x => (fst x, ax_size (snd x))) (pl_axes ds) = map (fun x => (fst x, ax_size (snd x))) dom /\
  (forall k b, In (k, b) dom -> whole_axis b) /\
  (forall c, In c (indices (map (fun x => ax_size (snd x)) dom)) -> exists w, plain_cell ds dom [] c = Ok w) /\
  plain_cell ds dom [] l = Ok v /\ stands_at dom l "lat" d m /\ (exists p, v = pl_at ds p /\ stands_at (pl_axes ds) p "lat" a n) /\ n <> m /\
  forall p, v = pl_at ds p -> List.length p = 2%nat -> (nth 1 p 0 < 2)%nat -> nth 0 p 0%nat <> m.
Proof. exact degrees_elsewhere. Qed.
Print Assumptions C112_refuted.

(** and when the file has labels that the domain lacks *)
Theorem C112_file_labels_refuted : exists (ds : plain nat) dom l v,
  bare dom /\ map (fun x => (fst x, ax_size (snd x))) (pl_axes ds) = map (fun x => (fst x, ax_size (snd x))) dom /\
  (forall k b, In (k, b) (pl_axes ds) -> whole_axis b) /\
  plain_cell ds dom [] l = Ok v /\ v <> pl_at ds l.
Proof. exact falling_elsewhere. Qed.
Print Assumptions C112_file_labels_refuted.
