(** Daily tables. *)
From Coq Require Import ZArith Reals String List Bool.
From Verif Require Import Model.Py Model.Fl Model.Np Model.Params Model.Physics Model.Mtclim Model.Disagg.
Import ListNotations.
Local Open Scope string_scope.

(** [df'] has the columns of [df], unchanged, and the same rows *)
Definition keeps (df df' : daily) : Prop :=
  dl_doy df' = dl_doy df /\ forall k v, dict_get (dl_cols df) k = Some v -> dict_get (dl_cols df') k = Some v.

Definition has (df : daily) (k : string) : Prop := exists v, dict_get (dl_cols df) k = Some v.

(** columns [out] = f(columns), row by row *)
Definition row1 (df : daily) (out a : string) (f : fl -> fl) : Prop :=
  exists x, dict_get (dl_cols df) a = Some x /\ dict_get (dl_cols df) out = Some (map f x).
Definition row2 (df : daily) (out a b : string) (f : fl -> fl -> fl) : Prop :=
  exists x y, dict_get (dl_cols df) a = Some x /\ dict_get (dl_cols df) b = Some y /\
    dict_get (dl_cols df) out = Some (map2 f x y).
Definition row3 (df : daily) (out a b c : string) (f : fl -> fl -> fl -> fl) : Prop :=
  exists x y z, dict_get (dl_cols df) a = Some x /\ dict_get (dl_cols df) b = Some y /\
    dict_get (dl_cols df) c = Some z /\ dict_get (dl_cols df) out = Some (map3 f x y z).
Definition row4 (df : daily) (out a b c d : string) (f : fl -> fl -> fl -> fl -> fl) : Prop :=
  exists x y z w, dict_get (dl_cols df) a = Some x /\ dict_get (dl_cols df) b = Some y /\
    dict_get (dl_cols df) c = Some z /\ dict_get (dl_cols df) d = Some w /\
    dict_get (dl_cols df) out = Some (map2 (fun g v => g v) (map3 f x y z) w).
