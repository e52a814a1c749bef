(** Vocabulary for statements about the period of a run. *)
From Coq Require Import ZArith String Ascii List Bool.
From Verif Require Import Model.Calendar Model.Period Spec.ReaderSpec.
Import ListNotations.

(** a text without the character '/' *)
Definition no_slash (s : string) : Prop := lacks "/" s.

(** [s] is the text year/month/day of day [d] *)
Definition ymd (parse_int : string -> option Z) (s : string) (d : Z) : Prop :=
  exists y m k, no_slash y /\ no_slash m /\ no_slash k /\
    s = (y ++ "/" ++ m ++ "/" ++ k)%string /\
    exists y' m' k', parse_int y = Some y' /\ parse_int m = Some m' /\ parse_int k = Some k' /\
      (1 <= y' <= 9999)%Z /\ civil_from_days d = mkcivil y' m' k' /\ days_from_civil (mkcivil y' m' k') = d.

(** the parameter stands for the single day [d]: a date, or a text that
    pandas reads as that day, either year/month/day or without slashes *)
Definition names (parse : string -> option (Z * Z)) (parse_int : string -> option Z) (p : time_param) (d : Z) : Prop :=
  match p with
  | Given d' => d' = d
  | Text s => s <> "forcing"%string /\ parse s = Some (d, d) /\ (ymd parse_int s d \/ no_slash s)
  end.
