(** Vocabulary for statements about input files. *)
From Coq Require Import ZArith Reals String Ascii List Bool Permutation.
From Verif Require Import Model.Py Model.Fl Model.Reader.
Import ListNotations.
Local Open Scope list_scope.

(** 16-bit little-endian word number [k] of a file, as written: an unsigned
    number, or its two's complement reading *)
Definition word_of (bytes : list Z) (k : nat) : Z :=
  (nth (2 * k) bytes 0 + 256 * nth (2 * k + 1) bytes 0)%Z.
Definition signed_word (w : Z) : Z := if (w <? 32768)%Z then w else (w - 65536)%Z.

(** the physical value of word [k] for a variable *)
Definition word_value (bytes : list Z) (v : bin_var) (k : nat) : R :=
  (IZR (if bv_signed v then signed_word (word_of bytes k) else word_of bytes k) / bv_scale v)%R.

(** two bytes of an integer *)
Definition bytes_of (z : Z) : list Z := [(z mod 65536) mod 256; (z mod 65536) / 256]%Z.
Definition representable (v : bin_var) (z : Z) : Prop :=
  if bv_signed v then (-32768 <= z < 32768)%Z else (0 <= z < 65536)%Z.

(** a text without the character [c] *)
Fixpoint lacks (c : ascii) (s : string) : Prop :=
  match s with EmptyString => True | String c' r => c' <> c /\ lacks c r end.

(** what a file name designates: a cell inside the domain and the mask *)
Definition target (parse_float : string -> option R) (dom : vic_domain) (job : string) (i j : nat) : Prop :=
  exists lat lon, parse_job parse_float job = Ok (lat, lon) /\
    find_coord (vd_lat dom) lat 0 = Ok i /\ find_coord (vd_lon dom) lon 0 = Ok j /\
    fgt (vd_mask dom i j) (Some 0%R) = true.

(** a comment line of a configuration file *)
Definition comment_line (l : string) : Prop := starts_with "#" (strip l) = true.
(** a line with nothing but blanks *)
Definition blank_line (l : string) : Prop := strip l = ""%string.
(** the text of a line: without inline comment and surrounding blanks *)
Definition line_text (l : string) : string := strip (before_char "#" l).
