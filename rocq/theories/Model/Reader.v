(** metsim/io.py:167-369: reading forcing data *)
From Coq Require Import ZArith Reals String Ascii List Bool Arith.
From Verif Require Import Model.Py Model.Fl Model.Np.
Import ListNotations.
Local Open Scope list_scope.

(** ** [read_binary], io.py:324-369 *)

(** one entry of var_dict: scale and type (io.py:335-337) *)
Record bin_var := mk_bin_var { bv_scale : R; bv_signed : bool }.

(** struct.unpack('h' / 'H', two bytes), little endian *)
Definition word (lo hi : Z) : Z := (lo + 256 * hi)%Z.
Definition as_signed (w : Z) : Z := if (32768 <=? w)%Z then (w - 65536)%Z else w.
Definition unpack (signed : bool) (lo hi : Z) : Z :=
  if signed then as_signed (word lo hi) else word lo hi.

(** the read loop, io.py:339-352.  [fuel] = points still needed
    (points_needed - points_read), so the loop is structural.
    [bytes] is what is left of the file; columns are accumulated in
    reverse order. *)
Fixpoint bin_loop (vars : list bin_var) (fuel : nat) (i : nat) (bytes : list Z)
    (data : list (list R)) : res (list (list R)) :=
  match fuel with
  | O => Ok data
  | S fuel' =>
      match bytes with
      | [] => Ok data                                    (* break, :352 *)
      | [_] => Err StructError                            (* f.read(2) gave 1 byte *)
      | lo :: hi :: rest =>
          match nth_error vars i, nth_error data i with
          | Some v, Some c =>
              if Req_EM_T (bv_scale v) 0 then Err ZeroDivisionError
              else
                let x := (IZR (unpack (bv_signed v) lo hi) / bv_scale v)%R in
                bin_loop vars fuel' ((i + 1) mod List.length vars) rest
                         (upd i (c ++ [x]) data)
          | _, _ => Err IndexError                        (* data_list[i] *)
          end
      end
  end.

(** columns of the resulting dataset; xr.Dataset rejects columns whose
    length differs from the time coordinate (io.py:362-368) *)
Definition read_binary (bytes : list Z) (vars : list bin_var) (n_days : nat)
  : res (list (list R)) :=
  do cols <- bin_loop vars (4 * n_days) 0 bytes (repeat [] (List.length vars));
  if forallb (fun c => (List.length c =? n_days)%nat) cols then Ok cols else Err ValueError.

(** ** [process_vic], io.py:213-249 *)

(** split on '_' *)
Fixpoint split_char (c : ascii) (s : string) (cur : string) : list string :=
  match s with
  | EmptyString => [string_rev cur]
  | String c' r => if Ascii.eqb c c' then string_rev cur :: split_char c r EmptyString
                   else split_char c r (String c' cur)
  end.
Definition last3 {A} (l : list A) : list A := skipn (List.length l - 3) l.

(** basename: what follows the last '/' *)
Definition basename (s : string) : string := last (split_char "/" s EmptyString) EmptyString.

(** _, lat, lon = os.path.basename(job).split("_")[-3:]; float(lat), float(lon).
    [parse_float] is Python's float() ([None] = ValueError). *)
Definition parse_job (parse_float : string -> option R) (job : string) : res (R * R) :=
  match last3 (split_char "_" (basename job) EmptyString) with
  | [_; lat; lon] =>
      match parse_float lat, parse_float lon with
      | Some a, Some b => Ok (a, b)
      | _, _ => Err ValueError
      end
  | _ => Err ValueError
  end.

(** exact coordinate lookup (sel without method): position or KeyError *)
Fixpoint find_coord (xs : list R) (x : R) (k : nat) : res nat :=
  match xs with
  | [] => Err KeyError
  | y :: r => if Req_EM_T x y then Ok k else find_coord r x (S k)
  end.

Record vic_domain := mk_vic_domain {
  vd_lat : list R; vd_lon : list R;
  vd_mask : nat -> nat -> fl }.

(** assembled forcing: lat index -> lon index -> what was read for the cell;
    [None] = the NaN initialisation (io.py:231-233) *)
Definition met_grid (V : Type) := nat -> nat -> option V.

(** one iteration of the job loop, io.py:236-248.  [read] is the reader for
    the configured format applied to the job (the series of the variables). *)
Definition vic_job {V : Type} (parse_float : string -> option R) (dom : vic_domain)
    (read : string -> res V) (acc : res (met_grid V)) (job : string) : res (met_grid V) :=
  do met <- acc;
  let body :=
    do ll <- parse_job parse_float job;
    do i <- find_coord (vd_lat dom) (fst ll) 0;
    do j <- find_coord (vd_lon dom) (snd ll) 0;
    if fgt (vd_mask dom i j) (Some 0%R)
    then do cols <- read job; Ok (Some (i, j, cols))
    else Ok None in
  match body with
  | Ok (Some (i, j, cols)) =>
      Ok (fun i' j' => if ((i' =? i) && (j' =? j))%nat%bool then Some cols else met i' j')
  | Ok None => Ok met                                    (* continue, :241 *)
  | Err ValueError | Err KeyError => Ok met               (* :247-248 *)
  | Err e => Err e
  end.

Definition process_vic {V : Type} parse_float dom (read : string -> res V) (jobs : list string) : res (met_grid V) :=
  fold_left (vic_job parse_float dom read) jobs (Ok (fun _ _ => None)).

(** ** [read_netcdf] variable selection, io.py:274-277.
    [var_dict] maps file name -> metsim name (already inverted). *)
Section Select.
Context {V : Type}.

(** ds[var_list]: KeyError when a name is absent *)
Definition select_vars (ds : dict V) (names : list string) : res (dict V) :=
  mapM (fun n => do v <- dict_getitem ds n; Ok (n, v)) names.

(** ds.rename(m): ValueError when two variables would get the same name *)
Fixpoint nodupb (l : list string) : bool :=
  match l with [] => true | x :: r => negb (str_in x r) && nodupb r end.
Definition rename_vars (ds : dict V) (m : dict string) : res (dict V) :=
  let ds' := map (fun nv => (match dict_get m (fst nv) with Some n => n | None => fst nv end,
                             snd nv)) ds in
  if nodupb (keys ds') then Ok ds' else Err ValueError.

Definition select_rename (ds : dict V) (var_dict : dict string) : res (dict V) :=
  do sel <- select_vars ds (keys var_dict);
  rename_vars sel var_dict.

(** [read_data], io.py:310-314: rename first, then keep the new names *)
Definition read_data_vars (ds : dict V) (var_dict : dict string) : res (dict V) :=
  if forallb (fun n => dict_mem ds n) (keys var_dict) then
    do ds' <- rename_vars ds var_dict;
    select_vars ds' (values var_dict)
  else Err ValueError.
End Select.

(** ** time normalisation of [read_netcdf], io.py:295-296: times are
    nanoseconds since the epoch *)
Definition ns_per_day : Z := 86400000000000.
(** Timedelta(hours=11, minutes=59, seconds=59) *)
Definition shift_ns : Z := (((11 * 60 + 59) * 60 + 59) * 1000000000)%Z.

(** DatetimeIndex.round('D'): nearest midnight, ties to the even day number *)
Definition round_day (t : Z) : Z :=
  let d := (t / ns_per_day)%Z in
  let r := (t mod ns_per_day)%Z in
  (if (2 * r <? ns_per_day)%Z then d
   else if (ns_per_day <? 2 * r)%Z then d + 1
   else if Z.even d then d else d + 1)%Z.

Definition normalize_time (t : Z) : Z := (round_day (t - shift_ns) * ns_per_day)%Z.

(** ** constant variables of [MetSim.met_data], metsim.py:301-307, for
    datasets given as variable -> value at (time, cell) *)
Definition apply_constants {P : Type} (met : dict (P -> fl)) (consts : dict R) : dict (P -> fl) :=
  fold_left (fun m kc => dict_set m (fst kc) (fun _ => Some (snd kc))) consts met.
