(** metsim/metsim.py: chunking of the grid, output time axis, file names *)
From Coq Require Import ZArith String Ascii List Bool Arith.
From Verif Require Import Model.Py Model.Fl Model.Calendar Model.Datetime.
Import ListNotations.
Local Open Scope list_scope.

(** ** [chunk_domain], metsim.py:808-824 *)

(** np.arange(a, b, step) on integers *)
Definition arangeZ (a b step : Z) : res (list Z) :=
  if (step =? 0)%Z then Err ZeroDivisionError
  else Ok (zrange a step (- ((a - b) / step))).      (* ceil((b-a)/step) values *)

(** [left], :812-813 *)
Definition chunk_left (chunk dim : Z) : res (list Z) := arangeZ 0 dim chunk.

(** nums[-1] = v *)
Definition set_last {A} (l : list A) (v : A) : res (list A) :=
  match l with [] => Err IndexError | _ => Ok (removelast l ++ [v]) end.

(** [right], :815-818 *)
Definition chunk_right (chunk dim : Z) : res (list Z) :=
  do nums <- arangeZ chunk (dim + chunk) chunk;
  set_last nums (dim + 1)%Z.

(** the slices of one dimension, :820-821.  The bounds are non-negative for
    positive chunk sizes. *)
Definition dim_slices (chunk dim : Z) : res (list pyslice) :=
  do l <- chunk_left chunk dim;
  do r <- chunk_right chunk dim;
  Ok (map (fun ab => mkslice (Some (Z.to_nat (fst ab))) (Some (Z.to_nat (snd ab))))
          (combine l r)).

(** itertools.product *)
Fixpoint product {A} (ls : list (list A)) : list (list A) :=
  match ls with
  | [] => [[]]
  | l :: r => flat_map (fun x => map (fun p => x :: p) (product r)) l
  end.

(** a mask dimension list: (name, size), in the order of mask.dims *)
Definition dimlist := dict nat.

Definition chunk_domain (chunks : dict Z) (dims : dimlist) : res (list (dict pyslice)) :=
  do slices <- mapM (fun kc => do n <- dict_getitem dims (fst kc);
                               dim_slices (snd kc) (Z.of_nat n)) chunks;
  Ok (map (fun p => combine (keys chunks) p) (product slices)).

(** [slices] property, metsim.py:319-324 *)
Definition slices (chunks : dict Z) (dims : dimlist) : res (list (dict pyslice)) :=
  match chunks with
  | [] => Ok [map (fun d => (fst d, mkslice None None)) dims]
  | _ => chunk_domain chunks dims
  end.

(** ** Cells of a slice.  A cell is its index vector in the order of
    mask.dims. *)
Definition cell := list nat.

(** positions along each dimension selected by isel on the slice dictionary
    (metsim.py:289-290); a dimension without slice is taken whole *)
Definition isel_ranges (dims : dimlist) (ds : dict pyslice) : list (list nat) :=
  map (fun d => match dict_get ds (fst d) with
                | Some s => slice_range s (snd d)
                | None => seq 0 (snd d)
                end) dims.

(** np.ndenumerate over a shape, row major, metsim.py:477 *)
Definition indices (shape : list nat) : list cell := product (map (fun n => seq 0 n) shape).

(** local index in the slice -> index in the whole grid *)
Definition globalize (ranges : list (list nat)) (l : cell) : cell :=
  map (fun ri => nth (snd ri) (fst ri) 0) (combine ranges l).

(** write_slice, metsim.py:450-452: KeyError if a dimension has no slice *)
Definition write_slice (dims : dimlist) (ds : dict pyslice) : res (list (list nat)) :=
  mapM (fun d => do s <- dict_getitem ds (fst d); Ok (slice_range s (snd d))) dims.

(** ncout.variables[outname][write_slice] = values, metsim.py:453-454: the
    list of (cell, local cell) assignments *)
Definition write_targets (ranges : list (list nat)) : list (cell * cell) :=
  map (fun l => (globalize ranges l, l)) (indices (map (@List.length nat) ranges)).

Fixpoint cell_eqb (a b : cell) : bool :=
  match a, b with
  | [], [] => true
  | x :: a', y :: b' => (x =? y)%nat && cell_eqb a' b'
  | _, _ => false
  end.

(** the assignment to one variable of one file; an error leaves the file as
    it was *)
Definition write_values {V} (dims : dimlist) (ds : dict pyslice) (vals : cell -> V)
    (file : cell -> option V) : res (cell -> option V) :=
  do ranges <- write_slice dims ds;
  Ok (fold_left (fun f gl c => if cell_eqb c (fst gl) then Some (vals (snd gl)) else f c)
                (write_targets ranges) file).

(** ** storage chunk sizes, metsim.py:367-375 (without the leading time
    entry) *)
Definition storage_chunk (chunks : dict Z) (d : string * nat) : Z :=
  let s := Z.of_nat (snd d) in
  let c := match dict_get chunks (fst d) with Some c => c | None => s end in
  if (c <=? s)%Z then c else s.
Definition storage_chunks (chunks : dict Z) (dims : dimlist) : list Z :=
  map (storage_chunk chunks) dims.

(** ** [_get_output_times], metsim.py:512-557.  [start], [stop]: first and
    last time of the forcing in minutes. *)
Definition output_axis (start stop ts : Z) (period_ending : bool) : res (list Z) :=
  let delta := if (ts <? 1440)%Z then (1440 - ts)%Z else 0%Z in
  let offset := if period_ending then ts else 0%Z in
  pd_date_range (start + offset) (stop + offset + delta) ts.

(** dummy.groupby(pd.Grouper(freq)): [bin] maps a stamp to the number of
    its bin; every bin from that of the first stamp to that of the last is
    produced, also when no stamp falls into it *)
Definition group_times (bin : Z -> Z) (times : list Z) : list (list Z) :=
  match times with
  | [] => []
  | t0 :: _ =>
      let b0 := bin t0 in
      let b1 := bin (last times t0) in
      map (fun b => filter (fun t => (bin t =? b)%Z) times) (zrange b0 1 (b1 - b0 + 1))
  end.

Definition get_output_times (freq : option (Z -> Z)) (start stop ts : Z) (period_ending : bool)
  : res (list (list Z)) :=
  do times <- output_axis start stop ts period_ending;
  match freq with
  | None => Ok [times]
  | Some bin => Ok (group_times bin times)
  end.

(** ** [get_nc_output_suffix], metsim.py:686-690, [_get_output_filename] :559-564 *)

(** '{:0wd}' for a non-negative number *)
Fixpoint zeros (n : nat) : string := match n with O => EmptyString | S m => String "0" (zeros m) end.
Definition pad (w : nat) (n : Z) : string :=
  let s := nat_str (Z.to_nat n) in append (zeros (w - String.length s)) s.

Definition date_str (c : civil) : string :=
  append (pad 4 (c_year c)) (append (pad 2 (c_month c)) (pad 2 (c_day c))).

Definition output_suffix (times : list Z) : res string :=
  match times with
  | [] => Err IndexError                                       (* times[[0, -1]] *)
  | t0 :: _ =>
      let s := civil_from_days (day_of t0) in
      let e := civil_from_days (day_of (last times t0)) in
      Ok (append (date_str s) (append "-" (date_str e)))
  end.

Definition output_filename (dir prefix : string) (times : list Z) : res string :=
  do suf <- output_suffix times;
  Ok (append dir (append "/" (append prefix (append "_" (append suf ".nc"))))).

(** the headers written by [run], metsim.py:333-336: a name for every group,
    and the time stamps of the file of that name.  Mode "w" replaces a file
    that has the name already. *)
Definition file_names (dir prefix : string) (groups : list (list Z)) : res (list string) :=
  mapM (output_filename dir prefix) groups.
Definition write_headers (dir prefix : string) (groups : list (list Z)) : res (dict (list Z)) :=
  do names <- file_names dir prefix groups;
  Ok (dict_of (combine names groups)).

(** pd.Grouper(freq) for the frequencies of days, weeks (to Sunday), months,
    years and hours, :554-556 *)
Definition calendar_bin (freq : string) : option (Z -> Z) :=
  let civil_of t := civil_from_days (day_of t) in
  if String.eqb freq "D" then Some day_of
  else if String.eqb freq "W" then Some (fun t => (day_of t + 3) / 7)%Z
  else if (String.eqb freq "M" || String.eqb freq "MS")%bool then Some (fun t => 12 * c_year (civil_of t) + c_month (civil_of t))%Z
  else if (String.eqb freq "A" || String.eqb freq "AS" || String.eqb freq "Y" || String.eqb freq "YS")%bool then Some (fun t => c_year (civil_of t))
  else if String.eqb freq "H" then Some (fun t => t / 60)%Z
  else None.

(** records written to a group's file: output.sel(time=slice(first, last)),
    metsim.py:445 and :454, on the full axis paired with its values *)
Definition file_records {A} (axis : list Z) (values : list A) (times : list Z) : list A :=
  match times with
  | [] => []
  | t0 :: _ =>
      map snd (filter (fun p => (t0 <=? fst p)%Z && (fst p <=? last times t0)%Z)
                      (combine axis values))
  end.
