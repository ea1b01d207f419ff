(** Specification vocabulary: files written row by row. *)
From Coq Require Import String.
From Verif Require Import Base Fp Stream Codec Meta Encoder Spec Writer RowList.
Open Scope Z_scope.
Local Notation length := List.length.

(** What a client does: write a row, given by its cells, or flush. *)
Inductive action := Row (cells : list (list Z)) | Flush.

(** The corresponding call: a row is passed as one array, cell after cell. *)
Definition call (a : action) : wop := match a with Row cells => WRow (concat cells) | Flush => WFlush end.

Fixpoint rows_of_actions (acts : list action) : list (list (list Z)) :=
  match acts with
  | [] => []
  | Row cells :: a => cells :: rows_of_actions a
  | Flush :: a => rows_of_actions a
  end.

(** The frames of the finished file, each the list of its rows: a frame ends when [N]
    rows are buffered, at a flush, and at the end.  [cur] are the rows buffered so far. *)
Definition one_frame (cur : list (list (list Z))) : list (list (list (list Z))) :=
  match cur with [] => [] | _ => [cur] end.

Fixpoint split_frames (N : nat) (cur : list (list (list Z))) (acts : list action) : list (list (list (list Z))) :=
  match acts with
  | [] => one_frame cur
  | Flush :: a => one_frame cur ++ split_frames N [] a
  | Row cells :: a =>
      if (length (cur ++ [cells]) =? N)%nat then (cur ++ [cells]) :: split_frames N [] a
      else split_frames N (cur ++ [cells]) a
  end.

(** The cells of column [i]. *)
Definition column_cells (i : nat) (rows : list (list (list Z))) : list (list Z) := map (fun row => nth i row []) rows.

(** An upper bound for the size of the header of a frame. *)
Definition rows_room (cols : list colinfo) (rows : list (list (list Z))) (m : props) : Z :=
  200 + total (fun kv => 8 + len (fst kv) + len (snd kv)) m
  + total (fun ci => column_room (snd ci) (column_cells (fst ci) rows)) (combine (seq 0 (length cols)) cols).

(** Rows of the columns [cols] that fit in one frame and whose columns can be stored. *)
Record writable (st : settings) (cols : list colinfo) (pr : props) (rows : list (list (list Z))) : Prop := {
  wr_shape : Forall (fun row => Forall2 (fun ci cell => len cell = ci_size ci) cols row) rows;
  wr_cells : forall i ci, nth_error cols i = Some ci -> storable st ci (column_cells i rows);
  wr_header : rows_room cols rows pr < 2 ^ 31;
  wr_size : len rows * (2 + fold_right Z.add 0 (map ci_size cols)) < 2 ^ 63
}.

(** Columns of numbers (one double wide) and of strings. *)
Definition known_type (ci : colinfo) : Prop :=
  (int_type (ci_type ci) \/ real_type (ci_type ci)) /\ ci_size ci = 8 \/
  ci_type ci = ty_STRING /\ exists dsd, 1 <= dsd /\ ci_size ci = 8 * dsd /\ 8 * dsd < 2 ^ 31.

(** Columns a writer accepts. *)
Record writable_columns (cols : list colinfo) (pr : props) : Prop := {
  wc_some : cols <> [];
  wc_many : Z.of_nat (length cols) < 65536;
  wc_names : NoDup (map ci_name cols);
  wc_named : Forall (fun ci => ci_name ci <> []) cols;
  wc_types : Forall known_type cols;
  wc_cols : Forall describable cols;
  wc_props : props_ok pr
}.

(** [out] is a faithful copy of the row [row]. *)
Definition same_row (st st' : settings) (cols : list colinfo) (row out : list (list Z)) : Prop :=
  length row = length cols /\ length out = length cols /\
  forall i ci x y, nth_error cols i = Some ci -> nth_error row i = Some x -> nth_error out i = Some y ->
    same_value st st' (ci_type ci) x y.

(** The column [c] of a file is the one described: name, type and bitfield members. *)
Definition described (ci : colinfo) (c : column) : Prop :=
  col_name c = ci_name ci /\ col_type c = ci_type ci /\
  (ci_type ci = ty_BITFIELD -> col_bfnames c = map fst (ci_bits ci) /\ col_bfsizes c = map snd (ci_bits ci)).

(** [out] is a faithful copy of a row and has its columns. *)
Definition comes_back (st st' : settings) (r : list colinfo * list (list Z)) (out : arow) : Prop :=
  Forall2 described (fst r) (fst out) /\ same_row st st' (fst r) (snd r) (snd out).

(** ** Ordinary values, which can be stored in any company *)

(** 32-bit integers (or missing); finite numbers that are not the ones the format uses to
    mark missing REAL values, and not -0.0 in DOUBLE columns; texts. *)
Inductive ordinary (st : settings) (ci : colinfo) : list Z -> Prop :=
| or_int n : int_type (ci_type ci) -> ci_size ci = 8 -> int32 n -> ordinary st ci (int_cell (negb (iad st)) n)
| or_real v : ci_type ci = ty_REAL -> ci_size ci = 8 -> num v -> is_inf f64 v = false ->
    feq f32 (d2f v) flt_min = false -> feq f32 (d2f v) neg_flt_max = false -> ordinary st ci (le_bytes 8 v)
| or_double v : ci_type ci = ty_DOUBLE -> ci_size ci = 8 -> num v -> is_inf f64 v = false -> v <> negzero ->
    ordinary st ci (le_bytes 8 v)
| or_string dsd cell : ci_type ci = ty_STRING -> ci_size ci = 8 * dsd -> 1 <= dsd -> 8 * dsd < 2 ^ 31 ->
    len cell = 8 * dsd -> bytes_ok cell -> long_strings st = false -> ordinary st ci cell.

(** [n] rows of these columns fit in a frame, whatever the values. *)
Definition small (n : Z) (cols : list colinfo) (pr : props) : Prop :=
  n < 65536 /\ n * (2 + fold_right Z.add 0 (map ci_size cols)) < 2 ^ 63 /\
  200 + total (fun kv => 8 + len (fst kv) + len (snd kv)) pr
  + total (fun ci => 100 + len (ci_name ci) + total (fun b => 8 + len (fst b)) (ci_bits ci) + n * (12 + ci_size ci)) cols < 2 ^ 31.

(** The columns read are at least one double wide and not wider than those written. *)
Definition roomy (ci : colinfo) (c : column) : Prop := 1 <= data_size_doubles (col_coder c) /\ 8 * data_size_doubles (col_coder c) <= ci_size ci.
Definition snug (r : list colinfo * list (list Z)) (out : arow) : Prop := fst r <> [] /\ Forall2 roomy (fst r) (fst out).
