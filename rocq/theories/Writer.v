(** WriterBufferingIterator.{h,cc}: writing a file row by row. *)
From Coq Require Import String.
From Verif Require Import Base Fp Stream Codec Meta Header Encoder.
Open Scope Z_scope.
Local Notation length := List.length.

(** The state of a writer.  A row is kept as its cells: cell [i] is the
    [columnByteSizes_[i]] bytes at [columnOffsets_[i]] of an array of doubles
    (WriterBufferingIterator.cc:131-144). *)
Record writer := {
  w_cols : list column;                (* columns_ *)
  w_last : list (list Z);              (* lastValues_ *)
  w_rows : list (list (list Z));       (* rowsBuffer_ up to nextRowInBuffer_ *)
  w_size : Z;                          (* rowByteSize_, 0 when rowsBuffer_ is not allocated *)
  w_out : list Z;                      (* what was written to the data handle *)
  w_init : bool                        (* initialisedColumns_ *)
}.

(** columns_[i]->dataSizeDoubles() * sizeof(double), WriterBufferingIterator.cc:144. *)
Definition width (c : column) : Z := 8 * data_size_doubles (col_coder c).
(** rowDataSizeDoublesInternal() * sizeof(double), WriterBufferingIterator.cc:216-223. *)
Definition row_bytes (cols : list column) : Z := fold_right Z.add 0 (map width cols).

(** The bytes of an array of doubles at the columns' offsets,
    WriterBufferingIterator.cc:133-146, 206-207; reading past the array is undefined. *)
Fixpoint split_row (cols : list column) (data : list Z) : outcome (list (list Z)) :=
  match cols with
  | [] => Ok []
  | c :: cs =>
      if Z.of_nat (length data) <? width c then UB
      else
        do r <- split_row cs (skipn (Z.to_nat (width c)) data);
        Ok (firstn (Z.to_nat (width c)) data :: r)
  end.

(** Column::missingValue() in the first double of each column, the rest zero:
    WriterBufferingIterator.cc:127-142 (every column at least one double wide). *)
Definition initial_cell (c : column) : list Z :=
  le_bytes 8 (missing_value (col_coder c)) ++ repeat 0 (Z.to_nat (width c - 8)).
Definition alloc_buffers (cols : list column) : list (list Z) := map initial_cell cols.

(** Codec::resetStats, core/Codec.h:62-65. *)
Definition reset_stats (c : column) : column :=
  with_coder c (set_stats (col_coder c) 0 (c_missing (col_coder c)) (c_missing (col_coder c)) (c_missing (col_coder c))).

(** Column::resetCodec, core/Column.h:213-218. *)
Definition reset_codec (st : settings) (c : column) : outcome column :=
  do k <- working_codec st LE (col_type c);
  do k1 <- set_data_size k (data_size_doubles (col_coder c));
  Ok (with_coder c k1).

(** setColumn, WriterBufferingIterator.cc:272-293, for the columns in turn: [done] are
    the names set so far, [todo] columns still have the empty name (MetaData.cc:83-86). *)
Fixpoint set_columns (st : settings) (done : list (list Z)) (cols : list colinfo) : outcome (list column) :=
  match cols with
  | [] => Ok []
  | ci :: cs =>
      if existsb (bytes_eqb (ci_name ci)) (done ++ map (fun _ => []) cs) then Throw SeriousBug
      else
        do c <- make_column st ci;
        do r <- set_columns st (done ++ [ci_name ci]) cs;
        Ok (c :: r)
  end.

(** missingValue(i, v), WriterBufferingIterator.cc:308-314. *)
Definition writer_missing (w : writer) (i : nat) (v : Z) : outcome writer :=
  match nth_error (w_cols w) i with
  | None => Throw AssertFailed
  | Some c =>
      do k <- set_missing_value (col_coder c) v;
      Ok {| w_cols := list_set (w_cols w) i (with_coder c k); w_last := w_last w; w_rows := w_rows w;
            w_size := w_size w; w_out := w_out w; w_init := w_init w |}
  end.

(** writeHeader, WriterBufferingIterator.cc:157-181: a row buffer that is too small for
    the new rows is dropped (with the rows in it). *)
Definition write_header (w : writer) : writer :=
  let drop := negb (w_size w =? 0) && (w_size w <? row_bytes (w_cols w)) in
  {| w_cols := map reset_stats (w_cols w); w_last := alloc_buffers (w_cols w);
     w_rows := if drop then [] else w_rows w; w_size := if drop then 0 else w_size w;
     w_out := w_out w; w_init := true |}.

(** gatherStats, WriterBufferingIterator.cc:86-97. *)
Fixpoint gather_row (cols : list column) (row : list (list Z)) : outcome (list column) :=
  match cols, row with
  | c :: cs, x :: xs =>
      do k <- gather (col_coder c) x;
      do r <- gather_row cs xs;
      Ok (with_coder c k :: r)
  | _, _ => Ok []
  end.

Section WithMd5.
Variable md5 : list Z -> list Z.
Variables (st : settings) (N : nat) (pr : props).   (* N = rowsBufferSize_, pr = properties_ *)

(** flush, WriterBufferingIterator.cc:316-361, with doWriteRow, 225-259: the loop is the
    one of encodeFrame, except that the first row is compared with [lastValues_].
    [k] is a uint16_t: when all of 65536 or more columns are equal the search for the
    first difference never ends (here 65536 or more columns are reported as UB).  The codecs write through a bare
    pointer into a buffer of rowsBuffer_.size() + 2 * rowsBufferSize_ bytes. *)
Definition flush (w : writer) : outcome writer :=
  do _ <- assert (w_init w);
  match w_rows w with
  | [] => Ok w
  | _ :: _ =>
      do cols <- map_out (optimize_column st LE) (w_cols w);
      if 65536 <=? Z.of_nat (length cols) then UB
      else
        do body <- encode_rows (map col_coder cols) (Some (w_last w)) (w_rows w);
        if Z.of_nat N * (w_size w + 2) <? Z.of_nat (length body) then UB
        else
          do h <- serialize_header md5 LE (Z.of_nat (length body)) (Z.of_nat (length (w_rows w))) pr cols;
          do cols' <- map_out (reset_codec st) cols;
          Ok {| w_cols := map reset_stats cols'; w_last := alloc_buffers cols; w_rows := [];
                w_size := w_size w; w_out := w_out w ++ h ++ body; w_init := true |}
  end.

(** writeRow, WriterBufferingIterator.cc:196-214. *)
Definition write_row (w : writer) (data : list Z) : outcome writer :=
  do _ <- assert (w_init w);
  let size := if w_size w =? 0 then row_bytes (w_cols w) else w_size w in
  do row <- split_row (w_cols w) data;
  do cols <- gather_row (w_cols w) row;
  if (N <=? length (w_rows w))%nat then UB
  else
    let w1 := {| w_cols := cols; w_last := w_last w; w_rows := w_rows w ++ [row];
                 w_size := size; w_out := w_out w; w_init := w_init w |} in
    if (length (w_rows w1) =? N)%nat then flush w1 else Ok w1.

(** The calls a client makes between writeHeader and close. *)
Inductive wop := WRow (data : list Z) | WFlush.

Definition write_op (w : writer) (op : wop) : outcome writer :=
  match op with WRow data => write_row w data | WFlush => flush w end.

Fixpoint write_ops (w : writer) (ops : list wop) : outcome writer :=
  match ops with
  | [] => Ok w
  | op :: os => do w1 <- write_op w op; write_ops w1 os
  end.

(** close, WriterBufferingIterator.cc:368-376. *)
Definition close (w : writer) : outcome writer := if w_init w then flush w else Ok w.

(** A writer with columns [cols], ready for rows: the constructor, setNumberOfColumns,
    setColumn for each column, missingValue for those in [mvs], and writeHeader. *)
Definition new_writer (cols : list column) : writer :=
  {| w_cols := cols; w_last := []; w_rows := []; w_size := 0; w_out := []; w_init := false |}.

Fixpoint set_missing (w : writer) (mvs : list (nat * Z)) : outcome writer :=
  match mvs with
  | [] => Ok w
  | (i, v) :: m => do w1 <- writer_missing w i v; set_missing w1 m
  end.

Definition open_writer (cols : list colinfo) (mvs : list (nat * Z)) : outcome writer :=
  do cs <- set_columns st [] cols;
  do w <- set_missing (new_writer cs) mvs;
  Ok (write_header w).

(** The file after the calls [ops] were made and the writer closed. *)
Definition write_file (cols : list colinfo) (mvs : list (nat * Z)) (ops : list wop) : outcome (list Z) :=
  do w <- open_writer cols mvs;
  do w1 <- write_ops w ops;
  do w2 <- close w1;
  Ok (w_out w2).

End WithMd5.
