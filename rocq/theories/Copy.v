(** WriterBufferingIterator.h: pass1, copying all rows of an iterator to a writer. *)
From Coq Require Import String.
From Verif Require Import Base Fp Stream Codec Meta Header Encoder Table Writer Reader RowReader Comparator.
Open Scope Z_scope.
Local Notation length := List.length.

(** Codec::clone, core/Codec.cc:32-39, and CodecChars::clone, codec/String.h:296-306: a
    codec of the same name with the statistics and, for the subclasses of CodecChars, the
    strings.  (String.h:93-102 also copies the statistics of the inner codec, which [codec]
    does not keep apart; for a codec of the other byte order the static_cast of String.h:299
    names the wrong class, taken here to work as intended.) *)
Definition clone_codec (st : settings) (ty : Z) (k : codec) : outcome codec :=
  let c := set_stats (new_codec (iad st) LE (c_kind k) ty) (c_hasMissing k) (c_min k) (c_max k) (c_missing k) in
  if chars_based (c_kind k) then
    do _ <- assert (deq (c_min c) (c_min k));
    do _ <- assert (deq (c_max c) (c_max k));
    Ok (set_strings c (c_strings k) (c_lookup k) (c_dsd k))
  else Ok c.

(** Column::operator=, core/Column.cc:32-51.  The bitfield definition of a column of another
    type, which is left as it was, is never looked at: here it is empty. *)
Definition copy_column (st : settings) (c : column) : outcome column :=
  do k <- clone_codec st (col_type c) (col_coder c);
  let bf := col_type c =? ty_BITFIELD in
  Ok {| col_name := col_name c; col_type := col_type c;
        col_bfnames := if bf then col_bfnames c else []; col_bfsizes := if bf then col_bfsizes c else [];
        col_coder := k |}.

(** columns(md), WriterBufferingIterator.h:74-80, MetaData::operator=, core/MetaData.cc:124-144;
    the codecs of [md] are all there. *)
Definition writer_columns (st : settings) (w : writer) (md : list column) : outcome writer :=
  do cs <- map_out (copy_column st) md;
  do cols <- map_out (reset_codec st) cs;
  Ok {| w_cols := cols; w_last := w_last w; w_rows := w_rows w; w_size := w_size w; w_out := w_out w; w_init := true |}.

(** MetaData::operator==, core/MetaData.cc:214-230, Column::equals, core/Column.cc:104-114. *)
Definition equal_column (a b : column) : bool :=
  bytes_eqb (col_name a) (col_name b) && (col_type a =? col_type b) &&
  (data_size_doubles (col_coder a) =? data_size_doubles (col_coder b)).
Fixpoint equal_columns (a b : list column) : bool :=
  match a, b with
  | [], [] => true
  | x :: a', y :: b' => equal_column x y && equal_columns a' b'
  | _, _ => false
  end.

(** pass1init, WriterBufferingIterator.h:177-191, with allocRowsBuffer,
    WriterBufferingIterator.cc:150-155. *)
Definition pass1_init (st : settings) (w : writer) (md : list column) : outcome writer :=
  do w1 <- writer_columns st w md;
  do cols <- map_out (reset_codec st) (w_cols w1);
  do _ <- assert (negb (length md =? 0)%nat);
  Ok {| w_cols := map reset_stats cols; w_last := w_last w1; w_rows := []; w_size := row_bytes cols;
        w_out := w_out w1; w_init := w_init w1 |}.

Section Copy.
Variable md5 : list Z -> list Z.
Variables (st : settings) (N : nat) (pr : props).

(** What pass1 does for the row [cells] of columns [md]: WriterBufferingIterator.h:202-209;
    [fresh] is isNewDataset(). *)
Definition pass1_row (w : writer) (fresh : bool) (md : list column) (cells : list (list Z)) : outcome writer :=
  do w1 <-
    (if fresh && negb (equal_columns md (w_cols w)) then
       do w1 <- flush md5 st N pr w;
       do w2 <- pass1_init st w1 md;
       Ok (write_header w2)
     else Ok w);
  do _ <- assert (length md =? length (w_cols w1))%nat;          (* WriterBufferingIterator.cc:197 *)
  write_row md5 st N pr w1 (concat cells).

Variable junk : nat -> nat -> list Z.

(** The loop, WriterBufferingIterator.h:201-210; [fuel] bounds the number of rows. *)
Fixpoint pass1_loop (fuel : nat) (w : writer) (it : riter) : outcome writer :=
  match fuel with
  | O => UB
  | S f =>
      if r_end it then Ok w
      else
        do w1 <- pass1_row w (r_new it) (r_cols it) (r_last it);
        do (it1, _) <- next_row md5 st junk it;
        pass1_loop f w1 it1
  end.

(** pass1, WriterBufferingIterator.h:193-218, on a new writer and the rows of a file:
    Reader in(file); writer.begin()->pass1(in.begin(), in.end()). *)
Definition copy_file (fuel : nat) (file : list Z) : outcome (list Z) :=
  do it <- begin_rows md5 st junk file;
  do w <- pass1_init st (new_writer []) (r_cols it);
  do w1 <- pass1_loop fuel (write_header w) it;
  do w2 <- flush md5 st N pr w1;
  do w3 <- Writer.close md5 st N pr w2;
  Ok (w_out w3).

End Copy.
