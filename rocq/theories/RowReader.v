(** ReaderIterator.cc: reading a file row by row. *)
From Verif Require Import Base Fp Stream Codec Meta Header Table Writer.
From Verif Require Import Reader.
Open Scope Z_scope.

(** The state of a ReaderIterator.  A row is kept as its cells, as in [Writer]. *)
Record riter := {
  r_file : list Z;            (* what the data handle still has *)
  r_cols : list column;       (* columns_ *)
  r_data : list Z;            (* rowDataStream_: the rest of the current table's data *)
  r_last : list (list Z);     (* lastValues_ *)
  r_left : Z;                 (* rowsRemainingInTable_ *)
  r_count : nat;              (* headerCounter_ *)
  r_new : bool;               (* newDataset_ *)
  r_end : bool                (* noMore_ *)
}.

Section RowReader.
Variable md5 : list Z -> list Z.
Variable st : settings.
(** The contents of freshly allocated memory (new double[], ReaderIterator.cc:154): the
    bytes of column [i] of the [n]-th table. *)
Variable junk : nat -> nat -> list Z.

(** initRowBuffer, ReaderIterator.cc:149-169: only the first double of each column is
    set (every column at least one double wide). *)
Fixpoint init_row (n i : nat) (cols : list column) : list (list Z) :=
  match cols with
  | [] => []
  | c :: cs => (le_bytes 8 (missing_value (col_coder c)) ++ pad (Z.to_nat (width c - 8)) (junk n i))
               :: init_row n (S i) cs
  end.

(** loadHeaderAndBufferData, ReaderIterator.cc:72-132, and readBuffer, 171-201.  [fuel]
    bounds the number of empty tables skipped; a file has fewer than its length.  [cols]
    are the columns loaded last, which stay when the data ends. *)
Fixpoint load_table (fuel : nat) (count : nat) (cols : list column) (file : list Z) : outcome riter :=
  match fuel with
  | O => UB
  | S f =>
      do m <- read_magic file;
      match m with
      | None => Ok {| r_file := file; r_cols := cols; r_data := []; r_last := []; r_left := 0;
                      r_count := count; r_new := false; r_end := true |}
      | Some s =>
          do (h, rest) <- load_after_magic md5 st s;
          if h_dataSize h =? 0 then
            do _ <- assert (h_rows h =? 0);
            load_table f (S count) (h_cols h) rest
          else
            do _ <- assert (negb (h_rows h =? 0));
            (* size_t dataSize: a negative one is huge *)
            do _ <- assert ((2 <=? h_dataSize h) || (h_dataSize h <? 0));
            if h_dataSize h <? 0 then Throw BadAlloc
            else
              let data := firstn (Z.to_nat (h_dataSize h)) rest in
              if (length data =? 0)%nat then Throw SeriousBug
              else if Z.of_nat (length data) <? h_dataSize h then Throw Incomplete
                   else Ok {| r_file := skipn (Z.to_nat (h_dataSize h)) rest; r_cols := h_cols h;
                              r_data := data; r_last := init_row count 0 (h_cols h);
                              r_left := h_rows h mod 2 ^ 64; r_count := S count; r_new := true; r_end := false |}
      end
  end.

(** The constructor, ReaderIterator.cc:50-70. *)
Definition open_rows (file : list Z) : outcome riter := load_table (S (length file)) 0 [] file.

(** codecs_[i]->decode(&lastValues_[columnOffsets_[i]]): the bytes are stored over the
    cell; writing past the cell is taken as undefined. *)
Definition store (cell out : list Z) : outcome (list Z) :=
  if (length cell <? length out)%nat then UB else Ok (out ++ skipn (length out) cell).

(** The loop of next, ReaderIterator.cc:220-222, from column [start] on. *)
Fixpoint next_cells (start : nat) (cols : list column) (last : list (list Z)) (s : list Z)
  : outcome (list (list Z) * list Z) :=
  match cols, last with
  | c :: cs, x :: xs =>
      match start with
      | S p => do (r, s1) <- next_cells p cs xs s; Ok (x :: r, s1)
      | O =>
          do (out, s1) <- decode (col_coder c) s;
          do y <- store x out;
          do (r, s2) <- next_cells O cs xs s1;
          Ok (y :: r, s2)
      end
  | _, _ => Ok ([], s)
  end.

(** next, ReaderIterator.cc:203-227: the row, or None at the end.  (The returned "nCols" is
    not used by the iterators handed out, which test noMore_: IteratorProxy.h:205-211.) *)
Definition next_row (it : riter) : outcome (riter * option (list (list Z))) :=
  if r_end it then Ok (it, None)
  else
    do it1 <- (if r_left it =? 0 then load_table (S (length (r_file it))) (r_count it) (r_cols it) (r_file it) else Ok it);
    if r_end it1 then Ok (it1, None)
    else
      do (m, s) <- read_raw 2 (r_data it1);
      do (row, s1) <- next_cells (marker_val m) (r_cols it1) (r_last it1) s;
      let it2 := {| r_file := r_file it1; r_cols := r_cols it1; r_data := s1; r_last := row;
                    r_left := r_left it1 - 1; r_count := r_count it1;
                    r_new := r_left it =? 0; r_end := false |} in
      Ok (it2, Some row).

(** All rows: the iterator is advanced until it reports the end ([fuel] times at most). *)
Fixpoint all_rows (fuel : nat) (it : riter) : list (list (list Z)) * ending :=
  match fuel with
  | O => ([], OutOfFuel)
  | S f =>
      match next_row it with
      | Ok (it1, Some row) => let (rows, e) := all_rows f it1 in (row :: rows, e)
      | Ok (_, None) => ([], Clean)
      | Throw e => ([], Failed e)
      | UB => ([], Undefined)
      end
  end.

Definition read_rows (fuel : nat) (file : list Z) : list (list (list Z)) * ending :=
  match open_rows file with
  | Ok it => all_rows fuel it
  | Throw e => ([], Failed e)
  | UB => ([], Undefined)
  end.

End RowReader.
