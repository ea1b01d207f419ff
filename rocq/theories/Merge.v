(** tools/MergeTool.cc: the rows of several files side by side ("odc merge", without -S). *)
From Coq Require Import String.
From Verif Require Import Base Fp Stream Codec Meta Header Encoder Table Writer Reader RowReader Comparator Copy.
Open Scope Z_scope.
Local Notation length := List.length.

Section Merge.
Variable md5 : list Z -> list Z.
Variable st : settings.
Variable junk : nat -> nat -> list Z.
Variables (N : nat) (pr : props).

(** The columns of the output, MergeTool.cc:82-94: for each input a copy of its columns is
    added to a copy of the writer's (MetaData::operator+=, core/MetaData.cc:146-157), and the
    whole copied to the writer, unless a name is taken. *)
Fixpoint merge_columns (w : writer) (ins : list (list column)) : outcome writer :=
  match ins with
  | [] => Ok w
  | cs :: rest =>
      do columns <- map_out (copy_column st) cs;
      if existsb (fun c => has_column (w_cols w) (col_name c)) columns then Throw UserError
      else
        do md <- map_out (copy_column st) (w_cols w);
        do more <- map_out (copy_column st) columns;
        do w1 <- writer_columns st w (md ++ more);
        merge_columns w1 rest
  end.

(** out->data(i) = x: the first double of the column's cell in nextRow_,
    WriterBufferingIterator.cc:190-194; [x] is the cell of the input, of which the first
    double is taken, ReaderIterator.cc:243-246. *)
Definition put_cell (next : list (list Z)) (i : nat) (x : list Z) : list (list Z) :=
  match nth_error next i with
  | Some old => list_set next i (firstn 8 x ++ skipn 8 old)
  | None => next
  end.

(** MergeTool.cc:107-110; [last] is the input's row, one cell for each of its columns. *)
Fixpoint put_cells (ncols : nat) (next : list (list Z)) (i : nat) (last : list (list Z)) : outcome (list (list Z) * nat) :=
  match last with
  | [] => Ok (next, i)
  | x :: xs =>
      do _ <- assert (i <? ncols)%nat;
      put_cells ncols (put_cell next i x) (S i) xs
  end.

(** One round over the inputs, MergeTool.cc:101-112; None when an input has ended. *)
Fixpoint merge_round (ncols : nat) (next : list (list Z)) (i : nat) (its : list riter) : outcome (option (list (list Z) * list riter)) :=
  match its with
  | [] => Ok (Some (next, []))
  | it :: rest =>
      if r_end it then Ok None
      else
        do (next1, i1) <- put_cells ncols next i (r_last it);
        do (it1, _) <- next_row md5 st junk it;
        do r <- merge_round ncols next1 i1 rest;
        match r with
        | None => Ok None
        | Some (next2, rest1) => Ok (Some (next2, it1 :: rest1))
        end
  end.

(** The loop, MergeTool.cc:100-115; [next] is nextRow_, which flush allocates anew
    (WriterBufferingIterator.cc:337 and 127-146); [fuel] bounds the number of rounds. *)
Fixpoint merge_loop (fuel : nat) (w : writer) (next : list (list Z)) (its : list riter) : outcome writer :=
  match fuel with
  | O => UB
  | S f =>
      do r <- merge_round (length (w_cols w)) next 0 its;
      match r with
      | None => Ok w
      | Some (next1, its1) =>
          do w1 <- write_row md5 st N pr w (concat next1);
          merge_loop f w1 (match w_rows w1 with [] => alloc_buffers (w_cols w1) | _ :: _ => next1 end) its1
      end
  end.

(** merge and doMerge, MergeTool.cc:117-126 and 77-115; the writer is closed when it goes
    out of scope.  Result: the file written. *)
Definition merge_files (fuel : nat) (files : list (list Z)) : outcome (list Z) :=
  do its <- map_out (begin_rows md5 st junk) files;
  do w <- merge_columns (new_writer []) (map r_cols its);
  let w0 := write_header w in
  do w1 <- merge_loop fuel w0 (alloc_buffers (w_cols w0)) its;
  do w2 <- Writer.close md5 st N pr w1;
  Ok (w_out w2).

End Merge.
