(** api/Odb.cc: filter, Frame::filter and the data handle it reads a frame through. *)
From Verif Require Import Base Fp Stream Codec Meta Header Encoder Table Reader Writer Copy OdaOut SelectOut.
Open Scope Z_scope.

(** ** SerialTableReadHandle, Odb.cc:410-458 *)

Record serial := { h_tables : list table; h_buffer : list Z; h_table : nat; h_pos : nat }.

(** The constructor, Odb.cc:414, and openForRead, 416-425: the length returned is that of the
    first table. *)
Definition serial_open (file : list Z) (ts : list table) : outcome (serial * Z) :=
  match ts with
  | [] => Throw AssertFailed
  | t :: _ => do b <- read_encoded file true t; Ok ({| h_tables := ts; h_buffer := b; h_table := 0; h_pos := 0 |}, Z.of_nat (length b))
  end.

(** read, Odb.cc:429-445: the bytes handed over. *)
Definition serial_read (file : list Z) (h : serial) (n : nat) : outcome (serial * list Z) :=
  do h1 <-
    (if (h_pos h =? length (h_buffer h))%nat then
       if (length (h_tables h) - 1 <=? h_table h)%nat then Ok None
       else
         match nth_error (h_tables h) (S (h_table h)) with
         | None => UB
         | Some t => do b <- read_encoded file true t; Ok (Some {| h_tables := h_tables h; h_buffer := b; h_table := S (h_table h); h_pos := 0 |})
         end
     else Ok (Some h));
  match h1 with
  | None => Ok (h, [])
  | Some h1 =>
      do _ <- assert (h_pos h1 <? length (h_buffer h1))%nat;
      let k := Nat.min n (length (h_buffer h1) - h_pos h1) in
      Ok ({| h_tables := h_tables h1; h_buffer := h_buffer h1; h_table := h_table h1; h_pos := h_pos h1 + k |},
          firstn k (skipn (h_pos h1) (h_buffer h1)))
  end.

(** Reads one after another, of the lengths [ns]. *)
Fixpoint serial_reads (file : list Z) (h : serial) (ns : list nat) : outcome (list (list Z)) :=
  match ns with
  | [] => Ok []
  | n :: ns' =>
      do (h1, c) <- serial_read file h n;
      do cs <- serial_reads file h1 ns';
      Ok (c :: cs)
  end.

(** ** filter, Odb.cc:690-706 *)

(** What eckit makes of a statement and its input: the columns announced when it is prepared
    (and where the output's buffer is then), and the rows. *)
Record query := { qy_cols : list (colinfo * bool); qy_at : Z; qy_rows : list qrow }.

Section Filter.
Variable md5 : list Z -> list Z.
Variables (st : settings) (N : nat) (pr : props).

(** The loop of pass1, WriterBufferingIterator.h:201-210, over a SelectIterator: isNewDataset,
    columns and data are those of its output (SelectIterator.h:58-64), the whole of which is
    taken as the row.  Returns the writer and the number of rows; [fuel] bounds it. *)
Fixpoint filter_loop (fuel : nat) (w : writer) (it : select) (n : Z) : outcome (writer * Z) :=
  match fuel with
  | O => UB
  | S f =>
      if it_done it then Ok (w, n)
      else
        let s := it_out it in
        do w1 <- pass1_row md5 st N pr w (s_new s) (s_meta s) [get (s_mem s) (s_out s) (s_end s - s_out s)];
        let (it1, r) := sel_next st it in
        do _ <- r;
        filter_loop f w1 it1 (n + 1)
  end.

(** A Select with a buffer of its own; Select::begin advances it once (Select.cc:75-84); then
    pass1 of a new writer. *)
Definition filter_query (mem : Z -> Z) (q : query) : outcome (list Z * Z) :=
  let (s0, r0) := update_types st (sel_make true mem) (qy_cols q) (qy_at q) in
  do _ <- r0;
  let (it, r) := sel_next st {| it_out := s0; it_rest := qy_rows q; it_done := false |} in
  do _ <- r;
  do w <- pass1_init st (new_writer []) (s_meta (it_out it));
  do (w1, n) <- filter_loop (S (S (length (qy_rows q)))) (write_header w) it 0;
  do w2 <- flush md5 st N pr w1;
  do w3 <- Writer.close md5 st N pr w2;
  Ok (w_out w3, n).

(** Frame::filter, Odb.cc:461-484, of a statement that is not empty: the frame found in what
    filter wrote (an aggregating Reader without limit, Odb.h:296), and no other.  None: there
    is no frame at all. *)
Definition filter_frame (est : list Z -> Z) (mem : Z -> Z) (q : query) : outcome (list Z * option (list table)) :=
  do (out, _) <- filter_query mem q;
  do r <- open_reader md5 st (est out) out;
  do (f, r1) <- next_frame md5 st (est out) out (S (S (length out))) true (-1) r;
  do (g, _) <- next_frame md5 st (est out) out (S (S (length out))) true (-1) r1;
  do _ <- assert (match g with None => true | Some _ => false end);
  Ok (out, f).

End Filter.
