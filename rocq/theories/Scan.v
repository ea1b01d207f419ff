(** RowsCounter.cc, Indexer.cc, tools/CountTool.cc, tools/SplitTool.cc: what is learnt about a
    file from the headers of its tables alone, without decoding a value. *)
From Verif Require Import Base Fp Stream Codec Meta Header Table Reader.

Section WithFile.
Variable md5 : list Z -> list Z.
Variable st : settings.
Variable est : Z.            (* dh.estimate() *)
Variable file : list Z.

(** [for (; it != end; ++it) acc = step(acc, *it);] with it = reader.begin(), the loop of
    RowsCounter.cc:26-29, Indexer.cc:38-45, CountTool.cc:29-36 and SplitTool.cc:71-102.  The
    iterator is that of TablesReader.cc:22-49; end() has position -1. *)
Fixpoint scan_from {A} (step : A -> table -> A) (fuel : nat) (ts : list table) (pos : Z) (acc : A) : outcome A :=
  match fuel with
  | O => Throw SeriousBug      (* not reached with enough fuel, see P_Scan *)
  | S f =>
      if pos =? -1 then Ok acc
      else
        do t <- iter_get ts pos;
        let acc' := step acc t in
        do (ts', pos') <- iter_next md5 st est file ts pos;
        scan_from step f ts' pos' acc'
  end.

Definition scan {A} (step : A -> table -> A) (fuel : nat) (acc : A) : outcome A :=
  do r <- open_reader md5 st est file;
  scan_from step fuel (r_tables r) (r_pos r) acc.

(** RowsCounter::fastRowCount, RowsCounter.cc:21-32, and CountTool::rowCount,
    CountTool.cc:28-41: unsigned long long and size_t, both 64 bits. *)
Definition row_count (fuel : nat) : outcome Z :=
  scan (fun n t => (n + t_rows t) mod 2 ^ 64) fuel 0.

(** Indexer::offsetsOfBlocks, Indexer.cc:34-48. *)
Definition offsets_of_blocks (fuel : nat) : outcome (list (Z * Z)) :=
  scan (fun r t => r ++ [(t_start t, t_next t - t_start t)]) fuel [].

(** The variables of SplitTool::getChunks, SplitTool.cc:69, 74-76. *)
Record chunking := { ch_done : list (Z * Z); ch_offset : Z; ch_length : Z; ch_size : Z }.

(** numberOfRows * numberOfColumns * sizeof(double) in size_t, SplitTool.cc:86. *)
Definition expanded (t : table) : Z := (t_rows t * Z.of_nat (length (t_cols t)) * 8) mod 2 ^ 64.

(** The loop body, SplitTool.cc:78-98. *)
Definition chunk_step (max : Z) (c : chunking) (t : table) : chunking :=
  let offset := t_start t in
  let length := t_next t - t_start t in
  let size := expanded t in
  if max <? (ch_size c + size) mod 2 ^ 64 then
    {| ch_done := ch_done c ++ [(ch_offset c, ch_length c)]; ch_offset := offset; ch_length := length;
       ch_size := ch_size c |}
  else {| ch_done := ch_done c; ch_offset := ch_offset c; ch_length := ch_length c + length;
          ch_size := (ch_size c + size) mod 2 ^ 64 |}.

(** SplitTool.cc:99-101. *)
Definition chunk_end (c : chunking) : list (Z * Z) :=
  match rev (ch_done c) with
  | [] => [(ch_offset c, ch_length c)]
  | (o, _) :: _ => if o =? ch_offset c then ch_done c else ch_done c ++ [(ch_offset c, ch_length c)]
  end.

(** SplitTool::getChunks, SplitTool.cc:66-102. *)
Definition get_chunks (max : Z) (fuel : nat) : outcome (list (Z * Z)) :=
  do c <- scan (chunk_step max) fuel {| ch_done := []; ch_offset := 0; ch_length := 0; ch_size := 0 |};
  Ok (chunk_end c).

End WithFile.

(** CountTool::run, CountTool.cc:43-63: the row counts of several files are added; est and
    bytes of each file are given. *)
Fixpoint count_files (md5 : list Z -> list Z) (st : settings) (files : list (list Z)) (fuel : nat) (n : Z) : outcome Z :=
  match files with
  | [] => Ok n
  | f :: files' =>
      do k <- row_count md5 st (Z.of_nat (length f)) f fuel;
      count_files md5 st files' fuel ((n + k) mod 2 ^ 64)
  end.

(** The variables of the inner loop of Indexer::createIndex, Indexer.cc:82-83, and the rows
    written so far. *)
Record indexing := { ix_rows : list (Z * Z); ix_prev : Z; ix_n : Z }.

(** The body of the loop over the rows of one block, Indexer.cc:86-102: [seqno] is the value
    of the only column of "select seqno;" in that row.  The SQL engine is not modelled: the
    values of the column are taken as given.  nRows is an int: it does not overflow for
    blocks of fewer than 2^31 rows. *)
Definition index_step (x : indexing) (seqno : Z) : indexing :=
  if seqno =? ix_prev x then {| ix_rows := ix_rows x; ix_prev := ix_prev x; ix_n := ix_n x + 1 |}
  else {| ix_rows := if 0 <? ix_n x then ix_rows x ++ [(ix_prev x, ix_n x)] else ix_rows x;
          ix_prev := seqno; ix_n := 1 |}.

(** One block, Indexer.cc:82-111: the pairs (seqno, n_rows) written for it. *)
Definition index_block (seqnos : list Z) : list (Z * Z) :=
  let x := fold_left index_step seqnos {| ix_rows := []; ix_prev := -1; ix_n := 0 |} in
  if 0 <? ix_n x then ix_rows x ++ [(ix_prev x, ix_n x)] else ix_rows x.

(** Indexer::createIndex, Indexer.cc:61-113: the rows (block_begin, block_length, seqno,
    n_rows) handed to the writer, given the values of seqno in each block. *)
Definition index_rows (blocks : list (Z * Z)) (seqnos : list (list Z)) : list (Z * Z * Z * Z) :=
  flat_map (fun p => map (fun r => (fst (fst p), snd (fst p), fst r, snd r)) (index_block (snd p)))
           (combine blocks seqnos).
