(** Indexer.cc: createIndex, the index file itself. *)
From Coq Require Import String.
From Verif Require Import Base Fp Stream Codec Meta Header Encoder Table Reader Writer Copy Scan.
Open Scope Z_scope.

(** The columns added to the MetaData, Indexer.cc:64-68. *)
Definition index_columns : list colinfo :=
  map (fun n => {| ci_name := n; ci_type := ty_INTEGER; ci_size := 8; ci_bits := [] |})
      [str "block_begin"; str "block_length"; str "seqno"; str "n_rows"].

(** An assignment through operator[] of the writer's iterator stores a double, whatever the
    settings (IteratorProxy.h:101, WriterBufferingIterator.cc:190-194); the array handed to
    writeRow at [++writer], WriterBufferingIterator.cc:183-185. *)
Definition index_cell (n : Z) : list Z := le_bytes 8 (z2d n).
Definition index_row (o n : Z) (r : Z * Z) : wop :=
  WRow (index_cell o ++ index_cell n ++ index_cell (fst r) ++ index_cell (snd r)).

Section Index.
Variable md5 : list Z -> list Z.
Variables (st : settings) (N : nat) (pr : props).
(** The values of the rows of "select seqno;" over a handle with the given bytes, each
    converted to int (Indexer.cc:85-87): the SQL engine is not modelled, [select] is any
    function. *)
Variable select : list Z -> outcome (list Z).
Variable file : list Z.

(** The loop over the blocks, Indexer.cc:75-112.  A PartFileHandle gives the bytes of that part
    of the data file.  An exception ends everything; what is left on disk is then not
    modelled. *)
Fixpoint index_blocks (w : writer) (blocks : list (Z * Z)) : outcome writer :=
  match blocks with
  | [] => Ok w
  | (o, n) :: bs =>
      do vs <- select (firstn (Z.to_nat n) (skipn (Z.to_nat o) file));
      do w1 <- write_ops md5 st N pr w (map (index_row o n) (index_block vs));
      index_blocks w1 bs
  end.

(** Writing the index of the given blocks, Indexer.cc:64-113: addColumn makes each column
    (core/MetaData.h:161-171), columns(metaData) copies them, writeHeader; the writer is closed
    when it is destroyed. *)
Definition write_index (blocks : list (Z * Z)) : outcome (list Z) :=
  do md <- map_out (make_column st) index_columns;
  do w <- writer_columns st (new_writer []) md;
  do w1 <- index_blocks (write_header w) blocks;
  do w2 <- Writer.close md5 st N pr w1;
  Ok (w_out w2).

(** Indexer::createIndex(dataFile, indexFile), Indexer.cc:61-113; [est] is the size reported
    for the data file. *)
Definition create_index (est : Z) (fuel : nat) : outcome (list Z) :=
  do blocks <- offsets_of_blocks md5 st est file fuel;
  write_index blocks.
End Index.
