(** core/TablesReader.cc, api/Odb.cc (Reader, Frame), core/MetaData.cc:
    reading the tables of a file and grouping them in frames. *)
From Verif Require Import Base Fp Stream Codec Meta Header Table.

Section WithMd5.
Variable md5 : list Z -> list Z.
Variable st : settings.
Variable est : Z.            (* dh.estimate() *)
Variable file : list Z.

(** The position the next table is read from, TablesReader.cc:110. *)
Definition next_position (ts : list table) : Z := t_next (last ts
  {| t_start := 0; t_data := 0; t_next := 0; t_size := 0; t_order := LE; t_props := []; t_cols := []; t_rows := 0 |}).

(** TablesReader::ensureTable, TablesReader.cc:98-126, as a function of tables_: the
    result is the answer and the new tables_.  (ThreadSharedDataHandle::seek always
    returns the requested position, so the test at TablesReader.cc:115 never fires; a
    negative position makes the underlying handle throw.) *)
Definition ensure_table (ts : list table) (idx : Z) : outcome (bool * list table) :=
  do _ <- assert (0 <=? idx);
  do _ <- assert (idx <=? Z.of_nat (length ts));
  if idx =? Z.of_nat (length ts) then
    let p := next_position ts in
    do _ <- assert ((p <=? est) || (est =? 0));
    if p <? 0 then Throw SeriousBug
    else
      do r <- read_table md5 st est file p;
      match r with
      | None => Ok (false, ts)
      | Some t => Ok (true, ts ++ [t])
      end
  else Ok (true, ts).

(** How a sequential read of a file ends. *)
Inductive ending := Clean | Failed (e : exn) | Undefined | OutOfFuel.

(** Reading table after table, as an iterator does (TablesReader.cc:40-49), until the
    end of the data or an error. *)
Fixpoint read_tables (fuel : nat) (ts : list table) : list table * ending :=
  match fuel with
  | O => (ts, OutOfFuel)
  | S f =>
      match ensure_table ts (Z.of_nat (length ts)) with
      | Ok (true, ts') => read_tables f ts'
      | Ok (false, _) => (ts, Clean)
      | Throw e => (ts, Failed e)
      | UB => (ts, Undefined)
      end
  end.

(** ** api Reader: state of ReaderImpl, Odb.cc:98-107. *)
Record reader_state := {
  r_tables : list table;     (* tablesReader_.tables_ *)
  r_pos : Z;                 (* it_.pos_, -1 at the end *)
  r_first : bool
}.

(** ReadTablesIterator constructor, TablesReader.cc:22-29. *)
Definition open_reader : outcome reader_state :=
  do (ok, ts) <- ensure_table [] 0;
  Ok {| r_tables := ts; r_pos := if ok then 0 else -1; r_first := true |}.

(** ReadTablesIterator::operator++, TablesReader.cc:40-49. *)
Definition iter_next (ts : list table) (pos : Z) : outcome (list table * Z) :=
  do (ok, ts') <- ensure_table ts (pos + 1);
  Ok (ts', if ok then pos + 1 else -1).

(** *it_ *)
Definition iter_get (ts : list table) (pos : Z) : outcome table :=
  if pos <? 0 then Throw AssertFailed
  else match nth_error ts (Z.to_nat pos) with Some t => Ok t | None => Throw AssertFailed end.

(** MetaData::compatible, MetaData.cc:232-266. *)
Definition columns_equal (a b : list column) : bool :=
  forallb (fun p => column_equals true (fst p) (snd p)) (combine a b).

Fixpoint column_map (cs : list column) (m : smap column) : smap column :=
  match cs with
  | [] => m
  | c :: cs' => column_map cs' (memplace m (col_name c) c)
  end.

Definition compatible (a b : list column) : bool :=
  if negb (length a =? length b)%nat then false
  else if columns_equal a b then true
       else forallb (fun c => match mget (column_map a []) (col_name c) with
                              | Some c' => column_equals true c' c
                              | None => false
                              end) b.

(** long arithmetic on row counts: rowCount() is a size_t converted to long
    (Odb.cc:140, 149); the sums do not overflow in any file that fits in memory, so they
    are taken in Z. *)
Definition rows_long (t : table) : Z := signed 64 (t_rows t).

(** The aggregation loop, Odb.cc:142-159.  [acc] are the tables already in the frame. *)
Fixpoint aggregate (fuel : nat) (rowlimit : Z) (ts : list table) (pos : Z) (acc : list table) (nrows : Z)
  : outcome (list table * Z * list table * Z) :=
  match fuel with
  | O => Throw SeriousBug      (* not reached, see ReaderProofs *)
  | S f =>
      do (ts', pos') <- iter_next ts pos;
      if pos' =? -1 then Ok (ts', pos, acc, nrows)
      else
        do t <- iter_get ts' pos';
        let next_rows := nrows + rows_long t in
        if (0 <=? rowlimit) && (rowlimit <? next_rows) then Ok (ts', pos, acc, nrows)
        else if negb (compatible (match acc with a :: _ => t_cols a | [] => [] end) (t_cols t))
             then Ok (ts', pos, acc, nrows)
             else aggregate f rowlimit ts' pos' (acc ++ [t]) next_rows
  end.

(** ReaderImpl::next, Odb.cc:125-163; None is the empty Frame() returned at the end. *)
Definition next_frame (fuel : nat) (aggregated : bool) (rowlimit : Z) (r : reader_state)
  : outcome (option (list table) * reader_state) :=
  if r_pos r =? -1 then Ok (None, r)
  else
    do (ts, pos) <- (if r_first r then Ok (r_tables r, r_pos r) else iter_next (r_tables r) (r_pos r));
    if pos =? -1 then Ok (None, {| r_tables := ts; r_pos := pos; r_first := r_first r |})
    else
      do t <- iter_get ts pos;
      do (q, nrows) <-
        (if aggregated then aggregate fuel rowlimit ts pos [t] (rows_long t)
         else Ok (ts, pos, [t], rows_long t));
      do _ <- assert ((rowlimit <? 0) || (nrows <=? rowlimit));
      Ok (Some (snd q), {| r_tables := fst (fst q); r_pos := snd (fst q); r_first := false |}).

(** Calling next() until it returns the empty frame, or raises. *)
Fixpoint read_frames (fuel : nat) (aggregated : bool) (rowlimit : Z) (r : reader_state)
  : list (list table) * ending :=
  match fuel with
  | O => ([], OutOfFuel)
  | S f =>
      match next_frame (S (S (length file))) aggregated rowlimit r with
      | Ok (Some fr, r') => let (frs, e) := read_frames f aggregated rowlimit r' in (fr :: frs, e)
      | Ok (None, _) => ([], Clean)
      | Throw e => ([], Failed e)
      | UB => ([], Undefined)
      end
  end.

(** Opening a reader and calling next() until it returns the empty frame, or raises. *)
Definition read_all (fuel : nat) (aggregated : bool) (rowlimit : Z) : list (list table) * ending :=
  match open_reader with
  | Ok r => read_frames fuel aggregated rowlimit r
  | Throw e => ([], Failed e)
  | UB => ([], Undefined)
  end.

(** ** FrameImpl *)

(** FrameImpl::rowCount, Odb.cc:344-347. *)
Definition frame_rows (fr : list table) : Z := fold_right (fun t n => t_rows t + n) 0 fr.

(** FrameImpl::encodedData, Odb.cc:165-175. *)
Fixpoint encoded_data (fr : list table) : outcome (list Z) :=
  match fr with
  | [] => Ok []
  | t :: fr' =>
      do b <- read_encoded file true t;
      do bs <- encoded_data fr';
      Ok (b ++ bs)
  end.

(** FrameImpl::offset / length, Odb.cc:497-503 (a frame has at least one table). *)
Definition frame_offset (fr : list table) : Z := match fr with t :: _ => t_start t | [] => 0 end.
Definition frame_length (fr : list table) : Z := next_position fr - frame_offset fr.

(** std::map::insert of a range: existing keys are kept, Odb.cc:185. *)
Definition minsert_all {V} (m m' : smap V) : smap V :=
  fold_left (fun acc kv => memplace acc (fst kv) (snd kv)) m' m.

(** FrameImpl::properties, Odb.cc:177-192. *)
Definition frame_props (fr : list table) : props :=
  fold_left (fun acc t => minsert_all acc (t_props t)) fr [].

End WithMd5.

(** ** Names *)

(** StringTools::startsWith *)
Fixpoint starts_with (p l : list Z) : bool :=
  match p, l with
  | [], _ => true
  | a :: p', b :: l' => (a =? b) && starts_with p' l'
  | _, [] => false
  end.

(** columnNameMatches, MetaData.cc:305-314. *)
Definition name_matches (full nm : list Z) : bool :=
  starts_with nm full &&
  ((length full =? length nm)%nat ||
   ((length nm <? length full)%nat && (nth (length nm) full 0 =? 64))).

(** MetaData::columnIndex, MetaData.cc:106-122. *)
Fixpoint column_index_loop (cs : list column) (i : Z) (nm : list Z) (found : option Z) : outcome Z :=
  match cs with
  | [] => match found with Some k => Ok k | None => Throw ColumnNotFound end
  | c :: cs' =>
      if name_matches (col_name c) nm then
        match found with
        | None => column_index_loop cs' (i + 1) nm (Some i)
        | Some _ => Throw AmbiguousColumn
        end
      else column_index_loop cs' (i + 1) nm found
  end.

Definition column_index (cs : list column) (nm : list Z) : outcome Z := column_index_loop cs 0 nm None.

(** MetaData::hasColumn, MetaData.cc:99-104. *)
Definition has_column (cs : list column) (nm : list Z) : bool :=
  existsb (fun c => name_matches (col_name c) nm) cs.
