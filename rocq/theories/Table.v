(** core/Table.{h,cc}: a table of a file, its lookup maps and its decoding. *)
From Verif Require Import Base Fp Stream Codec Meta Header.

(** core/Table.h:75-93 (the data handle is the [file] argument of the functions
    below; positions are offsets in it). *)
Record table := {
  t_start : Z;
  t_data : Z;              (* dataPosition_ *)
  t_next : Z;              (* nextPosition_ *)
  t_size : Z;              (* dataSize_ *)
  t_order : order;
  t_props : props;
  t_cols : list column;
  t_rows : Z               (* metadata_.rowsNumber(), size_t *)
}.

(** What a data handle delivers from a position. *)
Definition from (file : list Z) (pos : Z) : list Z := skipn (Z.to_nat pos) file.

Section WithMd5.
Variable md5 : list Z -> list Z.

(** Table::readTable, Table.cc:432-460.  [est] is dh.estimate(): the size of the
    file, or 0 for handles that do not know it.  rowsNumber is stored as a size_t. *)
Definition read_table (st : settings) (est : Z) (file : list Z) (pos : Z) : outcome (option table) :=
  do m <- read_magic (from file pos);
  match m with
  | None => Ok None
  | Some s =>
      do (h, rest) <- load_after_magic md5 st s;
      let dpos := Z.of_nat (length file) - Z.of_nat (length rest) in
      let t := {| t_start := pos; t_data := dpos; t_next := dpos + h_dataSize h;
                  t_size := h_dataSize h; t_order := h_order h; t_props := h_props h;
                  t_cols := h_cols h; t_rows := h_rows h mod 2 ^ 64 |} in
      if (est <? t_next t) && negb (est =? 0) then Throw Incomplete else Ok (Some t)
  end.

End WithMd5.

(** Table::readEncodedData, Table.cc:73-87.  A negative size makes the allocation
    throw; when fewer bytes than announced can be read the tail of the buffer is
    indeterminate, hence UB. *)
Definition read_range (file : list Z) (pos len : Z) : outcome (list Z) :=
  if len <? 0 then Throw BadAlloc
  else
    let s := firstn (Z.to_nat len) (from file pos) in
    if Z.of_nat (length s) <? len then UB else Ok s.

Definition read_encoded (file : list Z) (includeHeader : bool) (t : table) : outcome (list Z) :=
  if includeHeader then read_range file (t_start t) (t_next t - t_start t)
  else read_range file (t_data t) (t_size t).

(** ** Column lookup *)

(** nm.substr(0, nm.find('@')), Table.cc:103. *)
Fixpoint before_at (l : list Z) : list Z :=
  match l with
  | [] => []
  | b :: l' => if b =? 64 then [] else b :: before_at l'
  end.

(** Table::columnLookup, Table.cc:89-108. *)
Fixpoint lookup_loop (cs : list column) (i : Z) (full simple : smap Z) : outcome (smap Z * smap Z) :=
  match cs with
  | [] => Ok (full, simple)
  | c :: cs' =>
      match mget full (col_name c) with
      | Some _ => Throw DecodeError
      | None =>
          lookup_loop cs' (i + 1) (memplace full (col_name c) i)
            (memplace simple (before_at (col_name c)) i)
      end
  end.

Definition column_lookup (cs : list column) : outcome (smap Z * smap Z) := lookup_loop cs 0 [] [].

(** The search of one requested name, Table.cc:140-148. *)
Definition lookup_name (full simple : smap Z) (nm : list Z) : outcome Z :=
  match mget full nm with
  | Some i => Ok i
  | None => match mget simple nm with Some i => Ok i | None => Throw DecodeError end
  end.

(** ** Decoding *)

(** A StridedData seen as its elements, each of [f_size] bytes; the memory layout is
    in Strided.v. *)
Record facade := { f_size : Z; f_elems : list (list Z) }.

(** Writing the bytes [b] at the start of element [r] (a codec's output, or the
    8 bytes of a missing value); writing more bytes than an element has is
    undefined, as is an element that does not exist. *)
Definition put (f : facade) (r : nat) (b : list Z) : outcome facade :=
  if (f_size f <? Z.of_nat (length b)) || (length (f_elems f) <=? r)%nat then UB
  else Ok {| f_size := f_size f;
             f_elems := list_set (f_elems f) r (b ++ skipn (length b) (nth r (f_elems f) [])) |}.

(** StridedData::fill, StridedData.h:174-200, on elements: rows src+1 .. fin become
    copies of row src; see Strided.v. *)
Definition fill_elems (l : list (list Z)) (src fin : nat) : list (list Z) :=
  firstn (S src) l ++ repeat (nth src l []) (fin - src) ++ skipn (S fin) l.

Definition fill (f : facade) (src fin : nat) : outcome facade :=
  do _ <- assert (src <=? fin)%nat;
  if (length (f_elems f) <=? fin)%nat then UB
  else Ok {| f_size := f_size f; f_elems := fill_elems (f_elems f) src fin |}.

(** State of one column while decoding: Table.cc:131-133, 195. *)
Record dcol := {
  d_codec : codec;
  d_fac : option facade;     (* visitColumn / facades *)
  d_last : nat               (* lastDecoded *)
}.

(** Table.cc:138-160: attach the i-th facade to the column found for the i-th name. *)
Fixpoint attach (full simple : smap Z) (nrows : Z) (names : list (list Z)) (facs : list facade)
  (cols : list dcol) : outcome (list dcol) :=
  match names, facs with
  | nm :: names', f :: facs' =>
      do p <- lookup_name full simple nm;
      match nth_error cols (Z.to_nat p) with
      | None => UB
      | Some d =>
          match d_fac d with
          | Some _ => Throw DecodeError
          | None =>
              do _ <- assert (nrows <=? Z.of_nat (length (f_elems f)));
              attach full simple nrows names' facs'
                (list_set cols (Z.to_nat p) {| d_codec := d_codec d; d_fac := Some f; d_last := d_last d |})
          end
      end
  | _, _ => Ok cols
  end.

Fixpoint map_dcols (f : dcol -> outcome dcol) (cols : list dcol) : outcome (list dcol) :=
  match cols with
  | [] => Ok []
  | d :: ds => do d' <- f d; do ds' <- map_dcols f ds; Ok (d' :: ds')
  end.

(** Table.cc:182-190. *)
Definition prefill (d : dcol) : outcome dcol :=
  match d_fac d with
  | None => Ok d
  | Some f =>
      do f' <- put f 0 (le_bytes 8 (missing_value (d_codec d)));
      Ok {| d_codec := d_codec d; d_fac := Some f'; d_last := d_last d |}
  end.

(** facades[col]->fill(lastDecoded[col], last), Table.cc:203-209, 226-231. *)
Definition fill_col (last : nat) (d : dcol) : outcome dcol :=
  match d_fac d with
  | None => Ok d
  | Some f =>
      do f' <- fill f (d_last d) last;
      Ok {| d_codec := d_codec d; d_fac := Some f'; d_last := d_last d |}
  end.

(** Table.cc:211-219: decode or skip the columns from startCol on. *)
Fixpoint decode_cols (row : nat) (cols : list dcol) (s : list Z) : outcome (list dcol * list Z) :=
  match cols with
  | [] => Ok ([], s)
  | d :: ds =>
      do (d', s1) <- (match d_fac d with
                      | Some f =>
                          do (cell, s1) <- decode (d_codec d) s;
                          do f' <- put f row cell;
                          Ok ({| d_codec := d_codec d; d_fac := Some f'; d_last := row |}, s1)
                      | None =>
                          do (_, s1) <- skip (d_codec d) s;
                          Ok (d, s1)
                      end);
      do (ds', s2) <- decode_cols row ds s1;
      Ok (d' :: ds', s2)
  end.

Definition marker_val (m : list Z) : nat := Z.to_nat (nth 0 m 0 * 256 + nth 1 m 0).

(** One row, Table.cc:199-221.  Reading visitColumn[col] past the number of columns
    is undefined. *)
Definition decode_row (row lastStart : nat) (cols : list dcol) (s : list Z)
  : outcome (nat * list dcol * list Z) :=
  do (m, s1) <- read_raw 2 s;
  let start := marker_val m in
  do cols1 <-
    (if (start <? lastStart)%nat then
       if (length cols <? lastStart)%nat then UB
       else
         do mid <- map_dcols (fill_col (row - 1)) (firstn (lastStart - start) (skipn start cols));
         Ok (firstn start cols ++ mid ++ skipn lastStart cols)
     else Ok cols);
  do (dec, s2) <- decode_cols row (skipn start cols1) s1;
  Ok (start, firstn start cols1 ++ dec, s2).

Fixpoint decode_rows (n : nat) (row lastStart : nat) (cols : list dcol) (s : list Z)
  : outcome (list dcol) :=
  match n with
  | O => Ok cols
  | S n' =>
      do (r, s1) <- decode_row row lastStart cols s;
      decode_rows n' (S row) (fst r) (snd r) s1
  end.

(** Table.cc:226-235: stops at the first column whose last value is in the last row. *)
Fixpoint final_fill (nrows : nat) (cols : list dcol) : outcome (list dcol) :=
  match cols with
  | [] => Ok []
  | d :: ds =>
      if (d_last d <? nrows - 1)%nat then
        do d' <- fill_col (nrows - 1) d;
        do ds' <- final_fill nrows ds;
        Ok (d' :: ds')
      else Ok cols
  end.

(** Table::decode, Table.cc:120-236.  The result is the state of the columns, whose
    facades now hold the data. *)
Definition decode_table (file : list Z) (t : table) (names : list (list Z)) (facs : list facade)
  : outcome (list dcol) :=
  do (full, simple) <- column_lookup (t_cols t);
  do _ <- assert (length names =? length facs)%nat;
  do _ <- assert (length names <=? length (t_cols t))%nat;
  do cols <- attach full simple (t_rows t) names facs
               (map (fun c => {| d_codec := col_coder c; d_fac := None; d_last := 0 |}) (t_cols t));
  do buf <- read_encoded file false t;
  if t_rows t =? 0 then Ok cols
  else
    do cols1 <- map_dcols prefill cols;
    do cols2 <- decode_rows (Z.to_nat (t_rows t)) 0 0 cols1 buf;
    final_fill (Z.to_nat (t_rows t)) cols2.

(** The facades of the target after decoding, in the order of the requested names
    (they are updated in place by the C++, through [facades[pos]], Table.cc:158). *)
Definition collect (full simple : smap Z) (names : list (list Z)) (cols : list dcol) : list (option facade) :=
  map (fun nm => match lookup_name full simple nm with
                 | Ok p => match nth_error cols (Z.to_nat p) with Some d => d_fac d | None => None end
                 | _ => None
                 end) names.

Definition decode_target (file : list Z) (t : table) (names : list (list Z)) (facs : list facade)
  : outcome (list (option facade)) :=
  do (full, simple) <- column_lookup (t_cols t);
  do cols <- decode_table file t names facs;
  Ok (collect full simple names cols).
