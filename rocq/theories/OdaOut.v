(** sql/ODAOutput.{h,cc}: writing the results of a query to an ODB file. *)
From Coq Require Import String.
From Verif Require Import Base Fp Stream Codec Meta Header Encoder Table Reader Writer.
Open Scope Z_scope.
Local Notation length := List.length.

(** A result as it is handed over, ODAOutput.cc:155-186: a number, as its 64 bits, or [n]
    bytes of a text; [missing] says that there is none. *)
Inductive ovalue :=
| ONumber (bits : Z) (missing : bool)
| OText (val : list Z) (n : Z) (missing : bool).

(** What a query does with its output: prepare or updateTypes (the columns: titles, types,
    bitfield members and, for strings, sizes), and output (a row of results). *)
Inductive oevent := OTypes (cols : list colinfo) | OResult (vals : list ovalue).

(** ODAOutput.h:60-80: [o_next] is the writer's nextRow_, [o_sizes] columnSizes_, [o_missing]
    missingValues_; None before initted_. *)
Record oda := { o_w : writer; o_next : list (list Z); o_sizes : list Z; o_missing : list Z }.

(** The size of the column of a result: sizeof(double) unless it is a string,
    ODAOutput.cc:101 and 108-111. *)
Definition osized (ci : colinfo) : colinfo :=
  {| ci_name := ci_name ci; ci_type := ci_type ci; ci_size := if ci_type ci =? ty_STRING then ci_size ci else 8;
     ci_bits := if ci_type ci =? ty_BITFIELD then ci_bits ci else [] |}.

Section Oda.
Variable md5 : list Z -> list Z.
Variables (st : settings) (N : nat) (pr : props).

(** ODAOutput.cc:96-113: setBitfieldColumn, WriterBufferingIterator.cc:295-306, does not look
    for other columns of the same name; setColumn, 272-293, does ([done] have their names, the
    others are still nameless, MetaData.cc:83-86). *)
Fixpoint oda_columns (done : list (list Z)) (cols : list colinfo) : outcome (list column) :=
  match cols with
  | [] => Ok []
  | ci :: cs =>
      if negb (ci_type ci =? ty_BITFIELD) && existsb (bytes_eqb (ci_name ci)) (done ++ map (fun _ => []) cs) then Throw SeriousBug
      else
        do c <- make_column st (osized ci);
        do r <- oda_columns (done ++ [ci_name ci]) cs;
        Ok (c :: r)
  end.

(** The first call of initUpdateTypes, ODAOutput.cc:89-121. *)
Definition oda_init (cols : list colinfo) : outcome oda :=
  do cs <- oda_columns [] cols;
  let w := write_header (new_writer cs) in
  Ok {| o_w := w; o_next := alloc_buffers (w_cols w); o_sizes := map (fun ci => ci_size (osized ci)) cols;
        o_missing := map (fun c => missing_value (col_coder c)) cs |}.

(** The loop of the later calls, ODAOutput.cc:126-147, over the columns from number [i] on:
    the new columnSizes_ and the titles with their new sizes.  More columns than before would
    be looked up past the end. *)
Fixpoint oda_grown (cs : list column) (sizes : list Z) (news : list colinfo) {struct news} : outcome (list Z * list (list Z * Z)) :=
  match news with
  | [] => Ok (sizes, [])
  | ci :: ns =>
      match cs, sizes with
      | c :: cs', s :: sizes' =>
          do _ <- assert (ci_type ci =? col_type c);
          do _ <- assert (bytes_eqb (ci_name ci) (col_name c));
          if ci_type ci =? ty_STRING then
            do _ <- assert (ci_size ci mod 8 =? 0);
            do (ss, g) <- oda_grown cs' sizes' ns;
            if data_size_doubles (col_coder c) <? ci_size ci / 8 then Ok (ci_size ci :: ss, (ci_name ci, ci_size ci / 8) :: g)
            else Ok (s :: ss, g)
          else
            do _ <- assert (data_size_doubles (col_coder c) =? 1);
            do (ss, g) <- oda_grown cs' sizes' ns;
            Ok (s :: ss, g)
      | _, _ => UB
      end
  end.

(** The loop of flushAndResetColumnSizes, WriterBufferingIterator.cc:388-390.  The map is
    ordered by title; here the columns are taken in their order, and each is resized on its own. *)
Fixpoint oda_resize (cs : list column) (g : list (list Z * Z)) : outcome (list column) :=
  match g with
  | [] => Ok cs
  | (title, d) :: g' =>
      do i <- column_index cs title;
      match nth_error cs (Z.to_nat i) with
      | None => UB
      | Some c =>
          do k <- set_data_size (col_coder c) d;
          oda_resize (list_set cs (Z.to_nat i) (with_coder c k)) g'
      end
  end.

(** A later call of initUpdateTypes, ODAOutput.cc:122-152, with flushAndResetColumnSizes,
    WriterBufferingIterator.cc:384-393. *)
Definition oda_update (s : oda) (news : list colinfo) : outcome oda :=
  do (ss, g) <- oda_grown (w_cols (o_w s)) (o_sizes s) news;
  match g with
  | [] => Ok {| o_w := o_w s; o_next := o_next s; o_sizes := ss; o_missing := o_missing s |}
  | _ :: _ =>
      do w1 <- flush md5 st N pr (o_w s);
      do cs <- oda_resize (w_cols w1) g;
      let w2 := write_header {| w_cols := cs; w_last := w_last w1; w_rows := w_rows w1; w_size := w_size w1; w_out := w_out w1; w_init := w_init w1 |} in
      Ok {| o_w := w2; o_next := alloc_buffers (w_cols w2); o_sizes := ss; o_missing := o_missing s |}
  end.

(** strncpy(dst, val, n): the bytes written; reading past the end of [val] is undefined. *)
Fixpoint strncpy (val : list Z) (n : nat) {struct n} : outcome (list Z) :=
  match n with
  | O => Ok []
  | S m =>
      match val with
      | [] => UB
      | b :: v => if b =? 0 then Ok (repeat 0 n) else do r <- strncpy v m; Ok (b :: r)
      end
  end.

(** outputNumber and outputString, ODAOutput.cc:157-186, into a cell of columnSizes_ [size];
    the memset comes before the check. *)
Definition oda_cell (old : list Z) (size missing_bits : Z) (v : ovalue) : outcome (list Z) :=
  match v with
  | ONumber bits missing => Ok (le_bytes 8 (if missing then missing_bits else bits) ++ skipn 8 old)
  | OText val n missing =>
      if Z.of_nat (length old) <? size then UB
      else
        let blank := repeat 0 (Z.to_nat size) ++ skipn (Z.to_nat size) old in
        do _ <- assert (n <=? size);
        if missing then Ok blank
        else do x <- strncpy val (Z.to_nat n); Ok (x ++ skipn (Z.to_nat n) blank)
  end.

(** The loop of output, ODAOutput.cc:61-65: results beyond the last column are refused
    (WriterBufferingIterator.cc:192), columns without a result keep what they held. *)
Fixpoint oda_cells (next : list (list Z)) (sizes missing : list Z) (vals : list ovalue) {struct vals} : outcome (list (list Z)) :=
  match vals with
  | [] => Ok next
  | v :: vs =>
      match next, sizes, missing with
      | old :: next', s :: sizes', m :: missing' =>
          do x <- oda_cell old s m v;
          do r <- oda_cells next' sizes' missing' vs;
          Ok (x :: r)
      | _, _, _ => Throw AssertFailed
      end
  end.

(** output, ODAOutput.cc:59-70; flush allocates nextRow_ anew (WriterBufferingIterator.cc:337). *)
Definition oda_result (s : oda) (vals : list ovalue) : outcome oda :=
  do next <- oda_cells (o_next s) (o_sizes s) (o_missing s) vals;
  do w <- write_row md5 st N pr (o_w s) (concat next);
  Ok {| o_w := w; o_next := match w_rows w with [] => alloc_buffers (w_cols w) | _ :: _ => next end;
        o_sizes := o_sizes s; o_missing := o_missing s |}.

Definition oda_event (s : oda) (e : oevent) : outcome oda :=
  match e with OTypes cols => oda_update s cols | OResult vals => oda_result s vals end.

Fixpoint oda_events (s : oda) (es : list oevent) : outcome oda :=
  match es with
  | [] => Ok s
  | e :: es' => do s1 <- oda_event s e; oda_events s1 es'
  end.

(** A query: prepare with its columns, then any number of updateTypes and results; the writer
    is closed when the query is done. *)
Definition oda_file (cols : list colinfo) (es : list oevent) : outcome (list Z) :=
  do s <- oda_init cols;
  do s1 <- oda_events s es;
  do w <- Writer.close md5 st N pr (o_w s1);
  Ok (w_out w).

End Oda.
