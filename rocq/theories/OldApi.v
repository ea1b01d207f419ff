(** odccapi.cc: the older C interface. *)
From Verif Require Import Base Fp Stream Codec Meta Header Encoder Table Writer Reader RowReader Dispatcher.
Open Scope Z_scope.

(** odb_read_iterator_get_no_of_columns, odccapi.cc:233-237. *)
Definition old_columns (it : riter) : Z := Z.of_nat (length (r_cols it)).

(** odb_read_iterator_get_row_buffer_size_doubles, odccapi.cc:464-469, in bytes. *)
Definition old_row_bytes (it : riter) : Z := row_bytes (r_cols it).

(** odb_read_iterator_get_column_offset, odccapi.cc:245-249, and _size_doubles, 239-243. *)
Definition old_offset (it : riter) (i : nat) : Z :=
  fold_right Z.add 0 (map (fun c => data_size_doubles (col_coder c)) (firstn i (r_cols it))).
Definition old_doubles (it : riter) (i : nat) : outcome Z :=
  match nth_error (r_cols it) i with Some c => Ok (data_size_doubles (col_coder c)) | None => UB end.

(** odb_read_iterator_get_missing_value, odccapi.cc:452-462: the index may be the number of
    columns, which is beyond the vector. *)
Definition old_missing (it : riter) (index : Z) : outcome Z :=
  if (index <? 0) || (Z.of_nat (length (r_cols it)) <? index) then Throw UserError
  else match nth_error (r_cols it) (Z.to_nat index) with
       | Some c => Ok (missing_value (col_coder c))
       | None => UB
       end.

(** What odb_read_iterator_get_next_row gives back: the returned code, *new_dataset if it
    was assigned, and the caller's buffer. *)
Record answer := { a_code : Z; a_new : option bool; a_buffer : list Z }.

(** memcpy(buffer, row, n): more than there is room for is undefined. *)
Definition copy_into (buffer row : list Z) (n : Z) : outcome (list Z) :=
  if (Z.of_nat (length buffer) <? n) || (Z.of_nat (length row) <? n) then UB
  else Ok (firstn (Z.to_nat n) row ++ skipn (Z.to_nat n) buffer).

Section OldApi.
Variable md5 : list Z -> list Z.
Variable st : settings.
Variable junk : nat -> nat -> list Z.

(** odb_create_read_iterator, odccapi.cc:195-207 (the file exists): Reader::createReadIterator
    makes an iterator and does not advance it. *)
Definition old_open (file : list Z) : outcome riter := open_rows md5 st junk file.

(** odb_read_iterator_get_next_row, odccapi.cc:318-337.  ReaderIterator::next returns the
    number of columns as a bool, so a row without columns counts as the end. *)
Definition old_next (it : riter) (count : Z) (buffer : list Z) : outcome (riter * answer) :=
  do (it1, o) <- next_row md5 st junk it;
  let more := match o with Some _ => negb (length (r_cols it1) =? 0)%nat | None => false end in
  if negb more then Ok (it1, {| a_code := 1; a_new := None; a_buffer := buffer |})
  else
    do _ <- assert (0 <=? count);
    if negb (count =? old_columns it1) then Ok (it1, {| a_code := 2; a_new := Some (r_new it1); a_buffer := buffer |})
    else
      do b <- copy_into buffer (concat (r_last it1)) (old_row_bytes it1);
      Ok (it1, {| a_code := 0; a_new := Some (r_new it1); a_buffer := b |}).

(** Calls one after another, each with the count and the buffer the caller passes. *)
Fixpoint old_calls (it : riter) (calls : list (Z * list Z)) : outcome (riter * list answer) :=
  match calls with
  | [] => Ok (it, [])
  | (count, buffer) :: cs =>
      do (it1, a) <- old_next it count buffer;
      do (it2, l) <- old_calls it1 cs;
      Ok (it2, a :: l)
  end.

(** The usual caller: asks for the number of columns and the size of a row, makes room for it
    ([fill] gives what is in the memory) and calls, until the code is 1.  A row that was not
    delivered is None. *)
Fixpoint old_poll (fill : nat -> list Z) (fuel : nat) (it : riter) : list (option (list Z)) * ending :=
  match fuel with
  | O => ([], OutOfFuel)
  | S f =>
      match old_next it (old_columns it) (pad (Z.to_nat (old_row_bytes it)) (fill f)) with
      | Ok (it1, a) =>
          if a_code a =? 1 then ([], Clean)
          else
            let (rows, e) := old_poll fill f it1 in
            ((if a_code a =? 0 then Some (firstn (Z.to_nat (old_row_bytes it1)) (a_buffer a)) else None) :: rows, e)
      | Throw e => ([], Failed e)
      | UB => ([], Undefined)
      end
  end.

End OldApi.

(** get_bitfield, odccapi.cc:40-63: the names and sizes of the members as two texts. *)
Definition colon_text (l : list (list Z)) : list Z := flat_map (fun t => t ++ [58]) l.
Definition bitfield_text (names : list (list Z)) (sizes : list Z) : outcome (list Z * list Z) :=
  (* sizes[i] for every name *)
  if (length sizes <? length names)%nat then UB
  else Ok (colon_text names, colon_text (map decimal (firstn (length names) sizes))).

(** The loops of odb_write_iterator_set_bitfield, odccapi.cc:397-413: what stands before each
    colon; [cur] is what was read since the last one. *)
Fixpoint colon_parts (t cur : list Z) : list (list Z) :=
  match t with
  | [] => []
  | c :: r => if c =? 58 then cur :: colon_parts r [] else colon_parts r (cur ++ [c])
  end.

(** [to_size] is size_t(atof(text)); Sizes holds int32_t. *)
Definition set_bitfield_parts (to_size : list Z -> Z) (names sizes : list Z) : list (list Z) * list Z :=
  (colon_parts names [], map to_size (colon_parts sizes [])).

(** odb_write_iterator_set_next_row, odccapi.cc:490-493: the count must be the number of
    columns (gatherStats, WriterBufferingIterator.cc:87). *)
Definition old_write_row (md5 : list Z -> list Z) (st : settings) (N : nat) (pr : props) (w : writer) (data : list Z) (count : Z)
  : outcome writer :=
  do _ <- assert (w_init w);
  do _ <- assert (count =? Z.of_nat (length (w_cols w)));
  write_row md5 st N pr w data.

(** A whole session: the columns are described (set_no_of_columns, set_column or, with
    distinct names, set_bitfield, and set_column_size_doubles), odb_write_iterator_write_header,
    the rows with their counts, and odb_write_iterator_destroy (odccapi.cc:373-376), which closes. *)
Fixpoint old_write_rows (md5 : list Z -> list Z) (st : settings) (N : nat) (pr : props) (w : writer) (rows : list (list Z * Z)) : outcome writer :=
  match rows with
  | [] => Ok w
  | (data, count) :: rs => do w1 <- old_write_row md5 st N pr w data count; old_write_rows md5 st N pr w1 rs
  end.
Definition old_write_file (md5 : list Z -> list Z) (st : settings) (N : nat) (pr : props) (cols : list colinfo) (rows : list (list Z * Z)) : outcome (list Z) :=
  do w <- open_writer st cols [];
  do w1 <- old_write_rows md5 st N pr w rows;
  do w2 <- close md5 st N pr w1;
  Ok (w_out w2).
