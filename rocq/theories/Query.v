(** sql/TODATableIterator.cc: the rows of a file as the SQL engine is given them. *)
From Verif Require Import Base Fp Stream Codec Meta Header Encoder Table Writer Reader RowReader Comparator.
Open Scope Z_scope.

(** What the engine is told of a column it asked for: where it is in the row (columnOffsets_),
    how wide (columnDoublesSizes_), both in doubles, whether it has missing values
    (columnsHaveMissing_; a char there, for the values 0 and 1 that codecs use) and which value
    that is (columnMissingValues_, the bits of a double). *)
Record place_of := { pl_offset : Z; pl_doubles : Z; pl_hasMissing : Z; pl_missing : Z }.

(** The state of an iterator; [q_it] is the ReaderIterator it holds. *)
Record qiter := { q_it : riter; q_places : list place_of; q_first : bool }.

(** columnOffsets_[i] of a ReaderIterator, ReaderIterator.cc:161-168, ReaderIterator.h:97-100. *)
Definition data_offset (cols : list column) (i : nat) : Z :=
  fold_right Z.add 0 (map (fun c => data_size_doubles (col_coder c)) (firstn i cols)).

(** columnIndex, TODATableIterator.cc:30-44: the exceptions of MetaData::columnIndex become
    user errors. *)
Definition look_up (cols : list column) (nm : list Z) : outcome Z :=
  match column_index cols nm with
  | Throw ColumnNotFound | Throw AmbiguousColumn => Throw UserError
  | o => o
  end.

(** updateMetaData, TODATableIterator.cc:105-122. *)
Definition update_places (names : list (list Z)) (cols : list column) : outcome (list place_of) :=
  map_out (fun nm =>
    do i <- look_up cols nm;
    match nth_error cols (Z.to_nat i) with
    | None => UB
    | Some c => Ok {| pl_offset := data_offset cols (Z.to_nat i); pl_doubles := data_size_doubles (col_coder c);
                      pl_hasMissing := c_hasMissing (col_coder c); pl_missing := missing_value (col_coder c) |}
    end) names.

Section Query.
Variable md5 : list Z -> list Z.
Variable st : settings.
Variable junk : nat -> nat -> list Z.
Variable names : list (list Z).          (* columns_: the names of the columns asked for *)

(** The constructor, TODATableIterator.cc:53-67, on the iterator that TODATable made with
    Reader::begin (TODATable.cc:70-74). *)
Definition make_query (it : riter) : outcome qiter :=
  if r_end it then Ok {| q_it := it; q_places := []; q_first := true |}
  else
    do ps <- update_places names (r_cols it);
    Ok {| q_it := it; q_places := ps; q_first := true |}.

Definition open_query (file : list Z) : outcome qiter := do it <- begin_rows md5 st junk file; make_query it.

(** next, TODATableIterator.cc:82-102: the new state, whether there is a row, and whether the
    engine was told of new columns (metadataUpdateCallback_). *)
Definition query_next (q : qiter) : outcome (qiter * bool * bool) :=
  do it <- (if q_first q then Ok (q_it q) else do (it1, _) <- next_row md5 st junk (q_it q); Ok it1);
  let q1 := {| q_it := it; q_places := q_places q; q_first := false |} in
  if r_end it then Ok (q1, false, false)
  else if r_new it then
    do ps <- update_places names (r_cols it);
    Ok ({| q_it := it; q_places := ps; q_first := false |}, true, true)
  else Ok (q1, true, false).

(** rewind, TODATableIterator.cc:69-76: a new iterator over the file (its data handle is
    cloned and opened again); the column data are kept. *)
Definition query_rewind (file : list Z) (q : qiter) : outcome qiter :=
  if q_first q then Ok q
  else
    do it <- begin_rows md5 st junk file;
    Ok {| q_it := it; q_places := q_places q; q_first := true |}.

(** What the engine reads: data() (TODATableIterator.cc:148-151) is the array of the row's
    values; the value of a column is the [pl_doubles] doubles at [pl_offset]. *)
Definition value_at (data : list Z) (p : place_of) : list Z :=
  firstn (Z.to_nat (8 * pl_doubles p)) (skipn (Z.to_nat (8 * pl_offset p)) data).
Definition query_row (q : qiter) : list (list Z * Z * Z) :=
  map (fun p => (value_at (concat (r_last (q_it q))) p, pl_hasMissing p, pl_missing p)) (q_places q).

(** All rows, each with whether new columns were announced before it. *)
Fixpoint query_rows (fuel : nat) (q : qiter) : list (bool * list (list Z * Z * Z)) * ending :=
  match fuel with
  | O => ([], OutOfFuel)
  | S f =>
      match query_next q with
      | Ok (q1, true, told) => let (rows, e) := query_rows f q1 in ((told, query_row q1) :: rows, e)
      | Ok (_, false, _) => ([], Clean)
      | Throw e => ([], Failed e)
      | UB => ([], Undefined)
      end
  end.

Definition query_file (fuel : nat) (file : list Z) : list (bool * list (list Z * Z * Z)) * ending :=
  match open_query file with
  | Ok q => query_rows fuel q
  | Throw e => ([], Failed e)
  | UB => ([], Undefined)
  end.

(** [n] calls of next. *)
Fixpoint query_steps (n : nat) (q : qiter) : outcome qiter :=
  match n with
  | O => Ok q
  | S n' => do (q1, _, _) <- query_next q; query_steps n' q1
  end.

End Query.
