(** WriterDispatchingIterator.cc: verify, and tools/SplitTool.cc: split. *)
From Verif Require Import Base Fp Stream Codec Meta Header Encoder Table Writer Reader RowReader Comparator Copy Dispatcher.
Open Scope Z_scope.

Section Verify.
Variable md5 : list Z -> list Z.
Variables (st : settings) (N : nat).
Variables (template : list Z) (max : nat).
Variable nan_ok : bool.                         (* NaN_isOK_ of the Comparator *)
(** The memory of the readers: of the input, for pass1 and for verify, and of the files
    written. *)
Variables junk0 junk : nat -> nat -> list Z.
Variable junks : nat -> nat -> nat -> list Z.

(** pass1, WriterDispatchingIterator.cc:407-448: the dispatcher it leaves.  ([split_file] of
    [Dispatcher] is this and close.) *)
Definition pass1_file (fuel : nat) (append : bool) (k : disk) (file : list Z) : outcome dispatcher :=
  do it <- begin_rows md5 st junk0 file;
  if r_end it then Ok (new_dispatcher max append k)
  else
    do cols <- map_out (copy_column st) (r_cols it);
    do d <- parse_params template (set_cols (new_dispatcher max append k) cols);
    do _ <- assert (negb (length cols =? 0)%nat);
    dispatch_loop md5 st N template max junk0 fuel d it.

(** files_: the names of the files opened last, by index (createIterator, 215-223). *)
Definition opened (d : dispatcher) : list (list Z) := map (fun hw => h_name (fst hw)) (d_open d).

(** close, WriterDispatchingIterator.cc:543-554: iterators_ is emptied; the other members
    stay.  ([verify] has files_ in the list of readers.) *)
Definition closed (d : dispatcher) (k : disk) : dispatcher := with_disk d k [].

(** MetaData::equals and Column::equals without the sizes, core/MetaData.cc:214-230,
    core/Column.cc:104-114. *)
Fixpoint equal_types (a b : list column) : bool :=
  match a, b with
  | [], [] => true
  | x :: a', y :: b' => bytes_eqb (col_name x) (col_name y) && (col_type x =? col_type y) && equal_types a' b'
  | _, _ => false
  end.

(** The Readers, WriterDispatchingIterator.cc:470-476.  An unreadable file is an exception. *)
Fixpoint open_readers (k : disk) (i : nat) (names : list (list Z)) : outcome (list riter) :=
  match names with
  | [] => Ok []
  | n :: r =>
      do it <- begin_rows md5 st (junks i) (content k n);
      do l <- open_readers k (S i) r;
      Ok (it :: l)
  end.

(** The try block, 502-517: true if nothing is thrown.  [cs] are columns(), the row of the
    input is [row]; [s] is the reader of the file. *)
Definition row_correct (cs : list column) (row : list (list Z)) (s : riter) : bool :=
  negb (r_end s) && equal_types (r_cols s) cs &&
  (differences true nan_ok 0 [] cs (r_cols s) row (r_last s) =? 0)%nat.

(** The columns of a new table, 487-490. *)
Definition verify_columns (d : dispatcher) (it : riter) : outcome dispatcher :=
  if r_new it && negb (equal_columns (d_cols d) (r_cols it)) then
    do cols <- map_out (copy_column st) (r_cols it);
    parse_params template (set_cols d cols)
  else Ok d.

(** The loop, 486-525: the numbers of rows and of differences.  dispatchIndex may open files
    again, since iterators_ is empty. *)
Fixpoint verify_loop (fuel : nat) (d : dispatcher) (its : list riter) (it : riter) (rows diffs : nat) : outcome (disk * nat * nat) :=
  match fuel with
  | O => UB
  | S f =>
      if r_end it then Ok (d_disk d, rows, diffs)
      else
        do d1 <- verify_columns d it;
        do (d2, i) <- dispatch_index md5 st N template max d1 (r_last it);
        match nth_error its i with
        | None => UB
        | Some s =>
            let diffs1 := if row_correct (d_cols d2) (r_last it) s then diffs else S diffs in
            do (it1, _) <- next_row md5 st junk it;
            do (s1, _) <- next_row md5 st (junks i) s;
            verify_loop f d2 (list_set its i s1) it1 (S rows) diffs1
        end
  end.

(** verify, 459-527, with the dispatcher [d] that pass1 left and the files as they are in
    [k]; [file] is the input.  (The input is taken not to be one of the files written.) *)
Definition verify (fuel : nat) (d : dispatcher) (k : disk) (file : list Z) : outcome (disk * nat * nat) :=
  do it <- begin_rows md5 st junk file;
  do cols <- map_out (copy_column st) (r_cols it);
  do its <- open_readers k 0 (opened d);
  verify_loop fuel (set_cols (closed d k) cols) its it 0 0.

(** SplitTool::split, tools/SplitTool.cc:136-149, with verify: the files, and what is
    logged. *)
Definition split_tool (fuel : nat) (k : disk) (file : list Z) : outcome (disk * nat * nat) :=
  do d <- pass1_file fuel false k file;
  do k1 <- close_all md5 st N (d_disk d) (d_open d);
  verify fuel d k1 file.

End Verify.
