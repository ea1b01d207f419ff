(** sql/TODATable.cc: an ODB file as a table of the SQL engine, and which of its columns a name
    denotes. *)
From Coq Require Import String.
From Verif Require Import Base Fp Stream Codec Meta Header Encoder Table Writer Reader RowReader Comparator Query.
Open Scope Z_scope.
Local Notation length := List.length.

(** What the engine is told of a column by addColumn (eckit's SQLTable, not in this
    repository): its name and index, the name of its SQL type and its size in doubles (none for
    a bitfield, whose type is made of the members), whether it has missing values and which, and
    the members of the bitfield. *)
Record sqlcol := {
  t_name : list Z; t_index : nat; t_type : list Z; t_doubles : option Z;
  t_hasMissing : bool; t_missing : Z; t_members : list (list Z) * list Z
}.

(** One turn of the loop of populateMetaData, TODATable.cc:91-130. *)
Definition sql_column (i : nat) (c : column) : outcome sqlcol :=
  let add t d := Ok {| t_name := col_name c; t_index := i; t_type := t; t_doubles := d;
                       t_hasMissing := negb (c_hasMissing (col_coder c) =? 0); t_missing := missing_value (col_coder c);
                       t_members := (col_bfnames c, col_bfsizes c) |} in
  let d := Some (data_size_doubles (col_coder c)) in
  if col_type c =? ty_INTEGER then add (str "integer") d
  else if col_type c =? ty_STRING then add (str "string") d
  else if col_type c =? ty_REAL then add (str "real") d
  else if col_type c =? ty_DOUBLE then add (str "double") d
  else if col_type c =? ty_BITFIELD then add (str "Bitfield") None
  else Throw SeriousBug.

Fixpoint sql_columns (i : nat) (cs : list column) : outcome (list sqlcol) :=
  match cs with
  | [] => Ok []
  | c :: cs' => do t <- sql_column i c; do ts <- sql_columns (S i) cs'; Ok (t :: ts)
  end.

(** SQLTable::hasColumn and column of eckit: the map from full names, here the list of the
    columns; no two have the same name ([make_table]). *)
Definition exactly (ts : list sqlcol) (nm : list Z) : option sqlcol := find (fun t => bytes_eqb (t_name t) nm) ts.

(** hasColumn, TODATable.cc:175-201: [n] counts the names that begin with the name and an '@'.
    The map is walked in the order of the names, the list in that of the columns: only the
    number counts. *)
Definition begins (nm : list Z) (t : sqlcol) : bool := starts_with (nm ++ [64]) (t_name t).
Definition table_has (ts : list sqlcol) (nm : list Z) : outcome bool :=
  match exactly ts nm with
  | Some _ => Ok true
  | None =>
      let n := fold_left (fun n t => if begins nm t then S n else n) ts O in
      if (n =? 1)%nat then Ok true else if (1 <? n)%nat then Throw UserError else Ok false
  end.

(** column, TODATable.cc:203-230. *)
Fixpoint only_one (nm : list Z) (ts : list sqlcol) (found : option sqlcol) : outcome sqlcol :=
  match ts with
  | [] => match found with Some t => Ok t | None => Throw SeriousBug end
  | t :: ts' =>
      if begins nm t then match found with Some _ => Throw UserError | None => only_one nm ts' (Some t) end
      else only_one nm ts' found
  end.
Definition table_column (ts : list sqlcol) (nm : list Z) : outcome sqlcol :=
  match exactly ts nm with Some t => Ok t | None => only_one nm ts None end.

(** addColumn takes no name twice: what eckit does then is not described here. *)
Fixpoint distinctb (ts : list sqlcol) : bool :=
  match ts with [] => true | t :: ts' => negb (existsb (fun u => bytes_eqb (t_name u) (t_name t)) ts') && distinctb ts' end.
Definition make_table (cs : list column) : outcome (list sqlcol) :=
  do ts <- sql_columns 0 cs; if distinctb ts then Ok ts else UB.

Section Open.
Variable md5 : list Z -> list Z.
Variable st : settings.
Variable junk : nat -> nat -> list Z.

(** ODAFactory::build, TODATable.cc:43-59, on a file that exists: not a table of this kind
    ([None]) unless it begins with the five bytes; the constructor, 70-75, opens the file and
    describes the columns of its first row. *)
Definition is_oda (file : list Z) : bool := (5 <=? length file)%nat && bytes_eqb (firstn 5 file) ([255; 255] ++ str "ODA").
Definition open_table (file : list Z) : outcome (option (list sqlcol)) :=
  if is_oda file then do it <- begin_rows md5 st junk file; do ts <- make_table (r_cols it); Ok (Some ts)
  else Ok None.

(** A query for the columns [nms] of a file: the engine finds them in the table by name and
    reads the file through an iterator made with them, which looks up the names of the columns
    that were found in every table of the file ([query_file], TODATableIterator.cc:105-122).
    [None]: no such table. *)
Definition sql_query (nms : list (list Z)) (fuel : nat) (file : list Z) : option (list (bool * list (list Z * Z * Z)) * ending) :=
  match open_table file with
  | Ok None => None
  | Ok (Some ts) =>
      match map_out (table_column ts) nms with
      | Ok found => Some (query_file md5 st junk (map t_name found) fuel file)
      | Throw e => Some ([], Failed e)
      | UB => Some ([], Undefined)
      end
  | Throw e => Some ([], Failed e)
  | UB => Some ([], Undefined)
  end.
End Open.
