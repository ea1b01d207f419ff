(** tools/ODAHeaderTool.cc: what "odc header" prints with -offsets and with -ddl. *)
From Coq Require Import String.
From Verif Require Import Base Fp Stream Codec Meta Header Table Reader Scan Dispatcher.
Open Scope Z_scope.
Local Notation length := List.length.

(** OffsetsPrinter::print, ODAHeaderTool.cc:53-57: the line of one table.  An eckit Offset or Length
    prints as its number. *)
Definition offsets_line (t : table) : list Z :=
  decimal (t_start t) ++ str " " ++ decimal (t_next t - t_start t) ++ str " " ++ decimal (t_rows t) ++ str " "
  ++ decimal (Z.of_nat (length (t_cols t))) ++ [10].

(** MetaData::operator==, core/MetaData.cc:214-230: the columns in order, with their data sizes. *)
Fixpoint md_equal (a b : list column) : bool :=
  match a, b with
  | [], [] => true
  | x :: a', y :: b' => column_equals true x y && md_equal a' b'
  | _, _ => false
  end.

(** DDLPrinter::print, ODAHeaderTool.cc:65-70: [md] is md_. *)
Definition ddl_step (md : list (list column)) (t : table) : list (list column) :=
  match rev md with
  | [] => md ++ [t_cols t]
  | lst :: _ => if md_equal lst (t_cols t) then md else md ++ [t_cols t]
  end.

(** DDLPrinter::typeName, ODAHeaderTool.cc:77-93.  For another type the code throws a pointer to an
    Exception. *)
Definition type_name (c : column) : outcome (list Z) :=
  if col_type c =? ty_STRING then Ok (str "STRING")
  else if col_type c =? ty_INTEGER then Ok (str "INTEGER")
  else if col_type c =? ty_BITFIELD then Ok (str "INTEGER")
  else if col_type c =? ty_REAL then Ok (str "REAL")
  else if col_type c =? ty_DOUBLE then Ok (str "DOUBLE")
  else Throw SeriousBug.

(** DDLPrinter::stripAtTable, ODAHeaderTool.cc:117-125. *)
Definition strip_at_table (table_name name : list Z) : list Z :=
  let suffix := str "@" ++ table_name in
  if (length suffix <=? length name)%nat && bytes_eqb (skipn (length name - length suffix) name) suffix
  then firstn (length name - length suffix) name
  else name.

(** The loop over the members of a bitfield, ODAHeaderTool.cc:109-110.  [sizes] tells how many there are. *)
Fixpoint members_text (names : list (list Z)) (sizes : list Z) : outcome (list Z) :=
  match sizes, names with
  | [], _ => Ok []
  | _ :: _, [] => UB                       (* fieldNames[i] past the end *)
  | z :: sizes', n :: names' =>
      do r <- members_text names' sizes';
      Ok (n ++ str " bit" ++ decimal z ++ (match sizes' with [] => [] | _ => str ", " end) ++ r)
  end.

(** DDLPrinter::typeDefinitionAndName, ODAHeaderTool.cc:95-115. *)
Definition definition_and_name (table_name : list Z) (c : column) : outcome (list Z * list Z) :=
  do tn <- type_name c;
  if col_type c =? ty_BITFIELD then
    let tn' := strip_at_table table_name (col_name c) ++ str "_at_" ++ table_name ++ str "_t" in
    do m <- members_text (col_bfnames c) (col_bfsizes c);
    Ok (str "CREATE TYPE " ++ tn' ++ str " AS (" ++ m ++ str ");" ++ [10], tn')
  else Ok ([], tn).

(** The loop of DDLPrinter::printTable, ODAHeaderTool.cc:131-137: what goes to create_type and to
    create_table. *)
Fixpoint columns_text (table_name : list Z) (cols : list column) : outcome (list Z * list Z) :=
  match cols with
  | [] => Ok ([], [])
  | c :: cols' =>
      do (def, ty) <- definition_and_name table_name c;
      do (types, lines) <- columns_text table_name cols';
      Ok (def ++ types, str "  " ++ strip_at_table table_name (col_name c) ++ str " " ++ ty ++ str "," ++ [10] ++ lines)
  end.

(** DDLPrinter::printTable, ODAHeaderTool.cc:127-142. *)
Definition print_table (path table_name : list Z) (cols : list column) : outcome (list Z) :=
  do (types, lines) <- columns_text table_name cols;
  Ok (types ++ str "CREATE TABLE " ++ table_name ++ str " AS (" ++ [10] ++ lines ++ str ") ON '" ++ path ++ str "';" ++ [10]).

(** DDLPrinter::printSummary, ODAHeaderTool.cc:72-75. *)
Fixpoint print_tables (path table_name : list Z) (mds : list (list column)) : outcome (list Z) :=
  match mds with
  | [] => Ok []
  | md :: mds' =>
      do a <- print_table path table_name md;
      do b <- print_tables path table_name mds';
      Ok (a ++ b)
  end.

Section WithFile.
Variable md5 : list Z -> list Z.
Variable st : settings.
Variable file : list Z.

(** HeaderTool::run, ODAHeaderTool.cc:152-182, with -offsets: the loop of Scan.v.  The result is
    what has gone to the standard output when the tool succeeds.  The command line is that of
    CommandLine.v and not modelled again. *)
Definition header_offsets (fuel : nat) : outcome (list Z) :=
  scan md5 st (Z.of_nat (length file)) file (fun out t => out ++ offsets_line t) fuel [].

(** The same with -ddl; [table_name] is the argument of -table, or "foo". *)
Definition header_ddl (path table_name : list Z) (fuel : nat) : outcome (list Z) :=
  do mds <- scan md5 st (Z.of_nat (length file)) file ddl_step fuel [];
  print_tables path table_name mds.
End WithFile.
