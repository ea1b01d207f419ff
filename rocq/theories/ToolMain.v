(** tools/CompareTool.cc, tools/ImportTool.cc, tools/CountTool.cc: from the command line of a
    tool to the function that does its work. *)
From Coq Require Import String.
From Verif Require Import Base Fp Stream Codec Meta Header Table Reader Writer RowReader Comparator Csv Scan CommandLine.
Open Scope Z_scope.
Local Notation length := List.length.

(** The calls of registerOptionWithArgument in a tool's constructor. *)
Fixpoint register (p : parser) (os : list word) : parser :=
  match os with
  | [] => p
  | o :: os' => register (fst (apply p (Register o))) os'
  end.

(** parameters(), optionArgument and optionIsSet (CommandLine.v), with the parser afterwards. *)
Definition get_parameters (p : parser) : outcome (parser * list word) :=
  match apply p AllParameters with
  | (q, Ok (Words l)) => Ok (q, l)
  | (_, Throw e) => Throw e
  | _ => UB
  end.
Definition get_argument (p : parser) (o d : word) : outcome (parser * word) :=
  match apply p (Argument o d) with
  | (q, Ok (Word a)) => Ok (q, a)
  | (_, Throw e) => Throw e
  | _ => UB
  end.
Definition get_flag (p : parser) (o : word) : outcome (parser * bool) :=
  match apply p (IsSet o) with
  | (q, Ok (Bit b)) => Ok (q, b)
  | (_, Throw e) => Throw e
  | _ => UB
  end.

Section Tools.
(** The files there are, by name (PathName's treatment of '~' and the like is not modelled),
    with their bytes. *)
Variable files : word -> option (list Z).
Variable md5 : list Z -> list Z.
Variable st : settings.

(** CompareTool::CompareTool, CompareTool.cc:26-49, and CompareTool::run, 52-75.  A file that
    does not exist is an eckit::Exception, here [SeriousBug].  The constructor of Comparator,
    Comparator.h:40, calls the flag passed on line 74 skipTestingHaveMissing; [nans] is
    $odc_NAN_IS_OK.  StringTools::split is [split_text].  The names are looked at in the order
    of the [||] on line 40. *)
Definition compare_tool (nans : bool) (junk1 junk2 : nat -> nat -> list Z) (fuel : nat) (words : list word) : outcome unit :=
  let p0 := register (new_parser words) [str "-excludeColumnsTypes"; str "-excludeColumns"] in
  do (p1, ps) <- get_parameters p0;
  match ps with
  | [_; f1; f2] =>
      match files f1 with
      | None => Throw SeriousBug
      | Some b1 =>
          match files f2 with
          | None => Throw SeriousBug
          | Some b2 =>
              do (p2, ts) <- get_argument p1 (str "-excludeColumnsTypes") [];
              do (p3, cs) <- get_argument p2 (str "-excludeColumns") [];
              do (p4, dont) <- get_flag p3 (str "-dontCheckMissing");
              let check_missing := negb dont in
              compare_files check_missing nans (split_text [44] ts) (split_text [44] cs)
                md5 st st junk1 junk2 fuel b1 b2
          end
      end
  | _ => Throw UserError
  end.

(** ImportTool::ImportTool, ImportTool.cc:36-39, and ImportTool::run, 56-86: the bytes written
    to the output file and the number of rows.  Lines 72-81 call odbFromCSV with its default
    delimiter, api/Odb.h:384; lines 83-85, which need the SQL engine, are [filtered] of the
    query, the delimiter and the text.  A file that cannot be opened is [SeriousBug]. *)
Definition import_tool (to_float to_double to_long : list Z -> outcome Z) (unquote : list Z -> list Z)
    (junk : nat -> nat -> list Z) (N fuel : nat) (filtered : word -> word -> list Z -> outcome (list Z * Z))
    (words : list word) : outcome (word * (list Z * Z)) :=
  let p0 := register (new_parser words) [str "-d"; str "-sql"] in
  do (p1, ps) <- get_parameters p0;
  match ps with
  | [_; i; o] =>
      do (p2, d) <- get_argument p1 (str "-d") [44];
      let d1 := upper d in
      let delimiter := if bytes_eqb d1 (str "TAB") then [9] else if bytes_eqb d1 (str "SPACE") then [32] else d1 in
      do (p3, sql) <- get_argument p2 (str "-sql") (str "select *;");
      match files i with
      | None => Throw SeriousBug
      | Some text =>
          do r <- (if bytes_eqb sql (str "select *;")
                   then import_text st [44] to_float to_double to_long unquote junk md5 N fuel text
                   else filtered sql delimiter text);
          Ok (o, r)
      end
  | _ => Throw UserError
  end.

(** The contents of the files named. *)
Fixpoint contents (names : list word) : outcome (list (list Z)) :=
  match names with
  | [] => Ok []
  | n :: ns => match files n with
               | None => Throw SeriousBug
               | Some b => do bs <- contents ns; Ok (b :: bs)
               end
  end.

(** CountTool::run, CountTool.cc:43-63: the number printed.  Simplified: all files are opened
    before the first is counted, so a tool that fails may fail for another reason. *)
Definition count_tool (fuel : nat) (words : list word) : outcome Z :=
  do (p1, ps) <- get_parameters (new_parser words);
  match ps with
  | _ :: n :: ns => do bs <- contents (n :: ns); count_files md5 st bs fuel 0
  | _ => Throw UserError
  end.

End Tools.
