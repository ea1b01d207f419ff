(** tools/SetTool.cc, tools/MDSetTool.cc, tools/CompactTool.cc, tools/FixedSizeRowTool.cc,
    tools/IndexTool.cc, tools/LSTool.cc, tools/ODAHeaderTool.cc and tools/SplitTool.cc, from the
    command line on. *)
From Coq Require Import String.
From Verif Require Import Base Fp Stream Codec Meta Header Table Reader Writer RowReader CommandLine ToolMain ToolMore.
From Verif Require Setter MdSet Compact Index LsTool HeaderTool Dispatcher Verify.
Open Scope Z_scope.
Local Notation length := List.length.

Section Tools.
(** as in ToolMain.v *)
Variable files : word -> option (list Z).
Variable md5 : list Z -> list Z.
Variable st : settings.

(** The bytes of a file, for a tool that opens it: one that does not exist is [SeriousBug]. *)
Definition open_input (n : word) : outcome (list Z) :=
  match files n with None => Throw SeriousBug | Some b => Ok b end.

(** SetTool::run, SetTool.cc:32-65: the name of the file written and its bytes.  Simplified: the
    output file is opened before the assignments are parsed, so a tool that fails may leave an
    empty file. *)
Definition set_main (junk : nat -> nat -> list Z) (translate : list Z -> outcome Z) (N : nat) (pr : props) (fuel : nat)
    (words : list word) : outcome (word * list Z) :=
  do (p1, ps) <- get_parameters (new_parser words);
  match ps with
  | [_; updates; i; o] =>
      do file <- open_input i;
      do out <- Setter.set_tool md5 st junk translate N pr fuel updates file;
      Ok (o, out)
  | _ => Throw UserError
  end.

(** MDSetTool::run, MDSetTool.cc:54-120: the name of the file written, what is written, and how
    the tool ends. *)
Definition mdset_main (to_double : list Z -> outcome Z) (fuel : nat) (words : list word) : outcome (word * (list Z * outcome unit)) :=
  do (p1, ps) <- get_parameters (new_parser words);
  match ps with
  | [_; updates; i; o] =>
      do file <- open_input i;
      Ok (o, MdSet.mdset md5 st (Z.of_nat (length file)) to_double fuel updates file)
  | _ => Throw UserError
  end.

(** CompactTool::run, CompactTool.cc:27-58, and FixedSizeRowTool::run, FixedSizeRowTool.cc:26-54,
    which are the same: the name of the file written, the copy and the verdict. *)
Definition compact_main (N : nat) (pr : props) (nans : bool) (junk junk1 junk2 : nat -> nat -> list Z) (fuel : nat)
    (words : list word) : outcome (word * (list Z * outcome unit)) :=
  do (p1, ps) <- get_parameters (new_parser words);
  match ps with
  | [_; i; o] =>
      do file <- open_input i;
      do r <- Compact.compact_file md5 st N pr nans junk junk1 junk2 fuel file;
      Ok (o, r)
  | _ => Throw UserError
  end.

(** IndexTool::run, IndexTool.cc:42-57; [select] as in Index.v. *)
Definition index_main (N : nat) (pr : props) (select : list Z -> outcome (list Z)) (fuel : nat) (words : list word) : outcome (word * list Z) :=
  do (p1, ps) <- get_parameters (new_parser words);
  do (i, o) <- match ps with
               | [_; i] => Ok (i, i ++ str ".idx")
               | [_; i; o] => Ok (i, o)
               | _ => Throw UserError
               end;
  do file <- open_input i;
  do out <- Index.create_index md5 st N pr select file (Z.of_nat (length file)) fuel;
  Ok (o, out).

(** LSTool::LSTool, LSTool.cc:24-26, and run, 86-108: where the listing goes (the standard output
    if [None]) and the listing, its rows and how it ends. *)
Definition ls_main (junk : nat -> nat -> list Z) (fuel : nat) (words : list word) : outcome (option word * (list Z * Z * ending)) :=
  do (p1, ps) <- get_parameters (register (new_parser words) [str "-o"]);
  match ps with
  | [_; db] =>
      do (p2, to_file) <- get_flag p1 (str "-o");
      do out <- (if to_file : bool then do (p3, o) <- get_argument p2 (str "-o") []; Ok (Some o) else Ok None);
      do file <- open_input db;
      Ok (out, LsTool.ls_file md5 st junk fuel file)
  | _ => Throw UserError
  end.

(** HeaderTool::run, ODAHeaderTool.cc:152-182: what is printed.  The printer without options,
    which streams the tables, is [verbose]. *)
Definition header_main (verbose : list Z -> outcome (list Z)) (fuel : nat) (words : list word) : outcome (list Z) :=
  do (p1, ps) <- get_parameters (register (new_parser words) [str "-table"]);
  match ps with
  | [_; db] =>
      do (p2, table_name) <- get_argument p1 (str "-table") (str "foo");
      do (p3, offsets) <- get_flag p2 (str "-offsets");
      do kind <- (if offsets : bool then Ok 1 else do (p4, ddl) <- get_flag p3 (str "-ddl"); Ok (if ddl : bool then 2 else 3));
      do file <- open_input db;
      if kind =? 1 then HeaderTool.header_offsets md5 st file fuel
      else if kind =? 2 then HeaderTool.header_ddl md5 st file db table_name fuel
      else verbose file
  | _ => Throw UserError
  end.
End Tools.

Section Split.
Variable md5 : list Z -> list Z.
Variable st : settings.

(** SplitTool::SplitTool, SplitTool.cc:34-36, and run, 38-62: the files afterwards, and what is
    logged by the verification if there is one.  maxOpenFiles_ is a long that is passed as a
    size_t.  presortAndSplit, which needs the SQL engine, is [sorted] of the input and the
    template; its chunks are those of Scan.v. *)
Definition split_main (to_long : word -> outcome Z) (N : nat) (nans : bool) (junk0 junk : nat -> nat -> list Z) (junks : nat -> nat -> nat -> list Z)
    (fuel : nat) (sorted : list Z -> word -> outcome Dispatcher.disk) (k : Dispatcher.disk) (words : list word) :
    outcome (Dispatcher.disk * option (nat * nat)) :=
  do (p1, ps) <- get_parameters (register (new_parser words) [str "-maxopenfiles"]);
  match ps with
  | [_; i; template] =>
      do (p2, sort) <- get_flag p1 (str "-sort");
      do (p3, n) <- get_number to_long p2 (str "-maxopenfiles") 200;
      let max := Z.to_nat (n mod 2 ^ 64) in
      do file <- open_input (Dispatcher.files k) i;
      if sort : bool then do k' <- sorted file template; Ok (k', None)
      else
        do (p4, unverified) <- get_flag p3 (str "-no_verification");
        if unverified : bool then
          do k' <- Dispatcher.split_file md5 st N template max junk0 fuel false k file; Ok (k', None)
        else
          do r <- Verify.split_tool md5 st N template max nans junk0 junk junks fuel k file;
          Ok (fst (fst r), Some (snd (fst r), snd r))
  | _ => Throw UserError
  end.
End Split.
