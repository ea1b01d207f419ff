(** tools/MergeTool.cc and the input of tools/SQLTool.cc, from the command line on. *)
From Coq Require Import String.
From Verif Require Import Base Fp Stream Codec Meta Header Table Reader Writer RowReader Merge CommandLine ToolMain.
Open Scope Z_scope.
Local Notation length := List.length.

(** optionArgument(option, long), CommandLineParser.cc:99-110; [to_long] is eckit's Translator. *)
Definition get_number (to_long : word -> outcome Z) (p : parser) (o : word) (d : Z) : outcome (parser * Z) :=
  match ensure_parsed p with
  | (q, Ok _) => match mget (p_valued q) o with
                 | Some a => do n <- to_long a; Ok (q, n)
                 | None => Ok (q, d)
                 end
  | (_, Throw e) => Throw e
  | (_, UB) => UB
  end.

Section Tools.
Variable files : word -> option (list Z).
Variable md5 : list Z -> list Z.
Variable st : settings.

(** The loop over the parameters with -S, MergeTool.cc:53-59: a name and a query each; a name
    without a query is parameters()[size], undefined behaviour. *)
Fixpoint pairs_of (ps : list word) : outcome (list (word * word)) :=
  match ps with
  | [] => Ok []
  | [_] => UB
  | f :: q :: r => do l <- pairs_of r; Ok ((f, q) :: l)
  end.

(** MergeTool::MergeTool and run, MergeTool.cc:37-74: the name of the file written and its bytes.
    Line 50 makes an exception object and does not throw it.  The merge of selections (-S) is
    [filtered] of the names and queries: the SQL engine is not modelled. *)
Definition merge_tool (junk : nat -> nat -> list Z) (N fuel : nat) (filtered : list (word * word) -> outcome (list Z))
    (words : list word) : outcome (word * list Z) :=
  let p0 := register (new_parser words) [str "-o"] in
  do (p1, ps) <- get_parameters p0;
  if (length ps <? 3)%nat then Throw UserError
  else
    do (p2, filtering) <- get_flag p1 (str "-S");
    do (p3, o) <- get_argument p2 (str "-o") (str "<no-default>");
    do file <- (if filtering : bool then do l <- pairs_of (tl ps); filtered l
                else do bs <- contents files (tl ps); merge_files md5 st junk N [] fuel bs);
    Ok (o, file).

(** The data a query of the sql tool sees as its table when it names none, SQLTool.cc:41-54 and
    119-138: none without -i; the whole file if the offset is 0; else PartFileHandle, [length]
    bytes from [offset] on.  Simplified: a negative offset or length, which PartFileHandle takes
    as it is, is UB. *)
Definition sql_input (to_long : word -> outcome Z) (words : list word) : outcome (option (list Z)) :=
  let p0 := register (new_parser words)
    [str "-o"; str "-i"; str "-I"; str "-delimiter"; str "-f"; str "-offset"; str "-length"] in
  do (p1, i0) <- get_argument p0 (str "-i") [];
  let i := if bytes_eqb i0 (str "-") then str "/dev/stdin" else i0 in
  do (p2, offset) <- get_number to_long p1 (str "-offset") 0;
  do (p3, length) <- get_number to_long p2 (str "-length") 0;
  do (p4, ps) <- get_parameters p3;
  if (List.length ps <? 2)%nat then Throw UserError
  else if bytes_eqb i [] then Ok None
  else if bytes_eqb i (str "/dev/stdin") || bytes_eqb i (str "stdin") then Throw NotImplemented
  else match files i with
       | None => Throw SeriousBug
       | Some b =>
           if offset =? 0 then Ok (Some b)
           else if (offset <? 0) || (length <? 0) then UB
           else Ok (Some (firstn (Z.to_nat length) (skipn (Z.to_nat offset) b)))
       end.
End Tools.
