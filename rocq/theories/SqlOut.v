(** tools/SQLTool.cc: the query the tool is asked, and sql/SQLOutputConfig.cc: where the results
    of a query go. *)
From Coq Require Import String.
From Verif Require Import Base Fp Stream Codec Meta Header Table Reader Writer RowReader Dispatcher Csv CommandLine ToolMain.
Open Scope Z_scope.
Local Notation length := List.length.

(** eckit::StringTools::lower; a search for a text. *)
Definition lower (t : list Z) : list Z := map (fun c => if (65 <=? c) && (c <=? 90) then c + 32 else c) t.
Fixpoint holds_text (s t : list Z) : bool :=
  starts_with s t || match t with [] => false | _ :: r => holds_text s r end.

(** StringTool::isSelectStatement, StringTool.cc:184-186; eckit's Regex::match looks for the
    expression anywhere in the text. *)
Definition is_select (w : word) : bool := holds_text (str "select") (lower (trim_text w)).

(** TemplateParameters::parse without columns, TemplateParameters.cc:44-69: the names of the
    parameters; [fuel] is more than the length of the template. *)
Fixpoint names_from (fuel : nat) (t : list Z) (start : nat) : outcome (list (list Z)) :=
  match fuel with
  | O => Ok []
  | S f =>
      match find_from 123 t start with
      | None => Ok []
      | Some l =>
          match find_from 125 t l with
          | None => Throw UserError
          | Some r => do ns <- names_from f t r; Ok (firstn (r - l - 1) (skipn (l + 1) t) :: ns)
          end
      end
  end.
Definition template_names (t : list Z) : outcome (list (list Z)) := names_from (S (length t)) t 0.

(** What the results of a query are given to. *)
Inductive sink : Type :=
| Text (o : option word)           (* SQLSimpleOutput on a file, or on the standard output *)
| OdbFile (name : word)            (* ODAOutput on a Writer *)
| OdbSplit (template : word).      (* ODAOutput on a DispatchingWriter *)

(** SQLOutputConfig::buildOutput, SQLOutputConfig.cc:38-67; [stream] is outStream_. *)
Definition build_output (configured path : word) (stream : option word) : outcome sink :=
  let format :=
    if bytes_eqb configured (str "default") then (if bytes_eqb path [] then str "ascii" else str "odb") else configured in
  if bytes_eqb format (str "wide") || bytes_eqb format (str "ascii") then Ok (Text stream)
  else if bytes_eqb format (str "odb") then
    do _ <- assert (negb (bytes_eqb path []));
    do ns <- template_names path;
    Ok (match ns with [] => OdbFile path | _ => OdbSplit path end)
  else Throw NotImplemented.

(** What a run of the tool comes to before the query is executed: its text, the file that
    SQLTool.cc:111-115 opens (and so creates or empties), and the output built for a statement
    that does not name one: eckit's SQLSession passes the configured output file. *)
Record sql_job := { q_text : list Z; q_opened : option word; q_sink : outcome sink }.

(** SQLTool::SQLTool, SQLTool.cc:57-81, and run, 86-115. *)
Definition sql_query (files : word -> option (list Z)) (words : list word) : outcome sql_job :=
  let p0 := register (new_parser words)
    [str "-o"; str "-i"; str "-I"; str "-delimiter"; str "-f"; str "-offset"; str "-length"] in
  do (p1, f) <- get_argument p0 (str "-f") (str "default");
  do (p2, o) <- get_argument p1 (str "-o") [];
  let path := if bytes_eqb o (str "-") then str "/dev/stdout" else o in
  do (p3, ps) <- get_parameters p2;
  if (length ps <? 2)%nat then Throw UserError
  else
    do (p4, is_o) <- get_flag p3 (str "-o");
    if bytes_eqb f (str "odb") && negb is_o then Throw UserError
    else
      match tl ps with
      | [] => UB
      | first :: _ =>
          do text <-
            (if is_select first then Ok (join [32] (tl ps) ++ [59])
             else match files (if bytes_eqb first (str "-") then str "/dev/tty" else first) with
                  | Some b => Ok (b ++ [59])
                  | None => Throw SeriousBug
                  end);
          let opened := if is_o && negb (bytes_eqb f (str "odb")) then Some o else None in
          Ok {| q_text := text; q_opened := opened; q_sink := build_output f path opened |}
      end.
