(** tools/MDSetTool.cc, StringTool.cc: rewriting the headers of a file ("odc mdset"): types of
    columns, and values of constant columns, without decoding the data. *)
From Coq Require Import String.
From Verif Require Import Csv Base Fp Stream Codec Meta Header Encoder Table Reader.
Open Scope Z_scope.
Local Notation length := List.length.

(** ** The list of updates *)

(** One element of the four vectors filled by parseUpdateList. *)
Record update := {
  u_name : list Z;
  u_type : list Z;
  u_value : list Z;
  u_bits : list (list Z * Z)
}.

Definition none_text : list Z := str "NONE".

(** The members of "[name:size;...]", MDSetTool.cc:135-141; field[1] of a vector with one
    element is undefined. *)
Definition bit_members (type : list Z) : outcome (list (list Z * Z)) :=
  match type with
  | c :: _ =>
      if (c =? 91) && (last type 0 =? 93) then
        map_out (fun p => match split_text [58] p with
                          | nm :: size :: _ => do n <- atoi size; Ok (nm, n)
                          | _ => UB
                          end) (split_text [59] (firstn (length type - 2) (skipn 1 type)))
      else Ok []
  | [] => Ok []
  end.

(** One assignment, MDSetTool.cc:127-150; assignment[0] and columnNameAndType[0] of an empty
    vector are undefined. *)
Definition parse_assignment (a : list Z) : outcome update :=
  match split_text [61] a with
  | [] => UB
  | lhs :: r =>
      let value := match r with [v] => v | _ => none_text end in
      match split_text [58] lhs with
      | [] => UB
      | nm :: r' =>
          let type := match r' with [t] => t | _ => none_text end in
          do bits <- bit_members type;
          Ok {| u_name := nm; u_type := type; u_value := value; u_bits := bits |}
      end
  end.

(** MDSetTool::parseUpdateList, MDSetTool.cc:122-157. *)
Definition parse_md_updates (s : list Z) : outcome (list update) := map_out parse_assignment (split_text [44] s).

(** ** Values *)

(** StringTool::isInQuotes, unQuote, StringTool.cc:84-96. *)
Definition in_quotes (v : list Z) : bool :=
  (1 <? length v)%nat &&
  (((hd 0 v =? 34) && (last v 0 =? 34)) || ((hd 0 v =? 39) && (last v 0 =? 39))).

Definition unquoted (v : list Z) : list Z := if in_quotes v then firstn (length v - 2) (skipn 1 v) else v.

(** StringTool::cast_as_double, StringTool.cc:105-113 (the text of a command line argument
    has no NUL, so strncpy copies all of it). *)
Definition cast_as_double (v : list Z) : outcome Z :=
  do _ <- assert (length v <=? 8)%nat;
  Ok (le_val (repeat 32 (8 - length v) ++ v)).

(** StringTool::translate, StringTool.cc:122-124; [to_double] is
    eckit::Translator<std::string, double>. *)
Definition translate (to_double : list Z -> outcome Z) (v : list Z) : outcome Z :=
  if in_quotes v then cast_as_double (unquoted v) else to_double v.

(** Column::type(string), core/Column.cc:71-88. *)
Definition column_type (t : list Z) : outcome Z :=
  let is s := bytes_eqb (upper t) (str s) in
  if is "IGNORE"%string then Ok ty_IGNORE
  else if is "INTEGER"%string then Ok ty_INTEGER
  else if is "REAL"%string then Ok ty_REAL
  else if is "DOUBLE"%string then Ok ty_DOUBLE
  else if is "STRING"%string then Ok ty_STRING
  else if is "BITFIELD"%string then Ok ty_BITFIELD
  else Throw AssertFailed.

(** codec.name().find("constant") != npos, MDSetTool.cc:84. *)
Fixpoint contains (sub t : list Z) : bool :=
  starts_with sub t || match t with [] => false | _ :: r => contains sub r end.

(** ** Columns *)

(** types[i].size() && types[i] != "NONE", MDSetTool.cc:78, and the same for values, line 82. *)
Definition given (t : list Z) : bool := negb (length t =? 0)%nat && negb (bytes_eqb t none_text).

(** The body of the loop over the updates, MDSetTool.cc:75-93, on the column found.
    Column::type(t) and bitfieldDef(b) only store (core/Column.h:70, 96); min and max are those
    of the codec (core/Column.h:81-84, core/Codec.h:72-75). *)
Definition update_column (to_double : list Z -> outcome Z) (u : update) (c : column) : outcome column :=
  do c1 <- (if given (u_type u) then
              do ty <- column_type (u_type u);
              Ok {| col_name := col_name c; col_type := ty; col_bfnames := col_bfnames c;
                    col_bfsizes := col_bfsizes c; col_coder := col_coder c |}
            else Ok c);
  let c2 := match u_bits u with
            | [] => c1
            | bs => {| col_name := col_name c1; col_type := col_type c1; col_bfnames := map fst bs;
                       col_bfsizes := map snd bs; col_coder := col_coder c1 |}
            end in
  if given (u_value u) then
    let k := col_coder c2 in
    if contains (str "constant") (kname (c_kind k)) then
      do v <- translate to_double (u_value u);
      Ok (with_coder c2 (set_stats k (c_hasMissing k) v v (c_missing k)))
    else Throw UserError
  else Ok c2.

(** The loop over the updates, MDSetTool.cc:74-94; the columns are changed in place. *)
Fixpoint update_columns (to_double : list Z -> outcome Z) (us : list update) (cs : list column) : outcome (list column) :=
  match us with
  | [] => Ok cs
  | u :: us' =>
      do i <- column_index cs (u_name u);
      match nth_error cs (Z.to_nat i) with
      | None => UB
      | Some c =>
          do c' <- update_column to_double u c;
          update_columns to_double us' (list_set cs (Z.to_nat i) c')
      end
  end.

Section WithFile.
Variable md5 : list Z -> list Z.
Variable st : settings.
Variable est : Z.            (* dh.estimate() *)
Variable to_double : list Z -> outcome Z.

(** One table, MDSetTool.cc:73-116: what is written for it (header, then data).
    serializeHeader or serializeHeaderOtherByteOrder is called according to the byte order of
    the table, hence [t_order t]. *)
Definition set_table (us : list update) (file : list Z) (t : table) : outcome (list Z) :=
  do cs <- update_columns to_double us (t_cols t);
  do data <- read_encoded file false t;
  do _ <- assert (Z.of_nat (length data) =? t_size t);
  do h <- serialize_header md5 (t_order t) (t_size t) (t_rows t) (t_props t) cs;
  Ok (h ++ data).

(** The loop over the tables, MDSetTool.cc:71-117: the bytes written, and how it ended.
    [fuel] bounds the number of tables. *)
Fixpoint set_tables (fuel : nat) (us : list update) (file : list Z) (ts : list table) (pos : Z) : list Z * outcome unit :=
  match fuel with
  | O => ([], Throw SeriousBug)      (* not reached with enough fuel, see P_MdSet *)
  | S f =>
      if pos =? -1 then ([], Ok tt)
      else
        match (do t <- iter_get ts pos; set_table us file t) with
        | Ok b =>
            match iter_next md5 st est file ts pos with
            | Ok (ts', pos') => let (bs, r) := set_tables f us file ts' pos' in (b ++ bs, r)
            | Throw e => (b, Throw e)
            | UB => (b, UB)
            end
        | Throw e => ([], Throw e)
        | UB => ([], UB)
        end
  end.

(** MDSetTool::run, MDSetTool.cc:54-118, once the updates are parsed. *)
Definition mdset_file (fuel : nat) (us : list update) (file : list Z) : list Z * outcome unit :=
  match open_reader md5 st est file with
  | Ok r => set_tables fuel us file (r_tables r) (r_pos r)
  | Throw e => ([], Throw e)
  | UB => ([], UB)
  end.

Definition mdset (fuel : nat) (arg file : list Z) : list Z * outcome unit :=
  match parse_md_updates arg with
  | Ok us => mdset_file fuel us file
  | Throw e => ([], Throw e)
  | UB => ([], UB)
  end.

End WithFile.
