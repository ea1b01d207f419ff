(** csv/TextReaderIterator.{h,cc}, csv/TextReader.cc, api/Odb.cc: odbFromCSV. *)
From Coq Require Import String.
From Verif Require Import Base Fp Stream Codec Meta Header Encoder Table Writer Reader RowReader Comparator Copy Dispatcher.
Open Scope Z_scope.
Local Notation length := List.length.

(** ** Text: std::getline, atoi, and StringTools of eckit (not part of odc) *)

(** std::getline: up to the next newline, which is taken off, or to the end. *)
Fixpoint get_line (t : list Z) : list Z * list Z :=
  match t with
  | [] => ([], [])
  | c :: r => if c =? 10 then ([], r) else let (l, r') := get_line r in (c :: l, r')
  end.

(** eckit::StringTools::split, by eckit::Tokenizer: the pieces between the characters of
    [d]; empty pieces are dropped. *)
Definition piece_if (cur : list Z) : list (list Z) := match cur with [] => [] | _ => [cur] end.
Fixpoint split_from (d t cur : list Z) : list (list Z) :=
  match t with
  | [] => piece_if cur
  | c :: r => if existsb (Z.eqb c) d then piece_if cur ++ split_from d r [] else split_from d r (cur ++ [c])
  end.
Definition split_text (d t : list Z) : list (list Z) := split_from d t [].

(** eckit::StringTools::trim, upper, join. *)
Definition trim_text (t : list Z) : list Z := rev (drop_while is_space (rev (drop_while is_space t))).
Definition upper (t : list Z) : list Z := map (fun c => if (97 <=? c) && (c <=? 122) then c - 32 else c) t.
Fixpoint join (d : list Z) (l : list (list Z)) : list Z :=
  match l with
  | [] => []
  | [x] => x
  | x :: r => x ++ d ++ join d r
  end.

(** atoi: undefined if the number does not fit an int. *)
Definition digitb (c : Z) : bool := (48 <=? c) && (c <=? 57).
Definition atoi (t : list Z) : outcome Z :=
  let s := drop_while is_space t in
  let (neg, s1) := match s with
                   | c :: r => if c =? 45 then (true, r) else if c =? 43 then (false, r) else (false, s)
                   | [] => (false, s)
                   end in
  let n := fold_left (fun a c => 10 * a + (c - 48)) (take_while digitb s1) 0 in
  let v := if neg then - n else n in
  if (- 2 ^ 31 <=? v) && (v <? 2 ^ 31) then Ok v else UB.

(** ** The header *)

(** The loop of parseBitfields, TextReaderIterator.cc:92-117; numberOfBits is a size_t.
    The test of lines 110-111 is never true. *)
Fixpoint parse_members (bs : list (list Z)) (names : list (list Z)) (sizes : list Z) (bits : Z) : outcome (list (list Z) * list Z * Z) :=
  match bs with
  | [] => Ok (names, sizes, bits)
  | b :: r =>
      match split_text [58] b with
      | [nm; sz] =>
          if existsb (bytes_eqb nm) names then Throw UserError
          else do n <- atoi sz; parse_members r (names ++ [nm]) (sizes ++ [n]) ((bits + n) mod 2 ^ 64)
      | _ => Throw UserError
      end
  end.

(** parseBitfields, TextReaderIterator.cc:72-123.  [c.substr(left + 1, right - left - 1)]:
    if the brackets are the wrong way round the count is huge, and all that follows is taken. *)
Definition parse_bitfields (c : list Z) : outcome (list (list Z) * list Z) :=
  match find_char 91 c, find_char 93 c with
  | Some l, Some r =>
      let s := if (l <? r)%nat then firstn (r - l - 1) (skipn (l + 1) c) else skipn (l + 1) c in
      do (p, bits) <- parse_members (split_text [59] s) [] [] 0;
      if 31 <? bits then Throw UserError else Ok p
  | _, _ => Throw UserError
  end.

(** Column::type(string), core/Column.cc:71-90; the type IGNORE has no codec
    (Column.h:201-203). *)
Definition type_of_name (t : list Z) : outcome Z :=
  let is s := bytes_eqb (upper t) (str s) in
  if is "INTEGER"%string then Ok ty_INTEGER
  else if is "REAL"%string then Ok ty_REAL
  else if is "DOUBLE"%string then Ok ty_DOUBLE
  else if is "STRING"%string then Ok ty_STRING
  else if is "BITFIELD"%string then Ok ty_BITFIELD
  else Throw AssertFailed.

Section Text.
Variables (st : settings).
(** delimiter_ *)
Variable delim : list Z.
(** eckit::Translator<std::string, float>, <.., double>, <.., long>, and
    eckit::StringTools::unQuote: not part of odc. *)
Variables (to_float to_double to_long : list Z -> outcome Z).
Variable unquote : list Z -> list Z.

(** addColumn, addBitfield, core/MetaData.h:161-183. *)
Definition text_column (nm : list Z) (ty : Z) (bf : list (list Z) * list Z) : outcome column :=
  do k <- working_codec st LE ty;
  Ok {| col_name := nm; col_type := ty; col_bfnames := fst bf; col_bfsizes := snd bf; col_coder := k |}.

(** One column of parseHeader, TextReaderIterator.cc:138-158. *)
Definition header_column (f : list Z) : outcome column :=
  match split_text [58] f with
  | nm :: ((_ :: _) as l) =>
      let ty := upper (join [58] l) in
      if starts_with (str "BITFIELD") ty then
        do bf <- parse_bitfields f; text_column (trim_text nm) ty_BITFIELD bf
      else do t <- type_of_name ty; text_column (trim_text nm) t ([], [])
  | _ => Throw UserError
  end.

(** The iterator; [t_last] are the cells of lastValues_, [t_allocs] counts its allocations. *)
Record titer := {
  t_cols : list column;
  t_last : list (list Z);
  t_new : bool;
  t_end : bool;
  t_allocs : nat;
  t_in : list Z
}.

(** The memory [new double[..]] gives: any bytes. *)
Variable junk : nat -> nat -> list Z.
Definition fill (n i : nat) (size : Z) : list Z := firstn (Z.to_nat size) (junk n i ++ repeat 0 (Z.to_nat size)).

(** initRowBuffer, TextReaderIterator.cc:173-187. *)
Definition initial_cell (n i : nat) (c : column) : list Z :=
  le_bytes 8 (missing_value (col_coder c)) ++ skipn 8 (fill n i (8 * data_size_doubles (col_coder c))).
Fixpoint initial_cells (n i : nat) (cs : list column) : list (list Z) :=
  match cs with
  | [] => []
  | c :: r => initial_cell n i c :: initial_cells n (S i) r
  end.

(** parseHeader, TextReaderIterator.cc:125-160. *)
Definition parse_header (text : list Z) : outcome titer :=
  let (header, rest) := get_line text in
  do cs <- map_out header_column (split_text delim header);
  Ok {| t_cols := cs; t_last := initial_cells 0 0 cs; t_new := false; t_end := false; t_allocs := 1; t_in := rest |}.

(** lastValues_[columnOffsets_[i]] = v *)
Definition set_number (it : titer) (i : nat) (v : Z) : titer :=
  {| t_cols := t_cols it; t_last := list_set (t_last it) i (le_bytes 8 v ++ skipn 8 (nth i (t_last it) []));
     t_new := t_new it; t_end := t_end it; t_allocs := t_allocs it; t_in := t_in it |}.

(** The buffer grows, TextReaderIterator.cc:224-237: the cells before [i] are kept. *)
Definition grow (it : titer) (i : nat) (c : column) (n : Z) : outcome titer :=
  do k <- set_data_size (col_coder c) n;
  let cs := list_set (t_cols it) i (with_coder c k) in
  Ok {| t_cols := cs; t_last := firstn i (t_last it) ++ skipn i (initial_cells (t_allocs it) 0 cs);
        t_new := true; t_end := t_end it; t_allocs := S (t_allocs it); t_in := t_in it |}.

(** One field, TextReaderIterator.cc:207-263. *)
Definition set_field (it : titer) (i : nat) (field : list Z) : outcome titer :=
  let v := trim_text field in
  match nth_error (t_cols it) i with
  | None => UB
  | Some c =>
      if bytes_eqb (upper v) (str "NULL") then Ok (set_number it i (missing_value (col_coder c)))
      else if col_type c =? ty_STRING then
        let u := unquote v in
        let n := Z.of_nat (length u) in
        let d := if 0 <? n then (n - 1) / 8 + 1 else 1 in
        do it1 <- (if data_size_doubles (col_coder c) <? d then grow it i c d else Ok it);
        let size := 8 * Z.max d (data_size_doubles (col_coder c)) in
        Ok {| t_cols := t_cols it1; t_last := list_set (t_last it1) i (u ++ repeat 0 (Z.to_nat (size - n)));
              t_new := t_new it1; t_end := t_end it1; t_allocs := t_allocs it1; t_in := t_in it1 |}
      else if col_type c =? ty_REAL then do f <- to_float v; Ok (set_number it i (f2d f))
      else if col_type c =? ty_DOUBLE then do d <- to_double v; Ok (set_number it i d)
      else if (col_type c =? ty_INTEGER) || (col_type c =? ty_BITFIELD) then do n <- to_long v; Ok (set_number it i (z2d n))
      else Throw SeriousBug
  end.
Fixpoint set_fields (it : titer) (i : nat) (fields : list (list Z)) : outcome titer :=
  match fields with
  | [] => Ok it
  | f :: r => do it1 <- set_field it i f; set_fields it1 (S i) r
  end.

(** next, TextReaderIterator.cc:189-266. *)
Definition text_next (it : titer) : outcome titer :=
  let with_state new stop rest :=
    {| t_cols := t_cols it; t_last := t_last it; t_new := new; t_end := stop; t_allocs := t_allocs it; t_in := rest |} in
  if t_end it then Ok (with_state false true (t_in it))
  else
    let (line, rest) := get_line (t_in it) in
    let fields := split_text delim (trim_text line) in
    if (length fields =? 0)%nat then Ok (with_state false true rest)
    else
      do _ <- assert (length fields =? length (t_cols it))%nat;
      set_fields (with_state false false rest) 0 fields.

(** The constructor, TextReaderIterator.cc:36-53. *)
Definition open_text (text : list Z) : outcome titer := do it <- parse_header text; text_next it.

Variable md5 : list Z -> list Z.
Variable N : nat.

(** The loop of pass1, WriterBufferingIterator.h:200-210, over a text (IteratorProxy.h:
    operator!= is !noMore_, operator++ is next); the rows are counted. *)
Fixpoint text_loop (fuel : nat) (w : writer) (it : titer) (nrows : Z) : outcome (writer * Z) :=
  match fuel with
  | O => UB
  | S f =>
      if t_end it then Ok (w, nrows)
      else
        do w1 <- pass1_row md5 st N [] w (t_new it) (t_cols it) (t_last it);
        do it1 <- text_next it;
        text_loop f w1 it1 (nrows + 1)
  end.

(** odbFromCSV, api/Odb.cc:644-651: the file and the number of rows. *)
Definition import_text (fuel : nat) (text : list Z) : outcome (list Z * Z) :=
  do it <- open_text text;
  do w <- pass1_init st (new_writer []) (t_cols it);
  do (w1, n) <- text_loop fuel (write_header w) it 0;
  do w2 <- flush md5 st N [] w1;
  do w3 <- Writer.close md5 st N [] w2;
  Ok (w_out w3, n).

End Text.
