(** WriterDispatchingIterator.cc, TemplateParameters.cc, DispatchingWriter.cc: rows are
    written to files whose names are made from their values. *)
From Coq Require Import String.
From Verif Require Import Base Fp Stream Codec Meta Header Encoder Table Writer Reader RowReader Comparator Copy.
Open Scope Z_scope.
Local Notation length := List.length.

(** ** Files and open files *)

(** The file system: contents of files, and the directories that exist. *)
Record disk := { files : list Z -> option (list Z); dirs : list Z -> bool }.
Definition put (d : disk) (name : list Z) (content : list Z) : disk :=
  {| files := fun n => if bytes_eqb n name then Some content else files d n; dirs := dirs d |}.

(** A file opened with fopen "w" or "a": eckit::FileHandle, not part of odc.  What is
    written is taken to reach the file at once, at the position of the handle or, in mode
    "a", at its end. *)
Record handle := { h_name : list Z; h_append : bool; h_pos : nat }.
Definition content (d : disk) (name : list Z) : list Z := match files d name with Some c => c | None => [] end.
Definition emit (d : disk) (h : handle) (bytes : list Z) : disk * handle :=
  let c := content d (h_name h) in
  let n := length bytes in
  if h_append h then (put d (h_name h) (c ++ bytes), h)
  else (put d (h_name h) (firstn (h_pos h) c ++ bytes ++ skipn (h_pos h + n) c),
        {| h_name := h_name h; h_append := false; h_pos := (h_pos h + n)%nat |}).

(** The directory of a path: what precedes the last "/". *)
Fixpoint directory (name : list Z) : option (list Z) :=
  match name with
  | [] => None
  | c :: r => match directory r with
              | Some d => Some (c :: d)
              | None => if c =? 47 then Some [] else None
              end
  end.

(** writeToFile with createDirectories, ODBAPISettings.cc:127-152; appendToFile,
    ODBAPISettings.cc:154-163, creates no directory (the exception is eckit::CantOpenFile). *)
Definition open_file (d : disk) (name : list Z) (append : bool) : outcome (disk * handle) :=
  let h := {| h_name := name; h_append := append; h_pos := O |} in
  match directory name with
  | Some dir =>
      if append then
        if dirs d dir then Ok (put d name (content d name), h) else Throw SeriousBug
      else
        Ok (put {| files := files d; dirs := fun x => bytes_eqb x dir || starts_with (x ++ [47]) dir || dirs d x |} name [], h)
  | None => Ok (put d name (if append then content d name else []), h)
  end.

(** ** Names *)

(** std::string::find of one character from a position. *)
Fixpoint find_char (c : Z) (t : list Z) : option nat :=
  match t with
  | [] => None
  | x :: r => if x =? c then Some O else option_map S (find_char c r)
  end.
Definition find_from (c : Z) (t : list Z) (start : nat) : option nat :=
  option_map (Nat.add start) (find_char c (skipn start t)).

(** std::string::replace(pos, n, s). *)
Definition replace_at (pos n : nat) (s t : list Z) : outcome (list Z) :=
  if (length t <? pos)%nat then Throw SeriousBug                       (* std::out_of_range *)
  else Ok (firstn pos t ++ s ++ skipn (pos + n) t).

(** TemplateParameter, TemplateParameters.h:31-41. *)
Record param := { p_start : nat; p_end : nat; p_index : nat }.

(** TemplateParameters::parse, TemplateParameters.cc:44-69; [fuel] is more than the length
    of the template. *)
Fixpoint parse_from (fuel : nat) (t : list Z) (cs : list column) (start : nat) : outcome (list param) :=
  match fuel with
  | O => Ok []
  | S f =>
      match find_from 123 t start with
      | None => Ok []
      | Some l =>
          match find_from 125 t l with
          | None => Throw UserError
          | Some r =>
              do k <- column_index cs (firstn (r - l - 1) (skipn (l + 1) t));
              do ps <- parse_from f t cs r;
              Ok ({| p_start := l; p_end := r; p_index := Z.to_nat k |} :: ps)
          end
      end
  end.
Definition parse_template (t : list Z) (cs : list column) : outcome (list param) := parse_from (S (length t)) t cs 0.

(** isprint and isspace in the C locale (bytes from 128 are neither). *)
Definition is_print (c : Z) : bool := (32 <=? c) && (c <=? 126).
Definition is_space (c : Z) : bool := (c =? 32) || (9 <=? c) && (c <=? 13).
Fixpoint take_while (f : Z -> bool) (l : list Z) : list Z :=
  match l with x :: r => if f x then x :: take_while f r else [] | [] => [] end.
Fixpoint drop_while (f : Z -> bool) (l : list Z) : list Z :=
  match l with x :: r => if f x then drop_while f r else l | [] => [] end.
(** trimStringInDouble, WriterDispatchingIterator.cc:93-104. *)
Definition trim (cell : list Z) : list Z :=
  drop_while is_space (rev (drop_while is_space (rev (take_while is_print cell)))).

(** The loop of WriterDispatchingIterator.cc:120-126: the characters replaced are those
    from [pos] on, [pos] + 1 of them. *)
Definition slash : list Z := [95; 95; 83; 76; 65; 83; 72; 95; 95].      (* "__SLASH__" *)
Fixpoint replace_slashes (fuel : nat) (s : list Z) : outcome (list Z) :=
  match fuel with
  | O => Ok s
  | S f => match find_char 47 s with
           | None => Ok s
           | Some pos => do s1 <- replace_at pos (pos + 1) slash s; replace_slashes f s1
           end
  end.

(** Translator<int, std::string>. *)
Fixpoint digits (fuel : nat) (n : Z) : list Z :=
  match fuel with
  | O => []
  | S f => if n <? 10 then [48 + n] else digits f (n / 10) ++ [48 + n mod 10]
  end.
Definition decimal (n : Z) : list Z := if n <? 0 then 45 :: digits 20 (- n) else digits 20 n.

(** values[i], the i-th double of the row. *)
Definition value_at (row : list (list Z)) (i : nat) : outcome (list Z) :=
  if (length (concat row) <? 8 * i + 8)%nat then UB else Ok (firstn 8 (skipn (8 * i) (concat row))).

(** The text of one parameter, WriterDispatchingIterator.cc:112-131. *)
Definition param_text (cs : list column) (row : list (list Z)) (p : param) : outcome (list Z) :=
  do v <- value_at row (p_index p);
  match nth_error cs (p_index p) with
  | None => UB
  | Some c =>
      if col_type c =? ty_STRING then let s := trim v in replace_slashes (S (length s)) s
      else do n <- d2i32 (le_val v); Ok (decimal n)
  end.

(** generateFileName, WriterDispatchingIterator.cc:85-137. *)
Fixpoint generate_from (t : list Z) (cs : list column) (row : list (list Z)) (ps : list param) (name : list Z) : outcome (list Z) :=
  match ps with
  | [] => Ok name
  | p :: ps' =>
      do s <- param_text cs row p;
      let diff := Z.of_nat (length t) - Z.of_nat (length name) in
      do name1 <- replace_at (Z.to_nat (Z.of_nat (p_start p) - diff)) (p_end p - p_start p + 1) s name;
      generate_from t cs row ps' name1
  end.
Definition generate_name (t : list Z) (cs : list column) (row : list (list Z)) (ps : list param) : outcome (list Z) :=
  generate_from t cs row ps t.

(** ** The dispatching iterator *)

Record dispatcher := {
  d_cols : list column;                     (* columns_ *)
  d_params : list param;                    (* templateParameters_, dispatchedIndexes_ *)
  d_map : list (list (list Z) * nat);       (* values2iteratorIndex_ *)
  d_stamp : list Z;                         (* lastDispatch_ *)
  d_open : list (handle * writer);          (* iterators_, files_ *)
  d_lastkey : list (list Z);                (* lastDispatchedValues_ *)
  d_lastidx : nat;                          (* lastIndex_ *)
  d_init : bool;                            (* initialized_ *)
  d_append : bool;                          (* append_ *)
  d_created : list (list Z);                (* the keys of filesCreated_ *)
  d_nrows : Z;                              (* nrows_ *)
  d_disk : disk
}.

(** operator== of std::vector<double>; the doubles are given by their bytes. *)
Fixpoint key_eq (a b : list (list Z)) : bool :=
  match a, b with
  | [], [] => true
  | x :: a', y :: b' => deq (le_val x) (le_val y) && key_eq a' b'
  | _, _ => false
  end.
Definition has_nan (k : list (list Z)) : bool := existsb (fun v => is_nan f64 (le_val v)) k.
(** std::map::find.  A NaN among the keys violates the requirements of std::map. *)
Fixpoint find_key (k : list (list Z)) (m : list (list (list Z) * nat)) : option nat :=
  match m with
  | [] => None
  | (k', i) :: m' => if key_eq k k' then Some i else find_key k m'
  end.

(** What a writer has written goes to its file. *)
Definition settle (d : disk) (h : handle) (w : writer) : disk * (handle * writer) :=
  let (d1, h1) := emit d h (w_out w) in
  (d1, (h1, {| w_cols := w_cols w; w_last := w_last w; w_rows := w_rows w; w_size := w_size w; w_out := []; w_init := w_init w |})).

(** The search of createIterator, WriterDispatchingIterator.cc:171-179. *)
Fixpoint oldest_from (l : list Z) (i best : nat) (row : Z) : nat :=
  match l with
  | [] => best
  | x :: r => if x <? row then oldest_from r (S i) i x else oldest_from r (S i) best row
  end.
Definition oldest (l : list Z) : nat := oldest_from l 0 0 (nth 0 l 0).

Section Dispatch.
Variable md5 : list Z -> list Z.
Variables (st : settings) (N : nat).
(** outputFileTemplate_, maxOpenFiles_ *)
Variables (template : list Z) (max : nat).

(** properties_ is not passed on to the iterators. *)
Local Notation flush := (flush md5 st N []).
Local Notation write_row := (write_row md5 st N []).
Local Notation close := (Writer.close md5 st N []).

Definition with_disk (d : dispatcher) (k : disk) (op : list (handle * writer)) : dispatcher :=
  {| d_cols := d_cols d; d_params := d_params d; d_map := d_map d; d_stamp := d_stamp d; d_open := op;
     d_lastkey := d_lastkey d; d_lastidx := d_lastidx d; d_init := d_init d; d_append := d_append d;
     d_created := d_created d; d_nrows := d_nrows d; d_disk := k |}.

(** parseTemplateParameters, WriterDispatchingIterator.cc:287-301. *)
Definition parse_params (d : dispatcher) : outcome dispatcher :=
  do ps <- parse_template template (d_cols d);
  if (length ps =? 0)%nat then Throw UserError
  else Ok {| d_cols := d_cols d; d_params := ps; d_map := d_map d; d_stamp := d_stamp d; d_open := d_open d;
     d_lastkey := d_lastkey d; d_lastidx := d_lastidx d; d_init := true; d_append := d_append d;
     d_created := d_created d; d_nrows := d_nrows d; d_disk := d_disk d |}.

(** The eviction, WriterDispatchingIterator.cc:168-193: the destructor of the iterator
    closes it; its entry in the map goes (erasing end() is undefined). *)
Definition remove_index (i : nat) (m : list (list (list Z) * nat)) : list (list (list Z) * nat) :=
  filter (fun e => negb (snd e =? i)%nat) m.
Definition evict (d : dispatcher) (i : nat) : outcome dispatcher :=
  match nth_error (d_open d) i with
  | None => UB
  | Some (h, w) =>
      do w1 <- close w;
      let (k, hw) := settle (d_disk d) h w1 in
      if existsb (fun e => (snd e =? i)%nat) (d_map d) then
        Ok {| d_cols := d_cols d; d_params := d_params d; d_map := remove_index i (d_map d); d_stamp := d_stamp d; d_open := d_open d;
              d_lastkey := d_lastkey d; d_lastidx := d_lastidx d; d_init := d_init d; d_append := d_append d;
              d_created := d_created d; d_nrows := d_nrows d; d_disk := k |}
      else UB
  end.

(** createIterator, WriterDispatchingIterator.cc:164-232.  A new iterator gets the columns
    of the dispatcher and writeHeader. *)
Definition create_iterator (d : dispatcher) (key : list (list Z)) (name : list Z) : outcome (dispatcher * nat) :=
  let full := (max <=? length (d_open d))%nat in
  let i := if full then oldest (d_stamp d) else length (d_open d) in
  do _ <- assert (negb (full && (length (d_open d) =? 0)%nat));
  do d1 <- (if full then evict d i else Ok d);
  let seen := existsb (bytes_eqb name) (d_created d1) in
  let exists_ := match files (d_disk d1) name with Some _ => true | None => false end in
  let append := d_append d1 || (exists_ && seen) in
  do (k, h) <- open_file (d_disk d1) name append;
  do w <- writer_columns st (new_writer []) (d_cols d1);
  let hw := (h, write_header w) in
  Ok ({| d_cols := d_cols d1; d_params := d_params d1; d_map := (key, i) :: d_map d1; d_stamp := d_stamp d1;
         d_open := if full then list_set (d_open d1) i hw else d_open d1 ++ [hw];
         d_lastkey := d_lastkey d1; d_lastidx := d_lastidx d1; d_init := d_init d1; d_append := append;
         d_created := if seen then d_created d1 else name :: d_created d1; d_nrows := d_nrows d1; d_disk := k |}, i).

(** dispatchIndex, WriterDispatchingIterator.cc:144-162. *)
Definition dispatch_index (d : dispatcher) (row : list (list Z)) : outcome (dispatcher * nat) :=
  do key <- map_out (fun p => value_at row (p_index p)) (d_params d);
  if key_eq key (d_lastkey d) then Ok (d, d_lastidx d)
  else if has_nan key then UB
  else
    do (d1, i) <-
      match find_key key (d_map d) with
      | Some i => Ok (d, i)
      | None => do name <- generate_name template (d_cols d) row (d_params d); create_iterator d key name
      end;
    if (length (d_stamp d1) <=? i)%nat then UB
    else
      Ok ({| d_cols := d_cols d1; d_params := d_params d1; d_map := d_map d1; d_stamp := list_set (d_stamp d1) i (d_nrows d1);
             d_open := d_open d1; d_lastkey := key; d_lastidx := i; d_init := d_init d1; d_append := d_append d1;
             d_created := d_created d1; d_nrows := d_nrows d1; d_disk := d_disk d1 |}, i).

(** writeRow, WriterDispatchingIterator.cc:326-338; [md] are the columns the row has. *)
Definition dispatch_row (d : dispatcher) (md : list column) (row : list (list Z)) : outcome dispatcher :=
  do d0 <- (if d_init d then Ok d else parse_params d);
  do (d1, i) <- dispatch_index d0 row;
  match nth_error (d_open d1) i with
  | None => UB
  | Some (h, w) =>
      do _ <- assert (length md =? length (w_cols w))%nat;             (* WriterBufferingIterator.cc:197 *)
      do w1 <- write_row w (concat row);
      let (k, hw) := settle (d_disk d1) h w1 in
      Ok {| d_cols := d_cols d1; d_params := d_params d1; d_map := d_map d1; d_stamp := d_stamp d1;
            d_open := list_set (d_open d1) i hw; d_lastkey := d_lastkey d1; d_lastidx := d_lastidx d1; d_init := d_init d1;
            d_append := d_append d1; d_created := d_created d1; d_nrows := d_nrows d1 + 1; d_disk := k |}
  end.

(** New columns, WriterDispatchingIterator.cc:430-438: all iterators are flushed and get
    the new columns. *)
Fixpoint restart_all (k : disk) (cols : list column) (op : list (handle * writer)) : outcome (disk * list (handle * writer)) :=
  match op with
  | [] => Ok (k, [])
  | (h, w) :: r =>
      do w1 <- flush w;
      do w2 <- writer_columns st w1 cols;
      let (k1, hw) := settle k h (write_header w2) in
      do (k2, r1) <- restart_all k1 cols r;
      Ok (k2, hw :: r1)
  end.

Definition set_cols (d : dispatcher) (cols : list column) : dispatcher :=
  {| d_cols := cols; d_params := d_params d; d_map := d_map d; d_stamp := d_stamp d; d_open := d_open d;
     d_lastkey := d_lastkey d; d_lastidx := d_lastidx d; d_init := d_init d; d_append := d_append d;
     d_created := d_created d; d_nrows := d_nrows d; d_disk := d_disk d |}.

(** The body of the loop of pass1, WriterDispatchingIterator.cc:429-444. *)
Definition dispatch_step (d : dispatcher) (fresh : bool) (md : list column) (row : list (list Z)) : outcome dispatcher :=
  do d1 <-
    (if fresh && negb (equal_columns (d_cols d) md) then
       do cols <- map_out (copy_column st) md;
       do d1 <- parse_params (set_cols d cols);
       do (k, op) <- restart_all (d_disk d1) (d_cols d1) (d_open d1);
       Ok (with_disk d1 k op)
     else Ok d);
  dispatch_row d1 md row.

Variable junk : nat -> nat -> list Z.

Fixpoint dispatch_loop (fuel : nat) (d : dispatcher) (it : riter) : outcome dispatcher :=
  match fuel with
  | O => UB
  | S f =>
      if r_end it then Ok d
      else
        do d1 <- dispatch_step d (r_new it) (r_cols it) (r_last it);
        do (it1, _) <- next_row md5 st junk it;
        dispatch_loop f d1 it1
  end.

(** close, WriterDispatchingIterator.cc:543-554. *)
Fixpoint close_all (k : disk) (op : list (handle * writer)) : outcome disk :=
  match op with
  | [] => Ok k
  | (h, w) :: r => do w1 <- close w; let (k1, _) := settle k h w1 in close_all k1 r
  end.

(** The constructor, WriterDispatchingIterator.cc:27-52. *)
Definition new_dispatcher (append : bool) (k : disk) : dispatcher :=
  {| d_cols := []; d_params := []; d_map := []; d_stamp := repeat (2 ^ 64 - 1) max; d_open := []; d_lastkey := []; d_lastidx := O;
     d_init := false; d_append := append; d_created := []; d_nrows := 0; d_disk := k |}.

(** pass1, WriterDispatchingIterator.cc:407-448, on the rows of a file:
    DispatchingWriter(template, max, append).begin()->pass1(in.begin(), in.end()), and
    close; the disk afterwards. *)
Definition split_file (fuel : nat) (append : bool) (k : disk) (file : list Z) : outcome disk :=
  do it <- begin_rows md5 st junk file;
  if r_end it then Ok k
  else
    do cols <- map_out (copy_column st) (r_cols it);
    do d <- parse_params (set_cols (new_dispatcher append k) cols);
    do _ <- assert (negb (length cols =? 0)%nat);
    do d1 <- dispatch_loop fuel d it;
    close_all (d_disk d1) (d_open d1).

End Dispatch.
