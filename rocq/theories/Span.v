(** Model of spans: core/Span.{h,cc}, Table::span and Table::decodeSpan
    (core/Table.cc:239-429), FrameImpl::span (api/Odb.cc:486-495). *)
From Verif Require Import Base Fp Stream Codec Meta Header Table Reader.
Open Scope Z_scope.

(** A set of values of a column.  std::set keeps one of several equivalent values (those of
    which none is less than the other); the order of the elements is not modelled. *)
Inductive values := VInts (l : list Z) | VReals (l : list Z) | VStrs (l : list (list Z)).

(** core::Span, Span.h: the three maps. *)
Record span := {
  sp_start : Z; sp_length : Z;
  sp_ints : smap (list Z); sp_reals : smap (list Z); sp_strs : smap (list (list Z))
}.

(** std::set::insert *)
Definition insert {A} (same : A -> A -> bool) (v : A) (l : list A) : list A :=
  if existsb (same v) l then l else l ++ [v].
Definition insert_all {A} (same : A -> A -> bool) (vs l : list A) : list A :=
  fold_left (fun l v => insert same v l) vs l.
(** equivalence in std::set<double>; a NaN is equivalent to everything *)
Definition same_real (a b : Z) : bool := negb (dlt a b) && negb (dlt b a).

Definition get_or_empty {A} (m : smap (list A)) (nm : list Z) : list A :=
  match mget m nm with Some l => l | None => [] end.
Definition absent {A} (m : smap A) (nm : list Z) : bool := match mget m nm with Some _ => false | None => true end.

(** Span::addValues and the cases of Span::addValue, Span.cc:48-101. *)
Definition add_values (s : span) (nm : list Z) (v : values) : outcome span :=
  match v with
  | VInts l =>
      do _ <- assert (absent (sp_reals s) nm);
      do _ <- assert (absent (sp_strs s) nm);
      Ok {| sp_start := sp_start s; sp_length := sp_length s;
            sp_ints := mset (sp_ints s) nm (insert_all Z.eqb l (get_or_empty (sp_ints s) nm));
            sp_reals := sp_reals s; sp_strs := sp_strs s |}
  | VReals l =>
      do _ <- assert (absent (sp_ints s) nm);
      do _ <- assert (absent (sp_strs s) nm);
      Ok {| sp_start := sp_start s; sp_length := sp_length s; sp_ints := sp_ints s;
            sp_reals := mset (sp_reals s) nm (insert_all same_real l (get_or_empty (sp_reals s) nm));
            sp_strs := sp_strs s |}
  | VStrs l =>
      do _ <- assert (absent (sp_ints s) nm);
      do _ <- assert (absent (sp_reals s) nm);
      Ok {| sp_start := sp_start s; sp_length := sp_length s; sp_ints := sp_ints s; sp_reals := sp_reals s;
            sp_strs := mset (sp_strs s) nm (insert_all bytes_eqb l (get_or_empty (sp_strs s) nm)) |}
  end.

(** Span::addValue, Span.cc:48-80: a double; for strings its 8 bytes. *)
Definition add_value (s : span) (nm : list Z) (ty v : Z) : outcome span :=
  if (ty =? ty_INTEGER) || (ty =? ty_BITFIELD) then do n <- d2i64 v; add_values s nm (VInts [n])
  else if (ty =? ty_REAL) || (ty =? ty_DOUBLE) then add_values s nm (VReals [v])
  else if ty =? ty_STRING then add_values s nm (VStrs [until_nul (le_bytes 8 v)])
  else Throw SeriousBug.

Fixpoint add_map {A} (wrap : list A -> values) (s : span) (m : smap (list A)) : outcome span :=
  match m with
  | [] => Ok s
  | (nm, l) :: m' => do s' <- add_values s nm (wrap l); add_map wrap s' m'
  end.

(** Span::extend(const Span&), Span.cc:30-42. *)
Definition extend (s other : span) : outcome span :=
  let s0 := {| sp_start := sp_start s;
               sp_length := if sp_start s =? sp_start other then sp_length s else sp_length s + sp_length other;
               sp_ints := sp_ints s; sp_reals := sp_reals s; sp_strs := sp_strs s |} in
  do s1 <- add_map VInts s0 (sp_ints other);
  do s2 <- add_map VReals s1 (sp_reals other);
  add_map VStrs s2 (sp_strs other).

Definition empty_span (t : table) : span :=
  {| sp_start := t_start t; sp_length := t_next t - t_start t; sp_ints := []; sp_reals := []; sp_strs := [] |}.

(** ** Table::decodeSpan *)

(** A column being visited: the ColumnValues object (Table.cc:279-325) with the requested
    name it was made for. *)
Record visit := { v_name : list Z; v_values : values }.
Record scol := { v_codec : codec; v_type : Z; v_visit : option visit }.

(** Choice of the ColumnValues class, Table.cc:358-379. *)
Definition new_values (ty : Z) : outcome values :=
  if (ty =? ty_BITFIELD) || (ty =? ty_INTEGER) then Ok (VInts [])
  else if (ty =? ty_REAL) || (ty =? ty_DOUBLE) then Ok (VReals [])
  else if ty =? ty_STRING then Ok (VStrs [])
  else Throw SeriousBug.

(** Table.cc:344-380. *)
Fixpoint visit_columns (full simple : smap Z) (names : list (list Z)) (cols : list scol) : outcome (list scol) :=
  match names with
  | [] => Ok cols
  | nm :: names' =>
      do p <- lookup_name full simple nm;
      match nth_error cols (Z.to_nat p) with
      | None => UB
      | Some c =>
          do v <- new_values (v_type c);
          visit_columns full simple names'
            (list_set cols (Z.to_nat p) {| v_codec := v_codec c; v_type := v_type c; v_visit := Some {| v_name := nm; v_values := v |} |})
      end
  end.

(** maxDoublesDecode, Table.cc:344, 376. *)
Fixpoint buffer_doubles (cols : list scol) : Z :=
  match cols with
  | [] => 1
  | c :: cols' =>
      match v_visit c with
      | Some v => if v_type c =? ty_STRING then Z.max (data_size_doubles (v_codec c)) (buffer_doubles cols') else buffer_doubles cols'
      | None => buffer_doubles cols'
      end
  end.

(** ColumnValues::addValue on the decoded bytes, Table.cc:300-325; [iad] is
    ODBAPISettings::integersAsDoubles(). *)
Definition value_of (iad : bool) (c : scol) (v : values) (cell : list Z) : outcome values :=
  match v with
  | VInts l =>
      if iad then do n <- d2i64 (le_val (firstn 8 cell)); Ok (VInts (insert Z.eqb n l))
      else Ok (VInts (insert Z.eqb (signed 64 (le_val (firstn 8 cell))) l))
  | VReals l => Ok (VReals (insert same_real (le_val (firstn 8 cell)) l))
  | VStrs l => Ok (VStrs (insert bytes_eqb (until_nul (firstn (Z.to_nat (8 * data_size_doubles (v_codec c))) cell)) l))
  end.

(** Table.cc:408-416; [size] is the size of the decode buffer: a codec writing more is
    undefined. *)
Fixpoint span_cols (iad : bool) (size : Z) (cols : list scol) (s : list Z) : outcome (list scol * list Z) :=
  match cols with
  | [] => Ok ([], s)
  | c :: cs =>
      do (c', s1) <- (match v_visit c with
                      | Some v =>
                          do (cell, s1) <- decode (v_codec c) s;
                          if size <? Z.of_nat (length cell) then UB else
                          do vs <- value_of iad c (v_values v) cell;
                          Ok ({| v_codec := v_codec c; v_type := v_type c; v_visit := Some {| v_name := v_name v; v_values := vs |} |}, s1)
                      | None => do (_, s1) <- skip (v_codec c) s; Ok (c, s1)
                      end);
      do (cs', s2) <- span_cols iad size cs s1;
      Ok (c' :: cs', s2)
  end.

(** The loop over rows, Table.cc:402-418. *)
Fixpoint span_rows (iad : bool) (size : Z) (n : nat) (cols : list scol) (s : list Z) : outcome (list scol) :=
  match n with
  | O => Ok cols
  | S n' =>
      do (m, s1) <- read_raw 2 s;
      let start := marker_val m in
      do (dec, s2) <- span_cols iad size (skipn start cols) s1;
      span_rows iad size n' (firstn start cols ++ dec) s2
  end.

(** Table.cc:422-427. *)
Fixpoint update_span (s : span) (cols : list scol) : outcome span :=
  match cols with
  | [] => Ok s
  | c :: cs =>
      match v_visit c with
      | Some v => do s' <- add_values s (v_name v) (v_values v); update_span s' cs
      | None => update_span s cs
      end
  end.

(** Table::decodeSpan, Table.cc:328-429. *)
Definition decode_span (iad : bool) (file : list Z) (t : table) (names : list (list Z)) : outcome span :=
  do (full, simple) <- column_lookup (t_cols t);
  do cols <- visit_columns full simple names
               (map (fun c => {| v_codec := col_coder c; v_type := col_type c; v_visit := None |}) (t_cols t));
  do buf <- read_encoded file false t;
  do cols1 <- span_rows iad (8 * buffer_doubles cols) (Z.to_nat (t_rows t)) cols buf;
  update_span (empty_span t) cols1.

(** ** Table::span *)

(** Column::isConstant, Column.cc:90-94. *)
Definition is_constant (c : column) : bool :=
  match c_kind (col_coder c) with KConstant | KConstantString | KLongConstantString => true | _ => false end.

(** Table.cc:245-259: the span of the constant columns, and the other names. *)
Fixpoint constant_span (t : table) (names : list (list Z)) (s : span) : outcome (span * list (list Z)) :=
  match names with
  | [] => Ok (s, [])
  | nm :: names' =>
      do p <- column_index (t_cols t) nm;
      match nth_error (t_cols t) (Z.to_nat p) with
      | None => UB
      | Some c =>
          if is_constant c then
            do s' <- add_value s nm (col_type c) (c_min (col_coder c));
            constant_span t names' s'
          else
            do (s', rest) <- constant_span t names' s;
            Ok (s', nm :: rest)
      end
  end.

(** Table::span, Table.cc:239-274. *)
Definition table_span (iad : bool) (file : list Z) (t : table) (names : list (list Z)) (onlyConstants : bool) : outcome span :=
  do (s, rest) <- constant_span t names (empty_span t);
  match rest with
  | [] => Ok s
  | _ =>
      if onlyConstants then Throw UserError
      else do s' <- decode_span iad file t rest; extend s s'
  end.

(** FrameImpl::span, Odb.cc:486-495. *)
Fixpoint extend_spans (iad : bool) (file : list Z) (ts : list table) (names : list (list Z)) (onlyConstants : bool) (s : span) : outcome span :=
  match ts with
  | [] => Ok s
  | t :: ts' =>
      do s' <- table_span iad file t names onlyConstants;
      do s2 <- extend s s';
      extend_spans iad file ts' names onlyConstants s2
  end.
Definition frame_span (iad : bool) (file : list Z) (ts : list table) (names : list (list Z)) (onlyConstants : bool) : outcome span :=
  match ts with
  | [] => UB
  | t :: ts' => do s <- table_span iad file t names onlyConstants; extend_spans iad file ts' names onlyConstants s
  end.
