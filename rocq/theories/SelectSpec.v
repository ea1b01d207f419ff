(** Specification vocabulary for C61: the rows of a query in a buffer of doubles. *)
From Verif Require Import Base Fp Stream Codec Meta Header Encoder WriterSpec Spec OdaOut OdaSpec SelectOut.
Open Scope Z_scope.

(** Columns a query may announce: of one of the five types; a number takes eight bytes, a text
    a whole number of doubles, at least one. *)
Definition accepted (ci : colinfo) : Prop :=
  In (ci_type ci) [ty_INTEGER; ty_REAL; ty_DOUBLE; ty_STRING; ty_BITFIELD] /\
  (if ci_type ci =? ty_STRING then 8 <= ci_size ci /\ ci_size ci mod 8 = 0 else ci_size ci = 8).

(** The width of a row in bytes, and where column [i] starts in it. *)
Definition width (cols : list colinfo) : Z := fold_right Z.add 0 (map ci_size cols).
Definition start (cols : list colinfo) (i : nat) : Z := width (firstn i cols).

(** A result of the type of its column; and one that moreover has room there (and whose array
    holds the bytes it says). *)
Definition typed (ci : colinfo) (v : ovalue) : Prop :=
  match v with ONumber bits _ => ci_type ci <> ty_STRING /\ is64 bits | OText _ n _ => ci_type ci = ty_STRING /\ 0 <= n end.
Definition held (v : ovalue) : Prop :=
  match v with ONumber _ _ => True | OText val n missing => missing = false -> n <= len val end.
Definition room (ci : colinfo) (v : ovalue) : Prop :=
  match v with ONumber _ _ => True | OText _ n _ => n <= ci_size ci end.

(** The bytes of a result: a number, or the format's missing value of its type; a text padded
    with zeros, or only zeros. *)
Definition cell (st : settings) (ci : colinfo) (v : ovalue) : list Z :=
  match v with
  | ONumber bits missing => le_bytes 8 (if missing then missing_bits st (ci_type ci) else bits)
  | OText val n missing =>
      let t := if missing then [] else firstn (Z.to_nat n) val in t ++ repeat 0 (Z.to_nat (ci_size ci - len t))
  end.
Definition cells (st : settings) (cols : list colinfo) (vals : list ovalue) : list Z :=
  concat (map (fun cv => cell st (fst cv) (snd cv)) (combine cols vals)).

(** A column as the query announced it: title, type, members of bitfields, whether it has missing values, width. *)
Definition tells (ann : colinfo * bool) (c : column) : Prop :=
  col_name c = ci_name (fst ann) /\ col_type c = ci_type (fst ann) /\
  combine (col_bfnames c) (col_bfsizes c) = ci_bits (fst ann) /\
  has_missing (col_coder c) = snd ann /\ 8 * data_size_doubles (col_coder c) = ci_size (fst ann).

(** What is in force: the columns announced last, and the buffer, with its size in doubles. *)
Record force := { f_cols : option (list colinfo); f_buffer : option (Z * Z) }.
Definition nothing : force := {| f_cols := None; f_buffer := None |}.

(** A buffer handed over with size 0 is taken to be as large as a row. *)
Definition after (own : bool) (f : force) (e : sevent) : force :=
  match e with
  | STypes cols at_ => {| f_cols := Some (map fst cols);
      f_buffer := if own then Some (at_, width (map fst cols) / 8) else f_buffer f |}
  | SBuffer out count =>
      match f_cols f with
      | Some cols => if own then f else {| f_cols := f_cols f; f_buffer := Some (out, if count =? 0 then width cols / 8 else count) |}
      | None => f
      end
  | SRow _ => f
  end.

(** Anything a query and its caller may do: columns are announced first, and are ones a query
    may announce; results are of the type of their columns. *)
Definition possible (f : force) (e : sevent) : Prop :=
  match e with
  | STypes cols _ => cols <> [] /\ Forall accepted (map fst cols)
  | SBuffer _ count => f_cols f <> None /\ 0 <= count
  | SRow vals => match f_cols f with Some cols => length vals = length cols -> Forall2 typed cols vals /\ Forall held vals | None => False end
  end.

(** What goes well: the caller's buffer is exactly as large as a row, and the results have room. *)
Definition good (own : bool) (f : force) (e : sevent) : Prop :=
  match e with
  | STypes _ _ => True
  | SBuffer _ count => own = false /\ match f_cols f with Some cols => count = 0 \/ width cols <= 8 * count | None => False end
  | SRow vals =>
      match f_cols f, f_buffer f with
      | Some cols, Some (_, n) => Forall2 room cols vals /\ width cols = 8 * n
      | _, _ => False
      end
  end.

(** The bytes an event may change: of the buffer in force, when columns are announced only of
    the output's own. *)
Definition may_change (own : bool) (f : force) (e : sevent) (x : Z) : Prop :=
  match e, f_buffer (after own f e) with
  | STypes _ _, Some (a, n) => own = true /\ a <= x < a + 8 * n
  | SBuffer _ _, _ => False
  | SRow _, Some (a, n) => a <= x < a + 8 * n
  | _, None => False
  end.

(** What can be seen after an event that goes well.  [first]: no row was put out since columns
    were last announced. *)
Definition shown (st : settings) (f : force) (first : bool) (e : sevent) (before s : sout) : Prop :=
  match e with
  | STypes cols _ => Forall2 tells cols (s_meta s) /\ s_new s = true /\ s_count s = s_count before /\
      (forall i, (i < length cols)%nat -> sel_data s i = Ok (s_out s + start (map fst cols) i)) /\
      s_required s = Some (width (map fst cols) / 8)
  | SBuffer out _ => s_out s = out /\ s_new s = s_new before /\ s_count s = s_count before
  | SRow vals =>
      match f_cols f, f_buffer f with
      | Some cols, Some (a, _) =>
          s_new s = first /\ s_count s = s_count before + 1 /\ s_out s = a /\
          get (s_mem s) a (width cols) = cells st cols vals /\
          (forall i ci v, nth_error cols i = Some ci -> nth_error vals i = Some v ->
             sel_data s i = Ok (a + start cols i) /\ get (s_mem s) (a + start cols i) (ci_size ci) = cell st ci v)
      | _, _ => False
      end
  end.

(** An event is carried out if all goes well, and otherwise refused by an exception: nothing
    undefined happens; no byte outside the buffer changes; a row refused is not counted. *)
Record told (st : settings) (own : bool) (f : force) (first : bool) (e : sevent) (before s : sout) (r : outcome unit) : Prop := {
  tl_done : r = Ok tt <-> good own f e;
  tl_refused : r <> UB;
  tl_shown : good own f e -> shown st f first e before s;
  tl_not : ~ good own f e -> s_new s = s_new before /\ s_count s = s_count before;
  tl_outside : forall x, ~ may_change own f e x -> s_mem s x = s_mem before x
}.

Fixpoint story (st : settings) (own : bool) (f : force) (first : bool) (before : sout) (es : list sevent) (rs : list (sout * outcome unit)) : Prop :=
  match es, rs with
  | [], [] => True
  | e :: es', (s, r) :: rs' =>
      told st own f first e before s r /\
      story st own (after own f e)
        (match e, r with STypes _ _, _ => true | SRow _, Ok _ => false | _, _ => first end) s es' rs'
  | _, _ => False
  end.

Fixpoint all_possible (own : bool) (f : force) (es : list sevent) : Prop :=
  match es with [] => True | e :: es' => possible f e /\ all_possible own (after own f e) es' end.

(** ** Through the older C interface *)

(** The columns in force at a row, and those of all rows of a query. *)
Definition announced_last (cols : list colinfo) (q : qrow) : list colinfo := fold_left (fun _ t => map fst (fst t)) (q_types q) cols.
Fixpoint in_turn (cols : list colinfo) (qs : list qrow) : list (list colinfo * qrow) :=
  match qs with [] => [] | q :: qs' => (announced_last cols q, q) :: in_turn (announced_last cols q) qs' end.

(** A query the rows of which all take [w] bytes. *)
Definition steady (w : Z) (cols : list colinfo) (qs : list qrow) : Prop :=
  Forall (fun q => Forall (fun t => fst t <> [] /\ Forall accepted (map fst (fst t)) /\ width (map fst (fst t)) = w) (q_types q)) qs /\
  Forall (fun cq => Forall2 typed (fst cq) (q_vals (snd cq)) /\ Forall2 room (fst cq) (q_vals (snd cq)) /\ Forall held (q_vals (snd cq))) (in_turn cols qs).

(** Calls one after another, each with a count and the address of the caller's buffer: the
    state after each and what it returned. *)
Fixpoint select_calls (st : settings) (it : select) (calls : list (Z * Z)) : list (select * outcome (Z * option bool)) :=
  match calls with
  | [] => []
  | (count, data) :: cs => let r := old_select_next st it count data in r :: select_calls st (fst r) cs
  end.

(** Each call gives the next row, in the buffer of that call, and changes no other byte; it
    tells whether the row is the first or columns were announced before it.  After the last
    row each call returns 1 and changes nothing. *)
Fixpoint rows_given (st : settings) (w : Z) (first : bool) (mem : Z -> Z) (rows : list (list colinfo * qrow)) (calls : list (Z * Z))
    (rs : list (select * outcome (Z * option bool))) : Prop :=
  match calls, rs with
  | [], [] => True
  | (_, data) :: cs, (it, r) :: rs' =>
      match rows with
      | (cols, q) :: rows' =>
          r = Ok (0, Some (first || negb (length (q_types q) =? 0)%nat)) /\
          get (s_mem (it_out it)) data w = cells st cols (q_vals q) /\
          (forall x, ~ (data <= x < data + w) -> s_mem (it_out it) x = mem x) /\
          rows_given st w false (s_mem (it_out it)) rows' cs rs'
      | [] => r = Ok (1, None) /\ (forall x, s_mem (it_out it) x = mem x) /\ rows_given st w first (s_mem (it_out it)) [] cs rs'
      end
  | _, _ => False
  end.

(** A query prepared: its columns were announced. *)
Definition prepared (st : settings) (mem : Z -> Z) (cols : list (colinfo * bool)) (qs : list qrow) : select :=
  {| it_out := fst (update_types st (sel_make false mem) cols 0); it_rest := qs; it_done := false |}.
