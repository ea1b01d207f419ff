(** sql/SQLSelectOutput.{h,cc}, SelectIterator.{h,cc} and the functions of odccapi.cc that use
    them: the rows of a query, put into a buffer of doubles. *)
From Verif Require Import Base Fp Stream Codec Meta Header Encoder OdaOut.
Open Scope Z_scope.

(** Memory, byte by byte, and a store of some bytes at an address. *)
Definition put (mem : Z -> Z) (a : Z) (bs : list Z) : Z -> Z :=
  fun x => if (a <=? x) && (x <? a + Z.of_nat (length bs)) then nth (Z.to_nat (x - a)) bs 0 else mem x.
Definition get (mem : Z -> Z) (a n : Z) : list Z := map (fun i => mem (a + Z.of_nat i)) (seq 0 (Z.to_nat n)).

(** SQLSelectOutput.h:86-110.  Pointers are addresses in bytes; requiredBufferSize_ is not
    initialised by the constructor. *)
Record sout := {
  s_out : Z; s_pos : Z; s_end : Z; s_elems : Z; s_required : option Z;
  s_sizes : list Z; s_offsets : list Z; s_missing : list Z; s_meta : list column;
  s_count : Z; s_own : bool; s_new : bool; s_outputted : bool; s_mem : Z -> Z }.

(** SQLSelectOutput.cc:36-45. *)
Definition sel_make (own : bool) (mem : Z -> Z) : sout :=
  {| s_out := 0; s_pos := 0; s_end := 0; s_elems := 0; s_required := None;
     s_sizes := []; s_offsets := []; s_missing := []; s_meta := [];
     s_count := 0; s_own := own; s_new := true; s_outputted := false; s_mem := mem |}.

Definition with_buffer (s : sout) (out n : Z) : sout :=
  {| s_out := out; s_pos := out; s_end := out + 8 * n; s_elems := n; s_required := s_required s;
     s_sizes := s_sizes s; s_offsets := s_offsets s; s_missing := s_missing s; s_meta := s_meta s;
     s_count := s_count s; s_own := s_own s; s_new := s_new s; s_outputted := s_outputted s; s_mem := s_mem s |}.
Definition with_pos (s : sout) (pos : Z) (mem : Z -> Z) : sout :=
  {| s_out := s_out s; s_pos := pos; s_end := s_end s; s_elems := s_elems s; s_required := s_required s;
     s_sizes := s_sizes s; s_offsets := s_offsets s; s_missing := s_missing s; s_meta := s_meta s;
     s_count := s_count s; s_own := s_own s; s_new := s_new s; s_outputted := s_outputted s; s_mem := mem |}.
Definition with_counts (s : sout) (count : Z) (new outputted : bool) : sout :=
  {| s_out := s_out s; s_pos := s_pos s; s_end := s_end s; s_elems := s_elems s; s_required := s_required s;
     s_sizes := s_sizes s; s_offsets := s_offsets s; s_missing := s_missing s; s_meta := s_meta s;
     s_count := count; s_own := s_own s; s_new := new; s_outputted := outputted; s_mem := s_mem s |}.
Definition with_types (s : sout) (sizes offsets missing : list Z) (meta : list column) (required : option Z) : sout :=
  {| s_out := s_out s; s_pos := s_pos s; s_end := s_end s; s_elems := s_elems s; s_required := required;
     s_sizes := sizes; s_offsets := offsets; s_missing := missing; s_meta := meta;
     s_count := s_count s; s_own := s_own s; s_new := true; s_outputted := false; s_mem := s_mem s |}.

(** A call: what is left of the object, and how the call ended (an exception keeps what was
    changed before it). *)
Notation result := (sout * outcome unit)%type.

(** resetBuffer, SQLSelectOutput.cc:49-63; [count] is a size_t. *)
Definition reset_buffer (s : sout) (out count : Z) : result :=
  match s_required s with
  | None => (s, UB)
  | Some required =>
      let n := if count =? 0 then required else count in
      if s_own s then (s, Throw AssertFailed)
      else
        let s1 := with_buffer s out n in
        if required <=? n then (s1, Ok tt) else (s1, Throw AssertFailed)
  end.

(** The type of a column from the query's, sql/Types.cc:25-47: others than the five types are
    refused. *)
Definition known_type (ty : Z) : bool :=
  (ty =? ty_INTEGER) || (ty =? ty_REAL) || (ty =? ty_DOUBLE) || (ty =? ty_STRING) || (ty =? ty_BITFIELD).

(** The part of the loop of updateTypes that fills in metaData_[i], SQLSelectOutput.cc:180-190:
    name, type (a new codec, core/Column.h:181-211), hasMissing, bitfieldDef, dataSizeDoubles. *)
Definition sel_column (st : settings) (ci : colinfo) (has : bool) : outcome column :=
  if negb (known_type (ci_type ci)) then Throw SeriousBug
  else
    do k <- working_codec st LE (ci_type ci);
    do k1 <- set_data_size (set_stats k (if has then 1 else 0) (c_min k) (c_max k) (c_missing k)) (ci_size ci / 8);
    Ok {| col_name := ci_name ci; col_type := ci_type ci;
          col_bfnames := map fst (ci_bits ci); col_bfsizes := map snd (ci_bits ci); col_coder := k1 |}.

(** What the loop of updateTypes pushes, SQLSelectOutput.cc:170-197: sizes, offsets, missing
    values, columns.  When it is left by an exception the vectors hold what was pushed before
    (metaData_ also keeps the columns not reached: not modelled). *)
Record pushed := { p_sizes : list Z; p_offsets : list Z; p_missing : list Z; p_meta : list column }.

Fixpoint sel_push (st : settings) (offset : Z) (cols : list (colinfo * bool)) : pushed * outcome Z :=
  match cols with
  | [] => ({| p_sizes := []; p_offsets := []; p_missing := []; p_meta := [] |}, Ok offset)
  | (ci, has) :: cs =>
      if negb (ci_size ci mod 8 =? 0) then ({| p_sizes := []; p_offsets := []; p_missing := []; p_meta := [] |}, Throw AssertFailed)
      else
        let n := ci_size ci / 8 in
        match sel_column st ci has with
        | Ok c =>
            let (p, r) := sel_push st (offset + n) cs in
            ({| p_sizes := n :: p_sizes p; p_offsets := offset :: p_offsets p;
                p_missing := missing_value (col_coder c) :: p_missing p; p_meta := c :: p_meta p |}, r)
        | Throw e => ({| p_sizes := [n]; p_offsets := [offset]; p_missing := []; p_meta := [] |}, Throw e)
        | UB => ({| p_sizes := [n]; p_offsets := [offset]; p_missing := []; p_meta := [] |}, UB)
        end
  end.

(** updateTypes, SQLSelectOutput.cc:154-213.  [at_] is where data_.resize leaves the vector's
    elements; they keep their values and new ones are zero.  (accumulate's int, line 199, is
    taken to hold the sum.) *)
Definition update_types (st : settings) (s : sout) (cols : list (colinfo * bool)) (at_ : Z) : result :=
  let (p, r) := sel_push st 0 cols in
  match r with
  | Ok total =>
      let required := fold_right Z.add 0 (p_sizes p) in
      let s1 := with_types s (p_sizes p) (p_offsets p) (p_missing p) (p_meta p) (Some required) in
      if s_own s then
        let kept := firstn (Z.to_nat (8 * total)) (get (s_mem s) (s_out s) (s_end s - s_out s)) in
        let fresh := kept ++ repeat 0 (Z.to_nat (8 * total) - length kept) in
        let s2 := with_buffer s1 at_ total in
        let s3 := with_pos s2 at_ (put (s_mem s2) at_ fresh) in
        if required <=? total then (s3, Ok tt) else (s3, Throw AssertFailed)
      else (s1, Ok tt)
  | Throw e => (with_types s (p_sizes p) (p_offsets p) (p_missing p) (p_meta p) (s_required s), Throw e)
  | UB => (with_types s (p_sizes p) (p_offsets p) (p_missing p) (p_meta p) (s_required s), UB)
  end.

(** outputNumber and outputString, SQLSelectOutput.cc:99-150, for column number [i]. *)
Definition output_value (s : sout) (i : nat) (v : ovalue) : result :=
  match v with
  | ONumber bits missing =>
      if (s_out s <=? s_pos s) && (s_pos s <? s_end s) then
        match (if missing then nth_error (s_missing s) i else Some bits) with
        | None => (s, UB)
        | Some x => (with_pos s (s_pos s + 8) (put (s_mem s) (s_pos s) (le_bytes 8 x)), Ok tt)
        end
      else (s, Throw AssertFailed)
  | OText val n missing =>
      match nth_error (s_sizes s) i with
      | None => (s, UB)
      | Some d =>
          if (s_out s <=? s_pos s) && (s_pos s + 8 * d <=? s_end s) then
            if 8 * d <? n then (s, Throw SeriousBug)
            else if negb missing && (Z.of_nat (length val) <? n) then (s, UB)
            else
              let t := if missing then [] else firstn (Z.to_nat n) val in
              (with_pos s (s_pos s + 8 * d)
                 (put (s_mem s) (s_pos s) (t ++ repeat 0 (Z.to_nat (8 * d) - length t))), Ok tt)
          else (s, Throw AssertFailed)
      end
  end.

(** The loop of output, SQLSelectOutput.cc:78-80. *)
Fixpoint output_values (s : sout) (i : nat) (vals : list ovalue) : result :=
  match vals with
  | [] => (s, Ok tt)
  | v :: vs =>
      let (s1, r) := output_value s i v in
      match r with Ok _ => output_values s1 (S i) vs | other => (s1, other) end
  end.

(** output, SQLSelectOutput.cc:75-97. *)
Definition output_row (s : sout) (vals : list ovalue) : result :=
  if negb (length vals =? length (s_sizes s))%nat then (s, Throw AssertFailed)
  else
    let (s1, r) := output_values (with_pos s (s_out s) (s_mem s)) 0 vals in
    match r with
    | Ok _ =>
        if negb (s_pos s1 =? s_end s1) then (s1, Throw AssertFailed)
        else
          (with_counts s1 (s_count s1 + 1)
             (if s_new s1 then negb (s_outputted s1) else s_new s1)
             (if s_new s1 then negb (s_outputted s1) else s_outputted s1), Ok tt)
    | other => (s1, other)
    end.

(** What happens to the output: prepare or updateTypes, resetBuffer, output. *)
Inductive sevent :=
| STypes (cols : list (colinfo * bool)) (at_ : Z)
| SBuffer (out count : Z)
| SRow (vals : list ovalue).

Definition sel_event (st : settings) (s : sout) (e : sevent) : result :=
  match e with
  | STypes cols at_ => update_types st s cols at_
  | SBuffer out count => reset_buffer s out count
  | SRow vals => output_row s vals
  end.

(** Events one after another, whatever becomes of them: the state after each, and how it ended. *)
Fixpoint sel_events (st : settings) (s : sout) (es : list sevent) : list result :=
  match es with
  | [] => []
  | e :: es' => let r := sel_event st s e in r :: sel_events st (fst r) es'
  end.

(** data(i), SQLSelectOutput.h:51: the address. *)
Definition sel_data (s : sout) (i : nat) : outcome Z :=
  match nth_error (s_offsets s) i with Some o => Ok (s_out s + 8 * o) | None => UB end.

(** A query, as far as the output sees it: each call of processOneRow (eckit) announces types
    any number of times and then hands over a row; the calls after the last give no row. *)
Record qrow := { q_types : list (list (colinfo * bool) * Z); q_vals : list ovalue }.

(** SelectIterator.h:90-100. *)
Record select := { it_out : sout; it_rest : list qrow; it_done : bool }.

Definition process (st : settings) (s : sout) (q : qrow) : result :=
  let fix go s ts :=
    match ts with
    | [] => output_row s (q_vals q)
    | (cols, a) :: ts' => let (s1, r) := update_types st s cols a in match r with Ok _ => go s1 ts' | other => (s1, other) end
    end in
  go s (q_types q).

(** SelectIterator::next, SelectIterator.cc:53-62.  An exception out of processOneRow leaves
    noMore_ as it was; the row is lost (the cursor of the query has moved). *)
Definition sel_next (st : settings) (it : select) : select * outcome bool :=
  if it_done it then (it, Ok false)
  else match it_rest it with
       | [] => ({| it_out := it_out it; it_rest := []; it_done := true |}, Ok false)
       | q :: qs =>
           let (s1, r) := process st (it_out it) q in
           ({| it_out := s1; it_rest := qs; it_done := false |}, do _ <- r; Ok true)
       end.

(** odb_select_iterator_get_next_row, odccapi.cc:339-355: the code and *new_dataset.  [count] is
    not looked at. *)
Definition old_select_next (st : settings) (it : select) (count data : Z) : select * outcome (Z * option bool) :=
  let (s1, r) := reset_buffer (it_out it) data 0 in
  let it1 := {| it_out := s1; it_rest := it_rest it; it_done := it_done it |} in
  match r with
  | Ok _ =>
      let (it2, b) := sel_next st it1 in
      (it2, do more <- b; if more : bool then Ok (0, Some (s_new (it_out it2))) else Ok (1, None))
  | Throw e => (it1, Throw e)
  | UB => (it1, UB)
  end.

(** odb_select_iterator_get_row_buffer_size_doubles, odccapi.cc:471-476. *)
Definition old_select_size (it : select) : outcome Z :=
  match s_required (it_out it) with Some n => Ok n | None => UB end.
