(** Readers and frames of the C API, api/odc.cc:32-45 and 283-483, as a history of calls.
    Opening a file and decoding a frame are in other files; the
    pointers handed out are modelled by the texts they point to. *)
From Verif Require Import Base Fp Stream Codec Meta Header Table Reader ColumnInfo.
Open Scope Z_scope.

Section WithMd5.
Variable md5 : list Z -> list Z.
Variable st : settings.

(** ** ReaderImpl::next with the state an exception leaves behind *)

(** The loop of ReaderImpl::next, Odb.cc:143-159, as [Reader.aggregate]; the first component
    is tablesReader_.tables_ and it_.pos_ when the loop is left, by an exception too: the
    iterator that is advanced to look ahead is a copy (it_next, Odb.cc:145-146). *)
Fixpoint aggregate_after (est : Z) (file : list Z) (fuel : nat) (rowlimit : Z) (ts : list table) (pos : Z) (acc : list table) (nrows : Z)
  : list table * Z * outcome (list table * Z) :=
  match fuel with
  | O => (ts, pos, Throw SeriousBug)      (* not reached *)
  | S f =>
      match iter_next md5 st est file ts pos with
      | Throw x => (ts, pos, Throw x)
      | UB => (ts, pos, UB)
      | Ok (ts', pos') =>
          if pos' =? -1 then (ts', pos, Ok (acc, nrows))
          else
            match iter_get ts' pos' with
            | Throw x => (ts', pos, Throw x)
            | UB => (ts', pos, UB)
            | Ok t =>
                let next_rows := nrows + rows_long t in
                if (0 <=? rowlimit) && (rowlimit <? next_rows) then (ts', pos, Ok (acc, nrows))
                else if negb (compatible (match acc with a :: _ => t_cols a | [] => [] end) (t_cols t))
                     then (ts', pos, Ok (acc, nrows))
                     else aggregate_after est file f rowlimit ts' pos' (acc ++ [t]) next_rows
            end
      end
  end.

(** ReaderImpl::next, Odb.cc:125-163.  ReadTablesIterator::operator++ has incremented its
    position when it throws (TablesReader.cc:42). *)
Definition next_after (est : Z) (file : list Z) (fuel : nat) (aggregated : bool) (rowlimit : Z) (r : reader_state)
  : reader_state * outcome (option (list table)) :=
  if r_pos r =? -1 then (r, Ok None)
  else
    match (if r_first r then Ok (r_tables r, r_pos r) else iter_next md5 st est file (r_tables r) (r_pos r)) with
    | Throw x => ({| r_tables := r_tables r; r_pos := r_pos r + 1; r_first := r_first r |}, Throw x)
    | UB => (r, UB)
    | Ok (ts, pos) =>
        if pos =? -1 then ({| r_tables := ts; r_pos := pos; r_first := r_first r |}, Ok None)
        else
          match iter_get ts pos with
          | Throw x => ({| r_tables := ts; r_pos := pos; r_first := false |}, Throw x)
          | UB => (r, UB)
          | Ok t =>
              let '(ts', pos', res) := if aggregated then aggregate_after est file fuel rowlimit ts pos [t] (rows_long t)
                                       else (ts, pos, Ok ([t], rows_long t)) in
              ({| r_tables := ts'; r_pos := pos'; r_first := false |},
               do (fr, nrows) <- res;
               do _ <- assert ((rowlimit <? 0) || (nrows <=? rowlimit));
               Ok (Some fr))
          end
    end.

(** ** Readers *)

(** odc_reader_t, odc.cc:32-37: the data read, and the Reader with the aggregation and row
    limit it was made with. *)
Record creader := { cr_file : list Z; cr_est : Z; cr_impl : option (bool * Z * reader_state) }.

Definition with_impl (r : creader) (agg : bool) (limit : Z) (s : reader_state) : creader :=
  {| cr_file := cr_file r; cr_est := cr_est r; cr_impl := Some (agg, limit, s) |}.

(** The common part of odc_next_frame and odc_next_frame_aggregated, odc.cc:345-351 and
    366-372: the first call makes the Reader, later calls use it as it is.  If making it
    fails there is still none. *)
Definition reader_next (agg : bool) (limit : Z) (r : creader) : creader * outcome (option (list table)) :=
  let go '(a, l, s) := let (s', res) := next_after (cr_est r) (cr_file r) (S (S (length (cr_file r)))) a l s in (with_impl r a l s', res) in
  match cr_impl r with
  | Some i => go i
  | None =>
      match open_reader md5 st (cr_est r) (cr_file r) with
      | Ok s => go (agg, limit, s)
      | Throw x => (r, Throw x)
      | UB => (r, UB)
      end
  end.

(** ** Frames *)

(** odc_frame_t, odc.cc:39-44: its reader, the FrameImpl it owns, and the FrameImpl whose
    properties the iterators in propertiesIndex_ belong to, if propertiesMemoised_. *)
Record cframe := { cf_reader : nat; cf_obj : option nat; cf_memo : option nat }.

(** Handles are positions in these lists; [None] is what has been deleted. *)
Record world := { w_readers : list (option creader); w_frames : list (option cframe); w_objs : list (option (list table)) }.

Definition nothing : world := {| w_readers := []; w_frames := []; w_objs := [] |}.

Inductive call :=
| OpenReader (file : list Z) (est : Z)
| CloseReader (r : nat)
| NewFrame (r : nat)
| FreeFrame (f : nat)
| NextFrame (f : nat)
| NextAggregated (f : nat) (limit : Z)
| CopyFrame (f : nat)
| RowCount (f : nat)
| ColumnCount (f : nat)
| ColumnAttributes (f : nat) (col : Z)
| BitfieldAttributes (f : nat) (col field : Z)
| PropertiesCount (f : nat)
| PropertyIdx (f : nat) (idx : Z)
| Property (f : nat) (key : list Z).

(** What a call returns: a return code (ODC_SUCCESS, ODC_ITERATION_COMPLETE or an error),
    and values. *)
Inductive answer :=
| Done
| Complete
| Handle (n : nat)
| Number (n : Z)
| Described (name : list Z) (type size nbits : Z)
| Member (name : list Z) (offset size : Z)
| Pair (key val : list Z)
| Value (val : option (list Z))
| Error (x : exn).

Definition set_frame (w : world) (f : nat) (c : option cframe) : world :=
  {| w_readers := w_readers w; w_frames := list_set (w_frames w) f c; w_objs := w_objs w |}.
Definition set_reader (w : world) (r : nat) (c : creader) : world :=
  {| w_readers := list_set (w_readers w) r (Some c); w_frames := w_frames w; w_objs := w_objs w |}.
Definition drop (w : world) (o : option nat) : world :=
  match o with
  | None => w
  | Some o => {| w_readers := w_readers w; w_frames := w_frames w; w_objs := list_set (w_objs w) o None |}
  end.
Definition make (w : world) (ts : list table) : world :=
  {| w_readers := w_readers w; w_frames := w_frames w; w_objs := w_objs w ++ [Some ts] |}.

Definition live_frame (w : world) (f : nat) : outcome cframe := match nth_error (w_frames w) f with Some (Some c) => Ok c | _ => UB end.
Definition live_reader (w : world) (r : nat) : outcome creader := match nth_error (w_readers w) r with Some (Some c) => Ok c | _ => UB end.

(** ASSERT(impl_) of the functions of Frame, Odb.cc:532-581. *)
Definition tables (w : world) (c : cframe) : outcome (list table) :=
  match cf_obj c with
  | None => Throw AssertFailed
  | Some o => match nth_error (w_objs w) o with Some (Some ts) => Ok ts | _ => UB end
  end.

(** wrapApiFunction, odc.cc:133-164. *)
Definition wrapped (w : world) (r : outcome answer) : outcome (world * answer) :=
  match r with Ok a => Ok (w, a) | Throw x => Ok (w, Error x) | UB => UB end.

(** std::vector::at after the two ASSERTs of odc.cc:413 and 431, 433 *)
Definition item {A} (l : list A) (i : Z) : outcome A :=
  if 0 <=? i then match nth_error l (Z.to_nat i) with Some x => Ok x | None => Throw AssertFailed end else Throw AssertFailed.

(** odc_next_frame and odc_next_frame_aggregated, odc.cc:341-383.  The assignment to frame_
    deletes the FrameImpl the frame had; propertiesMemoised_ is reset only if there is a
    frame. *)
Definition next (agg : bool) (limit : Z) (f : nat) (w : world) : outcome (world * answer) :=
  do c <- live_frame w f;
  do r <- live_reader w (cf_reader c);
  let (r', res) := reader_next agg limit r in
  let w1 := set_reader w (cf_reader c) r' in
  match res with
  | UB => UB
  | Throw x => Ok (w1, Error x)
  | Ok None => Ok (set_frame (drop w1 (cf_obj c)) f (Some {| cf_reader := cf_reader c; cf_obj := None; cf_memo := cf_memo c |}), Complete)
  | Ok (Some ts) =>
      Ok (set_frame (make (drop w1 (cf_obj c)) ts) f (Some {| cf_reader := cf_reader c; cf_obj := Some (length (w_objs w)); cf_memo := None |}), Done)
  end.

(** odc_frame_property_idx, odc.cc:453-473: the index is checked only when the iterators are
    collected. *)
Definition property_idx (f : nat) (idx : Z) (w : world) : outcome (world * answer) :=
  do c <- live_frame w f;
  match cf_memo c with
  | None =>
      match tables w c with
      | UB => UB
      | Throw x => Ok (w, Error x)
      | Ok ts =>
          match item (frame_props ts) idx with
          | Ok (k, v) => Ok (set_frame w f (Some {| cf_reader := cf_reader c; cf_obj := cf_obj c; cf_memo := cf_obj c |}), Pair k v)
          | Throw x => Ok (w, Error x)
          | UB => UB
          end
      end
  | Some o =>
      match nth_error (w_objs w) o with
      | Some (Some ts) => match item (frame_props ts) idx with Ok (k, v) => Ok (w, Pair k v) | _ => UB end
      | _ => UB       (* iterators of a map that is gone *)
      end
  end.

(** odc_copy_frame, odc.cc:385-390: copies the members of odc_frame_t.  Frame(const Frame&),
    Odb.cc:511, dereferences the pointer to the FrameImpl and makes a new one. *)
Definition copy_frame (f : nat) (w : world) : outcome (world * answer) :=
  do c <- live_frame w f;
  match cf_obj c with
  | None => UB
  | Some o =>
      match nth_error (w_objs w) o with
      | Some (Some ts) =>
          let w1 := make w ts in
          Ok ({| w_readers := w_readers w1; w_frames := w_frames w1 ++ [Some {| cf_reader := cf_reader c; cf_obj := Some (length (w_objs w)); cf_memo := cf_memo c |}];
                 w_objs := w_objs w1 |}, Handle (length (w_frames w)))
      | _ => UB
      end
  end.

(** One call: the state afterwards and what it returns. *)
Definition apply (w : world) (c : call) : outcome (world * answer) :=
  match c with
  | OpenReader file est =>       (* odc_open_*, odc.cc:268-312; opening succeeds *)
      Ok ({| w_readers := w_readers w ++ [Some {| cr_file := file; cr_est := est; cr_impl := None |}]; w_frames := w_frames w; w_objs := w_objs w |},
          Handle (length (w_readers w)))
  | CloseReader r =>             (* odc_close, odc.cc:314-319 *)
      do _ <- live_reader w r;
      Ok ({| w_readers := list_set (w_readers w) r None; w_frames := w_frames w; w_objs := w_objs w |}, Done)
  | NewFrame r =>                (* odc_new_frame, odc.cc:327-332 *)
      do _ <- live_reader w r;
      Ok ({| w_readers := w_readers w; w_frames := w_frames w ++ [Some {| cf_reader := r; cf_obj := None; cf_memo := None |}]; w_objs := w_objs w |},
          Handle (length (w_frames w)))
  | FreeFrame f =>               (* odc_free_frame, odc.cc:334-339 *)
      do c <- live_frame w f; Ok (set_frame (drop w (cf_obj c)) f None, Done)
  | NextFrame f => next false (-1) f w
  | NextAggregated f limit => next true limit f w
  | CopyFrame f => copy_frame f w
  | RowCount f =>                (* odc_frame_row_count, odc.cc:392-398 *)
      do c <- live_frame w f; wrapped w (do ts <- tables w c; Ok (Number (frame_rows ts)))
  | ColumnCount f =>             (* odc_frame_column_count, odc.cc:400-406; FrameImpl::columnCount, Odb.cc:349-352 *)
      do c <- live_frame w f;
      wrapped w (do ts <- tables w c; match ts with [] => Throw AssertFailed | t :: _ => Ok (Number (Z.of_nat (length (t_cols t)))) end)
  | ColumnAttributes f col =>    (* odc_frame_column_attributes, odc.cc:408-425 *)
      do c <- live_frame w f;
      wrapped w (do ts <- tables w c; do infos <- column_infos ts; do i <- item infos col;
                 Ok (Described (i_name i) (i_type i) (i_size i) (Z.of_nat (length (i_bits i)))))
  | BitfieldAttributes f col field =>   (* odc_frame_bitfield_attributes, odc.cc:427-443 *)
      do c <- live_frame w f;
      wrapped w (do ts <- tables w c; do infos <- column_infos ts; do i <- item infos col; do b <- item (i_bits i) field;
                 Ok (Member (b_name b) (b_offset b) (b_size b)))
  | PropertiesCount f =>         (* odc_frame_properties_count, odc.cc:445-451 *)
      do c <- live_frame w f; wrapped w (do ts <- tables w c; Ok (Number (Z.of_nat (length (frame_props ts)))))
  | PropertyIdx f idx => property_idx f idx w
  | Property f key =>            (* odc_frame_property, odc.cc:475-483 *)
      do c <- live_frame w f; wrapped w (do ts <- tables w c; Ok (Value (mget (frame_props ts) key)))
  end.

(** A history of calls, up to the first whose effect is undefined. *)
Fixpoint run (w : world) (calls : list call) : outcome (world * list answer) :=
  match calls with
  | [] => Ok (w, [])
  | c :: cs => do (w1, a) <- apply w c; do (w2, l) <- run w1 cs; Ok (w2, a :: l)
  end.

End WithMd5.
