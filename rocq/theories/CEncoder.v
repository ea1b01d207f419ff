(** The encoder of the C API, api/odc.cc:71-91 and 777-1063. *)
From Verif Require Import Base Fp Stream Codec Meta Header Encoder Strided.
Open Scope Z_scope.

(** What odc_encoder_t::EncodeColumn::data points to (odc.cc:77): nothing, memory of the
    caller, a transposed copy made by the call in progress (odc.cc:890, 935-946), or such
    a copy after the call that made it has freed it. *)
Inductive source := Null | At (a : Z) | Buffer (b : list Z) | Freed.

(** odc_encoder_t::EncodeColumn, odc.cc:76-79. *)
Record ecol := { ec_data : source; ec_stride : Z }.

(** odc_encoder_t, odc.cc:71-91.  The members of a bitfield are kept as (name, size): the
    offset of a member is the sum of the sizes before it (odc.cc:870-880). *)
Record cencoder := {
  ce_array : option Z; ce_major : Z; ce_nrows : Z; ce_width : Z; ce_height : Z; ce_max : Z;
  ce_infos : list colinfo; ce_cols : list ecol; ce_props : props
}.

(** conversion of a long or int to size_t *)
Definition to_size (x : Z) : Z := x mod 2 ^ 64.

(** odc.cc:73-74, odc_new_encoder 781-783. *)
Definition new_encoder : cencoder :=
  {| ce_array := None; ce_major := 0; ce_nrows := 0; ce_width := 0; ce_height := 0; ce_max := 10000;
     ce_infos := []; ce_cols := []; ce_props := [] |}.

Definition with_infos (e : cencoder) (l : list colinfo) : cencoder :=
  {| ce_array := ce_array e; ce_major := ce_major e; ce_nrows := ce_nrows e; ce_width := ce_width e; ce_height := ce_height e;
     ce_max := ce_max e; ce_infos := l; ce_cols := ce_cols e; ce_props := ce_props e |}.
Definition with_cols (e : cencoder) (l : list ecol) : cencoder :=
  {| ce_array := ce_array e; ce_major := ce_major e; ce_nrows := ce_nrows e; ce_width := ce_width e; ce_height := ce_height e;
     ce_max := ce_max e; ce_infos := ce_infos e; ce_cols := l; ce_props := ce_props e |}.

(** odc_encoder_add_property, odc.cc:789-794. *)
Definition add_property (k v : list Z) (e : cencoder) : cencoder :=
  {| ce_array := ce_array e; ce_major := ce_major e; ce_nrows := ce_nrows e; ce_width := ce_width e; ce_height := ce_height e;
     ce_max := ce_max e; ce_infos := ce_infos e; ce_cols := ce_cols e; ce_props := mset (ce_props e) k v |}.

(** odc_encoder_set_row_count, odc.cc:796-801. *)
Definition set_row_count (n : Z) (e : cencoder) : cencoder :=
  {| ce_array := ce_array e; ce_major := ce_major e; ce_nrows := to_size n; ce_width := ce_width e; ce_height := ce_height e;
     ce_max := ce_max e; ce_infos := ce_infos e; ce_cols := ce_cols e; ce_props := ce_props e |}.

(** odc_encoder_set_rows_per_frame, odc.cc:803-808. *)
Definition set_rows_per_frame (n : Z) (e : cencoder) : cencoder :=
  {| ce_array := ce_array e; ce_major := ce_major e; ce_nrows := ce_nrows e; ce_width := ce_width e; ce_height := ce_height e;
     ce_max := to_size n; ce_infos := ce_infos e; ce_cols := ce_cols e; ce_props := ce_props e |}.

(** odc_encoder_set_data_array, odc.cc:810-833.  The columns are reset before the check, so
    also by a call that is refused. *)
Definition set_data_array (data : option Z) (w h major : Z) (e : cencoder) : cencoder * outcome unit :=
  let e1 := match ce_array e with
            | Some _ => with_cols e (map (fun _ => {| ec_data := Null; ec_stride := 0 |}) (ce_cols e))
            | None => e
            end in
  if Z.rem major 8 =? 0 then
    ({| ce_array := data; ce_major := major; ce_nrows := if ce_nrows e =? 0 then to_size h else ce_nrows e;
        ce_width := to_size w; ce_height := to_size h;
        ce_max := ce_max e; ce_infos := ce_infos e; ce_cols := ce_cols e1; ce_props := ce_props e |}, Ok tt)
  else (e1, Throw AssertFailed).

(** odc_encoder_add_column, odc.cc:835-841. *)
Definition add_column (nm : list Z) (ty : Z) (e : cencoder) : cencoder :=
  with_cols (with_infos e (ce_infos e ++ [{| ci_name := nm; ci_type := ty; ci_size := 0; ci_bits := [] |}]))
            (ce_cols e ++ [{| ec_data := Null; ec_stride := 0 |}]).

Definition with_size (ci : colinfo) (s : Z) : colinfo :=
  {| ci_name := ci_name ci; ci_type := ci_type ci; ci_size := s; ci_bits := ci_bits ci |}.

(** [list_set] with the index as the int of the API *)
Definition put {A} (l : list A) (i : Z) (x : A) : list A := list_set l (Z.to_nat i) x.

(** The checks of the two functions below: a column that exists, a size that is a whole
    number of doubles. *)
Definition col_at (e : cencoder) (col : Z) : outcome colinfo :=
  if 0 <=? col then match nth_error (ce_infos e) (Z.to_nat col) with Some ci => Ok ci | None => Throw AssertFailed end
  else Throw AssertFailed.
Definition whole_doubles (s : Z) : bool := (0 <=? s) && (s mod 8 =? 0).

(** odc_encoder_column_set_data_size, odc.cc:843-850. *)
Definition column_set_data_size (col size : Z) (e : cencoder) : outcome cencoder :=
  do ci <- col_at e col;
  do _ <- assert (whole_doubles size);
  Ok (with_infos e (put (ce_infos e) col (with_size ci size))).

(** odc_encoder_column_set_data_array, odc.cc:852-862. *)
Definition column_set_data_array (col size stride : Z) (data : option Z) (e : cencoder) : outcome cencoder :=
  do ci <- col_at e col;
  do _ <- assert (whole_doubles size);
  do _ <- assert (whole_doubles stride);
  Ok (with_cols (with_infos e (put (ce_infos e) col (with_size ci size)))
                (put (ce_cols e) col {| ec_data := match data with Some a => At a | None => Null end; ec_stride := stride |})).

(** odc_encoder_column_add_bitfield, odc.cc:864-881: the sum is one of size_t. *)
Definition bits_total (l : list (list Z * Z)) : Z := fold_right Z.add 0 (map snd l).
Definition column_add_bitfield (col : Z) (nm : list Z) (nbits : Z) (e : cencoder) : outcome cencoder :=
  do ci <- col_at e col;
  do _ <- assert (to_size (to_size (bits_total (ci_bits ci)) + to_size nbits) <=? 32);
  Ok (with_infos e (put (ce_infos e) col
        {| ci_name := ci_name ci; ci_type := ci_type ci; ci_size := ci_size ci; ci_bits := ci_bits ci ++ [(nm, nbits)] |})).

(** ** Encoding *)

(** odc.cc:889-894: columns without a size hold one double. *)
Definition default_size (ci : colinfo) : colinfo := if ci_size ci =? 0 then with_size ci 8 else ci.

(** The copy of a column split across narrower columns of the array, odc.cc:933-946. *)
Definition transposed (m : mem) (src height major size : Z) : list Z :=
  let elems := Z.to_nat (size / to_size major) in
  concat (map (fun y => concat (map (fun x => load m (src + (Z.of_nat y + Z.of_nat x * height) * major) (Z.to_nat major)) (seq 0 elems)))
              (seq 0 (Z.to_nat height))).

(** Encoding from an array at [base], odc.cc:918-958.  An exception leaves the columns
    before as they have been set. *)
Fixpoint fill_array (m : mem) (major width height base offset : Z) (infos : list colinfo) (cols : list ecol) : list ecol * outcome unit :=
  match infos, cols with
  | ci :: infos', c :: cols' =>
      if negb (ci_size ci mod 8 =? 0) || negb (match ec_data c with Null => true | _ => false end) || negb (ec_stride c =? 0)
      then (cols, Throw AssertFailed)
      else
        let c' := if major =? 0 then {| ec_data := At (base + offset); ec_stride := width |}
                  else {| ec_data := if ci_size ci =? major then At (base + offset)
                                     else Buffer (transposed m (base + offset) height major (ci_size ci));
                          ec_stride := ci_size ci |} in
        if negb (ec_stride c' mod 8 =? 0) then (c' :: cols', Throw AssertFailed)
        else
          let r := fill_array m major width height base (offset + (if major =? 0 then ci_size ci else ci_size ci * height)) infos' cols' in
          (c' :: fst r, snd r)
  | _, _ => (cols, Ok tt)
  end.

(** Encoding from one array per column, odc.cc:960-980. *)
Fixpoint fill_columns (infos : list colinfo) (cols : list ecol) : list ecol * outcome unit :=
  match infos, cols with
  | ci :: infos', c :: cols' =>
      match ec_data c with
      | Null => (cols, Throw AssertFailed)
      | _ =>
          let c' := {| ec_data := ec_data c; ec_stride := if ec_stride c =? 0 then ci_size ci else ec_stride c |} in
          if negb (ec_stride c' mod 8 =? 0) || negb (ci_size ci mod 8 =? 0) then (c' :: cols', Throw AssertFailed)
          else let r := fill_columns infos' cols' in (c' :: fst r, snd r)
      end
  | _, _ => (cols, Ok tt)
  end.

(** fill_in_encoder, odc.cc:883-981.  The two explicit checks throw SeriousBug. *)
Definition fill_in (m : mem) (e : cencoder) : cencoder * outcome unit :=
  let infos := map default_size (ce_infos e) in
  let e1 := with_infos e infos in
  let width := fold_right Z.add 0 (map ci_size infos) in
  match ce_array e with
  | Some base =>
      if ce_height e <? ce_nrows e then (e1, Throw SeriousBug)
      else if ce_width e <? width then (e1, Throw SeriousBug)
      else let r := fill_array m (ce_major e) (ce_width e) (ce_height e) base 0 infos (ce_cols e) in (with_cols e1 (fst r), snd r)
  | None => let r := fill_columns infos (ce_cols e) in (with_cols e1 (fst r), snd r)
  end.

(** The element at row [r] of the ConstStridedData of a column, odc.cc:1000-1004 and
    StridedData.h:107.  Memory of the caller is readable everywhere; reading beyond a
    transposed copy, through a null pointer or in a freed copy is undefined. *)
Definition element (m : mem) (size : Z) (c : ecol) (r : nat) : outcome (list Z) :=
  let off := signed 32 (Z.of_nat r mod 2 ^ 32) * ec_stride c in
  match ec_data c with
  | At a => Ok (load m (a + off) (Z.to_nat size))
  | Buffer b => if (0 <=? off) && (off + size <=? Z.of_nat (length b)) then Ok (firstn (Z.to_nat size) (skipn (Z.to_nat off) b)) else UB
  | Null | Freed => UB
  end.
Definition column_data (m : mem) (nrows : nat) (cc : colinfo * ecol) : outcome coldata :=
  do cells <- map_out (element m (ci_size (fst cc)) (snd cc)) (seq 0 nrows);
  Ok {| cd_size := ci_size (fst cc); cd_cells := cells |}.

(** The transposed copies go out of scope, odc.cc:991. *)
Definition release (e : cencoder) : cencoder :=
  with_cols e (map (fun c => {| ec_data := match ec_data c with Buffer _ => Freed | s => s end; ec_stride := ec_stride c |}) (ce_cols e)).

Section WithMd5.
Variable md5 : list Z -> list Z.
Variable version : list Z.
Variable st : settings.
Variable m : mem.

(** odc_encode_to_data_handle, odc.cc:983-1008: the encoder afterwards, the bytes written
    and how the call ended.  All elements are read before the first frame is encoded. *)
Definition encode_handle (e : cencoder) : cencoder * (list Z * outcome unit) :=
  if (ce_nrows e =? 0) || negb (length (ce_cols e) =? length (ce_infos e))%nat || (ce_max e =? 0) then (e, ([], Throw AssertFailed))
  else
    let (e1, r) := fill_in m e in
    (release e1,
     match r with
     | Throw x => ([], Throw x)
     | UB => ([], UB)
     | Ok _ =>
         if (length (ce_cols e1) =? 0)%nat then ([], Throw AssertFailed)
         else match map_out (column_data m (Z.to_nat (ce_nrows e1))) (combine (ce_infos e1) (ce_cols e1)) with
              | Ok data =>
                  match encode_api md5 version (Z.to_nat (ce_nrows e1)) st LE (ce_infos e1) data (ce_props e1) (Z.to_nat (ce_max e1)) with
                  | Some x => x
                  | None => ([], UB)    (* the loop of encode does not end; not reached, as ce_max is not 0 *)
                  end
              | Throw x => ([], Throw x)
              | UB => ([], UB)
              end
     end).

(** odc_encode_to_stream and odc_encode_to_file_descriptor, odc.cc:1011-1053, with a
    handle that accepts every write: the value of bytes_encoded. *)
Definition encode_stream (e : cencoder) : cencoder * (list Z * outcome Z) :=
  let '(e1, (b, r)) := encode_handle e in (e1, (b, do _ <- r; Ok (Z.of_nat (length b)))).

(** odc_encode_to_buffer, odc.cc:1055-1064.  eckit's MemoryHandle writes what fits and
    returns that count, and the ASSERTs of Encoder.cc:118-119 then fail. *)
Definition encode_buffer (capacity : Z) (e : cencoder) : cencoder * (list Z * outcome Z) :=
  let '(e1, (b, r)) := encode_handle e in
  if capacity <? Z.of_nat (length b) then (e1, (firstn (Z.to_nat capacity) b, Throw AssertFailed))
  else (e1, (b, do _ <- r; Ok (Z.of_nat (length b)))).

End WithMd5.

(** ** Histories of calls *)

Inductive call :=
| AddProperty (k v : list Z)
| SetRowCount (n : Z)
| SetRowsPerFrame (n : Z)
| SetDataArray (data : option Z) (width height major : Z)
| AddColumn (nm : list Z) (ty : Z)
| SetDataSize (col size : Z)
| SetColumnArray (col size stride : Z) (data : option Z)
| AddBitfield (col : Z) (nm : list Z) (nbits : Z)
| EncodeFrom (m : mem).

(** wrapApiFunction, odc.cc:133-164: a refused call returns an error and leaves what it
    has not assigned. *)
Definition kept (e : cencoder) (r : outcome cencoder) : cencoder := match r with Ok e' => e' | _ => e end.

Definition after (md5 : list Z -> list Z) (version : list Z) (st : settings) (e : cencoder) (c : call) : cencoder :=
  match c with
  | AddProperty k v => add_property k v e
  | SetRowCount n => set_row_count n e
  | SetRowsPerFrame n => set_rows_per_frame n e
  | SetDataArray d w h major => fst (set_data_array d w h major e)
  | AddColumn nm ty => add_column nm ty e
  | SetDataSize col size => kept e (column_set_data_size col size e)
  | SetColumnArray col size stride d => kept e (column_set_data_array col size stride d e)
  | AddBitfield col nm nbits => kept e (column_add_bitfield col nm nbits e)
  | EncodeFrom m => fst (encode_handle md5 version st m e)
  end.
