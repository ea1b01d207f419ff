(** The decoder of the C API, api/odc.cc:47-69 and 485-775. *)
From Verif Require Import Base Fp Stream Codec Meta Header Table Strided MemDecode Frame ColumnInfo.
Open Scope Z_scope.

(** odc_decoder_t::DecodeColumn, odc.cc:49-54; [None] is a null pointer. *)
Record dcol := { dc_data : option Z; dc_size : Z; dc_stride : Z; dc_transpose : bool }.

(** odc_decoder_t, odc.cc:47-69. *)
Record cdecoder := {
  cd_nrows : Z; cd_names : list (list Z); cd_cols : list dcol;
  cd_width : Z; cd_height : Z; cd_ext : option Z; cd_major : bool; cd_owned : option Z
}.

Definition size_t (x : Z) : Z := x mod 2 ^ 64.

(** odc_new_decoder, odc.cc:56, 487. *)
Definition new_decoder : cdecoder :=
  {| cd_nrows := 0; cd_names := []; cd_cols := []; cd_width := 0; cd_height := 0; cd_ext := None; cd_major := false; cd_owned := None |}.

(** odc_decoder_set_column_major, odc.cc:514-519. *)
Definition set_column_major (b : bool) (d : cdecoder) : cdecoder :=
  {| cd_nrows := cd_nrows d; cd_names := cd_names d; cd_cols := cd_cols d; cd_width := cd_width d; cd_height := cd_height d;
     cd_ext := cd_ext d; cd_major := b; cd_owned := cd_owned d |}.

(** odc_decoder_set_row_count, odc.cc:521-526. *)
Definition set_row_count (n : Z) (d : cdecoder) : cdecoder :=
  {| cd_nrows := size_t n; cd_names := cd_names d; cd_cols := cd_cols d; cd_width := cd_width d; cd_height := cd_height d;
     cd_ext := cd_ext d; cd_major := cd_major d; cd_owned := cd_owned d |}.

(** odc_decoder_set_data_array, odc.cc:536-548. *)
Definition set_data_array (buf : option Z) (w h : Z) (major : bool) (d : cdecoder) : outcome cdecoder :=
  match buf with
  | None => Throw AssertFailed
  | Some a =>
      do _ <- assert (0 <? w);
      do _ <- assert (0 <? h);
      Ok {| cd_nrows := size_t h; cd_names := cd_names d; cd_cols := cd_cols d; cd_width := size_t w; cd_height := size_t h;
            cd_ext := Some a; cd_major := major; cd_owned := cd_owned d |}
  end.

(** odc_decoder_add_column, odc.cc:574-581. *)
Definition add_column (nm : list Z) (d : cdecoder) : cdecoder :=
  {| cd_nrows := cd_nrows d; cd_names := cd_names d ++ [nm];
     cd_cols := cd_cols d ++ [{| dc_data := None; dc_size := 0; dc_stride := 0; dc_transpose := false |}];
     cd_width := cd_width d; cd_height := cd_height d;
     cd_ext := cd_ext d; cd_major := cd_major d; cd_owned := cd_owned d |}.

Definition set_cols (d : cdecoder) (cols : list dcol) : cdecoder :=
  {| cd_nrows := cd_nrows d; cd_names := cd_names d; cd_cols := cols; cd_width := cd_width d; cd_height := cd_height d;
     cd_ext := cd_ext d; cd_major := cd_major d; cd_owned := cd_owned d |}.

(** odc_decoder_column_set_data_size, odc.cc:591-599. *)
Definition column_set_data_size (i : nat) (size : Z) (d : cdecoder) : outcome cdecoder :=
  match nth_error (cd_cols d) i with
  | None => Throw AssertFailed
  | Some c => Ok (set_cols d (list_set (cd_cols d) i
                {| dc_data := dc_data c; dc_size := size_t size; dc_stride := dc_stride c; dc_transpose := dc_transpose c |}))
  end.

(** odc_decoder_column_set_data_array, odc.cc:601-611. *)
Definition column_set_data_array (i : nat) (size stride : Z) (data : option Z) (d : cdecoder) : outcome cdecoder :=
  match nth_error (cd_cols d) i with
  | None => Throw AssertFailed
  | Some c => Ok (set_cols d (list_set (cd_cols d) i
                {| dc_data := data; dc_size := size_t size; dc_stride := size_t stride; dc_transpose := dc_transpose c |}))
  end.

(** FrameImpl::rowCount, Odb.cc:344-347 (the sum does not wrap in any file that fits in
    memory). *)
Definition frame_rows (ts : list table) : Z := fold_right (fun t n => t_rows t + n) 0 ts.

(** odc_decoder_defaults_from_frame, odc.cc:497-512. *)
Definition defaults_from_frame (ts : list table) (d : cdecoder) : outcome cdecoder :=
  do infos <- column_infos ts;
  Ok (fold_left (fun d i => add_column (i_name i) d) infos
        {| cd_nrows := frame_rows ts; cd_names := cd_names d; cd_cols := cd_cols d; cd_width := cd_width d; cd_height := cd_height d;
           cd_ext := cd_ext d; cd_major := cd_major d; cd_owned := cd_owned d |}).

(** The first loop of fill_in_decoder, odc.cc:640-659: element sizes, and the width of the
    columns that had none. *)
Fixpoint fill_sizes (infos : list cinfo) (names : list (list Z)) (cols : list dcol) (width : Z) : outcome (list dcol * Z) :=
  match cols, names with
  | c :: cs, nm :: nms =>
      if dc_size c =? 0 then
        do size <- (match dc_data c with
                    | Some _ => Ok 8
                    | None =>
                        match find (fun i => bytes_eqb (i_name i) nm) infos with
                        | None => Throw AssertFailed
                        | Some i =>
                            do _ <- assert (0 <? i_size i);
                            do _ <- assert (i_size i mod 8 =? 0);
                            Ok (i_size i)
                        end
                    end);
        do (cs', w) <- fill_sizes infos nms cs (size_t (width + size));
        Ok ({| dc_data := dc_data c; dc_size := size; dc_stride := dc_stride c; dc_transpose := dc_transpose c |} :: cs', w)
      else
        do (cs', w) <- fill_sizes infos nms cs width;
        Ok (c :: cs', w)
  | _, _ => Ok (cols, width)
  end.

(** The second loop, odc.cc:678-697: places in the array at [base]. *)
Fixpoint place (major : bool) (base width height offset : Z) (cols : list dcol) : list dcol :=
  match cols with
  | [] => []
  | c :: cs =>
      match dc_data c with
      | None =>
          let c' := {| dc_data := Some (base + offset); dc_size := dc_size c;
                       dc_stride := if major then dc_size c else width;
                       dc_transpose := if major && (8 <? dc_size c) then true else dc_transpose c |} in
          c' :: place major base width height (if major then offset + height * dc_size c else offset + dc_size c) cs
      | Some _ =>
          (if dc_stride c =? 0 then {| dc_data := dc_data c; dc_size := dc_size c; dc_stride := dc_size c; dc_transpose := dc_transpose c |} else c)
          :: place major base width height offset cs
      end
  end.

(** fill_in_decoder, odc.cc:630-699.  [heap] is the address of the new array of
    width * height bytes (odc.cc:673), if one is allocated. *)
Definition fill_in (heap : Z) (ts : list table) (d : cdecoder) : outcome cdecoder :=
  let nrows := if cd_nrows d =? 0 then frame_rows ts else cd_nrows d in
  do infos <- column_infos ts;
  do (cols, width) <- fill_sizes infos (cd_names d) (cd_cols d) 0;
  let d1 := {| cd_nrows := nrows; cd_names := cd_names d; cd_cols := cols; cd_width := cd_width d; cd_height := cd_height d;
               cd_ext := cd_ext d; cd_major := cd_major d; cd_owned := cd_owned d |} in
  if (width =? 0) || (nrows =? 0) then Ok d1
  else
    match cd_ext d with
    | Some a =>
        do _ <- assert (width <=? cd_width d);
        do _ <- assert (nrows <=? cd_height d);
        Ok {| cd_nrows := nrows; cd_names := cd_names d; cd_cols := place (cd_major d) a (cd_width d) (cd_height d) 0 cols;
              cd_width := cd_width d; cd_height := cd_height d; cd_ext := Some a; cd_major := cd_major d; cd_owned := None |}
    | None =>
        Ok {| cd_nrows := nrows; cd_names := cd_names d; cd_cols := place (cd_major d) heap width nrows 0 cols;
              cd_width := width; cd_height := nrows; cd_ext := None; cd_major := cd_major d; cd_owned := Some heap |}
    end.

(** The arrays handed to the C++ API, odc.cc:726-739.  [tmp i] is the address of the
    temporary array for column [i].  A null pointer is accepted here and fatal as soon as
    an element is accessed; it is UB in the model even when there are no rows. *)
Fixpoint facades (tmp : nat -> Z) (nrows : Z) (i : nat) (cols : list dcol) : outcome (list strided) :=
  match cols with
  | [] => Ok []
  | c :: cs =>
      do a <- (if dc_transpose c then
                 do _ <- assert (dc_size c mod 8 =? 0);
                 do _ <- assert (dc_stride c =? dc_size c);
                 Ok (tmp i)
               else match dc_data c with Some a => Ok a | None => UB end);
      do r <- facades tmp nrows (S i) cs;
      Ok ({| s_base := a; s_nelem := nrows; s_size := dc_size c; s_stride := dc_stride c |} :: r)
  end.

(** The reordering of one column, odc.cc:752-763: [out] and [src] are addresses. *)
Fixpoint reorder_row (out src rows : Z) (row : Z) (cols : nat) (m : mem) : mem :=
  match cols with
  | O => m
  | S c =>
      let m1 := reorder_row out src rows row c m in
      store m1 (out + 8 * (row + Z.of_nat c * rows)) (load m1 (src + 8 * Z.of_nat c) 8)
  end.
Fixpoint reorder (out src rows : Z) (cols : nat) (n : nat) (m : mem) : mem :=
  match n with
  | O => m
  | S r =>
      reorder_row out (src + 8 * (Z.of_nat r * Z.of_nat cols)) rows (Z.of_nat r) cols (reorder out src rows cols r m)
  end.

(** odc.cc:752-763, for all columns in turn. *)
Fixpoint reorder_all (tmp : nat -> Z) (nrows : Z) (n : nat) (i : nat) (cols : list dcol) (m : mem) : mem :=
  match cols with
  | [] => m
  | c :: cs =>
      reorder_all tmp nrows n (S i) cs
        (if dc_transpose c then
           match dc_data c with Some a => reorder a (tmp i) nrows (Z.to_nat (dc_size c / 8)) n m | None => m end
         else m)
  end.

(** odc_decode_threaded, odc.cc:701-771, without the number of threads: the checks, the
    decoder afterwards and the arrays to decode into. *)
Definition prepare_decode (heap : Z) (tmp : nat -> Z) (ts : list table) (d : cdecoder) : outcome (cdecoder * list strided) :=
  let ncols := match ts with t :: _ => length (t_cols t) | [] => O end in
  do _ <- assert (length (cd_cols d) =? length (cd_names d))%nat;
  do _ <- assert (length (cd_names d) <=? ncols)%nat;
  do _ <- assert (frame_rows ts <=? cd_nrows d);
  do d1 <- fill_in heap ts d;
  do arrs <- facades tmp (cd_nrows d1) 0 (cd_cols d1);
  Ok (d1, arrs).

(** odc_decode_threaded: [c_decode] relates the memory before and after a call. *)
Inductive c_decode (n : Z) (heap : Z) (tmp : nat -> Z) (file : list Z) (ts : list table) (d : cdecoder) (m : mem)
  : outcome (cdecoder * Z) -> mem -> Prop :=
| cd_refused r : prepare_decode heap tmp ts d = r -> is_ok r = false ->
    c_decode n heap tmp file ts d m (match r with Ok _ => UB | Throw e => Throw e | UB => UB end) m
| cd_no_threads r : prepare_decode heap tmp ts d = Ok r -> n < 1 -> c_decode n heap tmp file ts d m (Throw AssertFailed) m
| cd_failed d1 arrs r m' : prepare_decode heap tmp ts d = Ok (d1, arrs) -> 1 <= n ->
    runs (frame_decode (Z.to_nat n) file (cd_names d) ts arrs) m r m' -> is_ok r = false ->
    c_decode n heap tmp file ts d m (match r with Ok _ => UB | Throw e => Throw e | UB => UB end) m'
| cd_done d1 arrs m' : prepare_decode heap tmp ts d = Ok (d1, arrs) -> 1 <= n ->
    runs (frame_decode (Z.to_nat n) file (cd_names d) ts arrs) m (Ok tt) m' ->
    c_decode n heap tmp file ts d m (Ok (d1, frame_rows ts))
      (reorder_all tmp (cd_nrows d1) (Z.to_nat (frame_rows ts)) 0 (cd_cols d1) m').
