(** core/Encoder.cc: encodeFrame; api/Odb.cc: encode. *)
From Coq Require Import String.
From Verif Require Import Base Fp Stream Codec Meta Header.
Open Scope Z_scope.

(** api::ColumnInfo, api/ColumnInfo.h:29-49; a bitfield member is (name, size). *)
Record colinfo := {
  ci_name : list Z;
  ci_type : Z;
  ci_size : Z;                          (* decodedSize, bytes *)
  ci_bits : list (list Z * Z)
}.

(** The data of a column: ConstStridedData seen as its list of elements, each of
    dataSize() bytes (api/StridedData.h:82-109; the memory layout is in Strided.v). *)
Record coldata := { cd_size : Z; cd_cells : list (list Z) }.

(** One column's working state, Encoder.cc:38-51. *)
Definition make_column (st : settings) (ci : colinfo) : outcome column :=
  do k <- working_codec st LE (ci_type ci);
  do _ <- assert (ci_size ci mod 8 =? 0);
  do k1 <- set_data_size k (ci_size ci / 8);
  Ok {| col_name := ci_name ci; col_type := ci_type ci;
        col_bfnames := map fst (ci_bits ci); col_bfsizes := map snd (ci_bits ci);
        col_coder := k1 |}.

Fixpoint map_out {A B} (f : A -> outcome B) (l : list A) : outcome (list B) :=
  match l with
  | [] => Ok []
  | x :: xs => do y <- f x; do ys <- map_out f xs; Ok (y :: ys)
  end.

(** Gathering over one column, Encoder.cc:57-65. *)
Definition gather_column (nrows : Z) (cd : column * coldata) : outcome column :=
  do _ <- assert (Z.of_nat (List.length (cd_cells (snd cd))) =? nrows);
  do k <- gather_all (col_coder (fst cd)) (cd_cells (snd cd));
  Ok (with_coder (fst cd) k).

(** CodecOptimizer().setOptimalCodecs<SameByteOrder>(md), Encoder.cc:69.  [o] is
    the byte order of the codecs built; encodeFrame uses SameByteOrder, i.e. [LE]. *)
Definition optimize_column (st : settings) (o : order) (c : column) : outcome column :=
  do k <- optimize st o (col_type c) (col_coder c);
  Ok (with_coder c k).

(** The index of the first column whose element changed with respect to the row
    before, Encoder.cc:88-95 (memcmp, StridedData.h:124-128). *)
Fixpoint start_col (prev cur : list (list Z)) : nat :=
  match prev, cur with
  | p :: ps, c :: cs => if bytes_eqb c p then S (start_col ps cs) else O
  | _, _ => O
  end.

(** Encoder.cc:98: the two marker bytes. *)
Definition marker (n : nat) : list Z := [(Z.of_nat n / 256) mod 256; Z.of_nat n mod 256].

(** Encoder.cc:101-106: the codecs of the columns from startCol on. *)
Fixpoint encode_cells (ks : list codec) (row : list (list Z)) : outcome (list Z) :=
  match ks, row with
  | k :: ks', x :: row' =>
      do b <- encode k x;
      do bs <- encode_cells ks' row';
      Ok (b ++ bs)
  | _, _ => Ok []
  end.

Definition encode_row (ks : list codec) (start : nat) (row : list (list Z)) : outcome (list Z) :=
  do b <- encode_cells (skipn start ks) (skipn start row);
  Ok (marker start ++ b).

(** Encoder.cc:87-107.  [prev] is the row before, if any. *)
Fixpoint encode_rows (ks : list codec) (prev : option (list (list Z))) (rows : list (list (list Z)))
  : outcome (list Z) :=
  match rows with
  | [] => Ok []
  | r :: rs =>
      do b <- encode_row ks (match prev with None => O | Some p => start_col p r end) r;
      do bs <- encode_rows ks (Some r) rs;
      Ok (b ++ bs)
  end.

(** rows of a table given by columns *)
Definition row_at (cols : list (list (list Z))) (r : nat) : list (list Z) :=
  map (fun c => nth r c []) cols.
Definition rows_of (nrows : nat) (cols : list (list (list Z))) : list (list (list Z)) :=
  map (row_at cols) (seq 0 nrows).

(** maxRowSize, Encoder.cc:55, 64. *)
Definition max_row_size (data : list coldata) : Z :=
  2 + fold_right Z.add 0 (map cd_size data).

Section WithMd5.
Variable md5 : list Z -> list Z.
(** the string "odc version " + LibOdc::instance().version(), Encoder.cc:112 *)
Variable version : list Z.

(** encodeFrame, Encoder.cc:25-119, as the bytes written to [out].  The codecs
    write through a bare pointer into a buffer of maxRowSize * nrows bytes
    (Encoder.cc:84): writing more is undefined. *)
Definition encode_frame (st : settings) (o : order) (cols : list colinfo) (data : list coldata)
  (properties : props) : outcome (list Z) :=
  do _ <- assert (List.length cols =? List.length data)%nat;
  do _ <- assert (0 <? List.length cols)%nat;
  let nrows := match data with d :: _ => List.length (cd_cells d) | [] => O end in
  do md0 <- map_out (make_column st) cols;
  do md1 <- map_out (gather_column (Z.of_nat nrows)) (combine md0 data);
  do md2 <- map_out (optimize_column st o) md1;
  let ks := map col_coder md2 in
  do body <- encode_rows ks None (rows_of nrows (map cd_cells data));
  if max_row_size data * Z.of_nat nrows <? Z.of_nat (List.length body) then UB
  else
    do h <- serialize_header md5 o (Z.of_nat (List.length body)) (Z.of_nat nrows)
              (mset properties (str "encoder"%string) version) md2;
    Ok (h ++ body).

(** The slices of one column, StridedData.h:72-80. *)
Definition slice_col (off n : nat) (d : coldata) : coldata :=
  {| cd_size := cd_size d; cd_cells := firstn n (skipn off (cd_cells d)) |}.

(** The loop of api/Odb.cc:674-685, as the bytes written to [out] and how it ended
    (encodeFrame computes a whole frame before it writes it, Encoder.cc:116-118).
    [fuel] bounds the loop (it does not end when [maxRows] is 0 and there are rows);
    [None] means it ran out. *)
Fixpoint encode_slices (fuel : nat) (st : settings) (o : order) (cols : list colinfo)
  (data : list coldata) (properties : props) (maxRows nrows start : nat)
  : option (list Z * outcome unit) :=
  if (nrows <=? start)%nat then Some ([], Ok tt)
  else
    match fuel with
    | O => None
    | S f =>
        let n := Nat.min (nrows - start) maxRows in
        match encode_frame st o cols (map (slice_col start n) data) properties with
        | Ok b =>
            match encode_slices f st o cols data properties maxRows nrows (start + n) with
            | Some (bs, r) => Some (b ++ bs, r)
            | None => None
            end
        | Throw e => Some ([], Throw e)
        | UB => Some ([], UB)
        end
    end.

(** api/Odb.cc:660-687, encode: one frame when everything fits, otherwise slices of
    maxRowsPerFrame rows. *)
Definition encode_api (fuel : nat) (st : settings) (o : order) (cols : list colinfo)
  (data : list coldata) (properties : props) (maxRows : nat) : option (list Z * outcome unit) :=
  if negb (List.length cols =? List.length data)%nat || (List.length data =? 0)%nat then
    Some ([], Throw AssertFailed)
  else
    let nrows := match data with d :: _ => List.length (cd_cells d) | [] => O end in
    if negb (forallb (fun d => (List.length (cd_cells d) =? nrows)%nat) data) then
      Some ([], Throw AssertFailed)
    else if (nrows <=? maxRows)%nat then
           match encode_frame st o cols data properties with
           | Ok b => Some (b, Ok tt)
           | Throw e => Some ([], Throw e)
           | UB => Some ([], UB)
           end
         else encode_slices fuel st o cols data properties maxRows nrows 0.

End WithMd5.
