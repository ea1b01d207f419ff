(** Model of the column descriptions of a frame: FrameImpl::columnInfo (api/Odb.cc:299-337)
    and of describing bitfields through the C API (api/odc.cc:864-881). *)
From Verif Require Import Base Fp Stream Codec Meta Header Encoder Table.
Open Scope Z_scope.

(** api/ColumnInfo.h:32-39 and 41-54. *)
Record bit := { b_name : list Z; b_size : Z; b_offset : Z }.
Record cinfo := { i_name : list Z; i_type : Z; i_size : Z; i_bits : list bit }.

(** Odb.cc:319-327: [offset] is a uint8_t; it is added to an int32_t as an int, and an
    overflow of int is undefined. *)
Fixpoint bits_from (offset : Z) (names : list (list Z)) (sizes : list Z) : outcome (list bit) :=
  match names, sizes with
  | nm :: names', sz :: sizes' =>
      if (offset + sz <? - 2 ^ 31) || (2 ^ 31 <=? offset + sz) then UB else
      do rest <- bits_from ((offset + sz) mod 256) names' sizes';
      Ok ({| b_name := nm; b_size := sz; b_offset := offset |} :: rest)
  | _, _ => Ok []
  end.

(** One column, Odb.cc:313-332: the decoded size is a size_t. *)
Definition describe (c : column) : outcome cinfo :=
  do _ <- assert (Nat.eqb (length (col_bfnames c)) (length (col_bfsizes c)));
  do bits <- bits_from 0 (col_bfnames c) (col_bfsizes c);
  Ok {| i_name := col_name c; i_type := col_type c; i_size := (data_size_doubles (col_coder c) * 8) mod 2 ^ 64; i_bits := bits |}.

Fixpoint describe_all (cs : list column) : outcome (list cinfo) :=
  match cs with
  | [] => Ok []
  | c :: cs' => do i <- describe c; do is <- describe_all cs'; Ok (i :: is)
  end.

(** FrameImpl::columnInfo, Odb.cc:299-337: the columns of the first table. *)
Definition column_infos (ts : list table) : outcome (list cinfo) :=
  match ts with
  | [] => Throw AssertFailed
  | t :: _ => describe_all (t_cols t)
  end.

(** odc_encoder_column_add_bitfield, odc.cc:864-881; [nbits] is an int.  The sum of the
    two ints before the conversion to size_t is undefined on overflow. *)
Definition add_bitfield (bits : list bit) (nm : list Z) (nbits : Z) : outcome (list bit) :=
  do offset <- (match rev bits with
                | [] => Ok 0
                | b :: _ => if (b_offset b + b_size b <? - 2 ^ 31) || (2 ^ 31 <=? b_offset b + b_size b) then UB
                            else Ok ((b_offset b + b_size b) mod 2 ^ 64)
                end);
  do _ <- assert ((offset + nbits) mod 2 ^ 64 <=? 32);
  Ok (bits ++ [{| b_name := nm; b_size := nbits; b_offset := signed 32 (offset mod 2 ^ 32) |}]).

(** a sequence of calls for one column *)
Fixpoint add_bitfields (bits : list bit) (calls : list (list Z * Z)) : outcome (list bit) :=
  match calls with
  | [] => Ok bits
  | (nm, nbits) :: calls' => do bits' <- add_bitfield bits nm nbits; add_bitfields bits' calls'
  end.
