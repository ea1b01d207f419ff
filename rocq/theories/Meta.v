(** core/Column.{h,cc}, core/MetaData.{h,cc}, codec/CodecOptimizer.{h,cc}. *)
From Verif Require Import Base Fp Stream Codec.

(** A column: core/Column.h:119-124. *)
Record column := {
  col_name : list Z;
  col_type : Z;
  col_bfnames : list (list Z);    (* bitfieldDef_.first *)
  col_bfsizes : list Z;           (* bitfieldDef_.second, int32_t *)
  col_coder : codec
}.

Definition with_coder (c : column) (k : codec) : column :=
  {| col_name := col_name c; col_type := col_type c; col_bfnames := col_bfnames c;
     col_bfsizes := col_bfsizes c; col_coder := k |}.

(** Settings that influence the code: ODBAPISettings::integersAsDoubles() (default
    true, ODBAPISettings.cc:108) and whether the environment variable
    ODC_ENABLE_WRITING_LONG_STRING_CODEC is set (CodecOptimizer.h:104).  The default
    codec map is taken without the ODC_DEFAULT_CODEC override
    (CodecOptimizer.cc:38-44). *)
Record settings := { iad : bool; long_strings : bool }.

(** Column::type<ByteOrder>(t), core/Column.h:181-211: the working codec. *)
Definition working_codec (st : settings) (o : order) (ty : Z) : outcome codec :=
  if ty =? ty_INTEGER then Ok (new_codec (iad st) o KInt32 ty)
  else if ty =? ty_BITFIELD then set_missing_value (new_codec (iad st) o KInt32 ty) bitfieldMDI
  else if (ty =? ty_REAL) || (ty =? ty_DOUBLE) then Ok (new_codec (iad st) o KLongReal ty)
  else if ty =? ty_STRING then Ok (new_codec (iad st) o KChars ty)
  else Throw AssertFailed.

(** col.coder(build(codec)); hasMissing; missingValue; min; max:
    CodecOptimizer.h:74-78, 88-92, 119-123, 148-152. *)
Definition adopt (c0 : codec) (fresh : codec) : outcome codec :=
  do c1 <- set_missing_value fresh (c_missing c0);
  Ok (set_stats c1 (if c_hasMissing c0 =? 0 then 0 else 1) (c_min c0) (c_max c0) (c_missing c1)).

Definition has_missing (c : codec) : bool := negb (c_hasMissing c =? 0).

(** CodecOptimizer::setOptimalCodecs for one column of type REAL, CodecOptimizer.h:55-83. *)
Definition optimize_real (st : settings) (o : order) (c : codec) : outcome codec :=
  match c_kind c, c_ord c with
  | KLongReal, LE =>
      do k <- (if deq (c_max c) (c_min c) then
                 Ok (if has_missing c then KRealConstantOrMissing else KConstant)
               else if c_seenFltMax c then
                      do _ <- assert (negb (c_seenFltMin c)); Ok KShortReal
                    else if c_seenFltMin c then Ok KShortReal2
                         else Ok KShortReal2);
      adopt c (new_codec (iad st) o k ty_REAL)
  | _, _ => Throw AssertFailed
  end.

(** DOUBLE, CodecOptimizer.h:85-96. *)
Definition optimize_double (st : settings) (o : order) (c : codec) : outcome codec :=
  let k := if deq (c_max c) (c_min c) then
             (if has_missing c then KRealConstantOrMissing else KConstant)
           else KLongReal in
  adopt c (new_codec (iad st) o k ty_DOUBLE).

(** numStrings(): Codec.h:83, String.h:55, Constant.h:71, 94. *)
Definition num_strings (c : codec) : outcome Z :=
  match c_kind c with
  | KConstantString | KLongConstantString => Ok 1
  | KChars | KInt8String | KInt16String => Ok (Z.of_nat (length (c_strings c)))
  | _ => Throw NotImplemented
  end.

(** STRING, CodecOptimizer.h:98-126. *)
Definition optimize_string (st : settings) (o : order) (c : codec) : outcome codec :=
  do n <- num_strings c;
  do _ <- assert (n <? 65536);
  let k := if (n =? 1) && (data_size_doubles c =? 1) then KConstantString
           else if (n =? 1) && long_strings st then KLongConstantString
                else if n <? 256 then KInt8String else KInt16String in
  let fresh := new_codec (iad st) o k ty_STRING in
  do fresh' <- (match k with
                | KConstantString => Ok fresh
                | _ =>
                    do f1 <- set_data_size fresh (data_size_doubles c);
                    Ok (set_strings f1 (c_strings c) (c_lookup c) (c_dsd f1))
                end);
  adopt c fresh'.

(** INTEGER and BITFIELD, CodecOptimizer.h:128-158.  [n = max - min] converts a
    double to long long. *)
Definition optimize_int (st : settings) (o : order) (ty : Z) (c : codec) : outcome codec :=
  do n <- d2i64 (dsub (c_max c) (c_min c));
  let k := if has_missing c then
             if n =? 0 then KConstantOrMissing
             else if n <? 255 then KInt8Missing
                  else if n <? 65535 then KInt16Missing else KInt32
           else
             if n =? 0 then KConstant
             else if n <=? 255 then KInt8
                  else if n <=? 65535 then KInt16 else KInt32 in
  adopt c (new_codec (iad st) o k ty).

(** CodecOptimizer::setOptimalCodecs<ByteOrder>, one column, CodecOptimizer.h:54-163;
    an unsupported type is only logged. *)
Definition optimize (st : settings) (o : order) (ty : Z) (c : codec) : outcome codec :=
  if ty =? ty_REAL then optimize_real st o c
  else if ty =? ty_DOUBLE then optimize_double st o c
  else if ty =? ty_STRING then optimize_string st o c
  else if (ty =? ty_INTEGER) || (ty =? ty_BITFIELD) then optimize_int st o ty c
  else Ok c.

(** Column::isConstant, core/Column.cc:90-94. *)
Definition is_constant (c : column) : bool :=
  match c_kind (col_coder c) with
  | KConstant | KConstantString | KLongConstantString => true
  | _ => false
  end.

(** Column::equals, core/Column.cc:104-114. *)
Definition column_equals (sizes : bool) (a b : column) : bool :=
  bytes_eqb (col_name a) (col_name b) && (col_type a =? col_type b) &&
  (if sizes then data_size_doubles (col_coder a) =? data_size_doubles (col_coder b) else true).

(** ** Column::save / load, core/Column.h:130-178 *)

(** Column::save.  Saving through a stream of another byte order than the codec's
    throws (Codec.cc:86-92). *)
Definition save_column (o : order) (c : column) : outcome (list Z) :=
  do bf <- (if col_type c =? ty_BITFIELD then
              do _ <- assert (length (col_bfnames c) =? length (col_bfsizes c))%nat;
              Ok (w_vec o (w_string o) (col_bfnames c) ++ w_vec o (w_int o 4) (col_bfsizes c))
            else Ok []);
  do _ <- (match o, c_ord (col_coder c) with
           | LE, LE | BE, BE => Ok tt
           | _, _ => Throw SeriousBug
           end);
  do k <- save (col_coder c);
  Ok (w_string o (col_name c) ++ w_int o 4 (col_type c) ++ bf
      ++ w_string o (kname (c_kind (col_coder c))) ++ k).

(** CodecFactory::load, core/CodecFactory.h:163-171. *)
Definition load_codec (st : settings) (o : order) (ty : Z) : reader codec := fun s =>
  do (nm, s1) <- read_string o s;
  match kind_of_name nm with
  | None => Throw DecodeError
  | Some k => load (new_codec (iad st) o k ty) s1
  end.

(** Column::load, core/Column.h:131-152. *)
Definition load_column (st : settings) (o : order) : reader column := fun s =>
  do (nm, s1) <- read_string o s;
  do (ty, s2) <- read_i32 o s1;
  do (bf, s3) <- (if ty =? ty_BITFIELD then
                    do (names, s2a) <- read_vec o (read_string o) s2;
                    do (sizes, s2b) <- read_vec o (read_i32 o) s2a;
                    do _ <- assert (length names =? length sizes)%nat;
                    Ok ((names, sizes), s2b)
                  else Ok (([], []), s2));
  do (k, s4) <- load_codec st o ty s3;
  Ok ({| col_name := nm; col_type := ty; col_bfnames := fst bf; col_bfsizes := snd bf;
         col_coder := k |}, s4).

Fixpoint save_columns (o : order) (cs : list column) : outcome (list Z) :=
  match cs with
  | [] => Ok []
  | c :: cs' =>
      do b <- save_column o c;
      do bs <- save_columns o cs';
      Ok (b ++ bs)
  end.

(** MetaData::save, core/MetaData.h:138-143. *)
Definition save_meta (o : order) (cs : list column) : outcome (list Z) :=
  do b <- save_columns o cs;
  Ok (w_int o 4 (Z.of_nat (length cs)) ++ b).

(** MetaData::load, core/MetaData.h:146-159. *)
Definition load_meta (st : settings) (o : order) : reader (list column) :=
  read_vec o (load_column st o).
