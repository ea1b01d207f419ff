(** core/Codec.{h,cc}, codec/*.h: all codecs. *)
From Coq Require Import String Ascii.
From Verif Require Import Base Fp Stream.
Open Scope Z_scope.

(** bytes of an ASCII literal *)
Fixpoint str (s : string) : list Z :=
  match s with
  | EmptyString => []
  | String c s' => Z.of_nat (nat_of_ascii c) :: str s'
  end.

(** ** Column types, api/ColumnType.h.  Stored in files as int32, so a type is a
    [Z] and unknown values are possible. *)
Definition ty_IGNORE : Z := 0.
Definition ty_INTEGER : Z := 1.
Definition ty_REAL : Z := 2.
Definition ty_STRING : Z := 3.
Definition ty_BITFIELD : Z := 4.
Definition ty_DOUBLE : Z := 5.

(** MDI.cc:15-18, as double patterns; MDI.h:27 bitfieldMDI = integerMDI. *)
Definition realMDI : Z := z2d (-2147483647).
Definition integerMDI : Z := z2d 2147483647.
Definition bitfieldMDI : Z := integerMDI.

(** Codec classes, by the name under which they are registered:
    codec/Integer.cc:22-26, IntegerMissing.cc, Real.cc, String.cc, Constant.cc. *)
Inductive ckind : Type :=
| KConstant | KConstantString | KLongConstantString
| KInt8 | KInt16 | KInt32
| KInt8Missing | KInt16Missing | KConstantOrMissing | KRealConstantOrMissing
| KLongReal | KShortReal | KShortReal2
| KChars | KInt8String | KInt16String.

Definition all_kinds : list ckind :=
  [KConstant; KConstantString; KLongConstantString; KInt8; KInt16; KInt32;
   KInt8Missing; KInt16Missing; KConstantOrMissing; KRealConstantOrMissing;
   KLongReal; KShortReal; KShortReal2; KChars; KInt8String; KInt16String].

Definition kname (k : ckind) : list Z :=
  match k with
  | KConstant => str "constant"                            (* Constant.h:34 *)
  | KConstantString => str "constant_string"               (* Constant.h:58 *)
  | KLongConstantString => str "long_constant_string"      (* Constant.h:84 *)
  | KInt8 => str "int8"                                    (* Integer.h:161 *)
  | KInt16 => str "int16"                                  (* Integer.h:169 *)
  | KInt32 => str "int32"                                  (* Integer.h:177 *)
  | KInt8Missing => str "int8_missing"                     (* IntegerMissing.h:73 *)
  | KInt16Missing => str "int16_missing"                   (* IntegerMissing.h:83 *)
  | KConstantOrMissing => str "constant_or_missing"        (* IntegerMissing.h:97 *)
  | KRealConstantOrMissing => str "real_constant_or_missing" (* IntegerMissing.h:129 *)
  | KLongReal => str "long_real"                           (* Real.h:33 *)
  | KShortReal => str "short_real"                         (* Real.h:124 *)
  | KShortReal2 => str "short_real2"                       (* Real.h:132 *)
  | KChars => str "chars"                                  (* String.h:32 *)
  | KInt8String => str "int8_string"                       (* String.h:214 *)
  | KInt16String => str "int16_string"                     (* String.h:223 *)
  end.

(** CodecFactory lookup by name, core/CodecFactory.h:153-160. *)
Definition kind_of_name (n : list Z) : option ckind :=
  find (fun k => bytes_eqb (kname k) n) all_kinds.

(** Codecs built by IntegerCodecBuilder (ValueType int64_t or double),
    core/CodecFactory.h:122-148. *)
Definition int_built (k : ckind) : bool :=
  match k with
  | KConstant | KInt8 | KInt16 | KInt32 | KInt8Missing | KInt16Missing | KConstantOrMissing => true
  | _ => false
  end.

(** Subclasses of BaseCodecInteger, codec/Integer.h:30. *)
Definition base_integer (k : ckind) : bool :=
  match k with
  | KInt8 | KInt16 | KInt32 | KInt8Missing | KInt16Missing | KConstantOrMissing
  | KRealConstantOrMissing => true
  | _ => false
  end.

(** Subclasses of CodecChars. *)
Definition chars_based (k : ckind) : bool :=
  match k with
  | KChars | KInt8String | KInt16String | KLongConstantString => true
  | _ => false
  end.

(** State of a codec object.  Numbers are bit patterns of doubles.
    castedMissingValue_ (Integer.h:77) is always the cast of missingValue_ and is
    therefore not a separate field. *)
Record codec := {
  c_kind : ckind;
  c_int64 : bool;          (* ValueType is int64_t, CodecFactory.h:133 *)
  c_ord : order;           (* template parameter ByteOrder *)
  c_hasMissing : Z;        (* int32_t hasMissing_, Codec.h:105 *)
  c_missing : Z;           (* missingValue_ *)
  c_min : Z;
  c_max : Z;
  c_seenFltMin : bool;     (* hasShortRealInternalMissing_, Real.h:74 *)
  c_seenFltMax : bool;     (* hasShortReal2InternalMissing_, Real.h:75 *)
  c_strings : list (list Z);   (* strings_, String.h:66 *)
  c_lookup : smap Z;           (* stringLookup_, String.h:65 *)
  c_dsd : Z                    (* decodedSizeDoubles_, String.h:67 *)
}.

(** The value min, max and missing start from: Codec.cc:24-30, Integer.h:38-44,
    IntegerMissing.h:133-134, String.h:85-87. *)
Definition initial_mdi (k : ckind) : Z :=
  match k with
  | KInt8 | KInt16 | KInt32 | KInt8Missing | KInt16Missing | KConstantOrMissing
  | KInt8String | KInt16String => integerMDI
  | _ => realMDI
  end.

(** CodecFactory::build, core/CodecFactory.h:132-147, and the constructors.
    [iad] is ODBAPISettings::integersAsDoubles(). *)
Definition new_codec (iad : bool) (o : order) (k : ckind) (ty : Z) : codec :=
  let m := initial_mdi k in
  {| c_kind := k;
     c_int64 := int_built k && ((ty =? ty_INTEGER) || (ty =? ty_BITFIELD)) && negb iad;
     c_ord := o;
     c_hasMissing := 0; c_missing := m; c_min := m; c_max := m;
     c_seenFltMin := false; c_seenFltMax := false;
     c_strings := []; c_lookup := []; c_dsd := 1 |}.

Definition set_stats (c : codec) (h mi ma ms : Z) : codec :=
  {| c_kind := c_kind c; c_int64 := c_int64 c; c_ord := c_ord c;
     c_hasMissing := h; c_missing := ms; c_min := mi; c_max := ma;
     c_seenFltMin := c_seenFltMin c; c_seenFltMax := c_seenFltMax c;
     c_strings := c_strings c; c_lookup := c_lookup c; c_dsd := c_dsd c |}.

Definition set_seen (c : codec) (a b : bool) : codec :=
  {| c_kind := c_kind c; c_int64 := c_int64 c; c_ord := c_ord c;
     c_hasMissing := c_hasMissing c; c_missing := c_missing c; c_min := c_min c; c_max := c_max c;
     c_seenFltMin := a; c_seenFltMax := b;
     c_strings := c_strings c; c_lookup := c_lookup c; c_dsd := c_dsd c |}.

Definition set_strings (c : codec) (ss : list (list Z)) (lk : smap Z) (n : Z) : codec :=
  {| c_kind := c_kind c; c_int64 := c_int64 c; c_ord := c_ord c;
     c_hasMissing := c_hasMissing c; c_missing := c_missing c; c_min := c_min c; c_max := c_max c;
     c_seenFltMin := c_seenFltMin c; c_seenFltMax := c_seenFltMax c;
     c_strings := ss; c_lookup := lk; c_dsd := n |}.

(** Codec::dataSizeDoubles(), Codec.h:86, String.h:58. *)
Definition data_size_doubles (c : codec) : Z := if chars_based (c_kind c) then c_dsd c else 1.

(** Codec::dataSizeDoubles(size_t), Codec.h:87-90, String.h:59. *)
Definition set_data_size (c : codec) (n : Z) : outcome codec :=
  if chars_based (c_kind c) then Ok (set_strings c (c_strings c) (c_lookup c) n)
  else if n =? 1 then Ok c else Throw SeriousBug.

(** ** Missing values *)

(** int64_t memory image of an integer, as an unsigned pattern. *)
Definition i64_bits (n : Z) : Z := n mod 2 ^ 64.

(** Codec::missingValue() const: Codec.h:80, Integer.h:55-59 (punned
    castedMissingValue_), IntegerMissing.h:138.  Only reached when the cast of
    missingValue_ to ValueType was defined. *)
Definition missing_value (c : codec) : Z :=
  if base_integer (c_kind c) && c_int64 c then
    match d2i64 (c_missing c) with Ok n => i64_bits n | _ => 0 end
  else c_missing c.

(** static_cast<ValueType>(missingValue_), Integer.h:52, 63. *)
Definition check_cast (c : codec) (v : Z) : outcome unit :=
  if base_integer (c_kind c) && c_int64 c then do _ <- d2i64 v; Ok tt else Ok tt.

(** Codec::missingValue(double), Codec.cc:94-98, Integer.h:50-53. *)
Definition set_missing_value (c : codec) (v : Z) : outcome codec :=
  do _ <- assert (deq (c_min c) (c_missing c) && deq (c_max c) (c_missing c));
  do _ <- check_cast c v;
  Ok (set_stats c (c_hasMissing c) v v v).

(** ** Gathering statistics *)

(** Codec::gatherStats, Codec.cc:100-110. *)
Definition base_gather (c : codec) (v : Z) : codec :=
  if deq v (c_missing c) then set_stats c 1 (c_min c) (c_max c) (c_missing c)
  else
    let mi := if dlt v (c_min c) || deq (c_min c) (c_missing c) then v else c_min c in
    let ma := if dlt (c_max c) v || deq (c_max c) (c_missing c) then v else c_max c in
    set_stats c (c_hasMissing c) mi ma (c_missing c).

(** The 8 bytes at a [const double&], as a pattern; UB if the element is shorter. *)
Definition cell_bits (cell : list Z) : outcome Z :=
  if (length cell <? 8)%nat then UB else Ok (le_val (firstn 8 cell)).

(** The double value a codec with ValueType [int64_t]/[double] sees in a cell:
    [reinterpret_cast<const ValueType&>(d)] then conversion to double. *)
Definition as_double (i64 : bool) (b : Z) : Z := if i64 then z2d (signed 64 b) else b.

(** strnlen *)
Fixpoint until_nul (l : list Z) : list Z :=
  match l with
  | [] => []
  | b :: l' => if b =? 0 then [] else b :: until_nul l'
  end.

Definition has_nul (l : list Z) : bool := existsb (fun b => b =? 0) l.

(** std::string(&d, strnlen(&d, n*8)), String.h:121-122, 262-263: reading stops at
    a NUL; running off the element is undefined. *)
Definition cell_string (dsd : Z) (cell : list Z) : outcome (list Z) :=
  let w := firstn (Z.to_nat (8 * dsd)) cell in
  if (Z.of_nat (length cell) <? 8 * dsd) && negb (has_nul w) then UB else Ok (until_nul w).

(** zero padding / truncation to [n] bytes *)
Definition pad (n : nat) (l : list Z) : list Z := firstn n l ++ repeat 0 (n - length l).

(** CodecChars::gatherStats, String.h:260-276. *)
Definition chars_gather (c : codec) (cell : list Z) : outcome codec :=
  do s <- cell_string (c_dsd c) cell;
  let c1 := match mget (c_lookup c) s with
            | Some _ => c
            | None => set_strings c (c_strings c ++ [s])
                        (mset (c_lookup c) s (Z.of_nat (length (c_strings c)))) (c_dsd c)
            end in
  Ok (set_stats c1 (c_hasMissing c1) (le_val (pad 8 s)) (c_max c1) (c_missing c1)).

(** FLT_MIN and FLT_MAX as doubles (Real.h:22-23, 64-65). *)
Definition flt_min : Z := 8388608.       (* 0x800000 *)
Definition flt_max : Z := 2139095039.    (* 0x7f7fffff *)
Definition neg_flt_max : Z := 4286578687. (* 0xff7fffff *)

(** Codec::gatherStats as dispatched virtually: Codec.cc:100, Integer.h:66,
    Real.h:61, Constant.h:105, String.h:260. *)
Definition gather (c : codec) (cell : list Z) : outcome codec :=
  if chars_based (c_kind c) then chars_gather c cell
  else
    do b <- cell_bits cell;
    match c_kind c with
    | KLongReal =>
        let c1 := base_gather c b in
        Ok (set_seen c1 (c_seenFltMin c1 || deq b (f2d flt_min))
                        (c_seenFltMax c1 || deq b (f2d flt_max)))
    | _ => Ok (base_gather c (as_double (c_int64 c) b))
    end.

Fixpoint gather_all (c : codec) (cells : list (list Z)) : outcome codec :=
  match cells with
  | [] => Ok c
  | x :: xs => do c1 <- gather c x; gather_all c1 xs
  end.

(** ** Encoding one value *)

(** CodecIntegerOffset::encode, Integer.h:95-106 ([n] bytes, offset from [mn]). *)
Definition enc_offset (o : order) (n : nat) (i64 : bool) (mn : Z) (b : Z) : outcome (list Z) :=
  do u <- d2u64 (dsub (as_double i64 b) mn);
  Ok (w_int o n u).

(** CodecIntegerDirect::encode, Integer.h:135-143 with int32_t: from double the
    conversion is undefined out of range, from int64_t it wraps. *)
Definition enc_direct (o : order) (i64 : bool) (b : Z) : outcome (list Z) :=
  if i64 then Ok (w_int o 4 b)
  else do n <- d2i32 b; Ok (w_int o 4 n).

(** BaseCodecMissing::encode, IntegerMissing.h:38-53 ([marker] = all ones, [n]
    bytes; assigning a double outside the range of the unsigned type is undefined). *)
Definition enc_missing (o : order) (n : nat) (i64 : bool) (mn ms : Z) (b : Z) : outcome (list Z) :=
  let marker := 256 ^ Z.of_nat n - 1 in
  if deq (as_double i64 b) ms then Ok (w_int o n marker)
  else
    do s <- d2int 0 marker (dsub (as_double i64 b) mn);
    do _ <- assert (negb (s =? marker));
    Ok (w_int o n s).

(** ShortRealBase::encode, Real.h:91-108. *)
Definition enc_short_real (o : order) (marker : Z) (ms : Z) (b : Z) : outcome (list Z) :=
  if deq b ms then Ok (w_int o 4 marker)
  else
    let s := d2f b in
    do _ <- assert (negb (feq f32 s marker));
    Ok (w_int o 4 s).

(** IntStringCodecBase::encode, String.h:116-132. *)
Definition enc_string (c : codec) (n : nat) (cell : list Z) : outcome (list Z) :=
  do s <- cell_string (c_dsd c) cell;
  match mget (c_lookup c) s with
  | None => Throw AssertFailed
  | Some i => enc_offset (c_ord c) n true (z2d 0) (i64_bits i)
  end.

(** Codec::encode as dispatched virtually. *)
Definition encode (c : codec) (cell : list Z) : outcome (list Z) :=
  match c_kind c with
  | KConstant | KConstantString | KLongConstantString => Ok []   (* Constant.h:112, 139, 178 *)
  | KInt8String => enc_string c 1 cell
  | KInt16String => enc_string c 2 cell
  | KChars =>                                                     (* String.h:239-246 *)
      if Z.of_nat (length cell) <? 8 * c_dsd c then UB
      else Ok (firstn (Z.to_nat (8 * c_dsd c)) cell)
  | k =>
      do b <- cell_bits cell;
      match k with
      | KInt8 => enc_offset (c_ord c) 1 (c_int64 c) (c_min c) b
      | KInt16 => enc_offset (c_ord c) 2 (c_int64 c) (c_min c) b
      | KInt32 => enc_direct (c_ord c) (c_int64 c) b
      | KInt8Missing | KConstantOrMissing | KRealConstantOrMissing =>
          enc_missing (c_ord c) 1 (c_int64 c) (c_min c) (c_missing c) b
      | KInt16Missing => enc_missing (c_ord c) 2 (c_int64 c) (c_min c) (c_missing c) b
      | KShortReal => enc_short_real (c_ord c) flt_min (c_missing c) b
      | KShortReal2 => enc_short_real (c_ord c) neg_flt_max (c_missing c) b
      | _ => Ok (w_int (c_ord c) 8 b)                             (* long_real, Real.h:49-54 *)
      end
  end.

(** ** Decoding one value *)

(** Storing a double result into a ValueType: itself, or converted to int64_t. *)
Definition store_value (i64 : bool) (d : Z) : outcome (list Z) :=
  if i64 then do n <- d2i64 d; Ok (le_bytes 8 n) else Ok (le_bytes 8 d).

(** CodecIntegerOffset::decode, Integer.h:108-115. *)
Definition dec_offset (o : order) (n : Z) (i64 : bool) (mn : Z) : reader (list Z) := fun s =>
  do (u, s1) <- read_uint o n s;
  do cell <- store_value i64 (dadd (z2d u) mn);
  Ok (cell, s1).

(** CodecIntegerDirect::decode, Integer.h:145-152. *)
Definition dec_direct (o : order) (i64 : bool) : reader (list Z) := fun s =>
  do (n, s1) <- read_i32 o s;
  Ok (if i64 then le_bytes 8 n else le_bytes 8 (z2d n), s1).

(** BaseCodecMissing::decode, IntegerMissing.h:55-62. *)
Definition dec_missing (o : order) (n : Z) (i64 : bool) (mn ms : Z) : reader (list Z) := fun s =>
  do (u, s1) <- read_uint o n s;
  do cell <- store_value i64 (if u =? 256 ^ n - 1 then ms else dadd (z2d u) mn);
  Ok (cell, s1).

(** ShortRealBase::decode, Real.h:110-116. *)
Definition dec_short_real (o : order) (marker : Z) (ms : Z) : reader (list Z) := fun s =>
  do (f, s1) <- read_uint o 4 s;
  Ok (le_bytes 8 (if feq f32 f marker then ms else f2d f), s1).

(** IntStringCodecBase::decode, String.h:134-148. *)
Definition dec_string (c : codec) (n : Z) : reader (list Z) := fun s =>
  do (u, s1) <- read_uint (c_ord c) n s;
  if Z.of_nat (length (c_strings c)) <=? u then Throw AssertFailed
  else Ok (pad (Z.to_nat (8 * c_dsd c)) (nth (Z.to_nat u) (c_strings c) []), s1).

(** Codec::decode as dispatched virtually; the result is the bytes stored at the
    output pointer. *)
Definition decode (c : codec) : reader (list Z) := fun s =>
  match c_kind c with
  | KConstant => do cell <- store_value (c_int64 c) (c_min c); Ok (cell, s)   (* Constant.h:117-120 *)
  | KConstantString => Ok (le_bytes 8 (c_min c), s)                           (* Constant.h:144-146 *)
  | KLongConstantString =>                                                    (* Constant.h:183-187 *)
      match c_strings c with
      | [] => UB
      | t :: _ => Ok (pad (Z.to_nat ((8 * c_dsd c) mod 2 ^ 64)) t, s)
      end
  | KInt8 => dec_offset (c_ord c) 1 (c_int64 c) (c_min c) s
  | KInt16 => dec_offset (c_ord c) 2 (c_int64 c) (c_min c) s
  | KInt32 => dec_direct (c_ord c) (c_int64 c) s
  | KInt8Missing | KConstantOrMissing | KRealConstantOrMissing =>
      dec_missing (c_ord c) 1 (c_int64 c) (c_min c) (c_missing c) s
  | KInt16Missing => dec_missing (c_ord c) 2 (c_int64 c) (c_min c) (c_missing c) s
  | KLongReal => do (b, s1) <- read_f64 (c_ord c) s; Ok (le_bytes 8 b, s1)    (* Real.h:56 *)
  | KShortReal => dec_short_real (c_ord c) flt_min (c_missing c) s
  | KShortReal2 => dec_short_real (c_ord c) neg_flt_max (c_missing c) s
  | KChars => read_raw (8 * c_dsd c) s                                        (* String.h:249-252 *)
  | KInt8String => dec_string c 1 s
  | KInt16String => dec_string c 2 s
  end.

(** Codec::skip: Integer.h:117, 154; IntegerMissing.h:64; Real.h:58, 118;
    Constant.h:123, 149, 190; String.h:150, 255-257. *)
Definition skip (c : codec) : reader unit := fun s =>
  match c_kind c with
  | KConstant | KConstantString | KLongConstantString => Ok (tt, s)
  | KInt8 | KInt8Missing | KConstantOrMissing | KRealConstantOrMissing | KInt8String => advance 1 s
  | KInt16 | KInt16Missing | KInt16String => advance 2 s
  | KInt32 | KShortReal | KShortReal2 => advance 4 s
  | KLongReal => advance 8 s
  | KChars => advance (8 * c_dsd c) s
  end.

(** ** Saving and loading a codec in a frame header *)

(** DataStreamCodec::save, Codec.h:151-158. *)
Definition save_base (c : codec) : list Z :=
  let o := c_ord c in
  w_int o 4 (c_hasMissing c) ++ w_int o 8 (c_min c) ++ w_int o 8 (c_max c) ++ w_int o 8 (c_missing c).

(** The numbered string entries of IntStringCodecBase::save, String.h:197-201. *)
Fixpoint save_strings (o : order) (i : Z) (ss : list (list Z)) : list Z :=
  match ss with
  | [] => []
  | t :: ss' => w_string o t ++ w_int o 4 0 ++ w_int o 4 i ++ save_strings o (i + 1) ss'
  end.

(** Codec::save as dispatched virtually: Codec.h:151, String.h:191-202, 289-293,
    Constant.h:159-165 (min and max of a constant string are characters and are
    written unswapped), 202-205. *)
Definition save (c : codec) : outcome (list Z) :=
  let o := c_ord c in
  match c_kind c with
  | KConstantString =>
      Ok (w_int o 4 (c_hasMissing c) ++ le_bytes 8 (c_min c) ++ le_bytes 8 (c_max c) ++ w_int o 8 (c_missing c))
  | KLongConstantString =>
      match c_strings c with
      | [] => UB
      | t :: _ => Ok (save_base c ++ w_string o t)
      end
  | KChars => Ok (save_base c ++ w_int o 4 0)
  | KInt8String | KInt16String =>
      Ok (save_base c ++ w_int o 4 (Z.of_nat (length (c_strings c))) ++ save_strings o 0 (c_strings c))
  | _ => Ok (save_base c)
  end.

(** DataStreamCodec::load, Codec.h:142-148. *)
Definition load_base (c : codec) : reader codec := fun s =>
  let o := c_ord c in
  do (h, s1) <- read_i32 o s;
  do (mi, s2) <- read_f64 o s1;
  do (ma, s3) <- read_f64 o s2;
  do (ms, s4) <- read_f64 o s3;
  Ok (set_stats c h mi ma ms, s4).

(** ByteOrder::swap of a double (Constant.h:154-155). *)
Definition swap8 (o : order) (b : Z) : Z := le_val (swap o (le_bytes 8 b)).

Fixpoint list_set {A} (l : list A) (i : nat) (x : A) : list A :=
  match l, i with
  | [], _ => []
  | _ :: l', O => x :: l'
  | y :: l', S i' => y :: list_set l' i' x
  end.

(** ceil(len/8), at least 1: String.h:165, 180-183. *)
Definition string_doubles (t : list Z) : Z := Z.max 1 ((Z.of_nat (length t) + 7) / 8).

(** One entry of the string table, String.h:168-178. *)
Definition load_entry (o : order) : reader (list Z * Z) := fun s =>
  do (t, s1) <- read_string o s;
  do (cnt, s2) <- read_i32 o s1;
  do (i, s3) <- read_i32 o s2;
  Ok ((t, i), s3).

(** The loop of IntStringCodecBase::load, String.h:167-184, with the same [fuel]
    convention as [read_n]. *)
Fixpoint load_entries (o : order) (num : Z) (fuel : nat) (n : Z) (ss : list (list Z)) (dsd : Z)
  : reader (list (list Z) * Z) := fun s =>
  if n <=? 0 then Ok ((ss, dsd), s)
  else match fuel with
       | O => Throw EndOfStream
       | S f =>
           do (e, s1) <- load_entry o s;
           let (t, i) := e in
           do _ <- assert (i <? num);
           if i <? 0 then UB
           else load_entries o num f (n - 1) (list_set ss (Z.to_nat i) t)
                  (Z.max dsd (string_doubles t)) s1
       end.

(** Codec::load as dispatched virtually: Codec.h:142, Integer.h:61-64,
    String.h:153-188, 280-285, Constant.h:152-156, 193-199.  strings_ is resized to
    the announced count (String.h:162); the model bounds that by the number of
    remaining bytes so as not to build absurdly long lists: with a larger count the
    loop cannot complete anyway (every entry takes 12 bytes) and the table is
    discarded. *)
Definition load (c : codec) : reader codec := fun s =>
  let o := c_ord c in
  do (c1, s1) <- load_base c s;
  match c_kind c with
  | KConstantString =>
      Ok (set_stats c1 (c_hasMissing c1) (swap8 o (c_min c1)) (swap8 o (c_max c1)) (c_missing c1), s1)
  | KLongConstantString =>
      do (t, s2) <- read_string o s1;
      let n := if (length t =? 0)%nat then 2 ^ 61 else (Z.of_nat (length t) + 7) / 8 in
      Ok (set_strings c1 (c_strings c1 ++ [t]) (c_lookup c1) n, s2)
  | KChars =>
      do (n, s2) <- read_i32 o s1;
      do _ <- assert (n =? 0);
      Ok (c1, s2)
  | KInt8String | KInt16String =>
      do (n, s2) <- read_i32 o s1;
      do _ <- assert (0 <=? n);
      do (r, s3) <- load_entries o n (S (length s2)) n
                      (repeat [] (Z.to_nat (Z.min n (Z.of_nat (length s2))))) 1 s2;
      do _ <- assert (length (c_lookup c1) =? 0)%nat;
      Ok (set_strings c1 (fst r) (c_lookup c1) (snd r), s3)
  | _ =>
      do _ <- check_cast c1 (c_missing c1);
      Ok (c1, s1)
  end.
