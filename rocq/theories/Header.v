(** core/Header.{h,cc}: frame headers. *)
From Coq Require Import String.
From Verif Require Import Base Fp Stream Codec Meta.
Open Scope Z_scope.

Section Md5.
(** eckit::MD5::digest of a byte string (32 hexadecimal characters). *)
Variable md5 : list Z -> list Z.

(** Variable part of the header, Header.cc:160-169. *)
Definition variable_part (o : order) (dataSize nrows : Z) (pr : props) (cs : list column)
  : outcome (list Z) :=
  do m <- save_meta o cs;
  Ok (w_int o 8 dataSize ++ w_int o 8 0 ++ w_int o 8 nrows
      ++ w_vec o (w_int o 8) []            (* Flags flags(0): an empty vector<double> *)
      ++ w_map o pr ++ m).

(** Size of the fixed part, Header.cc:148. *)
Definition fixed_size : Z := 57.

(** Fixed part, Header.cc:187-204. *)
Definition fixed_part (o : order) (digest : list Z) (varSize : Z) : list Z :=
  w_int o 2 65535 ++ str "ODA"%string ++ w_int o 4 1 ++ w_int o 4 0 ++ w_int o 4 5
  ++ w_string o digest ++ w_int o 4 varSize.

(** serializeHeaderInternal, Header.cc:141-207.  [cap] is the current size of the
    buffer.  Writing the variable part throws ODBEndOfDataStream when it does not
    fit in [cap - 57] bytes, and the loop retries with a doubled buffer.  When
    [cap < 57], [buffer.size() - initial_header_size] wraps around (size_t) and
    nothing stops the writes from leaving the buffer: UB.  [fuel] bounds the
    number of attempts; [None] means it ran out. *)
Fixpoint serialize_loop (fuel : nat) (cap : Z) (o : order) (dataSize nrows : Z) (pr : props)
  (cs : list column) : option (outcome (list Z)) :=
  if cap <? fixed_size then Some UB
  else
    match variable_part o dataSize nrows pr cs with
    | Ok v =>
        if cap - fixed_size <? Z.of_nat (length v) then
          match fuel with
          | O => None
          | S f => serialize_loop f (2 * cap) o dataSize nrows pr cs
          end
        else
          let fixed := fixed_part o (md5 v) (Z.of_nat (length v)) in
          if Z.of_nat (length fixed) =? fixed_size then Some (Ok (fixed ++ v))
          else Some (Throw AssertFailed)
    | Throw e => Some (Throw e)
    | UB => Some UB
    end.

(** The result of the loop once it ends: Header.cc:141-207 with a large enough
    buffer (see C03 for the independence from the buffer size). *)
Definition serialize_header (o : order) (dataSize nrows : Z) (pr : props) (cs : list column)
  : outcome (list Z) :=
  do v <- variable_part o dataSize nrows pr cs;
  let fixed := fixed_part o (md5 v) (Z.of_nat (length v)) in
  do _ <- assert (Z.of_nat (length fixed) =? fixed_size);
  Ok (fixed ++ v).

(** A loaded header. *)
Record header := {
  h_order : order;
  h_dataSize : Z;       (* int64_t nextFrameOffset as read *)
  h_rows : Z;           (* int64_t numberOfRows as read *)
  h_props : props;
  h_cols : list column
}.

(** The bytes a data handle still has; dh.read(n) returns at most that many. *)

(** Header::readMagic, Header.cc:37-49; None is "no more data". *)
Definition read_magic (s : list Z) : outcome (option (list Z)) :=
  match s with
  | [] => Ok None
  | _ =>
      if (length s <? 5)%nat then Throw Incomplete
      else if bytes_eqb (firstn 5 s) ([255; 255] ++ str "ODA"%string) then Ok (Some (skipn 5 s))
           else Throw Invalid
  end.

(** The fixed fields after the byte-order word, Header.cc:56-77; the 48-byte
    buffer is a DataStream of its own. *)
Definition load_basic (o : order) (basic : list Z) : outcome (list Z * Z) :=
  do (major, b1) <- read_i32 o basic;
  do _ <- assert (major <=? 0);
  do (minor, b2) <- read_i32 o b1;
  do _ <- assert ((minor <=? 5) && (3 <? minor));
  do (digest, b3) <- read_string o b2;
  do (hsize, _) <- read_i32 o b3;
  Ok (digest, hsize).

(** The variable part, Header.cc:93-121. *)
Definition load_variable (st : settings) (o : order) (buf : list Z) : outcome header :=
  do (dataSize, b1) <- read_i64 o buf;
  do (prev, b2) <- read_i64 o b1;
  do _ <- assert (prev =? 0);
  do (nrows, b3) <- read_i64 o b2;
  do (flags, b4) <- read_vec o (read_f64 o) b3;
  do (pr, b5) <- read_map o b4;
  do (cs, b6) <- load_meta st o b5;
  Ok {| h_order := o; h_dataSize := dataSize; h_rows := nrows; h_props := pr; h_cols := cs |}.

(** Header::load, Header.cc:52-122. *)
Definition load_header (st : settings) (o : order) (s : list Z) : outcome (header * list Z) :=
  if (length s <? 48)%nat then Throw Incomplete
  else
    do (digest, hsize) <- load_basic o (firstn 48 s);
    let s1 := skipn 48 s in
    if hsize <? 0 then Throw BadAlloc
    else if Z.of_nat (length s1) <? hsize then Throw Incomplete
         else
           let buf := firstn (Z.to_nat hsize) s1 in
           if bytes_eqb digest (md5 buf) then
             do h <- load_variable st o buf;
             Ok (h, skipn (Z.to_nat hsize) s1)
           else Throw Invalid.

(** Header::loadAfterMagic, Header.cc:124-136: anything but the native indicator is
    taken as the other byte order. *)
Definition load_after_magic (st : settings) (s : list Z) : outcome (header * list Z) :=
  if (length s <? 4)%nat then Throw Incomplete
  else
    let o := if le_val (firstn 4 s) =? 1 then LE else BE in
    load_header st o (skipn 4 s).

End Md5.
