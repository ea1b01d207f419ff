(** Model of src/odc/api/StridedData.h: periodic arrays in memory, byte by byte.

    Memory is a function from addresses to bytes.  Not modelled: the alignment of the
    uint64_t accesses of the specialised loops, and the wrapping of addresses at 2^64. *)
From Verif Require Import Base Stream.
Open Scope Z_scope.

Definition mem := Z -> Z.

(** the [n] bytes from address [a] on *)
Definition load (m : mem) (a : Z) (n : nat) : list Z := map (fun k => m (a + Z.of_nat k)) (seq 0 n).

(** memory after storing bytes from address [a] on *)
Definition store (m : mem) (a : Z) (b : list Z) : mem := fun x =>
  if (a <=? x) && (x <? a + Z.of_nat (length b)) then nth (Z.to_nat (x - a)) b 0 else m x.

(** StridedData.h:148-152: data_, nelem_, dataSize_, stride_. *)
Record strided := { s_base : Z; s_nelem : Z; s_size : Z; s_stride : Z }.

(** get(int), StridedData.h:101-107: the argument is converted to int. *)
Definition get (s : strided) (i : Z) : Z := s_base s + signed 32 (i mod 2 ^ 32) * s_stride s.

(** slice(size_t, size_t), StridedData.h:72-80. *)
Definition slice (s : strided) (off n : Z) : outcome strided :=
  do _ <- assert (off + n <=? s_nelem s);
  Ok {| s_base := get s off; s_nelem := n; s_size := s_size s; s_stride := s_stride s |}.

(** isNewValue, StridedData.h:124-128. *)
Definition is_new_value (m : mem) (s : strided) (row : Z) : bool :=
  if row =? 0 then true
  else negb (if list_eq_dec Z.eq_dec (load m (get s row) (Z.to_nat (s_size s))) (load m (get s (row - 1)) (Z.to_nat (s_size s))) then true else false).

(** std::fill of 8 byte words, StridedData.h:182-183: from [p] up to but not including
    [e]. *)
Fixpoint fill_words (fuel : nat) (p e : Z) (v : list Z) (m : mem) : option mem :=
  if p =? e then Some m
  else match fuel with
       | O => None
       | S f => fill_words f (p + 8) e v (store m p v)
       end.

(** StridedData.h:186-192: [for (p = ...; p <= end; p += stride) *p = src]. *)
Fixpoint fill_strided (fuel : nat) (p e stride : Z) (v : list Z) (m : mem) : option mem :=
  if e <? p then Some m
  else match fuel with
       | O => None
       | S f => fill_strided f (p + stride) e stride v (store m p v)
       end.

(** StridedData.h:196-199: memcpy of every row; overlapping arguments are undefined. *)
Fixpoint fill_copies (fuel : nat) (s : strided) (src row fin : Z) (m : mem) : option (outcome mem) :=
  if fin <? row then Some (Ok m)
  else match fuel with
       | O => None
       | S f =>
           if (Z.abs (get s row - get s src) <? s_size s) then Some UB
           else fill_copies f s src (row + 1) fin (store m (get s row) (load m (get s src) (Z.to_nat (s_size s))))
       end.

(** fill(int, int), StridedData.h:174-200.  [None] when a loop did not end within [fuel]
    steps. *)
Definition mfill (fuel : nat) (s : strided) (src fin : Z) (m : mem) : option (outcome mem) :=
  if negb (src <=? fin) then Some (Throw AssertFailed)
  else if s_size s =? 8 then
         if s_stride s =? 8 then
           option_map Ok (fill_words fuel (get s (src + 1)) (get s (fin + 1)) (load m (get s src) 8) m)
         else
           option_map Ok (fill_strided fuel (get s (src + 1)) (get s fin) (s_stride s) (load m (get s src) 8) m)
       else fill_copies fuel s src (src + 1) fin m.
