(** core/DataStream.h: typed reads and writes on a byte buffer, and the
    std::map<std::string,std::string> used for properties. *)
From Verif Require Import Base.

(** ** Reading.  A read-only DataStream is the list of bytes from [current_] to
    [end_]; reading returns the value and the remaining bytes. *)

Definition reader (A : Type) := list Z -> outcome (A * list Z).

(** DataStream::readBytes, core/DataStream.h:275-288.  (The pointer comparison
    [newpos > end_] is modelled as a length comparison.) *)
Definition read_raw (n : Z) : reader (list Z) := fun s =>
  if Z.of_nat (length s) <? n then Throw EndOfStream
  else Ok (firstn (Z.to_nat n) s, skipn (Z.to_nat n) s).

(** DataStream::read(T&), core/DataStream.h:219-223, 266-270: raw bytes, swapped
    if the file has the other byte order. *)
Definition read_uint (o : order) (n : Z) : reader Z := fun s =>
  do (b, s') <- read_raw n s; Ok (le_val (swap o b), s').

Definition read_i32 (o : order) : reader Z := fun s =>
  do (u, s') <- read_uint o 4 s; Ok (signed 32 u, s').
Definition read_i64 (o : order) : reader Z := fun s =>
  do (u, s') <- read_uint o 8 s; Ok (signed 64 u, s').
(** a double is read as its 64-bit pattern *)
Definition read_f64 (o : order) : reader Z := read_uint o 8.

(** DataStream::read(std::string&), core/DataStream.h:255-262.  A negative length
    makes std::string::resize throw. *)
Definition read_string (o : order) : reader (list Z) := fun s =>
  do (n, s1) <- read_i32 o s;
  if n <? 0 then Throw BadAlloc else read_raw n s1.

(** The element loop of DataStream::read(vector), core/DataStream.h:233-234, and
    of the other "count then elements" loops.  [fuel] is only there for
    termination: every element takes at least one byte, so with fuel
    [S (length s)] the fuel branch is reached only where the next element read
    throws EndOfStream anyway. *)
Fixpoint read_n {A} (rd : reader A) (fuel : nat) (n : Z) : reader (list A) := fun s =>
  if n <=? 0 then Ok ([], s)
  else match fuel with
       | O => Throw EndOfStream
       | S f =>
           do (x, s1) <- rd s;
           do (xs, s2) <- read_n rd f (n - 1) s1;
           Ok (x :: xs, s2)
       end.

(** DataStream::read(std::vector<T>&), core/DataStream.h:228-235. *)
Definition read_vec {A} (o : order) (rd : reader A) : reader (list A) := fun s =>
  do (n, s1) <- read_i32 o s;
  if n <? 0 then Throw BadAlloc else read_n rd (S (length s1)) n s1.

(** DataStream::advance, core/DataStream.h:105-108: moves, then ASSERTs. *)
Definition advance (n : Z) : reader unit := fun s =>
  if Z.of_nat (length s) <? n then Throw AssertFailed
  else Ok (tt, skipn (Z.to_nat n) s).

(** ** Writing.  A write yields the bytes it appends; see [fits] for the
    capacity check. *)

(** DataStream::write(const T&), core/DataStream.h:293-295, 331-334. *)
Definition w_int (o : order) (n : nat) (z : Z) : list Z := swap o (le_bytes n z).

(** DataStream::write(const std::string&), core/DataStream.h:321-326. *)
Definition w_string (o : order) (s : list Z) : list Z :=
  w_int o 4 (Z.of_nat (length s)) ++ s.

(** DataStream::write(const std::vector<T>&), core/DataStream.h:300-305. *)
Definition w_vec {A} (o : order) (w : A -> list Z) (l : list A) : list Z :=
  w_int o 4 (Z.of_nat (length l)) ++ concat (map w l).

(** ** std::map<std::string, std::string>: an association list in increasing key
    order (std::string compares as unsigned bytes). *)

Fixpoint bytes_cmp (a b : list Z) : comparison :=
  match a, b with
  | [], [] => Eq
  | [], _ => Lt
  | _, [] => Gt
  | x :: a', y :: b' => match x ?= y with Eq => bytes_cmp a' b' | c => c end
  end.

Definition smap (V : Type) := list (list Z * V).

(** map::find *)
Fixpoint mget {V} (m : smap V) (k : list Z) : option V :=
  match m with
  | [] => None
  | (k', v) :: m' => if bytes_eqb k k' then Some v else mget m' k
  end.

(** map::emplace / map::insert: keeps the existing value. *)
Fixpoint memplace {V} (m : smap V) (k : list Z) (v : V) : smap V :=
  match m with
  | [] => [(k, v)]
  | (k', v') :: m' =>
      match bytes_cmp k k' with
      | Lt => (k, v) :: m
      | Eq => m
      | Gt => (k', v') :: memplace m' k v
      end
  end.

(** map::operator[](k) = v: overwrites. *)
Fixpoint mset {V} (m : smap V) (k : list Z) (v : V) : smap V :=
  match m with
  | [] => [(k, v)]
  | (k', v') :: m' =>
      match bytes_cmp k k' with
      | Lt => (k, v) :: m
      | Eq => (k, v) :: m'
      | Gt => (k', v') :: mset m' k v
      end
  end.

Definition mkeys {V} (m : smap V) : list (list Z) := map fst m.

(** key order of a std::map *)
Fixpoint msorted {V} (m : smap V) : Prop :=
  match m with
  | [] => True
  | (k, _) :: m' => match m' with [] => True | (k', _) :: _ => bytes_cmp k k' = Lt end /\ msorted m'
  end.

Definition props := smap (list Z).

(** DataStream::write(const std::map&), core/DataStream.h:310-317. *)
Definition w_map (o : order) (m : props) : list Z :=
  w_vec o (fun kv : list Z * list Z => w_string o (fst kv) ++ w_string o (snd kv)) m.

Definition read_pair (o : order) : reader (list Z * list Z) := fun s =>
  do (k, s1) <- read_string o s;
  do (v, s2) <- read_string o s1;
  Ok ((k, v), s2).

(** DataStream::read(std::map&), core/DataStream.h:240-251: a negative count reads
    nothing; duplicated keys keep the first value. *)
Definition read_map (o : order) : reader props := fun s =>
  do (n, s1) <- read_i32 o s;
  do (kvs, s2) <- read_n (read_pair o) (S (length s1)) n s1;
  Ok (fold_left (fun m kv => memplace m (fst kv) (snd kv)) kvs [], s2).
