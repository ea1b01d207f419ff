(** Outcomes of C++ code, bytes, and little/big endian integers. *)
From Coq Require Export List ZArith Lia Bool Arith.
From Coq Require Export ZifyBool ZifyNat.
Export ListNotations.
Open Scope Z_scope.

Ltac Zify.zify_post_hook ::= Z.div_mod_to_equations.

(** Exceptions the modelled code throws (core/Exceptions.h, eckit exceptions).
    [AssertFailed] is eckit's ASSERT, which throws. *)
Inductive exn : Type :=
| AssertFailed          (* eckit::AssertionFailed, raised by ASSERT *)
| EndOfStream           (* odc::core::ODBEndOfDataStream, Exceptions.h *)
| Incomplete            (* odc::core::ODBIncomplete *)
| Invalid               (* odc::core::ODBInvalid *)
| DecodeError           (* odc::core::ODBDecodeError *)
| AmbiguousColumn       (* odc::core::AmbiguousColumnException *)
| ColumnNotFound        (* odc::core::ColumnNotFoundException *)
| UserError             (* eckit::UserError *)
| SeriousBug            (* eckit::SeriousBug *)
| NotImplemented        (* eckit::NotImplemented *)
| BadAlloc.             (* std::length_error / std::bad_alloc on an absurd resize *)

(** The result of running a piece of C++: normal return, exception, or
    undefined behaviour (after which nothing is promised). *)
Inductive outcome (A : Type) : Type :=
| Ok (a : A)
| Throw (e : exn)
| UB.
Arguments Ok {A} a.
Arguments Throw {A} e.
Arguments UB {A}.

Definition bind {A B} (x : outcome A) (f : A -> outcome B) : outcome B :=
  match x with Ok a => f a | Throw e => Throw e | UB => UB end.

Declare Scope outcome_scope.
Delimit Scope outcome_scope with out.
Notation "'do' p <- e1 ; e2" := (bind e1 (fun p => e2))
  (at level 200, p pattern, e1 at level 100, e2 at level 200, right associativity) : outcome_scope.
Open Scope outcome_scope.

(** eckit's ASSERT(b). *)
Definition assert (b : bool) : outcome unit := if b then Ok tt else Throw AssertFailed.

Definition is_ok {A} (x : outcome A) : bool := match x with Ok _ => true | _ => false end.

(** ** Bytes *)

Definition is_byte (b : Z) : Prop := 0 <= b < 256.
Definition bytes_ok (l : list Z) : Prop := Forall is_byte l.
Definition is_byteb (b : Z) : bool := (0 <=? b) && (b <? 256).
Definition bytes_okb (l : list Z) : bool := forallb is_byteb l.

(** Little-endian bytes of the low [8*n] bits of [z]; the memory image of an
    [n]-byte integer on the (little-endian) host. *)
Fixpoint le_bytes (n : nat) (z : Z) : list Z :=
  match n with
  | O => []
  | S n' => z mod 256 :: le_bytes n' (z / 256)
  end.

(** Unsigned integer held by a little-endian memory image. *)
Fixpoint le_val (l : list Z) : Z :=
  match l with
  | [] => 0
  | b :: l' => b + 256 * le_val l'
  end.

(** Byte order of a file relative to the host: core/DataStream.h:39-53. [LE] is
    SameByteOrder on the little-endian host, [BE] is OtherByteOrder. *)
Inductive order : Type := LE | BE.

(** ByteOrder::swap, core/DataStream.h:42, 49-52. *)
Definition swap (o : order) (l : list Z) : list Z :=
  match o with LE => l | BE => rev l end.

(** Two's complement reading of an unsigned [bits]-bit pattern. *)
Definition signed (bits : Z) (u : Z) : Z :=
  if u <? 2 ^ (bits - 1) then u else u - 2 ^ bits.

(** Compare two strings (byte lists). *)
Fixpoint bytes_eqb (a b : list Z) : bool :=
  match a, b with
  | [], [] => true
  | x :: a', y :: b' => (x =? y) && bytes_eqb a' b'
  | _, _ => false
  end.
