(** Specification vocabulary for C64: what an index of a data file says. *)
From Coq Require Import String.
From Verif Require Import Base Fp Stream Codec Meta Spec ScanSpec.
Open Scope Z_scope.

Record entry := { e_begin : Z; e_length : Z; e_seqno : Z; e_rows : Z }.

(** The index of the blocks [fs], the first one at [off], whose rows have the seqnos [vss]:
    block after block, one entry for each run of rows with the same seqno. *)
Inductive index_of : Z -> list (list Z) -> list (list Z) -> list entry -> Prop :=
| ix_end off : index_of off [] [] []
| ix_block off f fs vs vss r es : runs vs r -> index_of (off + len f) fs vss es ->
    index_of off (f :: fs) (vs :: vss)
      (map (fun p => {| e_begin := off; e_length := len f; e_seqno := fst p; e_rows := snd p |}) r ++ es).

(** The columns of an index. *)
Definition index_names : list (list Z) := [str "block_begin"; str "block_length"; str "seqno"; str "n_rows"].
Definition index_like (cols : list column) : Prop := map col_name cols = index_names /\ Forall (fun c => col_type c = ty_INTEGER) cols.

(** The row of four integers an entry is, for a reader with integers as doubles or not. *)
Definition entry_row (i64 : bool) (e : entry) : list (list Z) :=
  [int_cell i64 (e_begin e); int_cell i64 (e_length e); int_cell i64 (e_seqno e); int_cell i64 (e_rows e)].

(** The bytes of the data file an entry points to. *)
Definition pointed (file : list Z) (e : entry) : list Z :=
  firstn (Z.to_nat (e_length e)) (skipn (Z.to_nat (e_begin e)) file).

(** The number of rows an index gives for a seqno. *)
Definition indexed_rows (s : Z) (es : list entry) : Z :=
  total e_rows (filter (fun e => e_seqno e =? s) es).

(** No seqno comes back after another one. *)
Definition grouped (vs : list Z) : Prop :=
  forall i j k a b, (i < j < k)%nat -> nth_error vs i = Some a -> nth_error vs j = Some b -> nth_error vs k = Some a -> a = b.
