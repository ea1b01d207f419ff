(** Specification vocabulary: rewriting a file with frames of [N] rows, and checking the copy. *)
From Verif Require Import Base Fp Codec Stream Meta Writer RowReader RowList Spec ComparatorSpec VerifySpec.
Open Scope Z_scope.

(** The rows that are in the same frame of the copy as row [j]. *)
Definition frame_of {A} (N : nat) (rows : list A) (j : nat) : list A := firstn N (skipn (j / N * N) rows).

(** Among [part] there is a row with a missing number in column [i]. *)
Definition gap (i : nat) (part : list arow) : Prop :=
  exists r c x, In r part /\ nth_error (fst r) i = Some c /\ nth_error (snd r) i = Some x /\
    col_type c <> ty_STRING /\ bits x = mark (col_type c).

(** The flags of the columns of the file ("has missing values") say what is so of the frames
    of the copy. *)
Definition flags_fit (N : nat) (rows : list arow) : Prop :=
  forall j r i c, nth_error rows j = Some r -> nth_error (fst r) i = Some c ->
    c_hasMissing (col_coder c) = 1 /\ gap i (frame_of N rows j) \/
    c_hasMissing (col_coder c) = 0 /\ ~ gap i (frame_of N rows j).

(** Finite numbers (for a REAL column: as a single), and texts. *)
Definition countable (c : column) (x : list Z) : Prop :=
  col_type c = ty_STRING \/
  (col_type c = ty_INTEGER \/ col_type c = ty_BITFIELD \/ col_type c = ty_DOUBLE) /\ is_fin f64 (bits x) = true \/
  col_type c = ty_REAL /\ is_fin f64 (as_single (bits x)) = true.
