(** Specification vocabulary: what the verification of a split looks for. *)
From Verif Require Import Base Fp Codec Stream Meta Writer RowReader RowList Spec ComparatorSpec.
Open Scope Z_scope.

(** [out] has the columns of [r] (names and types) and its values, numbers up to the
    relation [rel] of the compare tool. *)
Definition row_ok (rel : Z -> Z -> Prop) (nans : bool) (r out : arow) : Prop :=
  Forall2 (fun c d => col_name d = col_name c /\ col_type d = col_type c) (fst r) (fst out) /\
  length (snd r) = length (fst r) /\ length (snd out) = length (fst out) /\
  forall i c1 c2 x y, nth_error (fst r) i = Some c1 -> nth_error (fst out) i = Some c2 ->
    nth_error (snd r) i = Some x -> nth_error (snd out) i = Some y -> cells_agree rel true nans c1 c2 x y.

(** The row that should be the copy of the [i]-th row of [rows]: in the file [n] for it, the
    first not preceded by copies of the rows before. *)
Definition counterpart (route : arow -> list Z) (outs : list Z -> list arow) (rows : list arow) (i : nat) : option arow :=
  match nth_error rows i with
  | Some r => nth_error (outs (route r))
      (length (filter (fun r' => if list_eq_dec Z.eq_dec (route r') (route r) then true else false) (firstn i rows)))
  | None => None
  end.

(** The columns have the missing values that all files have unless asked otherwise, and
    integers are read as doubles. *)
Definition mark (ty : Z) : Z := if (ty =? ty_INTEGER) || (ty =? ty_BITFIELD) then integerMDI else realMDI.
Definition marked (c : column) : Prop := c_missing (col_coder c) = mark (col_type c) /\ c_int64 (col_coder c) = false.

(** Finite numbers (for a REAL column: as a single), and texts that are not empty. *)
Definition checkable (c : column) (x : list Z) : Prop :=
  col_type c = ty_STRING /\ until_nul x <> [] \/
  (col_type c = ty_INTEGER \/ col_type c = ty_BITFIELD \/ col_type c = ty_DOUBLE) /\ is_fin f64 (bits x) = true \/
  col_type c = ty_REAL /\ is_fin f64 (as_single (bits x)) = true.
