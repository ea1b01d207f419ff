(** Specification vocabulary for C55: what a query sees of the rows of a file. *)
From Verif Require Import Base Fp Stream Codec Meta Header Writer RowList P_Tables SetSpec.
Open Scope Z_scope.

(** The answer to the name [nm] in a row: the cell of the one column it designates, and that
    column's missing value. *)
Definition answers (r : arow) (nm : list Z) (a : list Z * Z * Z) : Prop :=
  exists i c cell, designates (fst r) nm i /\ nth_error (fst r) i = Some c /\ nth_error (snd r) i = Some cell /\
    a = (cell, c_hasMissing (col_coder c), missing_value (col_coder c)).

(** Every name designates one column. *)
Definition knows (cols : list column) (names : list (list Z)) : Prop := Forall (fun nm => exists i, designates cols nm i) names.

(** Every column is at least one double wide. *)
Definition wide (cols : list column) : Prop := Forall (fun c => 1 <= data_size_doubles (col_coder c)) cols.

(** [nm] designates columns at the same place in the row, of the same width and with the same
    missing value. *)
Definition alike (cols cols' : list column) (nm : list Z) : Prop :=
  exists i c c', designates cols nm i /\ designates cols' nm i /\ nth_error cols i = Some c /\ nth_error cols' i = Some c' /\
    map width (firstn (S i) cols) = map width (firstn (S i) cols') /\
    c_hasMissing (col_coder c) = c_hasMissing (col_coder c') /\ missing_value (col_coder c) = missing_value (col_coder c').
