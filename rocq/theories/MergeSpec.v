(** Specification vocabulary for C53: the rows of several files side by side. *)
From Verif Require Import Base Fp Stream Codec Meta Header Encoder Writer RowList CopySpec P_Tables.
Open Scope Z_scope.

(** The rows [out] are the rows of the inputs [ins] side by side: as many as the shortest
    input has; row number k has the columns and the cells of row number k of each input, in
    the order of the inputs. *)
Record side_by_side (ins : list (list arow)) (out : list arow) : Prop := {
  sb_count : forall k, (k < length out)%nat <-> forall rows, In rows ins -> (k < length rows)%nat;
  sb_row : forall k cs row, nth_error out k = Some (cs, row) ->
    exists rs : list arow, Forall2 (fun rows r => nth_error rows k = Some r) ins rs /\ cs = concat (map fst rs) /\ row = concat (map snd rs)
}.

(** The same, except that of each cell only the first eight bytes are kept, followed by
    zeros. *)
Definition first_eight (x : list Z) : list Z := firstn 8 x ++ repeat 0 (length x - 8).
Record side_by_side_cut (ins : list (list arow)) (out : list arow) : Prop := {
  sc_count : forall k, (k < length out)%nat <-> forall rows, In rows ins -> (k < length rows)%nat;
  sc_row : forall k cs row, nth_error out k = Some (cs, row) ->
    exists rs : list arow, Forall2 (fun rows r => nth_error rows k = Some r) ins rs /\ cs = concat (map fst rs) /\
      row = map first_eight (concat (map snd rs))
}.

(** The columns of a file do not change: name, type and size. *)
Definition same_columns (rows : list arow) : Prop :=
  forall r r', In r rows -> In r' rows -> map shape (fst r) = map shape (fst r').

(** A column of an input has the name, with or without its table, of a column of an earlier
    input. *)
Definition clash (ins : list (list arow)) : Prop :=
  exists i j rows rows' r r' c c', (i < j)%nat /\ nth_error ins i = Some rows /\ nth_error ins j = Some rows' /\
    hd_error rows = Some r /\ hd_error rows' = Some r' /\ In c (fst r) /\ In c' (fst r') /\ called (col_name c) (col_name c').
