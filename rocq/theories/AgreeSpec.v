(** Specification vocabulary for C58: the rows of a file, read one by one or table by table. *)
From Coq Require Import String.
From Verif Require Import Base Fp Stream Codec Meta Header Table Encoder Reader Writer RowList RowSpec Spec WriterSpec P_Tables.
Open Scope Z_scope.
Local Notation length := List.length.

(** [part] are rows of the table [t]: as many as it announces, with its columns. *)
Definition rows_of_table (t : table) (part : list arow) : Prop :=
  t_rows t = Z.of_nat (length part) /\
  Forall (fun row => fst row = t_cols t /\ length (snd row) = length (t_cols t)) part.

(** The table's data are the stored rows [srows]; none of them begins past the last column. *)
Definition stores (file : list Z) (t : table) (srows : list stored_row) : Prop :=
  t_rows t = Z.of_nat (length srows) /\
  exists buf rest, read_encoded file false t = Ok buf /\ row_stream (map col_coder (t_cols t)) srows buf rest.

(** A column of numbers, or of texts that have room for a double. *)
Definition sound (c : column) : Prop := 1 <= data_size_doubles (col_coder c) /\ 8 * data_size_doubles (col_coder c) < 2 ^ 64.

(** An array with room for [n] values of the column [c]. *)
Definition has_room (n : nat) (c : column) (f : facade) : Prop :=
  8 * data_size_doubles (col_coder c) <= f_size f /\ (n <= length (f_elems f))%nat /\
  Forall (fun e => Z.of_nat (length e) = f_size f) (f_elems f).

(** Element [r] of the array [out] is the value of column [p] in row [r]: all its bytes if a
    value was stored for the column in this row or before; otherwise the first double, which is
    the missing value. *)
Definition same_values (srows : list stored_row) (part : list arow) (p : nat) (out : facade) : Prop :=
  forall r row, nth_error part r = Some row ->
    exists elem cell, nth_error (f_elems out) r = Some elem /\ nth_error (snd row) p = Some cell /\
      firstn 8 elem = firstn 8 cell /\ (~ unset srows p r -> firstn (length cell) elem = cell) /\
      (unset srows p r -> forall c, nth_error (fst row) p = Some c -> firstn 8 cell = le_bytes 8 (missing_value (col_coder c))).

(** Decoding any selection of columns of the table gives the values of the rows. *)
Definition decodes_as (file : list Z) (t : table) (part : list arow) : Prop :=
  forall srows names ps facs, stores file t srows ->
    NoDup (map col_name (t_cols t)) -> Forall sound (t_cols t) ->
    Forall2 (fun nm p => select (map col_name (t_cols t)) nm = Some p) names ps -> NoDup ps ->
    Forall2 (fun p f => exists c, nth_error (t_cols t) p = Some c /\ has_room (length part) c f) ps facs ->
    exists outs, decode_target file t names facs = Ok (map Some outs) /\
      Forall2 (same_values srows part) ps outs.

(** ** Files written row by row *)

(** An array with room for [n] values of the column written as [ci]. *)
Definition room_for (n : nat) (ci : colinfo) (f : facade) : Prop :=
  ci_size ci <= f_size f /\ (n <= length (f_elems f))%nat /\
  Forall (fun e => Z.of_nat (length e) = f_size f) (f_elems f).

(** The table [t] has the columns [cols], and decoding any choice of them gives the values of
    the rows [rows]. *)
Record table_holds (st st' : settings) (file : list Z) (pr : props) (cols : list colinfo) (rows : list (list (list Z))) (t : table) : Prop := {
  th_props : t_props t = pr;
  th_rows : t_rows t = Z.of_nat (length rows);
  th_cols : Forall2 (fun ci c => described ci c /\ 8 <= width c <= ci_size ci) cols (t_cols t);
  th_values : forall names ps facs,
    Forall2 (fun nm p => select (map ci_name cols) nm = Some p) names ps -> NoDup ps ->
    Forall2 (fun p f => exists ci, nth_error cols p = Some ci /\ room_for (length rows) ci f) ps facs ->
    exists outs, decode_target file t names facs = Ok (map Some outs) /\
      Forall2 (fun p out => forall r row x ci c, nth_error rows r = Some row -> nth_error row p = Some x ->
        nth_error cols p = Some ci -> nth_error (t_cols t) p = Some c ->
        exists elem, nth_error (f_elems out) r = Some elem /\ same_value st st' (ci_type ci) x (firstn (Z.to_nat (width c)) elem)) ps outs
}.
