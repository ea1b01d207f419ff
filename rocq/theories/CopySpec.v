(** Specification vocabulary: copying rows with their columns. *)
From Verif Require Import Base Fp Codec Stream Meta Encoder Writer WriterSpec RowList Spec.
Open Scope Z_scope.

(** The description of a column of a file. *)
Definition info (c : column) : colinfo :=
  {| ci_name := col_name c; ci_type := col_type c; ci_size := 8 * data_size_doubles (col_coder c);
     ci_bits := if col_type c =? ty_BITFIELD then combine (col_bfnames c) (col_bfsizes c) else [] |}.

(** Name, type and size. *)
Definition shape (c : column) : list Z * Z * Z := (col_name c, col_type c, data_size_doubles (col_coder c)).

(** Column descriptions that can be copied: every bitfield member has a size, and the least
    and largest value noted for a column of strings are not NaN. *)
Definition copyable (c : column) : Prop :=
  (col_type c = ty_BITFIELD -> length (col_bfnames c) = length (col_bfsizes c)) /\
  (chars_based (c_kind (col_coder c)) = true ->
     deq (c_min (col_coder c)) (c_min (col_coder c)) = true /\ deq (c_max (col_coder c)) (c_max (col_coder c)) = true).

(** Any choice of at most [N] rows of the same columns can be stored in a frame. *)
Record rows_copyable (st : settings) (N : nat) (pr : props) (rows : list arow) : Prop := {
  rc_columns : forall cs, In cs (map fst rows) -> writable_columns (map info cs) pr /\ Forall copyable cs;
  rc_rows : forall cs part, In cs (map fst rows) -> part <> [] -> (length part <= N)%nat ->
    (forall row, In row part -> exists cs', In (cs', row) rows /\ map shape cs' = map shape cs) ->
    writable st (map info cs) pr part
}.

(** [out] has the cells of [r], in columns with the same names and types. *)
Definition copied (st st' : settings) (r out : arow) : Prop :=
  Forall2 (fun c d => col_name d = col_name c /\ col_type d = col_type c) (fst r) (fst out) /\
  same_row st st' (map info (fst r)) (snd r) (snd out).
