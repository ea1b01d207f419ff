(** Specification vocabulary for C62: filtering. *)
From Verif Require Import Base Fp Stream Codec Meta Header Encoder Writer WriterSpec RowList Spec OdaOut OdaSpec SelectOut SelectSpec Filter.
Open Scope Z_scope.

(** Reads of the lengths [ns] take [data] piece by piece, in order: no piece is empty or longer
    than asked for until all is taken, and then all are empty. *)
Inductive drains : list Z -> list nat -> list (list Z) -> Prop :=
| dr_end : forall data, drains data [] []
| dr_some : forall c rest n ns cs, c <> [] -> (length c <= n)%nat -> drains rest ns cs -> drains (c ++ rest) (n :: ns) (c :: cs)
| dr_none : forall n ns cs, drains [] ns cs -> drains [] (n :: ns) ([] :: cs).

(** The rows of a query, each with the columns in force. *)
Definition answer (q : query) : list (list colinfo * list ovalue) :=
  map (fun cq => (fst cq, q_vals (snd cq))) (in_turn (map fst (qy_cols q)) (qy_rows q)).

(** The cells of a row. *)
Definition row_cells (st : settings) (r : list colinfo * list ovalue) : list (list Z) :=
  map (fun cv => cell st (fst cv) (snd cv)) (combine (fst r) (snd r)).

(** A query as eckit runs it: columns of the five types; results of the types of their
    columns, with room there. *)
Record runs (q : query) : Prop := {
  ru_cols : qy_cols q <> [] /\ Forall accepted (map fst (qy_cols q));
  ru_types : Forall (fun r => Forall (fun t => fst t <> [] /\ Forall accepted (map fst (fst t))) (q_types r)) (qy_rows q);
  ru_rows : Forall (fun r => Forall2 typed (fst r) (snd r) /\ Forall2 room (fst r) (snd r) /\ Forall held (snd r)) (answer q)
}.

(** Name, type and width of a column. *)
Definition face (ci : colinfo) : list Z * Z * Z := (ci_name ci, ci_type ci, ci_size ci).

(** Any choice of at most [N] rows of columns that look the same can be stored in a frame. *)
Record filterable (st : settings) (N : nat) (pr : props) (q : query) : Prop := {
  fi_columns : forall cs, In cs (map fst (qy_cols q) :: map fst (answer q)) -> writable_columns (map announced cs) pr;
  fi_rows : forall cs part, In cs (map fst (answer q)) -> part <> [] -> (length part <= N)%nat ->
    (forall row, In row part -> exists r, In r (answer q) /\ row = row_cells st r /\ map face (fst r) = map face cs) ->
    writable st (map announced cs) pr part
}.

(** A row of the file gives a row of the query: the columns are ones of the query with the same
    titles, types and widths; the values are those handed over. *)
Record gives (st st' : settings) (q : query) (r : list colinfo * list ovalue) (out : arow) : Prop := {
  gv_columns : exists cs, In cs (map fst (answer q)) /\ map face cs = map face (fst r) /\ Forall2 described (map announced cs) (fst out);
  gv_count : length (snd r) = length (fst r) /\ length (snd out) = length (fst r);
  gv_values : forall i ci v y, nth_error (fst r) i = Some ci -> nth_error (snd r) i = Some v -> nth_error (snd out) i = Some y ->
    shows_value st st' (ci_type ci) v y
}.
