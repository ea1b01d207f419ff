(** Specification vocabulary for C56: the older C interface. *)
From Verif Require Import Base Fp Stream Codec Meta Header Writer RowList OldApi QuerySpec.
Open Scope Z_scope.

(** A row as one array. *)
Definition flat_row (r : arow) : list Z := concat (snd r).

(** Rows of the usual kind: at least one column, each at least one double wide. *)
Definition usual (r : arow) : Prop := fst r <> [] /\ wide (fst r).

(** The call [c] (count, buffer) is one that the interface can serve when [r] is next. *)
Definition serves (r : arow) (c : Z * list Z) : Prop :=
  0 <= fst c /\ (fst c = Z.of_nat (length (fst r)) -> (length (flat_row r) <= length (snd c))%nat).

(** How it is answered: the row is stored at the start of the buffer, or, if the count is not
    the number of columns, refused. *)
Definition answered (r : arow) (c : Z * list Z) (a : answer) : Prop :=
  (exists new, a_new a = Some new) /\
  (fst c = Z.of_nat (length (fst r)) ->
     a_code a = 0 /\ a_buffer a = flat_row r ++ skipn (length (flat_row r)) (snd c)) /\
  (fst c <> Z.of_nat (length (fst r)) -> a_code a = 2 /\ a_buffer a = snd c).

(** The answer of a caller at the end of the file. *)
Definition no_more (c : Z * list Z) : answer := {| a_code := 1; a_new := None; a_buffer := snd c |}.

(** A member's name or size as it can be written in a list with colons. *)
Definition colon_free (t : list Z) : Prop := ~ In 58 t.
