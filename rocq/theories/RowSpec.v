(** Specification vocabulary: the rows stored in the data part of a frame. *)
From Verif Require Import Base Stream Codec Meta Header Table.

(** ** Well-formed row streams *)

(** [s] holds one value for each codec, and then [s'] *)
Inductive cells_stream : list codec -> list (list Z) -> list Z -> list Z -> Prop :=
| cs_nil s : cells_stream [] [] s s
| cs_cons k ks cell cells s s1 s2 :
    decode k s = Ok (cell, s1) -> cells_stream ks cells s1 s2 ->
    cells_stream (k :: ks) (cell :: cells) s s2.

(** a row: the index of its first stored column, and the stored values *)
Definition stored_row : Type := (nat * list (list Z))%type.

Inductive row_stream (ks : list codec) : list stored_row -> list Z -> list Z -> Prop :=
| rs_nil s : row_stream ks [] s s
| rs_cons start cells rows m s1 s2 s3 :
    length m = 2%nat -> marker_val m = start -> (start <= length ks)%nat ->
    cells_stream (skipn start ks) cells s1 s2 -> row_stream ks rows s2 s3 ->
    row_stream ks ((start, cells) :: rows) (m ++ s1) s3.

(** the value stored for column [i] in row [r], if any *)
Definition stored (rows : list stored_row) (i r : nat) : option (list Z) :=
  match nth_error rows r with
  | Some (start, cells) => if (start <=? i)%nat then nth_error cells (i - start) else None
  | None => None
  end.

(** the last row at or before [r] that stores column [i] *)
Fixpoint latest (rows : list stored_row) (i r : nat) : option (nat * list Z) :=
  match stored rows i r with
  | Some cell => Some (r, cell)
  | None => match r with O => None | S r' => latest rows i r' end
  end.

(** Column [i] shows [cell] in row [r]: that is what was stored for it last, in row [r']. *)
Definition shows (rows : list stored_row) (i r r' : nat) (cell : list Z) : Prop :=
  (r' <= r)%nat /\ stored rows i r' = Some cell /\ forall q, (r' < q <= r)%nat -> stored rows i q = None.

(** Nothing has been stored for column [i] up to row [r]. *)
Definition unset (rows : list stored_row) (i r : nat) : Prop :=
  forall q, (q <= r)%nat -> stored rows i q = None.
