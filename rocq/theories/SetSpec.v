(** Specification vocabulary for C52: rows with some columns set to constants. *)
From Coq Require Import String.
From Verif Require Import Base Fp Stream Codec Meta Header Encoder Writer RowList CsvSpec P_Tables.
Open Scope Z_scope.
Local Notation length := List.length.

(** [nm] designates exactly one of the columns. *)
Definition designates (cs : list column) (nm : list Z) (i : nat) : Prop := forall j, positions cs nm j <-> j = i.

(** [out] is [r] with the assignments [sets] carried out: a column that is assigned holds the
    value of the last assignment to it (the eight bytes of a double), any other what it
    held. *)
Record assigned (sets : list (list Z * Z)) (r out : arow) : Prop := {
  as_columns : fst out = fst r;
  as_length : length (snd out) = length (snd r);
  as_set : forall k nm v i, nth_error sets k = Some (nm, v) -> designates (fst r) nm i ->
    (forall k' nm' v', (k < k')%nat -> nth_error sets k' = Some (nm', v') -> ~ designates (fst r) nm' i) ->
    nth_error (snd out) i = Some (le_bytes 8 v);
  as_kept : forall i, (forall nm v, In (nm, v) sets -> ~ designates (fst r) nm i) -> nth_error (snd out) i = nth_error (snd r) i
}.

(** Two hexadecimal digits. *)
Definition hex_value (c d : Z) : Prop :=
  48 <= c <= 57 /\ d = c - 48 \/ 97 <= c <= 102 /\ d = c - 97 + 10 \/ 65 <= c <= 70 /\ d = c - 65 + 10.
Definition hex_pair (p : list Z) (b : Z) : Prop :=
  exists x y h l, p = [x; y] /\ hex_value x h /\ hex_value y l /\ b = 16 * h + l.

(** The text of one assignment: NAME=NUMBER, or NAME=0x and pairs of digits, the bytes of
    the value from the least significant on. *)
Definition no_assignment_mark (t : list Z) : Prop := t <> [] /\ forall c, In c t -> c <> 44 /\ c <> 61 /\ c <> 10.
Inductive assignment (translate : list Z -> outcome Z) (t : list Z) (nm : list Z) (v : Z) : Prop :=
| asg_number n : t = nm ++ 61 :: n -> no_assignment_mark nm -> no_assignment_mark n ->
    (forall r, n <> str "0x" ++ r) -> translate n = Ok v -> assignment translate t nm v
| asg_bytes ps bs : t = nm ++ 61 :: str "0x" ++ concat ps -> no_assignment_mark nm -> Forall2 hex_pair ps bs ->
    (length bs <= 8)%nat -> v = le_val bs -> assignment translate t nm v.

(** The text of a list of assignments, commas between them. *)
Definition assignments (translate : list Z -> outcome Z) (t : list Z) (sets : list (list Z * Z)) : Prop :=
  exists ts, line_of [44] ts t /\ Forall2 (fun x p => assignment translate x (fst p) (snd p)) ts sets.
