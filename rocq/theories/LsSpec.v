(** What a listing of a file shows: specification for C69. *)
From Coq Require Import String.
From Verif Require Import Base Fp Stream Codec Meta Header Table Reader RowReader RowList Spec DispatchSpec HeaderToolSpec.
Open Scope Z_scope.
Local Notation length := List.length.

(** The eight bytes of a value, as the bits of a double. *)
Definition bits_of (cell : list Z) : Z := le_val (firstn 8 cell).
Definition absent (c : column) (cell : list Z) : Prop :=
  c_hasMissing (col_coder c) <> 0 /\ missing_value (col_coder c) = bits_of cell.

(** The text in a cell: what stands before the first zero byte, if there is one. *)
Definition text_in (cell s : list Z) : Prop := ~ In 0 s /\ (cell = s \/ exists rest, cell = s ++ 0 :: rest).

(** [t] is the value of the finite double [x], in decimal, with a sign if it has one, to the nearest
    millionth: six digits after the point, and no more than half a millionth away.  (The value of
    [x] is val f64 x / 2^1074.) *)
Definition to_millionth (x : Z) (t : list Z) : Prop :=
  exists w f, t = (if negb_ f64 x then [45] else []) ++ w ++ [46] ++ f /\
    numeral (digits_value w) w /\ Forall is_digit w /\ Forall is_digit f /\ length f = 6%nat /\
    2 * Z.abs ((if negb_ f64 x then - digits_value (w ++ f) else digits_value (w ++ f)) * 2 ^ 1074 - val f64 x * 10 ^ 6) <= 2 ^ 1074.

Definition whole (c : column) : Prop := col_type c = ty_INTEGER \/ col_type c = ty_BITFIELD.
Definition number (c : column) : Prop := col_type c = ty_REAL \/ col_type c = ty_DOUBLE.

(** What is shown of a value: a dot if it is missing; an integer in decimal; a real number to the
    millionth; a text between quotes. *)
Inductive shows (c : column) (cell : list Z) : list Z -> Prop :=
| sh_missing : absent c cell -> shows c cell (str ".")
| sh_int n t : ~ absent c cell -> whole c ->
    d2z_trunc (bits_of cell) = Some n -> numeral n t -> shows c cell t
| sh_real t : ~ absent c cell -> number c ->
    is_fin f64 (bits_of cell) = true -> to_millionth (bits_of cell) t -> shows c cell t
| sh_text s : ~ absent c cell -> col_type c = ty_STRING -> text_in cell s -> shows c cell (str "'" ++ s ++ str "'").

(** Values that can be shown: integers of 32 bits, finite numbers, cells of the width of the column. *)
Definition showable (c : column) (cell : list Z) : Prop :=
  absent c cell \/
  whole c /\ (exists n, d2z_trunc (bits_of cell) = Some n /\ int32 n) \/
  number c /\ is64 (bits_of cell) /\ is_fin f64 (bits_of cell) = true \/
  col_type c = ty_STRING /\ Z.of_nat (length cell) = 8 * data_size_doubles (col_coder c).

(** Texts with tabs between them. *)
Fixpoint tabbed (ts : list (list Z)) : list Z :=
  match ts with [] => [] | [t] => t | t :: ts' => t ++ [9] ++ tabbed ts' end.

Definition row_line (r : arow) (line : list Z) : Prop :=
  exists ts, length (fst r) = length (snd r) /\ Forall2 (fun p t => shows (fst p) (snd p) t) (combine (fst r) (snd r)) ts /\ line = tabbed ts.

(** The lines of a listing: one for every row, and before it one of the names of the columns if these
    are not the columns [md] of the last such line. *)
Inductive listing : list column -> list arow -> list (list Z) -> Prop :=
| li_end md : listing md [] []
| li_row md r rows line lines : Forall2 alike md (fst r) -> row_line r line -> listing md rows lines ->
    listing md (r :: rows) (line :: lines)
| li_new md r rows line lines : ~ Forall2 alike md (fst r) -> row_line r line -> listing (fst r) rows lines ->
    listing md (r :: rows) (tabbed (map col_name (fst r)) :: line :: lines).

(** ** What can be read from a listing *)

(** Two values that are shown alike: both missing; the same integer; the same text; two numbers of the
    same sign no more than a millionth apart. *)
Inductive same_value (c : column) (x : list Z) (c' : column) (x' : list Z) : Prop :=
| sv_missing : absent c x -> absent c' x' -> same_value c x c' x'
| sv_int n : whole c -> whole c' -> d2z_trunc (bits_of x) = Some n -> d2z_trunc (bits_of x') = Some n -> same_value c x c' x'
| sv_text s : col_type c = ty_STRING -> col_type c' = ty_STRING -> text_in x s -> text_in x' s -> same_value c x c' x'
| sv_real : number c -> number c' -> negb_ f64 (bits_of x) = negb_ f64 (bits_of x') ->
    Z.abs (val f64 (bits_of x) - val f64 (bits_of x')) * 10 ^ 6 <= 2 ^ 1074 -> same_value c x c' x'.

Definition same_row (r r' : arow) : Prop :=
  map col_name (fst r) = map col_name (fst r') /\
  Forall2 (fun p p' => same_value (fst p) (snd p) (fst p') (snd p')) (combine (fst r) (snd r)) (combine (fst r') (snd r')).

(** Names begin with a letter or an underscore; there are no tabs and line breaks in names and texts. *)
Definition letter (c : Z) : Prop := 65 <= c <= 90 \/ 97 <= c <= 122 \/ c = 95.
Definition in_field (s : list Z) : Prop := Forall (fun c => c <> 9 /\ c <> 10) s.
Definition tidy (r : arow) : Prop :=
  fst r <> [] /\ Forall (fun c => in_field (col_name c) /\ exists a n, col_name c = a :: n /\ letter a) (fst r) /\
  Forall (fun p => col_type (fst p) = ty_STRING -> forall s, text_in (snd p) s -> in_field s) (combine (fst r) (snd r)).
