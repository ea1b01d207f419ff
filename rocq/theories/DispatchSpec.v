(** Specification vocabulary: splitting rows into files by their values. *)
From Verif Require Import Base Fp Codec Stream Meta Encoder Writer WriterSpec RowList Spec CopySpec Dispatcher P_Tables.
Open Scope Z_scope.

(** A template is text with parameters in braces: [{name}]. *)
Inductive piece := Lit (t : list Z) | Par (nm : list Z).
Definition left_brace : Z := 123.
Definition right_brace : Z := 125.
Inductive template_is : list Z -> list piece -> Prop :=
| ti_end t : ~ In left_brace t -> template_is t [Lit t]
| ti_par t nm r ps : ~ In left_brace t -> ~ In right_brace nm -> template_is r ps ->
    template_is (t ++ left_brace :: nm ++ right_brace :: r) (Lit t :: Par nm :: ps).

(** [c] is the only column of that name, it is at position [i], and the cell is there. *)
Definition cell_of (r : arow) (nm : list Z) (i : nat) (c : column) (cell : list Z) : Prop :=
  (forall j, positions (fst r) nm j <-> j = i) /\ nth_error (fst r) i = Some c /\ nth_error (snd r) i = Some cell.

(** The decimal digits of a number: no leading zero, a sign if it is negative. *)
Definition is_digit (c : Z) : Prop := 48 <= c <= 57.
Definition digits_value (t : list Z) : Z := fold_left (fun a c => 10 * a + (c - 48)) t 0.
Definition numeral (n : Z) (t : list Z) : Prop :=
  exists ds, Forall is_digit ds /\ ds <> [] /\ (hd 0 ds = 48 -> ds = [48]) /\
    (0 <= n /\ t = ds /\ digits_value ds = n \/ n < 0 /\ t = 45 :: ds /\ digits_value ds = - n).

(** The text a value contributes to a file name: for a number its integer part; for a
    string its first 8 bytes, without what follows an unprintable one and without spaces
    around; no "/" in it. *)
Definition printable (c : Z) : Prop := 32 <= c <= 126.
Inductive text_of (ty : Z) (cell : list Z) : list Z -> Prop :=
| to_number n t : ty <> ty_STRING -> d2z_trunc (le_val (firstn 8 cell)) = Some n -> int32 n -> numeral n t -> text_of ty cell t
| to_string before t after rest : ty = ty_STRING ->
    firstn 8 cell = before ++ t ++ after ++ rest ->
    Forall (eq 32) before -> Forall (eq 32) after -> Forall printable t ->
    (rest <> [] -> ~ printable (hd 0 rest)) ->
    hd 0 t <> 32 -> last t 0 <> 32 -> (t = [] -> before = []) ->
    ~ In 47 t -> text_of ty cell t.

(** The name made for a row. *)
Inductive filled (r : arow) : list piece -> list Z -> Prop :=
| fi_nil : filled r [] []
| fi_lit t ps n : filled r ps n -> filled r (Lit t :: ps) (t ++ n)
| fi_par nm ps i c cell t n : cell_of r nm i c cell -> text_of (col_type c) cell t -> filled r ps n ->
    filled r (Par nm :: ps) (t ++ n).

(** The values of the parameters in a row (of strings the first 8 bytes). *)
Inductive values_of (r : arow) : list piece -> list (list Z) -> Prop :=
| va_nil : values_of r [] []
| va_lit t ps vs : values_of r ps vs -> values_of r (Lit t :: ps) vs
| va_par nm ps i c cell vs : cell_of r nm i c cell -> values_of r ps vs -> values_of r (Par nm :: ps) (firstn 8 cell :: vs).

(** Equal as doubles. *)
Definition same_values : list (list Z) -> list (list Z) -> Prop := Forall2 (fun x y => deq (le_val x) (le_val y) = true).

(** The columns before the one at [i] are one double wide each. *)
Definition narrow (r : arow) (i : nat) : Prop :=
  forall j cell, (j < i)%nat -> nth_error (snd r) j = Some cell -> len cell = 8.

(** [route] gives the name of the file for each row; rows have the same name just if they
    have the same values. *)
Record routed (template : list Z) (rows : list arow) (route : arow -> list Z) : Prop := {
  ro_pieces : exists ps, template_is template ps /\ (exists nm, In (Par nm) ps) /\
    (forall r, In r rows -> filled r ps (route r)) /\
    (forall r nm i c cell, In r rows -> In (Par nm) ps -> cell_of r nm i c cell -> narrow r i /\ 8 <= len cell) /\
    (forall r1 r2 v1 v2, In r1 rows -> In r2 rows -> values_of r1 ps v1 -> values_of r2 ps v2 ->
       (same_values v1 v2 <-> route r1 = route r2))
}.

(** No file has to be closed before the end to make room for another. *)
Definition few (max : nat) (names : list (list Z)) : Prop :=
  exists l, incl names l /\ (length l <= max)%nat.

(** [d] is the directory of the path [n]: what precedes the last "/" *)
Definition in_directory (n d : list Z) : Prop := exists rest, n = d ++ [47] ++ rest /\ ~ In 47 rest.
