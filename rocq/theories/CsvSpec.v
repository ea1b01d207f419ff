(** Specification vocabulary: tables as delimited text. *)
From Coq Require Import String.
From Verif Require Import Base Fp Codec Stream Meta Encoder Writer WriterSpec RowList Spec DispatchSpec.
Open Scope Z_scope.
Local Notation length := List.length.

(** ** Lines and fields *)

(** The lines of a text; the last may lack its newline. *)
Inductive text_lines : list (list Z) -> list Z -> Prop :=
| tl_end : text_lines [] []
| tl_last l : l <> [] -> text_lines [l] l
| tl_line l ls t : text_lines ls t -> text_lines (l :: ls) (l ++ 10 :: t).

(** A line is its fields with a delimiter between any two. *)
Definition plain (delim f : list Z) : Prop := f <> [] /\ forall c, In c f -> c <> 10 /\ ~ In c delim.
Inductive line_of (delim : list Z) : list (list Z) -> list Z -> Prop :=
| lo_one f : plain delim f -> line_of delim [f] f
| lo_more f c fs l : plain delim f -> In c delim -> line_of delim fs l -> line_of delim (f :: fs) (f ++ c :: l).

(** A field: a text with blanks around it. *)
Definition blank_char (c : Z) : Prop := c = 32 \/ 9 <= c <= 13.
Definition holds (f v : list Z) : Prop :=
  exists b1 b2, f = b1 ++ v ++ b2 /\ Forall blank_char b1 /\ Forall blank_char b2 /\
    v <> [] /\ ~ blank_char (hd 0 v) /\ ~ blank_char (last v 0).

(** Equal but for small letters in [t]. *)
Definition in_capitals (t s : list Z) : Prop :=
  Forall2 (fun c d => 97 <= c <= 122 /\ d = c - 32 \/ ~ 97 <= c <= 122 /\ d = c) t s.

(** ** The header: NAME:TYPE, or NAME:BITFIELD[a:1;b:2] *)

Definition type_name (ty : Z) (s : string) : Prop :=
  ty = ty_INTEGER /\ s = "INTEGER"%string \/ ty = ty_REAL /\ s = "REAL"%string \/
  ty = ty_DOUBLE /\ s = "DOUBLE"%string \/ ty = ty_STRING /\ s = "STRING"%string.

(** ":", ";", "[", "]" *)
Definition no_marks (t : list Z) : Prop := forall c, In c t -> c <> 58 /\ c <> 59 /\ c <> 91 /\ c <> 93.

Definition member (m : list Z) (b : list Z * Z) : Prop :=
  exists num, m = fst b ++ 58 :: num /\ fst b <> [] /\ no_marks (fst b) /\ 0 <= snd b < 32 /\ numeral (snd b) num.

Inductive declares (f : list Z) (ci : colinfo) : Prop :=
| de_plain pre t s : f = pre ++ 58 :: t -> holds pre (ci_name ci) -> no_marks (ci_name ci) ->
    type_name (ci_type ci) s -> in_capitals t (str s) -> ci_size ci = 8 -> ci_bits ci = [] -> declares f ci
| de_bits pre kw body ms : f = pre ++ 58 :: kw ++ 91 :: body ++ [93] -> holds pre (ci_name ci) -> no_marks (ci_name ci) ->
    ci_type ci = ty_BITFIELD -> in_capitals kw (str "BITFIELD") -> line_of [59] ms body ->
    Forall2 member ms (ci_bits ci) -> NoDup (map fst (ci_bits ci)) -> fold_right Z.add 0 (map snd (ci_bits ci)) <= 31 ->
    ci_size ci = 8 -> declares f ci.

(** ** Values *)
Section Values.
Variables (to_float to_double to_long : list Z -> outcome Z) (unquote : list Z -> list Z).

Definition null (v : list Z) : Prop := in_capitals v (str "NULL").

(** [cell] (read with integers as doubles or not) holds the value [v] is the text of. *)
Inductive means (i64 : bool) (ty : Z) (v cell : list Z) : Prop :=
| me_null_int : null v -> int_type ty -> cell = int_cell i64 MDI -> means i64 ty v cell
| me_null_real : null v -> real_type ty -> cell = le_bytes 8 realMDI -> means i64 ty v cell
| me_null_text : null v -> ty = ty_STRING -> until_nul cell = [] -> means i64 ty v cell
| me_int n : ~ null v -> int_type ty -> to_long v = Ok n -> cell = int_cell i64 n -> means i64 ty v cell
| me_real x w : ~ null v -> ty = ty_REAL -> to_float v = Ok x -> real_result (f2d x) w -> cell = le_bytes 8 w -> means i64 ty v cell
| me_double x : ~ null v -> ty = ty_DOUBLE -> to_double v = Ok x -> cell = le_bytes 8 x -> means i64 ty v cell
| me_text : ~ null v -> ty = ty_STRING -> until_nul cell = until_nul (unquote v) -> means i64 ty v cell.

(** Values that can be imported; texts of at most [8 * W] bytes. *)
Inductive importable (W : Z) (ty : Z) (v : list Z) : Prop :=
| im_null : null v -> int_type ty \/ real_type ty \/ ty = ty_STRING -> importable W ty v
| im_int n : ~ null v -> int_type ty -> to_long v = Ok n -> int32 n -> importable W ty v
| im_real x : ~ null v -> ty = ty_REAL -> to_float v = Ok x -> num (f2d x) -> is_inf f64 (f2d x) = false ->
    feq f32 (d2f (f2d x)) flt_min = false -> feq f32 (d2f (f2d x)) neg_flt_max = false -> importable W ty v
| im_double x : ~ null v -> ty = ty_DOUBLE -> to_double v = Ok x -> num x -> is_inf f64 x = false -> x <> negzero -> importable W ty v
| im_text : ~ null v -> ty = ty_STRING -> bytes_ok (unquote v) -> len (unquote v) <= 8 * W -> importable W ty v.

End Values.

(** The columns with texts as wide as can be. *)
Definition widest (W : Z) (ci : colinfo) : colinfo :=
  {| ci_name := ci_name ci; ci_type := ci_type ci; ci_size := if ci_type ci =? ty_STRING then 8 * W else ci_size ci; ci_bits := ci_bits ci |}.

(** The text of a table: a header that declares [cols], and a line for each row. *)
Record table_text (delim : list Z) (cols : list colinfo) (rows : list (list (list Z))) (text : list Z) : Prop := {
  tt_delim : ~ In 10 delim;
  tt_lines : exists header lines hs fss, text_lines (header :: lines) text /\
    line_of delim hs header /\ Forall2 declares hs cols /\
    Forall2 (line_of delim) fss lines /\ Forall2 (Forall2 holds) fss rows
}.
