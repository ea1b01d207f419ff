(** What "odc header" tells about a file: specification for C67. *)
From Coq Require Import String.
From Verif Require Import Base Fp Stream Codec Meta Header Table Reader Spec ReadSpec ScanSpec DispatchSpec.
Open Scope Z_scope.
Local Notation length := List.length.

(** A line of four numerals for a frame of the bytes [f] at offset [off]. *)
Definition tells (off : Z) (f : list Z) (t : table) (line : list Z) : Prop :=
  exists a b c d, line = a ++ [32] ++ b ++ [32] ++ c ++ [32] ++ d ++ [10] /\
  numeral off a /\ numeral (Z.of_nat (length f)) b /\ numeral (t_rows t) c /\ numeral (Z.of_nat (length (t_cols t))) d.

(** Two columns with the same name, type and width. *)
Definition alike (a b : column) : Prop :=
  col_name a = col_name b /\ col_type a = col_type b /\
  data_size_doubles (col_coder a) = data_size_doubles (col_coder b).
Definition tables_alike (s t : table) : Prop := Forall2 alike (t_cols s) (t_cols t).

(** [groups] are the maximal runs of successive tables of the same columns in [l]. *)
Record runs_of (l : list (list Z * table)) (groups : list (list (list Z * table))) : Prop := {
  ro_all : concat groups = l;
  ro_some : Forall (fun g => g <> []) groups;
  ro_alike : forall g p q, In g groups -> In p g -> In q g -> tables_alike (snd p) (snd q);
  ro_maximal : forall before g g' after p q, groups = before ++ g :: g' :: after ->
    In p g -> In q g' -> ~ tables_alike (snd p) (snd q)
}.

(** The name of a column without the name of the table. *)
Definition bare (table_name name b : list Z) : Prop :=
  name = b ++ str "@" ++ table_name \/
  (name = b /\ forall b', name <> b' ++ str "@" ++ table_name).

(** Two columns that are declared alike: the same name up to the name of the table, the same type,
    the same members. *)
Definition declared_alike (table_name : list Z) (a b : column) : Prop :=
  (exists n, bare table_name (col_name a) n /\ bare table_name (col_name b) n) /\
  col_type a = col_type b /\
  (col_type a = ty_BITFIELD -> col_bfnames a = col_bfnames b /\ col_bfsizes a = col_bfsizes b).

(** Names without line breaks, spaces and commas. *)
Definition plain_name (n : list Z) : Prop := Forall (fun c => c <> 10 /\ c <> 32 /\ c <> 44) n.
Definition one_line (n : list Z) : Prop := ~ In 10 n.

(** A column that can be declared. *)
Definition declarable (c : column) : Prop :=
  plain_name (col_name c) /\
  (col_type c = ty_STRING \/ col_type c = ty_INTEGER \/ col_type c = ty_REAL \/ col_type c = ty_DOUBLE \/
   col_type c = ty_BITFIELD /\ Forall plain_name (col_bfnames c) /\ Forall int32 (col_bfsizes c) /\
   length (col_bfnames c) = length (col_bfsizes c)).
