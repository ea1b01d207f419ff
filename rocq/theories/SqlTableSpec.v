(** Specification vocabulary for C68: the column a name in a query denotes. *)
From Coq Require Import String.
From Verif Require Import Base Fp Stream Codec Meta.
Open Scope Z_scope.

(** The name of column [i] is [nm]; it is [nm], an '@' and something. *)
Definition named (cs : list column) (nm : list Z) (i : nat) : Prop := exists c, nth_error cs i = Some c /\ col_name c = nm.
Definition qualified (cs : list column) (nm : list Z) (i : nat) : Prop :=
  exists c rest, nth_error cs i = Some c /\ col_name c = nm ++ 64 :: rest.

(** [nm] denotes column [i]: its name, or, when there is no column of that name, what stands
    before an '@' in the name of this column only. *)
Definition denotes (cs : list column) (nm : list Z) (i : nat) : Prop :=
  named cs nm i \/ (forall j, ~ named cs nm j) /\ (forall j, qualified cs nm j <-> j = i).

(** [nm] is ambiguous: no column has that name, and two are called so before an '@'. *)
Definition ambiguous (cs : list column) (nm : list Z) : Prop :=
  (forall j, ~ named cs nm j) /\ exists i j, i <> j /\ qualified cs nm i /\ qualified cs nm j.

(** Another column is called by the name of column [i] and an '@'. *)
Definition shadowed (cs : list column) (i : nat) : Prop :=
  exists c j, nth_error cs i = Some c /\ qualified cs (col_name c) j.

(** Columns a table of the SQL engine can be made of. *)
Definition sql_types (cs : list column) : Prop := Forall (fun c => 1 <= col_type c <= 5) cs.

(** The types of columns and the types the engine has for them. *)
Definition sql_type_names : list (Z * list Z) :=
  [(ty_INTEGER, str "integer"); (ty_REAL, str "real"); (ty_STRING, str "string"); (ty_BITFIELD, str "Bitfield"); (ty_DOUBLE, str "double")].

(** The value, in a row, of the column whose name is [full], with that column's missing value. *)
Definition value_named (r : list column * list (list Z)) (full : list Z) (a : list Z * Z * Z) : Prop :=
  exists k c cell, nth_error (fst r) k = Some c /\ col_name c = full /\ nth_error (snd r) k = Some cell /\
    a = (cell, c_hasMissing (col_coder c), missing_value (col_coder c)).

(** One column has the name [full], and no other that name and an '@'. *)
Definition plain (cs : list column) (full : list Z) : Prop :=
  exists k, (forall j, named cs full j <-> j = k) /\ forall j, ~ qualified cs full j.
