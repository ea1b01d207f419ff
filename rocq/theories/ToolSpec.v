(** What the command line of a tool asks for: specification for C70, C71 and C51. *)
From Coq Require Import String.
From Verif Require Import Base Stream CommandLine CommandLineSpec CsvSpec.
Open Scope Z_scope.

(** The names given to the option [o], separated by commas; none if it is not there. *)
Definition names_given (items : list item) (o : word) (names : list (list Z)) : Prop :=
  (exists a, given items o a /\ line_of [44] names a) \/
  (names = [] /\ forall a, ~ In (Valued o a) items).

(** The option [o] is not there, or (the last time it is) has the argument [a]. *)
Definition default_or (items : list item) (o a : word) : Prop :=
  given items o a \/ forall b, ~ In (Valued o b) items.
