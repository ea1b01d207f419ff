(** Declarations of columns that are refused: specification for C45. *)
From Coq Require Import String.
From Verif Require Import Base Fp Codec Stream Meta Encoder Writer WriterSpec RowList Spec DispatchSpec CsvSpec.
Open Scope Z_scope.
Local Notation length := List.length.

Inductive refused (f : list Z) : exn -> Prop :=
(** no type *)
| re_colon : ~ In 58 f -> refused f UserError
(** a type that is not known *)
| re_type pre name t : f = pre ++ 58 :: t -> holds pre name -> no_marks name -> no_marks t -> t <> [] ->
    (forall s, In s ["INTEGER"; "REAL"; "DOUBLE"; "STRING"]%string -> ~ in_capitals t (str s)) ->
    (forall kw r, t = kw ++ r -> ~ in_capitals kw (str "BITFIELD")) -> refused f AssertFailed
(** a bitfield with two members of the same name, or of more than 31 bits *)
| re_members pre name kw body ms bits : f = pre ++ 58 :: kw ++ 91 :: body ++ [93] -> holds pre name -> no_marks name ->
    in_capitals kw (str "BITFIELD") -> line_of [59] ms body -> Forall2 member ms bits ->
    ~ NoDup (map fst bits) \/ 31 < fold_right Z.add 0 (map snd bits) -> fold_right Z.add 0 (map snd bits) < 2 ^ 64 ->
    refused f UserError.
