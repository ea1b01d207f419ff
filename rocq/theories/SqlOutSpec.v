(** What the sql tool is asked, and the names of its output: specification for C77. *)
From Coq Require Import String.
From Verif Require Import Base Stream Codec CommandLine CommandLineSpec.
Open Scope Z_scope.

(** The same letter, in either case. *)
Definition same_letter (small c : Z) : Prop := c = small \/ c = small - 32.

(** The word has "select" in it, in any mixture of cases. *)
Definition mentions_select (w : word) : Prop :=
  exists before it after, w = before ++ it ++ after /\ Forall2 same_letter (str "select") it.

(** The words with one blank between them. *)
Inductive blank_joined : list word -> list Z -> Prop :=
| joined_one w : blank_joined [w] w
| joined_more w ws t : blank_joined ws t -> blank_joined (w :: ws) (w ++ [32] ++ t).

(** The text of the query: the words, or what is in the file the first of them names. *)
Definition query_text (files : word -> option (list Z)) (first : word) (rest : list word) (q : list Z) : Prop :=
  (mentions_select first -> exists t, blank_joined (first :: rest) t /\ q = t ++ str ";") /\
  (~ mentions_select first -> first <> str "-" -> exists b, files first = Some b /\ q = b ++ str ";").

(** A name without braces; one with a brace that is closed further on, as all others are; one
    with a brace that is not. *)
Definition braceless (path : word) : Prop := ~ In 123 path.
Definition unclosed (path : word) : Prop := exists a b, path = a ++ [123] ++ b /\ ~ In 125 b.
Definition templated (path : word) : Prop := In 123 path /\ ~ unclosed path.

(** The format asked for with -f. *)
Definition format_is (items : list item) (f : word) : Prop :=
  given items (str "-f") f \/ (f = str "default" /\ forall a, ~ In (Valued (str "-f") a) items).
Definition no_output (items : list item) : Prop := forall a, ~ In (Valued (str "-o") a) items.
