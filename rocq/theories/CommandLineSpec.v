(** How a command line is read: specification for C66. *)
From Verif Require Import Base Stream CommandLine.
Open Scope Z_scope.

(** An option is a '-' followed by at least one character. *)
Definition option_word (w : word) : Prop := exists c rest, w = 45 :: c :: rest.

(** What a command line is made of. *)
Inductive item : Type :=
| Plain (w : word)                 (* a parameter *)
| Flag (o : word)                  (* an option *)
| Valued (o a : word).             (* an option and its argument *)

(** The words an item takes on the command line. *)
Definition spelled (i : item) : list word :=
  match i with
  | Plain w => [w]
  | Flag o => [o]
  | Valued o a => [o; a]
  end.

(** When [taking] is the list of the options that take an argument. *)
Definition fits (taking : list word) (i : item) : Prop :=
  match i with
  | Plain w => ~ option_word w
  | Flag o => option_word o /\ ~ In o taking
  | Valued o _ => option_word o /\ In o taking
  end.

(** [items] is a reading of the command line [words]. *)
Definition reading (taking : list word) (items : list item) (words : list word) : Prop :=
  Forall (fits taking) items /\ words = flat_map spelled items.

(** The parameters, in order. *)
Definition plain_words (items : list item) : list word :=
  flat_map (fun i => match i with Plain w => [w] | _ => [] end) items.

(** The argument of option [o] is [a]: the one given last. *)
Definition given (items : list item) (o a : word) : Prop :=
  exists before after, items = before ++ Valued o a :: after /\ forall b, ~ In (Valued o b) after.

(** The answer to a call, when the command line reads as [items]. *)
Definition replies (items : list item) (c : call) (r : outcome answer) : Prop :=
  match c with
  | Register _ | Copied => r = Ok Done
  | AllParameters => r = Ok (Words (plain_words items))
  | ParameterAt i => forall w, nth_error (plain_words items) i = Some w -> r = Ok (Word w)
  | IsSet o =>
      exists b, r = Ok (Bit b) /\
      (b = true <-> (In (Flag o) items \/ exists a, In (Valued o a) items))
  | Argument o d =>
      (forall a, given items o a -> r = Ok (Word a)) /\
      ((forall a, ~ In (Valued o a) items) -> r = Ok (Word d))
  end.

(** The options registered before the first other call. *)
Fixpoint registered_first (cs : list call) : list word :=
  match cs with
  | Register o :: cs' => o :: registered_first cs'
  | _ => []
  end.

(** A call other than registering. *)
Definition is_query (c : call) : Prop := match c with Register _ => False | _ => True end.
