(** CommandLineParser.cc: the words of a tool's command line. *)
From Verif Require Import Base Stream.
Open Scope Z_scope.

Notation word := (list Z) (only parsing).

(** class CommandLineParser, CommandLineParser.h:62-72: commandLineParsed_, argv_ (of argc_
    words), registeredOptionsWithArguments_, optionsWithArguments_, optionsNoArguments_ and
    parameters_.  The two std::set's are lists: only membership is ever asked. *)
Record parser : Type := mkparser {
  p_parsed : bool;
  p_words : list word;
  p_registered : list word;
  p_valued : smap word;
  p_flags : list word;
  p_params : list word }.

(** CommandLineParser::CommandLineParser(int, char** ), CommandLineParser.cc:27-34. *)
Definition new_parser (words : list word) : parser := mkparser false words [] [] [] [].

(** std::set<std::string>::find(s) != end(). *)
Definition contains (s : list word) (w : word) : bool := existsb (bytes_eqb w) s.

(** CommandLineParser::argv(int), CommandLineParser.cc:70-77: UserError past the last word. *)
Definition argv (p : parser) (i : nat) : outcome word :=
  match nth_error (p_words p) i with
  | Some w => Ok w
  | None => Throw UserError
  end.

(** s[0] != '-' || s.size() == 1, CommandLineParser.cc:115; s[0] of an empty string is the
    character 0. *)
Definition is_parameter (s : word) : bool := negb (nth 0 s 0 =? 45) || (length s =? 1)%nat.

(** parameters_.push_back(s), CommandLineParser.cc:116. *)
Definition push_parameter (p : parser) (s : word) : parser :=
  mkparser (p_parsed p) (p_words p) (p_registered p) (p_valued p) (p_flags p) (p_params p ++ [s]).

(** optionsWithArguments_[s] = a, CommandLineParser.cc:121. *)
Definition set_valued (p : parser) (s a : word) : parser :=
  mkparser (p_parsed p) (p_words p) (p_registered p) (mset (p_valued p) s a) (p_flags p) (p_params p).

(** optionsNoArguments_.insert(s), CommandLineParser.cc:126. *)
Definition insert_flag (p : parser) (s : word) : parser :=
  mkparser (p_parsed p) (p_words p) (p_registered p) (p_valued p) (s :: p_flags p) (p_params p).

(** commandLineParsed_ = true, CommandLineParser.cc:132. *)
Definition set_parsed (p : parser) : parser :=
  mkparser true (p_words p) (p_registered p) (p_valued p) (p_flags p) (p_params p).

(** The loop of CommandLineParser::parseCommandLine, CommandLineParser.cc:113-131, at word [i],
    for at most [n] words more.  The object is left as it is when argv(++i) throws: what was put
    in it before stays (with C++17's order of evaluation, no entry is made for the option). *)
Fixpoint parse_loop (n : nat) (i : nat) (p : parser) {struct n} : parser * outcome unit :=
  match n with
  | O => (p, Ok tt)
  | S n' =>
      if (i <? length (p_words p))%nat then
        match argv p i with
        | Ok s =>
            if is_parameter s then parse_loop n' (S i) (push_parameter p s)
            else if contains (p_registered p) s then
              match argv p (S i) with
              | Ok a => parse_loop n' (S (S i)) (set_valued p s a)
              | Throw e => (p, Throw e)
              | UB => (p, UB)
              end
            else parse_loop n' (S i) (insert_flag p s)
        | Throw e => (p, Throw e)
        | UB => (p, UB)
        end
      else (p, Ok tt)
  end.

(** CommandLineParser::parseCommandLine, CommandLineParser.cc:112-133. *)
Definition parse_command_line (p : parser) : parser * outcome unit :=
  match parse_loop (length (p_words p)) 0 p with
  | (p', Ok _) => (set_parsed p', Ok tt)
  | r => r
  end.

(** if (!commandLineParsed_) parseCommandLine(), CommandLineParser.cc:84, 90, 102. *)
Definition ensure_parsed (p : parser) : parser * outcome unit :=
  if p_parsed p then (p, Ok tt) else parse_command_line p.

(** A call on the object, and what it returns. *)
Inductive call : Type :=
| Register (o : word)              (* registerOptionWithArgument *)
| AllParameters                     (* parameters() *)
| ParameterAt (i : nat)            (* parameters(i) *)
| IsSet (o : word)                 (* optionIsSet *)
| Argument (o d : word)            (* optionArgument<std::string> *)
| Copied.                          (* the object is replaced by a copy of itself *)

Inductive answer : Type :=
| Done
| Words (l : list word)
| Word (w : word)
| Bit (b : bool).

(** A query parses first, and answers from the members when that did not throw. *)
Definition query (p : parser) (f : parser -> outcome answer) : parser * outcome answer :=
  match ensure_parsed p with
  | (p', Ok _) => (p', f p')
  | (p', Throw e) => (p', Throw e)
  | (p', UB) => (p', UB)
  end.

(** The calls: registerOptionWithArgument, CommandLineParser.cc:79-81; parameters(), 83-87;
    parameters(i), CommandLineParser.h:41 (operator[] past the end is undefined behaviour);
    optionIsSet, CommandLineParser.cc:89-97; optionArgument, 99-110, for std::string, whose
    Translator is the identity; the copy constructor and operator=, 36-64, which parse the
    original first and mark the copy as parsed.
    Simplified: a copy keeps the words, where the copy constructor leaves argc_ and argv_
    uninitialised: no call below reads them once the line is parsed.  A set option that already
    is registered is inserted twice, which no call can see.  The numeric instances of
    optionArgument convert the text with eckit's Translator and are not modelled. *)
Definition apply (p : parser) (c : call) : parser * outcome answer :=
  match c with
  | Register o =>
      (mkparser (p_parsed p) (p_words p) (o :: p_registered p) (p_valued p) (p_flags p) (p_params p), Ok Done)
  | AllParameters => query p (fun q => Ok (Words (p_params q)))
  | ParameterAt i => query p (fun q => match nth_error (p_params q) i with Some w => Ok (Word w) | None => UB end)
  | IsSet o =>
      query p (fun q => if contains (p_flags q) o then Ok (Bit true)
                        else Ok (Bit (match mget (p_valued q) o with Some _ => true | None => false end)))
  | Argument o d =>
      query p (fun q => Ok (Word (match mget (p_valued q) o with Some a => a | None => d end)))
  | Copied => query p (fun _ => Ok Done)
  end.

(** The answers to a history of calls. *)
Fixpoint answers (p : parser) (cs : list call) : list (outcome answer) :=
  match cs with
  | [] => []
  | c :: cs' => let '(p', a) := apply p c in a :: answers p' cs'
  end.
