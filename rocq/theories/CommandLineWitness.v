(** C66: instances. *)
From Coq Require Import String.
From Verif Require Import Base Stream Codec CommandLine CommandLineSpec P_CommandLine.
Open Scope Z_scope.

(** odc sql -T -f odb -o - q -f wide -i -T: the last -f counts, "-" is a word like any other, and
    the -T after -i is its argument; -i is registered, -x is registered too late. *)
Theorem C66_witness :
  let words := map str ["sql"; "-T"; "-f"; "odb"; "-o"; "-"; "q"; "-"; "-f"; "wide"; "-x"; "-i"; "-N"]%string in
  let items := [Plain (str "sql"); Flag (str "-T"); Valued (str "-f") (str "odb"); Valued (str "-o") (str "-");
                Plain (str "q"); Plain (str "-"); Valued (str "-f") (str "wide"); Flag (str "-x");
                Valued (str "-i") (str "-N")] in
  let cs := [Register (str "-f"); Register (str "-o"); Register (str "-i"); IsSet (str "-T"); AllParameters;
             Register (str "-x"); IsSet (str "-x"); Copied; Argument (str "-f") (str "none");
             Argument (str "-x") (str "none"); IsSet (str "-N"); ParameterAt 1] in
  reading (registered_first cs) items words /\
  answers (new_parser words) cs =
  [Ok Done; Ok Done; Ok Done; Ok (Bit true); Ok (Words (map str ["sql"; "q"; "-"]%string)); Ok Done; Ok (Bit true);
   Ok Done; Ok (Word (str "wide")); Ok (Word (str "none")); Ok (Bit false); Ok (Word (str "q"))].
Proof.
  cbv zeta. split; [|vm_compute; reflexivity].
  split; [|vm_compute; reflexivity].
  repeat (apply Forall_cons; [cbn [fits registered_first]; rewrite <- is_parameter_spec;
    first [split; [vm_compute; reflexivity|
           first [cbn [In]; tauto | rewrite <- contains_spec; vm_compute; discriminate]]
          | vm_compute; discriminate]|]).
  apply Forall_nil.
Qed.

(** A command line that lacks an argument. *)
Theorem C66_incomplete_witness :
  answers (new_parser (map str ["split"; "in"; "-maxopenfiles"]%string))
    [Register (str "-maxopenfiles"); AllParameters; IsSet (str "-sort")] =
  [Ok Done; Throw UserError; Throw UserError].
Proof.
  apply (C66_incomplete _ [str "-maxopenfiles"] [Plain (str "split"); Plain (str "in")] (str "-maxopenfiles")
           [AllParameters; IsSet (str "-sort")]).
  - repeat (apply Forall_cons; [cbn [fits]; rewrite <- is_parameter_spec; vm_compute; discriminate|]). apply Forall_nil.
  - reflexivity.
  - rewrite <- is_parameter_spec. reflexivity.
  - now left.
  - repeat (apply Forall_cons; [exact Logic.I|]). apply Forall_nil.
Qed.

(** What the answers do not promise: a parameter that begins with '-', such as a negative number,
    is an option. *)
Theorem C66_negative_refuted :
  answers (new_parser (map str ["set"; "-5"]%string)) [AllParameters; IsSet (str "-5")] =
  [Ok (Words [str "set"]); Ok (Bit true)].
Proof. vm_compute. reflexivity. Qed.

(** And after a question that was refused, registering a further option and asking again can
    succeed, with the parameters of both attempts. *)
Theorem C66_retry_refuted :
  answers (new_parser (map str ["tool"; "-a"; "-b"]%string))
    [Register (str "-b"); AllParameters; Register (str "-a"); AllParameters; IsSet (str "-a"); Argument (str "-a") []] =
  [Ok Done; Throw UserError; Ok Done; Ok (Words [str "tool"; str "tool"]); Ok (Bit true); Ok (Word (str "-b"))].
Proof. vm_compute. reflexivity. Qed.
