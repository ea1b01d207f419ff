(** Cases of C77. *)
From Coq Require Import String.
From Verif Require Import Base Fp Stream Codec Csv CommandLine CommandLineSpec P_CommandLine ToolMain ToolMore P_ToolMore SqlOut SqlOutSpec P_SqlOut.
Open Scope Z_scope.
Local Notation length := List.length.

(** One file with a query in it. *)
Definition library (w : word) : option (list Z) := if bytes_eqb w (str "q.sql") then Some (str "SELECT a FROM t") else None.
Definition sql_run (words : list string) : outcome sql_job := sql_query library (map str words).

Definition split_items : list item :=
  [Plain (str "sql"); Plain (str "Select"); Plain (str "*"); Valued (str "-f") (str "odb"); Valued (str "-o") (str "out_{x}.odb")].

(** The hypotheses of C77_query and C77_odb, for results that are split. *)
Theorem C77_witness :
  reading sql_options split_items (map str ["sql"; "Select"; "*"; "-f"; "odb"; "-o"; "out_{x}.odb"]%string) /\
  plain_words split_items = str "sql" :: str "Select" :: [str "*"] /\ format_is split_items (str "odb") /\
  given split_items (str "-o") (str "out_{x}.odb") /\ ~ no_output split_items /\
  mentions_select (str "Select") /\ ~ mentions_select (str "q.sql") /\
  templated (str "out_{x}.odb") /\ unclosed (str "out_{x.odb") /\ braceless (str "out.odb").
Proof.
  assert (G : given split_items (str "-o") (str "out_{x}.odb")).
  { exists [Plain (str "sql"); Plain (str "Select"); Plain (str "*"); Valued (str "-f") (str "odb")], [].
    split; [reflexivity|]. intros b []. }
  repeat split.
  - repeat apply Forall_cons; try apply Forall_nil; cbn [fits].
    1-3: intros (c & r & H); vm_compute in H; discriminate H.
    + split; [exists 102, []; vm_compute; reflexivity|unfold sql_options; do 4 right; now left].
    + split; [exists 111, []; vm_compute; reflexivity|unfold sql_options; now left].
  - left. exists [Plain (str "sql"); Plain (str "Select"); Plain (str "*")], [Valued (str "-o") (str "out_{x}.odb")].
    split; [reflexivity|]. intros b [X|[]]. apply (f_equal (fun i => match i with Valued o _ => o | _ => [] end)) in X. vm_compute in X. discriminate X.
  - exact G.
  - intros N. elim (N (str "out_{x}.odb")). now apply given_in.
  - apply is_select_iff. vm_compute. reflexivity.
  - intros H. apply is_select_iff in H. vm_compute in H. discriminate H.
  - vm_compute. do 4 right. now left.
  - intros U. destruct (names_is (str "out_{x}.odb")) as (_ & _ & N). specialize (N U). vm_compute in N. discriminate N.
  - exists (str "out_"), (str "x.odb"). split; [reflexivity|]. vm_compute. intros H. repeat (destruct H as [H|H]; [discriminate H|]). exact H.
  - vm_compute. intros H. repeat (destruct H as [H|H]; [discriminate H|]). exact H.
Qed.

(** By evaluation: the words of a query; a query in a file, where other words are ignored; a file
    whose name has "select" in it is not read. *)
Theorem C77_computed :
  sql_run ["sql"; "Select"; "*"; "-f"; "odb"; "-o"; "out_{x}.odb"]%string =
    Ok {| q_text := str "Select *;"; q_opened := None; q_sink := Ok (OdbSplit (str "out_{x}.odb")) |} /\
  sql_run ["sql"; "q.sql"; "ignored"]%string = Ok {| q_text := str "SELECT a FROM t;"; q_opened := None; q_sink := Ok (Text None) |} /\
  sql_run ["sql"; "my_select.sql"]%string = Ok {| q_text := str "my_select.sql;"; q_opened := None; q_sink := Ok (Text None) |} /\
  sql_run ["sql"; "-f"; "odb"; "q.sql"]%string = Throw UserError /\ sql_run ["sql"; "nothing"]%string = Throw SeriousBug.
Proof. vm_compute. repeat split. Qed.

(** By evaluation: "-o -" is the standard output for ODB but a file named "-" for text; without a
    format, a file with the name of the template is left beside the files the results are split
    into, and "-o -" leaves a file named "-". *)
Theorem C77_dash_refuted :
  sql_run ["sql"; "select 1"; "-f"; "odb"; "-o"; "-"]%string =
    Ok {| q_text := str "select 1;"; q_opened := None; q_sink := Ok (OdbFile (str "/dev/stdout")) |} /\
  sql_run ["sql"; "select 1"; "-f"; "ascii"; "-o"; "-"]%string =
    Ok {| q_text := str "select 1;"; q_opened := Some (str "-"); q_sink := Ok (Text (Some (str "-"))) |} /\
  sql_run ["sql"; "select 1"; "-o"; "-"]%string =
    Ok {| q_text := str "select 1;"; q_opened := Some (str "-"); q_sink := Ok (OdbFile (str "/dev/stdout")) |} /\
  sql_run ["sql"; "select 1"; "-o"; "{x}"]%string =
    Ok {| q_text := str "select 1;"; q_opened := Some (str "{x}"); q_sink := Ok (OdbSplit (str "{x}")) |}.
Proof. vm_compute. repeat split. Qed.

Print Assumptions C77_witness.
Print Assumptions C77_computed.
Print Assumptions C77_dash_refuted.
