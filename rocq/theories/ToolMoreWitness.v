(** Concrete cases for C72 and C73, and counterexamples. *)
From Coq Require Import String.
From Verif Require Import Spec Base Fp Stream Codec Meta Header Encoder Table Reader ReadSpec
  StreamLocal Quick Through P_Frame Writer RowReader WriterSpec EncodeWitness WriterWitness
  Csv CsvWitness Scan ScanSpec P_Scan ScanWitness Merge MergeWitness CommandLine CommandLineSpec P_CommandLine ToolMain ToolSpec P_ToolMain ToolMore P_ToolMore.
Open Scope Z_scope.
Local Notation length := List.length.

Definition shelf (n : list Z) : option (list Z) :=
  if bytes_eqb n (str "p.odb") then Some pfile
  else if bytes_eqb n (str "q.odb") then Some qfile
  else if bytes_eqb n (str "f.odb") then Some (ScanSpec.bytes_of [fa; fb; fc])
  else None.

Definition merge (words : list string) : outcome (list Z * list Z) :=
  merge_tool shelf quick doubles noise 2 9 (fun _ => Throw NotImplemented) (map str words).
Definition merge_items : list item :=
  [Plain (str "merge"); Plain (str "p.odb"); Valued (str "-o") (str "m.odb"); Plain (str "q.odb")].

(** With C53_witness, the hypotheses of C72_merge. *)
Theorem C72_witness :
  reading [str "-o"] merge_items (map str ["merge"; "p.odb"; "-o"; "m.odb"; "q.odb"]%string) /\
  plain_words merge_items = str "merge" :: [str "p.odb"; str "q.odb"] /\
  ~ In (Flag (str "-S")) merge_items /\ given merge_items (str "-o") (str "m.odb") /\
  Forall2 (fun n b => shelf n = Some b) [str "p.odb"; str "q.odb"] [pfile; qfile].
Proof.
  split; [split|].
  - repeat apply Forall_cons; try apply Forall_nil; cbn [fits].
    + intros (c & r & H). vm_compute in H. discriminate H.
    + intros (c & r & H). vm_compute in H. discriminate H.
    + split; [exists 111, []; vm_compute; reflexivity|now left].
    + intros (c & r & H). vm_compute in H. discriminate H.
  - reflexivity.
  - split; [reflexivity|]. split; [intros [X|[X|[X|[X|[]]]]]; discriminate X|]. split.
    + exists [Plain (str "merge"); Plain (str "p.odb")], [Plain (str "q.odb")]. split; [reflexivity|]. intros b [X|[]]; discriminate X.
    + repeat constructor.
Qed.

(** By evaluation: where the result goes, with -o and without; too few files; a file without a
    query after -S. *)
Theorem C72_computed :
  (do r <- merge ["merge"; "p.odb"; "-o"; "m.odb"; "q.odb"]%string; Ok (fst r)) = Ok (str "m.odb") /\
  (do r <- merge ["merge"; "p.odb"; "q.odb"]%string; Ok (fst r)) = Ok (str "<no-default>") /\
  merge ["merge"; "-o"; "m.odb"; "p.odb"]%string = Throw UserError /\
  merge ["merge"; "-S"; "-o"; "m.odb"; "p.odb"; "select *"; "q.odb"]%string = UB.
Proof. vm_compute. repeat split. Qed.

Definition sql_of (words : list string) : outcome (option (list Z)) := sql_input shelf atoi (map str words).

(** The second frame of a file of three: the hypotheses of C73_part. *)
Definition sql_items (o n : string) : list item :=
  [Plain (str "sql"); Valued (str "-i") (str "f.odb"); Valued (str "-offset") (str o); Valued (str "-length") (str n); Plain (str "select *")].
Theorem C73_witness :
  reading sql_options (sql_items "205" "195")
    (map str ["sql"; "-i"; "f.odb"; "-offset"; "205"; "-length"; "195"; "select *"]%string) /\
  (2 <= length (plain_words (sql_items "205" "195")))%nat /\
  given (sql_items "205" "195") (str "-i") (str "f.odb") /\
  given (sql_items "205" "195") (str "-offset") (str "205") /\ given (sql_items "205" "195") (str "-length") (str "195") /\
  shelf (str "f.odb") = Some (ScanSpec.bytes_of (concat [[fa]; [fb]; [fc]])) /\
  atoi (str "205") = Ok 205 /\ atoi (str "195") = Ok 195 /\
  nth_error (extents 0 [[fa]; [fb]; [fc]]) 1 = Some (205, 195) /\ 205 <> 0.
Proof.
  assert (N1 : str "-i" <> str "-offset") by (vm_compute; discriminate).
  assert (N2 : str "-i" <> str "-length") by (vm_compute; discriminate).
  assert (N3 : str "-offset" <> str "-length") by (vm_compute; discriminate).
  split; [split|].
  - repeat apply Forall_cons; try apply Forall_nil; cbn [fits].
    + intros (c & r & H). vm_compute in H. discriminate H.
    + split; [exists 105, []; vm_compute; reflexivity|unfold sql_options; right; now left].
    + split; [exists 111, (str "ffset"); vm_compute; reflexivity|unfold sql_options; do 5 right; now left].
    + split; [exists 108, (str "ength"); vm_compute; reflexivity|unfold sql_options; do 6 right; now left].
    + intros (c & r & H). vm_compute in H. discriminate H.
  - reflexivity.
  - split; [cbn; lia|]. split; [|split; [|split]].
    + exists [Plain (str "sql")], [Valued (str "-offset") (str "205"); Valued (str "-length") (str "195"); Plain (str "select *")].
      split; [reflexivity|]. intros b [X|[X|[X|[]]]]; congruence.
    + exists [Plain (str "sql"); Valued (str "-i") (str "f.odb")], [Valued (str "-length") (str "195"); Plain (str "select *")].
      split; [reflexivity|]. intros b [X|[X|[]]]; congruence.
    + exists [Plain (str "sql"); Valued (str "-i") (str "f.odb"); Valued (str "-offset") (str "205")], [Plain (str "select *")].
      split; [reflexivity|]. intros b [X|[]]; congruence.
    + split; [reflexivity|]. split; [vm_compute; reflexivity|]. split; [vm_compute; reflexivity|]. split; [vm_compute; reflexivity|discriminate].
Qed.

(** By evaluation: the second frame; of the first frame's length from 0 on, the whole file; with
    no length, nothing; no file. *)
Theorem C73_first_refuted :
  sql_of ["sql"; "-i"; "f.odb"; "-offset"; "205"; "-length"; "195"; "select *"]%string = Ok (Some (fst fb)) /\
  sql_of ["sql"; "-i"; "f.odb"; "-offset"; "0"; "-length"; "205"; "select *"]%string = Ok (Some (ScanSpec.bytes_of [fa; fb; fc])) /\
  len (fst fa) = 205 /\
  sql_of ["sql"; "-i"; "f.odb"; "-offset"; "205"; "select *"]%string = Ok (Some []) /\
  sql_of ["sql"; "select 1"]%string = Ok None /\ sql_of ["sql"; "-i"; "-"; "select 1"]%string = Throw NotImplemented.
Proof. vm_compute. repeat split. Qed.
