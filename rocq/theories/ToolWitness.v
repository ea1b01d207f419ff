(** Concrete cases for C70 and C71, and counterexamples. *)
From Coq Require Import String.
From Verif Require Import Spec Base Fp Stream Codec Meta Header Encoder Table Reader ReadSpec
  StreamLocal Quick Through P_Frame Writer RowReader WriterSpec EncodeWitness WriterWitness
  Comparator ComparatorSpec CompareWitness Csv CsvWitness CommandLine CommandLineSpec P_CommandLine ToolMain ToolSpec P_ToolMain.
From Verif Require CsvSpec P_Csv.
Open Scope Z_scope.
Local Notation length := List.length.

(** A column of doubles with a missing value, in one frame and in two, and another value. *)
Definition two_rows (v : Z) : list action := [Row [le_bytes 8 realMDI]; Row [le_bytes 8 v]].
Definition one_frame : list Z := Eval vm_compute in file_of doubles 2 [wcol "d" ty_DOUBLE 8] (two_rows d_one).
Definition two_frames : list Z := Eval vm_compute in file_of doubles 1 [wcol "d" ty_DOUBLE 8] (two_rows d_one).
Definition another : list Z := Eval vm_compute in file_of doubles 2 [wcol "d" ty_DOUBLE 8] (two_rows pi).

Definition disk (n : list Z) : option (list Z) :=
  if bytes_eqb n (str "a.odb") then Some one_frame
  else if bytes_eqb n (str "b.odb") then Some two_frames
  else if bytes_eqb n (str "c.odb") then Some another
  else if bytes_eqb n (str "t.csv") then Some table
  else if bytes_eqb n (str "s.csv") then Some (str "x:STRING;y:STRING" ++ [10] ++ str "p;q")
  else None.

Definition compare (words : list string) : outcome unit :=
  compare_tool disk quick doubles false noise other_noise 9 (map str words).

(** Command lines that meet the hypotheses of C70_compare. *)
Definition some_items : list item :=
  [Plain (str "compare"); Valued (str "-excludeColumns") (str "x,d"); Plain (str "a.odb");
   Flag (str "-dontCheckMissing"); Plain (str "c.odb")].
Theorem C70_witness :
  reading [str "-excludeColumnsTypes"; str "-excludeColumns"] some_items
    (map str ["compare"; "-excludeColumns"; "x,d"; "a.odb"; "-dontCheckMissing"; "c.odb"]%string) /\
  plain_words some_items = [str "compare"; str "a.odb"; str "c.odb"] /\
  disk (str "a.odb") = Some one_frame /\ disk (str "c.odb") = Some another /\
  names_given some_items (str "-excludeColumnsTypes") [] /\
  names_given some_items (str "-excludeColumns") [str "x"; str "d"] /\
  In (Flag (str "-dontCheckMissing")) some_items.
Proof.
  assert (N1 : str "-dontCheckMissing" <> str "-excludeColumnsTypes") by (vm_compute; discriminate).
  assert (N2 : str "-dontCheckMissing" <> str "-excludeColumns") by (vm_compute; discriminate).
  assert (N3 : str "-excludeColumns" <> str "-excludeColumnsTypes") by (vm_compute; discriminate).
  split; [split|split; [reflexivity|split; [vm_compute; reflexivity|split; [vm_compute; reflexivity|split; [|split]]]]].
  - unfold some_items. repeat apply Forall_cons; try apply Forall_nil; cbn [fits].
    + intros (c & r & H). vm_compute in H. discriminate H.
    + split; [exists 101, (str "xcludeColumns"); vm_compute; reflexivity|right; now left].
    + intros (c & r & H). vm_compute in H. discriminate H.
    + split; [exists 100, (str "ontCheckMissing"); vm_compute; reflexivity|]. intros [X|[X|[]]]; [now apply N1|now apply N2].
    + intros (c & r & H). vm_compute in H. discriminate H.
  - reflexivity.
  - right. split; [reflexivity|]. intros a [X|[X|[X|[X|[X|[]]]]]]; congruence.
  - left. exists (str "x,d"). split.
    + exists [Plain (str "compare")], [Plain (str "a.odb"); Flag (str "-dontCheckMissing"); Plain (str "c.odb")].
      split; [reflexivity|]. intros b [X|[X|[X|[]]]]; discriminate X.
    + apply (CsvSpec.lo_more [44] (str "x") 44 [str "d"] (str "d")); [apply plainb_ok; vm_compute; reflexivity|now left|].
      apply CsvSpec.lo_one. apply plainb_ok. vm_compute. reflexivity.
  - right. right. right. left. reflexivity.
Qed.

(** Differing values are found, unless the column is excluded; a missing file and a missing
    parameter are refused. *)
Theorem C70_computed :
  compare ["compare"; "a.odb"; "a.odb"]%string = Ok tt /\
  compare ["compare"; "a.odb"; "c.odb"]%string = Throw SeriousBug /\
  compare ["compare"; "-excludeColumns"; "x,d"; "a.odb"; "c.odb"]%string = Ok tt /\
  compare ["compare"; "-excludeColumns"; "D"; "a.odb"; "c.odb"]%string = Throw SeriousBug /\
  compare ["compare"; "a.odb"]%string = Throw UserError /\
  compare ["compare"; "a.odb"; "d.odb"]%string = Throw SeriousBug /\
  compare ["compare"; "a.odb"; "c.odb"; "-excludeColumns"]%string = Throw UserError.
Proof. vm_compute. repeat split. Qed.

(** The tool does NOT check whether columns have missing values, unless it is told not to: the
    flag has the opposite effect of its name. *)
Theorem C70_missing_refuted :
  compare ["compare"; "a.odb"; "b.odb"]%string = Ok tt /\
  compare ["compare"; "-dontCheckMissing"; "a.odb"; "b.odb"]%string = Throw AssertFailed.
Proof. vm_compute. repeat split. Qed.

(** ** Import *)
Definition import_with (words : list string) : outcome (list Z * (list Z * Z)) :=
  import_tool disk quick doubles read_float read_double read_int quoted memory 4 9 (fun _ _ _ => Throw NotImplemented) (map str words).

Theorem C71_witness : exists file,
  import_with ["import"; "t.csv"; "-d"; ";"; "t.odb"]%string = Ok (str "t.odb", (file, 2)) /\
  exists rows, file_rows quick int64s noise 9 file = (rows, Clean) /\
    Forall2 (P_Csv.imported read_float read_double read_int quoted true tcols) tvalues rows.
Proof.
  assert (N1 : str "-d" <> str "-sql") by (vm_compute; discriminate).
  destruct (C71_import disk quick doubles int64s read_float read_double read_int quoted memory 4 (fun _ _ _ => Throw NotImplemented) 2 tcols tvalues
     (map str ["import"; "t.csv"; "-d"; ";"; "t.odb"]%string)
     [Plain (str "import"); Plain (str "t.csv"); Valued (str "-d") (str ";"); Plain (str "t.odb")]
     (str "import") (str "t.csv") (str "t.odb") table) as (file & A & B).
  - exact quick_length.
  - lia.
  - reflexivity.
  - reflexivity.
  - intros n i. vm_compute. repeat constructor; discriminate.
  - lia.
  - lia.
  - split; [|reflexivity]. repeat apply Forall_cons; try apply Forall_nil; cbn [fits].
    + intros (c & r & H). vm_compute in H. discriminate H.
    + intros (c & r & H). vm_compute in H. discriminate H.
    + split; [exists 100, []; vm_compute; reflexivity|now left].
    + intros (c & r & H). vm_compute in H. discriminate H.
  - reflexivity.
  - vm_compute. reflexivity.
  - right. intros b [X|[X|[X|[X|[]]]]]; congruence.
  - exact table_ok.
  - discriminate.
  - exact tcols_ok.
  - unfold WriterSpec.small. vm_compute. auto.
  - exact tvalues_ok.
  - exists file. split; [apply A; cbn; lia|]. destruct (B noise) as (rows & C & D). exists rows. split; [apply C; cbn; lia|exact D].
Qed.

(** A text with another delimiter cannot be imported by giving that delimiter, though the API
    can import it. *)
Theorem C71_semicolon_refuted :
  (exists file, import_text doubles (str ";") read_float read_double read_int quoted memory quick 4 9
     (str "x:STRING;y:STRING" ++ [10] ++ str "p;q") = Ok (file, 1)) /\
  import_with ["import"; "-d"; ";"; "s.csv"; "s.odb"]%string = import_with ["import"; "s.csv"; "s.odb"]%string /\
  import_with ["import"; "-d"; ";"; "s.csv"; "s.odb"]%string = Throw AssertFailed.
Proof.
  split; [|vm_compute; split; reflexivity].
  match goal with |- exists f, ?x = Ok (f, 1) => assert (H : match x with Ok (_, n) => n = 1 | _ => False end) by (vm_compute; reflexivity); destruct x as [[f n]| |]; [exists f; now rewrite H|destruct H|destruct H] end.
Qed.
Print Assumptions C70_missing_refuted.
Print Assumptions C71_semicolon_refuted.
