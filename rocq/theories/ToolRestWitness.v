(** Concrete cases for C74, C75 and C76. *)
From Coq Require Import String.
From Verif Require Import Spec Base Fp Stream StreamProofs Codec Meta Header Table Reader RowReader RowList Quick Through CommandLine CommandLineSpec ToolMain ToolSpec ToolMore P_ToolMore ToolRest P_ToolRest
  P_ToolSet P_ToolMd P_ToolShow P_ToolSplit.
From Verif Require WriterWitness CompareWitness CopyWitness SetWitness LsWitness DispatchWitness VerifyWitness HeaderToolWitness ScanWitness ScanSpec Csv Dispatcher P_HeaderText Copy CopySpec.
Open Scope Z_scope.
Local Notation length := List.length.

Definition words_of (l : list string) : list word := map str l.
Ltac word := let X := fresh in intros (? & ? & X); vm_compute in X; discriminate X.
Ltac dash a b := split; [exists a, b; vm_compute; reflexivity|].
Ltac other := intros [X|[]]; vm_compute in X; discriminate X.

(** The two files there are *)
Definition shelf (n : word) : option (list Z) :=
  if bytes_eqb n (str "c.odb") then Some CopyWitness.cfile
  else if bytes_eqb n (str "l.odb") then Some LsWitness.listed_file
  else if bytes_eqb n (str "h.odb") then Some (ScanSpec.bytes_of [HeaderToolWitness.ga; HeaderToolWitness.ga; ScanWitness.fa]) else None.

(** C74: "set d=3.14,d=0x000000000000f03f c.odb -x o.odb" - an option no tool knows is ignored *)
Definition set_words : list string := ["set"; "d=3.14,d=0x000000000000f03f"; "c.odb"; "-x"; "o.odb"]%string.
Definition set_items : list item := [Plain (str "set"); Plain SetWitness.arg; Plain (str "c.odb"); Flag (str "-x"); Plain (str "o.odb")].
Theorem C74_witness : reading [] set_items (words_of set_words) /\ plain_words set_items = [str "set"; SetWitness.arg; str "c.odb"; str "o.odb"] /\
  exists out, set_main shelf quick doubles WriterWitness.noise SetWitness.to_pi 3 [] 9 (words_of set_words) = Ok (str "o.odb", out) /\
    exists rows2, Forall2 (CopySpec.copied doubles doubles) SetWitness.drows rows2 /\
      file_rows quick doubles WriterWitness.noise 9 out = (rows2, Clean).
Proof.
  assert (R : reading [] set_items (words_of set_words)).
  { split; [|reflexivity]. repeat apply Forall_cons; try apply Forall_nil; cbn [fits]; try word. dash 120 (@nil Z). auto. }
  split; [exact R|]. split; [reflexivity|].
  destruct SetWitness.C52_witness as (W1 & W2 & W3 & W4 & W5 & W6).
  destruct (C74_set shelf quick doubles doubles 3 [] WriterWitness.noise SetWitness.to_pi SetWitness.dsets CopyWitness.cfile CopyWitness.crows SetWitness.drows
    (words_of set_words) set_items (str "set") SetWitness.arg (str "c.odb") (str "o.odb") quick_length ltac:(lia)) as (out & O1 & O2); try assumption; try reflexivity.
  { intros Q. rewrite Q in W6. discriminate W6. }
  { exact SetWitness.C52_text. }
  exists out. split; [apply O1; rewrite W6; lia|]. destruct (O2 WriterWitness.noise) as (rows2 & F & RR). exists rows2. split; [exact F|]. apply RR. rewrite W6. lia.
Qed.
Print Assumptions C74_witness.

(** By evaluation: what is refused, and the name an index gets. *)
Theorem C74_computed :
  set_main shelf quick doubles WriterWitness.noise SetWitness.to_pi 3 [] 9 (words_of ["set"; "d=3.14"; "c.odb"]%string) = Throw UserError /\
  set_main shelf quick doubles WriterWitness.noise SetWitness.to_pi 3 [] 9 (words_of ["set"; "d=3.14"; "x.odb"; "o.odb"]%string) = Throw SeriousBug /\
  mdset_main shelf quick doubles Csv.atoi 9 (words_of ["mdset"; "d=3"; "x.odb"; "o.odb"]%string) = Throw SeriousBug /\
  compact_main shelf quick doubles 3 [] false WriterWitness.noise WriterWitness.noise WriterWitness.noise 9 (words_of ["compact"; "c.odb"]%string) = Throw UserError /\
  (do r <- index_main shelf quick doubles 3 [] (fun _ => Ok [7]) 9 (words_of ["index"; "h.odb"]%string); Ok (fst r)) = Ok (str "h.odb.idx") /\
  index_main shelf quick doubles 3 [] (fun _ => Ok [7]) 9 (words_of ["index"; "a"; "b"; "c"]%string) = Throw UserError.
Proof. vm_compute. repeat split. Qed.

(** C75: "ls -o out.txt l.odb", "header -table hdr -ddl -offsets h.odb" *)
Definition ls_items : list item := [Plain (str "ls"); Valued (str "-o") (str "out.txt"); Plain (str "l.odb")].
Definition header_items (last : list item) : list item := [Plain (str "header"); Valued (str "-table") (str "hdr"); Flag (str "-ddl")] ++ last ++ [Plain (str "h.odb")].
Theorem C75_witness :
  (reading [str "-o"] ls_items (words_of ["ls"; "-o"; "out.txt"; "l.odb"]%string) /\
   exists lines n, ls_main shelf quick doubles WriterWitness.noise 5 (words_of ["ls"; "-o"; "out.txt"; "l.odb"]%string) = Ok (Some (str "out.txt"), (P_HeaderText.joined lines, n, Clean)) /\ n = 3) /\
  reading [str "-table"] (header_items [Flag (str "-offsets")]) (words_of ["header"; "-table"; "hdr"; "-ddl"; "-offsets"; "h.odb"]%string) /\
  In (Flag (str "-offsets")) (header_items [Flag (str "-offsets")]) /\
  reading [str "-table"] (header_items []) (words_of ["header"; "-table"; "hdr"; "-ddl"; "h.odb"]%string) /\
  ~ In (Flag (str "-offsets")) (header_items []) /\ In (Flag (str "-ddl")) (header_items []) /\ given (header_items []) (str "-table") (str "hdr") /\
  plain_words (header_items []) = [str "header"; str "h.odb"] /\
  shelf (str "h.odb") = Some (ScanSpec.bytes_of [HeaderToolWitness.ga; HeaderToolWitness.ga; ScanWitness.fa]).
Proof.
  assert (N1 : str "-offsets" <> str "-ddl") by (vm_compute; discriminate).
  split; [|split; [|split; [|split; [|split; [|split; [|split; [|split]]]]]]].
  - assert (R : reading [str "-o"] ls_items (words_of ["ls"; "-o"; "out.txt"; "l.odb"]%string)).
    { split; [|reflexivity]. repeat apply Forall_cons; try apply Forall_nil; cbn [fits]; try word. dash 111 (@nil Z). now left. }
    split; [exact R|]. destruct LsWitness.C69_witness as (W1 & W2 & W3 & _).
    destruct (C75_ls shelf quick doubles WriterWitness.noise LsWitness.listed_file 4 LsWitness.listed_rows Clean
      (words_of ["ls"; "-o"; "out.txt"; "l.odb"]%string) ls_items (str "ls") (str "l.odb") (Some (str "out.txt")) R eq_refl) as (lines & n & E & _ & C).
    + reflexivity.
    + left. exists (str "out.txt"). split; [|reflexivity]. exists [Plain (str "ls")], [Plain (str "l.odb")]. split; [reflexivity|]. intros b [Q|[]]. discriminate Q.
    + exact W1.
    + discriminate.
    + exact W3.
    + exists lines, n. split; [exact E|]. rewrite (C eq_refl), W2. reflexivity.
  - split; [|reflexivity]. unfold header_items. cbn [app]. repeat apply Forall_cons; try apply Forall_nil; cbn [fits]; try word.
    + dash 116 (str "able"). now left.
    + dash 100 (str "dl"). other.
    + dash 111 (str "ffsets"). other.
  - unfold header_items. cbn [app]. right. right. right. now left.
  - split; [|reflexivity]. unfold header_items. cbn [app]. repeat apply Forall_cons; try apply Forall_nil; cbn [fits]; try word.
    + dash 116 (str "able"). now left.
    + dash 100 (str "dl"). other.
  - unfold header_items. cbn [app]. intros [Q|[Q|[Q|[Q|[]]]]]; congruence.
  - unfold header_items. cbn [app]. right. right. now left.
  - exists [Plain (str "header")], [Flag (str "-ddl"); Plain (str "h.odb")]. split; [reflexivity|]. intros b [Q|[Q|[]]]; discriminate Q.
  - reflexivity.
  - reflexivity.
Qed.
Print Assumptions C75_witness.

(** C76: "split -maxopenfiles 3 d.odb o_{s}.odb": four rows are verified. *)
Definition split_words : list string := ["split"; "-maxopenfiles"; "3"; "d.odb"; "o_{s}.odb"]%string.
Definition split_items : list item := [Plain (str "split"); Valued (str "-maxopenfiles") (str "3"); Plain (str "d.odb"); Plain DispatchWitness.dtemplate].
Definition before : Dispatcher.disk := Dispatcher.put DispatchWitness.blank (str "d.odb") DispatchWitness.dfile.
Theorem C76_witness : reading [str "-maxopenfiles"] split_items (words_of split_words) /\ open_files Csv.atoi split_items 3 /\
  forall sorted, exists k', split_main quick doubles Csv.atoi 3 false WriterWitness.noise WriterWitness.noise VerifyWitness.noises 9 sorted before (words_of split_words) = Ok (k', Some (4%nat, O)) /\
    Dispatcher.files k' (str "d.odb") = Some DispatchWitness.dfile.
Proof.
  assert (R : reading [str "-maxopenfiles"] split_items (words_of split_words)).
  { split; [|reflexivity]. repeat apply Forall_cons; try apply Forall_nil; cbn [fits]; try word. dash 109 (str "axopenfiles"). now left. }
  assert (G : open_files Csv.atoi split_items 3).
  { left. exists (str "3"). split; [|vm_compute; reflexivity]. exists [Plain (str "split")], [Plain (str "d.odb"); Plain DispatchWitness.dtemplate].
    split; [reflexivity|]. intros b [Q|[Q|[]]]; discriminate Q. }
  split; [exact R|]. split; [exact G|]. intros sorted.
  destruct DispatchWitness.C44_witness as (W1 & W2 & W3 & W4 & W5 & W6 & _). destruct VerifyWitness.C63_witness as (V1 & V2 & V3 & V4 & _).
  destruct (C76_verified quick doubles 3 3 false WriterWitness.noise WriterWitness.noise VerifyWitness.noises Csv.atoi sorted DispatchWitness.dfile DispatchWitness.drows
    DispatchWitness.dtemplate DispatchWitness.droute before (words_of split_words) split_items (str "split") (str "d.odb") quick_length ltac:(lia) ltac:(lia)) with (fuel := 9%nat) as (k' & K1 & K2 & _);
    try assumption; try reflexivity.
  - intros [Q|[Q|[Q|[Q|[]]]]]; discriminate Q.
  - intros [Q|[Q|[Q|[Q|[]]]]]; discriminate Q.
  - change (length DispatchWitness.drows) with 4%nat. lia.
  - exists k'. split; [exact K1|]. rewrite K2; [reflexivity|]. rewrite W5. intros [Q|[Q|[Q|[Q|[]]]]]; vm_compute in Q; discriminate Q.
Qed.
Print Assumptions C76_witness.
