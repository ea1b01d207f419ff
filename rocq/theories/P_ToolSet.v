(** C74: the set and compact tools. *)
From Coq Require Import String.
From Verif Require Import CsvRows Api.
From Verif Require Import IntProofs Spec Base Fp FpProofs Stream StreamProofs StreamLocal Codec Meta Header HeaderProofs Encoder Table TableProofs Reader
  FrameProofs Through Writer RowReader RowList WriterSpec WriterProofs WriterRun WriterRead Comparator P_Compare Copy CopySpec CopyProofs P_Copy
  Csv CsvSpec CsvText P_Tables Setter SetSpec P_Set VerifySpec P_VerifyClean FlagProofs ScanSpec Compact CompactSpec P_Compact
  CommandLine CommandLineSpec ToolRest P_ToolRest.
Open Scope Z_scope.
Local Notation length := List.length.

(** The file named last holds the rows of the file named before it, with the columns named in
    the first parameter set. *)
Theorem C74_set : forall files md5 st st' N pr junk translate sets file rows rows1 words items t arg i o, digest md5 -> (0 < N)%nat -> rows <> [] ->
  reading [] items words -> plain_words items = [t; arg; i; o] -> files i = Some file ->
  assignments translate arg sets ->
  (forall f, (length rows < f)%nat -> file_rows md5 st junk f file = (rows, Clean)) ->
  (forall cs row x, In (cs, row) rows -> In x row -> length x = 8%nat) ->
  (forall cs row nm v, In (cs, row) rows -> In (nm, v) sets -> exists i, designates cs nm i) ->
  Forall2 (assigned sets) rows rows1 -> rows_copyable st N pr rows1 ->
  exists out, (forall fuel, (length rows < fuel)%nat -> set_main files md5 st junk translate N pr fuel words = Ok (o, out)) /\
    forall junk', exists rows2, Forall2 (copied st st') rows1 rows2 /\
      forall f, (length rows < f)%nat -> file_rows md5 st' junk' f out = (rows2, Clean).
Proof.
  intros files md5 st st' N pr junk translate sets file rows rows1 words items t arg i o Hd HN Hne R P F Ha RR W D As HC.
  destruct (C52_tool md5 st st' N pr junk translate arg sets file rows rows1 Hd HN Hne Ha RR W D As HC) as (out & O1 & O2).
  exists out. split; [|exact O2]. intros fuel Hf. rewrite (set_is files md5 st junk translate N pr fuel words items t arg i o file R P F), (O1 fuel Hf). reflexivity.
Qed.
Print Assumptions C74_set.

(** The file named last is a copy of the one named before it. *)
Theorem C74_compact : forall files md5 st N pr nans junk junk1 junk2 file rows words items t i o, digest md5 -> (0 < N)%nat -> rows <> [] ->
  reading [] items words -> plain_words items = [t; i; o] -> files i = Some file ->
  (forall f, (length rows < f)%nat -> file_rows md5 st junk f file = (rows, Clean)) ->
  (forall f, (length rows < f)%nat -> file_rows md5 st junk1 f file = (rows, Clean)) ->
  rows_copyable st N pr rows ->
  (forall r r', In r rows -> In r' rows -> map info (fst r) = map info (fst r')) ->
  iad st = true -> (forall r c, In r rows -> In c (fst r) -> marked c) ->
  (forall r i c x, In r rows -> nth_error (fst r) i = Some c -> nth_error (snd r) i = Some x -> countable c x) ->
  forall fuel, (length rows < fuel)%nat ->
  exists copy verdict, compact_main files md5 st N pr nans junk junk1 junk2 fuel words = Ok (o, (copy, verdict)) /\
    (verdict = Ok tt <-> flags_fit N rows) /\
    forall st' junk', exists rows', Forall2 (copied st st') rows rows' /\
      forall f, (length rows < f)%nat -> file_rows md5 st' junk' f copy = (rows', Clean).
Proof.
  intros files md5 st N pr nans junk junk1 junk2 file rows words items t i o Hd HN Hne R P F R1 R2 HC Sm Hi Hm Hk fuel Hf.
  destruct (C65_compact md5 st N pr nans junk junk1 junk2 file rows Hd HN Hne R1 R2 HC Sm Hi Hm Hk fuel Hf) as (copy & verdict & E & V & X).
  exists copy, verdict. split; [|split; [exact V|exact X]].
  rewrite (compact_is files md5 st N pr nans junk junk1 junk2 fuel words items t i o file R P F), E. reflexivity.
Qed.
Print Assumptions C74_compact.
