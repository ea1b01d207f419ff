(** C75: the ls and header tools. *)
From Coq Require Import String.
From Verif Require Import Base Fp FpProofs FpNearest Stream StreamProofs Codec StringProofs Meta Header Table Reader RowReader RowList Comparator P_Compare P_Query
  Spec ReadSpec Scan ScanSpec P_Scan HeaderTool HeaderToolSpec P_HeaderTool P_HeaderText LsTool LsSpec P_Ls CommandLine CommandLineSpec ToolRest P_ToolRest.
Open Scope Z_scope.
Local Notation length := List.length.

(** The listing goes to the file named with -o, and to the standard output if there is none. *)
Theorem C75_ls : forall files md5 st junk file fuel rows e words items t db dest,
  reading [str "-o"] items words -> plain_words items = [t; db] -> files db = Some file ->
  (exists o, given items (str "-o") o /\ dest = Some o) \/ (forall b, ~ In (Valued (str "-o") b) items) /\ dest = None ->
  file_rows md5 st junk (S fuel) file = (rows, e) -> e <> OutOfFuel -> Forall (fun r => Forall2 showable (fst r) (snd r)) rows ->
  exists lines n, ls_main files md5 st junk (S fuel) words = Ok (dest, (joined lines, n, e)) /\ listing [] rows lines /\
    (e = Clean -> n = Z.of_nat (length rows)).
Proof.
  intros files md5 st junk file fuel rows e words items t db dest R P F D FR NE G.
  destruct (C69_lines md5 st junk file fuel rows e FR NE G) as (lines & n & E & L & C). exists lines, n.
  split; [|split; [exact L|exact C]]. rewrite (ls_is files md5 st junk (S fuel) words items t db file dest R P F D), E. reflexivity.
Qed.
Print Assumptions C75_ls.

(** With -offsets, a line for each frame, whatever else is asked for. *)
Theorem C75_offsets : forall files md5 st l verbose words items t db, made_of md5 st l ->
  reading [str "-table"] items words -> plain_words items = [t; db] -> files db = Some (bytes_of l) -> In (Flag (str "-offsets")) items ->
  Z.of_nat (length (bytes_of l)) < 2 ^ 63 -> Forall (fun p => 0 <= t_rows (snd p) < 2 ^ 63 /\ Z.of_nat (length (t_cols (snd p))) < 2 ^ 63) l ->
  forall fuel, (length l < fuel)%nat ->
  exists lines, header_main files md5 st verbose fuel words = Ok (concat lines) /\
  length lines = length l /\
  forall i f t, nth_error l i = Some (f, t) ->
    exists line, nth_error lines i = Some line /\ tells (Z.of_nat (length (bytes_of (firstn i l)))) f t line.
Proof.
  intros files md5 st l verbose words items t db M R P F O B1 B2 fuel Hf.
  destruct (C67_offsets md5 st l M B1 B2 fuel Hf) as (lines & E & X). exists lines. split; [|exact X].
  assert (G : exists name, given items (str "-table") name \/ (forall b, ~ In (Valued (str "-table") b) items) /\ name = str "foo").
  { destruct (last_given items (str "-table")) as [(a & G)|G]; [exists a; now left|exists (str "foo"); right; auto]. }
  destruct G as (name & G). destruct (header_is files md5 st verbose fuel words items t db _ name R P F G) as [H _]. rewrite (H O). exact E.
Qed.
Print Assumptions C75_offsets.

(** With -ddl and not -offsets, a table, of the name given with -table or of the name foo, on
    the file, for every run of frames of the same columns. *)
Theorem C75_ddl : forall files md5 st l verbose words items t db tbl, made_of md5 st l ->
  reading [str "-table"] items words -> plain_words items = [t; db] -> files db = Some (bytes_of l) ->
  ~ In (Flag (str "-offsets")) items -> In (Flag (str "-ddl")) items ->
  given items (str "-table") tbl \/ (forall b, ~ In (Valued (str "-table") b) items) /\ tbl = str "foo" ->
  Forall (fun p => Forall declarable (t_cols (snd p))) l ->
  forall fuel, (length l < fuel)%nat ->
  exists groups texts, runs_of l groups /\ header_main files md5 st verbose fuel words = Ok (concat texts) /\
  Forall2 (fun g text => exists p rest, g = p :: rest /\ print_table db tbl (t_cols (snd p)) = Ok text) groups texts.
Proof.
  intros files md5 st l verbose words items t db tbl M R P F NO D G Dc fuel Hf.
  destruct (C67_ddl md5 st l db tbl M Dc fuel Hf) as (groups & texts & E1 & E2 & E3). exists groups, texts. split; [exact E1|]. split; [|exact E3].
  destruct (header_is files md5 st verbose fuel words items t db _ tbl R P F G) as (_ & H & _). rewrite (H NO D). exact E2.
Qed.
Print Assumptions C75_ddl.
