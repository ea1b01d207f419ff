(** C72 and C73: the merge tool, and the part of a file the sql tool looks at. *)
From Coq Require Import String.
From Verif Require Import Base Fp Stream Codec Meta Header Table Reader Writer RowReader RowList Merge MergeSpec CopySpec P_Merge
  Scan ScanSpec P_Scan CommandLine CommandLineSpec P_CommandLine ToolMain ToolSpec P_ToolMain ToolMore.
From Verif Require Import StreamLocal StreamProofs.
From Verif Require Through WriterSpec Spec P_Copy.
Open Scope Z_scope.
Local Notation length := List.length.

(** The parser reads the command line as [items], now or when it is first asked. *)
Definition ready (items : list item) (p : parser) : Prop :=
  exists q, ensure_parsed p = (q, Ok tt) /\ has_read items q.

Lemma has_read_ready items q : has_read items q -> ready items q.
Proof. intros H. exists q. split; [|exact H]. unfold ensure_parsed. destruct H as (P & _). now rewrite P. Qed.

Lemma registered taking items words : reading taking items words -> ready items (register (new_parser words) taking).
Proof.
  intros R. apply (fresh_reads words taking); [|exact R].
  assert (X : forall os p before, fresh words before p -> fresh words (rev os ++ before) (register p os)).
  { induction os as [|o os IH]; intros p before F; [exact F|]. cbn [register rev]. rewrite <- app_assoc. apply IH.
    destruct F as (P & W & Rg & V & Fl & Pa). unfold fresh. cbn. repeat split; auto.
    - intros [->|H]; [now left|right; now apply Rg].
    - intros [->|H]; [now left|right; now apply Rg]. }
  assert (F : fresh words (rev taking ++ []) (register (new_parser words) taking)).
  { apply X. unfold fresh, new_parser. cbn. repeat split; auto. }
  destruct F as (P & W & Rg & V & Fl & Pa). unfold fresh. repeat split; auto; intros H.
  - apply Rg. rewrite app_nil_r. now apply -> in_rev.
  - apply Rg in H. rewrite app_nil_r in H. now apply in_rev.
Qed.

Lemma parameters_ready items p : ready items p -> exists q, get_parameters p = Ok (q, plain_words items) /\ ready items q.
Proof.
  intros (q & E & H). exists q. split; [|now apply has_read_ready]. unfold get_parameters. cbn [apply]. unfold query. rewrite E.
  destruct H as (_ & <- & _). reflexivity.
Qed.
Lemma argument_ready items p o d : ready items p -> exists q a, get_argument p o d = Ok (q, a) /\ ready items q /\
  (forall b, given items o b -> a = b) /\ ((forall b, ~ In (Valued o b) items) -> a = d).
Proof.
  intros (q & E & H). exists q. unfold get_argument. cbn [apply]. unfold query. rewrite E.
  eexists. split; [reflexivity|]. split; [now apply has_read_ready|]. destruct H as (_ & _ & _ & G & N). split.
  - intros b Hb. now rewrite (G o b Hb).
  - intros Hb. now rewrite (N o Hb).
Qed.
Lemma flag_ready items p o : ready items p -> (forall b, ~ In (Valued o b) items) ->
  exists q b, get_flag p o = Ok (q, b) /\ ready items q /\ (b = true <-> In (Flag o) items).
Proof.
  intros (q & E & H) V. exists q. unfold get_flag. cbn [apply]. unfold query. rewrite E.
  pose proof (has_read_ready _ _ H) as R. destruct H as (_ & _ & F & _ & N). rewrite (N o V). specialize (F o).
  destruct (contains (p_flags q) o) eqn:C.
  - exists true. split; [reflexivity|]. split; [exact R|]. rewrite <- F. apply contains_spec in C. tauto.
  - exists false. split; [reflexivity|]. split; [exact R|]. rewrite <- F. rewrite <- contains_spec, C. tauto.
Qed.
Lemma number_ready to_long items p o d : ready items p ->
  (forall b n, given items o b -> to_long b = Ok n -> exists q, get_number to_long p o d = Ok (q, n) /\ ready items q) /\
  ((forall b, ~ In (Valued o b) items) -> exists q, get_number to_long p o d = Ok (q, d) /\ ready items q).
Proof.
  intros (q & E & H). unfold get_number. rewrite E. pose proof (has_read_ready _ _ H) as R. destruct H as (_ & _ & _ & G & N). split.
  - intros b n Hb T. exists q. rewrite (G o b Hb), T. now split.
  - intros Hb. exists q. rewrite (N o Hb). now split.
Qed.

Lemma contents_ok files names bs : Forall2 (fun n b => files n = Some b) names bs -> contents files names = Ok bs.
Proof. intros F. induction F as [|n b ns bs H F IH]; [reflexivity|]. cbn [contents]. rewrite H, IH. reflexivity. Qed.

Section Tools.
Variable files : word -> option (list Z).
Variable md5 : list Z -> list Z.
Variable st : settings.

Lemma merge_is junk N fuel filtered words items t names bs o :
  reading [str "-o"] items words -> plain_words items = t :: names -> (2 <= length names)%nat ->
  ~ In (Flag (str "-S")) items -> Forall2 (fun n b => files n = Some b) names bs ->
  given items (str "-o") o \/ (forall b, ~ In (Valued (str "-o") b) items) /\ o = str "<no-default>" ->
  merge_tool files md5 st junk N fuel filtered words =
  (do file <- merge_files md5 st junk N [] fuel bs; Ok (o, file)).
Proof.
  intros R P L NS F G. unfold merge_tool. pose proof (registered _ _ _ R) as Rd.
  destruct (parameters_ready _ _ Rd) as (p1 & -> & R1). cbn [bind]. rewrite P.
  destruct (Nat.ltb_spec (length (t :: names)) 3) as [Q|_]; [cbn [List.length] in Q; lia|].
  destruct (flag_ready _ _ (str "-S") R1) as (p2 & b & -> & R2 & B).
  { destruct R as [Fi _]. apply (no_valued _ _ _ Fi). intros [X|[]]; vm_compute in X; discriminate X. }
  cbn [bind]. destruct b; [exfalso; apply NS; now apply B|].
  destruct (argument_ready _ _ (str "-o") (str "<no-default>") R2) as (p3 & a & -> & _ & A1 & A2). cbn [bind tl].
  rewrite (contents_ok _ _ _ F). cbn [bind].
  assert (a = o) as -> by (destruct G as [G|(G & ->)]; [now apply A1|now apply A2]). reflexivity.
Qed.

(** C72: merging from the command line puts the rows of the files side by side into the file
    named with -o. *)
Theorem C72_merge : forall st' N junk filtered words items t names bs o ins out, Through.digest md5 -> (0 < N)%nat -> out <> [] ->
  reading [str "-o"] items words -> plain_words items = t :: names -> (2 <= length names)%nat ->
  ~ In (Flag (str "-S")) items -> given items (str "-o") o ->
  Forall2 (fun n b => files n = Some b) names bs ->
  Forall2 (fun file rows => forall f, (length rows < f)%nat -> file_rows md5 st junk f file = (rows, Clean)) bs ins ->
  (forall rows cs row x, In rows ins -> In (cs, row) rows -> In x row -> length x = 8%nat) ->
  (forall rows, In rows ins -> same_columns rows) -> ~ clash ins ->
  side_by_side ins out -> rows_copyable st N [] out ->
  exists merged, (forall fuel, (length out < fuel)%nat -> merge_tool files md5 st junk N fuel filtered words = Ok (o, merged)) /\
    forall junk', exists rows2, Forall2 (copied st st') out rows2 /\
      forall f, (length out < f)%nat -> file_rows md5 st' junk' f merged = (rows2, Clean).
Proof.
  intros st' N junk filtered words items t names bs o ins out Hd HN Hne R P L NS G F I E Sc Cl B HC.
  destruct (C53_merge md5 st st' N [] junk bs ins out Hd HN Hne I E Sc Cl B HC) as (merged & M & Rd).
  exists merged. split; [|exact Rd]. intros fuel Hf.
  rewrite (merge_is junk N fuel filtered words items t names bs o R P L NS F) by now left.
  now rewrite (M fuel Hf).
Qed.

(** Without -o nothing is refused: the result goes to a file called <no-default>. *)
Theorem C72_no_output_refuted : forall junk N fuel filtered words items t names bs,
  reading [str "-o"] items words -> plain_words items = t :: names -> (2 <= length names)%nat ->
  ~ In (Flag (str "-S")) items -> (forall b, ~ In (Valued (str "-o") b) items) ->
  Forall2 (fun n b => files n = Some b) names bs ->
  merge_tool files md5 st junk N fuel filtered words =
  (do file <- merge_files md5 st junk N [] fuel bs; Ok (str "<no-default>", file)).
Proof.
  intros junk N fuel filtered words items t names bs R P L NS G F.
  apply (merge_is junk N fuel filtered words items t names bs); auto.
Qed.

(** With -S, an odd number of parameters reads past the end of the parameters. *)
Theorem C72_odd_refuted : forall junk N fuel filtered words items t names,
  reading [str "-o"] items words -> plain_words items = t :: names -> (2 <= length names)%nat ->
  In (Flag (str "-S")) items ->
  (Nat.odd (length names) = true -> merge_tool files md5 st junk N fuel filtered words = UB) /\
  (forall l, names = flat_map (fun p => [fst p; snd p]) l ->
     forall o, given items (str "-o") o ->
     merge_tool files md5 st junk N fuel filtered words = (do file <- filtered l; Ok (o, file))).
Proof.
  intros junk N fuel filtered words items t names R P L S0. unfold merge_tool. pose proof (registered _ _ _ R) as Rd.
  destruct (parameters_ready _ _ Rd) as (p1 & -> & R1). cbn [bind]. rewrite P.
  destruct (Nat.ltb_spec (length (t :: names)) 3) as [Q|_]; [cbn [List.length] in Q; lia|].
  destruct (flag_ready _ _ (str "-S") R1) as (p2 & b & -> & R2 & B).
  { destruct R as [Fi _]. apply (no_valued _ _ _ Fi). intros [X|[]]; vm_compute in X; discriminate X. }
  cbn [bind]. apply B in S0. subst b.
  destruct (argument_ready _ _ (str "-o") (str "<no-default>") R2) as (p3 & a & -> & _ & A1 & A2). cbn [bind tl]. split.
  - intros O. assert (X : forall n l, (length l <= n)%nat -> Nat.odd (length l) = true -> pairs_of l = UB).
    { induction n as [|n IH]; intros [|x [|y l]] Hl Ho; try discriminate; try reflexivity; cbn [List.length] in Hl; [lia|].
      cbn [pairs_of]. rewrite IH; [reflexivity|lia|]. exact Ho. }
    now rewrite (X _ names (Nat.le_refl _) O).
  - intros l -> o G. rewrite (A1 o G).
    assert (X : pairs_of (flat_map (fun p : word * word => [fst p; snd p]) l) = Ok l).
    { clear. induction l as [|[f q] l IH]; [reflexivity|]. cbn [flat_map app pairs_of fst snd]. rewrite IH. reflexivity. }
    now rewrite X.
Qed.

(** ** The sql tool *)

Definition sql_options : list word :=
  [str "-o"; str "-i"; str "-I"; str "-delimiter"; str "-f"; str "-offset"; str "-length"].

Lemma input_is to_long words items i b offset n to tn :
  reading sql_options items words -> (2 <= length (plain_words items))%nat ->
  given items (str "-i") i -> i <> [] -> i <> str "-" -> i <> str "stdin" -> i <> str "/dev/stdin" -> files i = Some b ->
  given items (str "-offset") to -> to_long to = Ok offset -> given items (str "-length") tn -> to_long tn = Ok n ->
  sql_input files to_long words =
  (if offset =? 0 then Ok (Some b) else if (offset <? 0) || (n <? 0) then UB
   else Ok (Some (firstn (Z.to_nat n) (skipn (Z.to_nat offset) b)))).
Proof.
  intros R L G N1 N2 N3 N4 F Go To Gn Tn. unfold sql_input. fold sql_options. pose proof (registered _ _ _ R) as Rd.
  destruct (argument_ready _ _ (str "-i") [] Rd) as (p1 & a & -> & R1 & A1 & _). cbn [bind].
  rewrite (A1 i G). clear A1 a.
  assert (NE : forall x y : word, x <> y -> bytes_eqb x y = false).
  { intros x y H. destruct (bytes_eqb x y) eqn:E; [apply bytes_eqb_eq in E; contradiction|reflexivity]. }
  rewrite (NE i (str "-") N2).
  destruct (proj1 (number_ready to_long _ _ (str "-offset") 0 R1) to offset Go To) as (p2 & -> & R2). cbn [bind].
  destruct (proj1 (number_ready to_long _ _ (str "-length") 0 R2) tn n Gn Tn) as (p3 & -> & R3). cbn [bind].
  destruct (parameters_ready _ _ R3) as (p4 & -> & _). cbn [bind].
  destruct (Nat.ltb_spec (length (plain_words items)) 2); [lia|].
  rewrite (NE i [] N1), (NE i _ N4), (NE i _ N3), F. reflexivity.
Qed.

(** C73: given the place and length of a group of frames that is not the first, the query sees
    exactly these frames; given those of the first group, it sees the whole file. *)
Theorem C73_part : forall to_long words items i groups k o n to tn,
  reading sql_options items words -> (2 <= length (plain_words items))%nat ->
  given items (str "-i") i -> i <> [] -> i <> str "-" -> i <> str "stdin" -> i <> str "/dev/stdin" ->
  files i = Some (bytes_of (concat groups)) ->
  nth_error (extents 0 groups) k = Some (o, n) ->
  given items (str "-offset") to -> to_long to = Ok o -> given items (str "-length") tn -> to_long tn = Ok n ->
  (o <> 0 -> exists g, nth_error groups k = Some g /\ sql_input files to_long words = Ok (Some (bytes_of g))) /\
  (o = 0 -> sql_input files to_long words = Ok (Some (bytes_of (concat groups)))).
Proof.
  intros to_long words items i groups k o n to tn R L G N1 N2 N3 N4 F E Go To Gn Tn.
  rewrite (input_is to_long words items i _ o n to tn R L G N1 N2 N3 N4 F Go To Gn Tn).
  destruct (C51_parts groups k o n E) as (g & Eg & Eo & Eb).
  assert (Hn : 0 <= n).
  { rewrite (extents_at groups 0 k g Eg) in E. injection E as _ <-. unfold Spec.len. lia. }
  split; intros Ho.
  - exists g. split; [exact Eg|]. destruct (Z.eqb_spec o 0); [contradiction|].
    assert (0 <= o) by (rewrite Eo; unfold Spec.len; lia).
    destruct (Z.ltb_spec o 0); [lia|]. destruct (Z.ltb_spec n 0); [lia|]. cbn [orb]. now rewrite Eb.
  - subst o. rewrite Ho. reflexivity.
Qed.
End Tools.
Print Assumptions C72_merge.
Print Assumptions C72_no_output_refuted.
Print Assumptions C72_odd_refuted.
Print Assumptions C73_part.
