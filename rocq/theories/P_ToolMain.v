(** C70, C71 and C51_tool: what the compare, import and count tools do. *)
From Coq Require Import String.
From Verif Require Import Base Fp Stream Codec Meta Header Table Reader Writer RowReader Comparator ComparatorSpec
  P_Compare Csv CsvText Scan ScanSpec P_Scan CommandLine CommandLineSpec P_CommandLine ToolMain ToolSpec.
From Verif Require Through CsvSpec P_Csv WriterSpec Spec.
Open Scope Z_scope.
Local Notation length := List.length.

Lemma names_split items o names r : names_given items o names ->
  (forall a, given items o a -> r = Ok (Word a)) /\ ((forall a, ~ In (Valued o a) items) -> r = Ok (Word [])) ->
  exists a, r = Ok (Word a) /\ split_text [44] a = names.
Proof.
  intros [(a & G & L)|(-> & H)] [R1 R2].
  - exists a. split; [now apply R1|]. now apply split_line.
  - exists []. split; [now apply R2|reflexivity].
Qed.

Lemma no_valued taking items o : Forall (fits taking) items -> ~ In o taking -> forall a, ~ In (Valued o a) items.
Proof. intros F N a H. rewrite Forall_forall in F. apply F in H. cbn in H. tauto. Qed.

Lemma f2_cons {A B} (R : A -> B -> Prop) x xs y ys : Forall2 R (x :: xs) (y :: ys) -> R x y /\ Forall2 R xs ys.
Proof. intros H. inversion H; subst; auto. Qed.

Lemma given_or_not items o : (exists a, given items o a) \/ forall a, ~ In (Valued o a) items.
Proof.
  induction items as [|i items IH]; [right; now intros a H|].
  destruct IH as [(a & b & c & -> & H)|IH].
  - left. exists a, (i :: b), c. auto.
  - destruct i as [w|f|f a].
    + right. intros a [X|X]; [discriminate|exact (IH a X)].
    + right. intros a [X|X]; [discriminate|exact (IH a X)].
    + destruct (list_eq_dec Z.eq_dec f o) as [->|N].
      * left. exists a, [], items. auto.
      * right. intros b [X|X]; [congruence|exact (IH b X)].
Qed.

Section Tools.
Variable files : word -> option (list Z).
Variable md5 : list Z -> list Z.
Variable st : settings.

(** The command line comes down to one comparison. *)
Lemma compare_is nans junk1 junk2 fuel words items t f1 f2 b1 b2 no_type excluded any :
  reading [str "-excludeColumnsTypes"; str "-excludeColumns"] items words ->
  plain_words items = [t; f1; f2] -> files f1 = Some b1 -> files f2 = Some b2 ->
  names_given items (str "-excludeColumnsTypes") no_type -> names_given items (str "-excludeColumns") excluded ->
  (any = true <-> ~ In (Flag (str "-dontCheckMissing")) items) ->
  compare_tool files md5 st nans junk1 junk2 fuel words = compare_files any nans no_type excluded md5 st st junk1 junk2 fuel b1 b2.
Proof.
  intros R P F1 F2 G1 G2 A.
  pose proof (C66_queries words [Register (str "-excludeColumnsTypes"); Register (str "-excludeColumns"); AllParameters;
    Argument (str "-excludeColumnsTypes") []; Argument (str "-excludeColumns") []; IsSet (str "-dontCheckMissing")] items R) as Q.
  unfold compare_tool, get_parameters, get_argument, get_flag. cbn [register].
  cbn [answers] in Q.
  destruct (apply (new_parser words) (Register (str "-excludeColumnsTypes"))) as [p1 r1]. cbn [fst].
  destruct (apply p1 (Register (str "-excludeColumns"))) as [p2 r2]. cbn [fst].
  destruct (apply p2 AllParameters) as [p3 r3].
  destruct (apply p3 (Argument (str "-excludeColumnsTypes") [])) as [p4 r4] eqn:E4.
  destruct (apply p4 (Argument (str "-excludeColumns") [])) as [p5 r5] eqn:E5.
  destruct (apply p5 (IsSet (str "-dontCheckMissing"))) as [p6 r6] eqn:E6.
  apply f2_cons in Q as [_ Q]. apply f2_cons in Q as [_ Q]. apply f2_cons in Q as [H3 Q].
  apply f2_cons in Q as [H4 Q]. apply f2_cons in Q as [H5 Q]. apply f2_cons in Q as [H6 _]. cbn [replies] in H3, H4, H5, H6. rewrite P in H3. subst r3. cbn [bind].
  rewrite F1, F2, E4. destruct (names_split _ _ _ _ G1 H4) as (a1 & -> & <-). cbn [bind].
  rewrite E5. destruct (names_split _ _ _ _ G2 H5) as (a2 & -> & <-). cbn [bind].
  rewrite E6. destruct H6 as (b & -> & B). cbn [bind].
  assert (K : negb b = any).
  { destruct R as [F _].
    assert (NV : forall a, ~ In (Valued (str "-dontCheckMissing") a) items).
    { apply (no_valued _ _ _ F). intros [X|[X|[]]]; vm_compute in X; discriminate X. }
    destruct b, any; try reflexivity; exfalso.
    - destruct (proj1 B eq_refl) as [X|(a & X)]; [exact (proj1 A eq_refl X)|exact (NV a X)].
    - assert (D : false = true) by (apply A; intros X; assert (false = true) by (apply B; now left); discriminate). discriminate D. }
  now rewrite K.
Qed.

(** C70: the tool ends normally only if the rows of the two files agree, but for the columns
    given to -excludeColumns and the types of those given to -excludeColumnsTypes; and, with the
    largest double below 1e-9 as the bound, whenever they do.  Whether columns have missing
    values is compared just if -dontCheckMissing IS given. *)
Theorem C70_compare : forall nans junk1 junk2 fuel words items t f1 f2 b1 b2 no_type excluded any,
  reading [str "-excludeColumnsTypes"; str "-excludeColumns"] items words ->
  plain_words items = [t; f1; f2] -> files f1 = Some b1 -> files f2 = Some b2 ->
  names_given items (str "-excludeColumnsTypes") no_type -> names_given items (str "-excludeColumns") excluded ->
  (any = true <-> ~ In (Flag (str "-dontCheckMissing")) items) ->
  (compare_tool files md5 st nans junk1 junk2 fuel words = Ok tt ->
   exists rs1 rs2,
    (forall n, (length rs1 < n)%nat -> file_rows md5 st junk1 n b1 = (rs1, Clean)) /\
    (forall n, (length rs2 < n)%nat -> file_rows md5 st junk2 n b2 = (rs2, Clean)) /\
    Forall2 (rows_agree closer any nans no_type excluded) rs1 rs2) /\
  (forall rs1 rs2,
    (forall n, (length rs1 < n)%nat -> file_rows md5 st junk1 n b1 = (rs1, Clean)) ->
    (forall n, (length rs2 < n)%nat -> file_rows md5 st junk2 n b2 = (rs2, Clean)) ->
    rs1 <> [] -> Forall2 (rows_agree near any nans no_type excluded) rs1 rs2 -> (length rs1 < fuel)%nat ->
    compare_tool files md5 st nans junk1 junk2 fuel words = Ok tt).
Proof.
  intros nans junk1 junk2 fuel words items t f1 f2 b1 b2 no_type excluded any R P F1 F2 G1 G2 A.
  rewrite (compare_is nans junk1 junk2 fuel words items t f1 f2 b1 b2 no_type excluded any R P F1 F2 G1 G2 A).
  split; [apply C43_sound|]. intros rs1 rs2. apply C43_complete.
Qed.

(** Any other number of parameters, or a file that does not exist, is refused. *)
Theorem C70_refused : forall nans junk1 junk2 fuel words items,
  reading [str "-excludeColumnsTypes"; str "-excludeColumns"] items words ->
  (length (plain_words items) <> 3%nat -> compare_tool files md5 st nans junk1 junk2 fuel words = Throw UserError) /\
  (forall t f1 f2, plain_words items = [t; f1; f2] -> files f1 = None \/ files f2 = None ->
    compare_tool files md5 st nans junk1 junk2 fuel words = Throw SeriousBug).
Proof.
  intros nans junk1 junk2 fuel words items R.
  pose proof (C66_queries words [Register (str "-excludeColumnsTypes"); Register (str "-excludeColumns"); AllParameters] items R) as Q.
  unfold compare_tool, get_parameters. cbn [register]. cbn [answers] in Q.
  destruct (apply (new_parser words) (Register (str "-excludeColumnsTypes"))) as [p1 r1]. cbn [fst].
  destruct (apply p1 (Register (str "-excludeColumns"))) as [p2 r2]. cbn [fst].
  destruct (apply p2 AllParameters) as [p3 r3].
  apply f2_cons in Q as [_ Q]. apply f2_cons in Q as [_ Q]. apply f2_cons in Q as [H3 _]. cbn [replies] in H3. subst r3. cbn [bind]. split.
  - intros L. destruct (plain_words items) as [|a [|b [|c [|d l]]]]; try reflexivity. now cbn in L.
  - intros t f1 f2 -> [N|N]; rewrite N; [reflexivity|]. now destruct (files f1).
Qed.

(** C71: without a query (-sql) the tool imports the text exactly as the API does with the
    comma as delimiter, whatever delimiter was given. *)
Lemma import_is tf td tl uq junk N fuel filtered words items t i o text :
  reading [str "-d"; str "-sql"] items words -> plain_words items = [t; i; o] -> files i = Some text ->
  default_or items (str "-sql") (str "select *;") ->
  import_tool files md5 st tf td tl uq junk N fuel filtered words =
  (do r <- import_text st [44] tf td tl uq junk md5 N fuel text; Ok (o, r)).
Proof.
  intros R P F1 D.
  pose proof (C66_queries words [Register (str "-d"); Register (str "-sql"); AllParameters;
    Argument (str "-d") [44]; Argument (str "-sql") (str "select *;")] items R) as Q.
  unfold import_tool, get_parameters, get_argument. cbn [register].
  cbn [answers] in Q.
  destruct (apply (new_parser words) (Register (str "-d"))) as [p1 r1]. cbn [fst].
  destruct (apply p1 (Register (str "-sql"))) as [p2 r2]. cbn [fst].
  destruct (apply p2 AllParameters) as [p3 r3].
  destruct (apply p3 (Argument (str "-d") [44])) as [p4 r4] eqn:E4.
  destruct (apply p4 (Argument (str "-sql") (str "select *;"))) as [p5 r5] eqn:E5.
  apply f2_cons in Q as [_ Q]. apply f2_cons in Q as [_ Q]. apply f2_cons in Q as [H3 Q].
  apply f2_cons in Q as [H4 Q]. apply f2_cons in Q as [H5 _]. cbn [replies] in H3, H4, H5. rewrite P in H3. subst r3. cbn [bind].
  rewrite E4. assert (X : exists d, r4 = Ok (Word d)).
  { destruct (given_or_not items (str "-d")) as [(a & G)|G]; [exists a; exact (proj1 H4 _ G)|exists [44]; exact (proj2 H4 G)]. }
  destruct X as (d & ->). cbn [bind].
  rewrite E5. assert (Y : r5 = Ok (Word (str "select *;"))) by (destruct D as [D|D]; [exact (proj1 H5 _ D)|exact (proj2 H5 D)]).
  rewrite Y. cbn [bind]. rewrite F1. replace (bytes_eqb (str "select *;") (str "select *;")) with true by (vm_compute; reflexivity). reflexivity.
Qed.

(** The text of a table with commas is imported as C45 says; the file is written under the name
    given last. *)
Theorem C71_import : forall st' tf td tl uq junk N filtered W cols vss words items t i o text,
  Through.digest md5 -> (0 < N)%nat -> iad st = true -> long_strings st = false -> (forall n i, bytes_ok (junk n i)) ->
  1 <= W -> 8 * W < 2 ^ 31 ->
  reading [str "-d"; str "-sql"] items words -> plain_words items = [t; i; o] -> files i = Some text ->
  default_or items (str "-sql") (str "select *;") ->
  CsvSpec.table_text [44] cols vss text -> vss <> [] ->
  WriterSpec.writable_columns cols [] -> WriterSpec.small (Z.of_nat N) (map (CsvSpec.widest W) cols) [] ->
  Forall (Forall2 (fun ci v => CsvSpec.importable tf td tl uq W (Encoder.ci_type ci) v) cols) vss ->
  exists file,
    (forall fuel, (length vss < fuel)%nat ->
      import_tool files md5 st tf td tl uq junk N fuel filtered words = Ok (o, (file, Z.of_nat (length vss)))) /\
    forall junk', exists rows, (forall f, (length vss < f)%nat -> file_rows md5 st' junk' f file = (rows, Clean)) /\
      Forall2 (P_Csv.imported tf td tl uq (negb (iad st')) cols) vss rows.
Proof.
  intros st' tf td tl uq junk N filtered W cols vss words items t i o text Hd HN Hi Hl Hj HW HW' R P F D T Ne Wc Sm Im.
  destruct (P_Csv.C45_import md5 st st' N [44] tf td tl uq junk W cols vss text Hd HN Hi Hl Hj HW HW' T Ne Wc Sm Im) as (file & I & Rd).
  exists file. split; [|exact Rd]. intros fuel Hf.
  rewrite (import_is tf td tl uq junk N fuel filtered words items t i o text R P F D), (I fuel Hf). reflexivity.
Qed.

(** Without a query the delimiter makes no difference: two command lines that name the same files
    and differ in nothing but -d do the same. *)
Theorem C71_delimiter_refuted : forall tf td tl uq junk N fuel filtered words items words' items',
  reading [str "-d"; str "-sql"] items words -> reading [str "-d"; str "-sql"] items' words' ->
  default_or items (str "-sql") (str "select *;") -> default_or items' (str "-sql") (str "select *;") ->
  plain_words items = plain_words items' ->
  import_tool files md5 st tf td tl uq junk N fuel filtered words =
  import_tool files md5 st tf td tl uq junk N fuel filtered words'.
Proof.
  assert (X : forall tf td tl uq junk N fuel filtered words items,
    reading [str "-d"; str "-sql"] items words -> default_or items (str "-sql") (str "select *;") ->
    import_tool files md5 st tf td tl uq junk N fuel filtered words =
    match plain_words items with
    | [t; i; o] => match files i with
                   | Some text => do r <- import_text st [44] tf td tl uq junk md5 N fuel text; Ok (o, r)
                   | None => Throw SeriousBug
                   end
    | _ => Throw UserError
    end).
  { intros tf td tl uq junk N fuel filtered words items R D.
    pose proof (C66_queries words [Register (str "-d"); Register (str "-sql"); AllParameters;
      Argument (str "-d") [44]; Argument (str "-sql") (str "select *;")] items R) as Q.
    destruct (plain_words items) as [|t [|i [|o [|z l]]]] eqn:P;
      try (unfold import_tool, get_parameters; cbn [register]; cbn [answers] in Q;
           destruct (apply (new_parser words) (Register (str "-d"))) as [p1 r1]; cbn [fst];
           destruct (apply p1 (Register (str "-sql"))) as [p2 r2]; cbn [fst];
           destruct (apply p2 AllParameters) as [p3 r3];
           destruct (apply p3 (Argument (str "-d") [44])) as [p4 r4];
           destruct (apply p4 (Argument (str "-sql") (str "select *;"))) as [p5 r5];
           apply f2_cons in Q as [_ Q]; apply f2_cons in Q as [_ Q]; apply f2_cons in Q as [H3 _];
           cbn [replies] in H3; rewrite P in H3; subst r3; reflexivity).
    destruct (files i) as [text|] eqn:F; [now apply (import_is tf td tl uq junk N fuel filtered words items t i o text)|].
    unfold import_tool, get_parameters, get_argument. cbn [register].
    cbn [answers] in Q.
    destruct (apply (new_parser words) (Register (str "-d"))) as [p1 r1]. cbn [fst].
    destruct (apply p1 (Register (str "-sql"))) as [p2 r2]. cbn [fst].
    destruct (apply p2 AllParameters) as [p3 r3].
    destruct (apply p3 (Argument (str "-d") [44])) as [p4 r4] eqn:E4.
    destruct (apply p4 (Argument (str "-sql") (str "select *;"))) as [p5 r5] eqn:E5.
    apply f2_cons in Q as [_ Q]. apply f2_cons in Q as [_ Q]. apply f2_cons in Q as [H3 Q].
    apply f2_cons in Q as [H4 Q]. apply f2_cons in Q as [H5 _]. cbn [replies] in H3, H4, H5. rewrite P in H3. subst r3. cbn [bind].
    rewrite E4. assert (Y : exists d, r4 = Ok (Word d)).
    { destruct (given_or_not items (str "-d")) as [(a & G)|G]; [exists a; exact (proj1 H4 _ G)|exists [44]; exact (proj2 H4 G)]. }
    destruct Y as (d & ->). cbn [bind]. rewrite E5.
    assert (Y : r5 = Ok (Word (str "select *;"))) by (destruct D as [D|D]; [exact (proj1 H5 _ D)|exact (proj2 H5 D)]).
    rewrite Y. cbn [bind]. now rewrite F. }
  intros tf td tl uq junk N fuel filtered words items words' items' R R' D D' P.
  rewrite (X tf td tl uq junk N fuel filtered words items R D), (X tf td tl uq junk N fuel filtered words' items' R' D'), P. reflexivity.
Qed.

(** C51: the number the count tool prints is the number of rows of all the files named. *)
Theorem C51_tool : forall fuel words items t names ls,
  reading [] items words -> plain_words items = t :: names -> names <> [] ->
  Forall2 (fun n l => files n = Some (ScanSpec.bytes_of l)) names ls ->
  Forall (made_of md5 st) ls -> Forall (fun l => (length l < fuel)%nat) ls ->
  count_tool files md5 st fuel words = Ok (total_rows (concat ls) mod 2 ^ 64).
Proof.
  intros fuel words items t names ls R P NE F M L.
  pose proof (C66_queries words [AllParameters] items R) as Q.
  unfold count_tool, get_parameters. cbn [answers] in Q.
  destruct (apply (new_parser words) AllParameters) as [p1 r1]. apply f2_cons in Q as [H _]. cbn [replies] in H. subst r1. cbn [bind].
  rewrite P. destruct names as [|n ns]; [contradiction|].
  assert (C : contents files (n :: ns) = Ok (map ScanSpec.bytes_of ls)).
  { clear -F. induction F as [|x l xs ls H F IH]; [reflexivity|]. cbn [contents]. rewrite H, IH. reflexivity. }
  rewrite C. cbn [bind]. now apply C51_files.
Qed.
End Tools.
Print Assumptions C70_compare.
Print Assumptions C70_refused.
Print Assumptions C71_import.
Print Assumptions C71_delimiter_refuted.
Print Assumptions C51_tool.
