(** C74, C75, C76: from the command line of a tool to what it works on. *)
From Coq Require Import String.
From Verif Require Import Base Fp Stream Codec Meta Header Table Reader Writer RowReader
  CommandLine CommandLineSpec P_CommandLine ToolMain ToolSpec P_ToolMain ToolMore P_ToolMore ToolRest.
From Verif Require Setter MdSet Compact Index LsTool HeaderTool Dispatcher Verify.
Open Scope Z_scope.
Local Notation length := List.length.

Lemma unregistered items words : reading [] items words -> ready items (new_parser words).
Proof. intros R. exact (registered [] items words R). Qed.

Lemma flag_given items p o a : ready items p -> given items o a -> exists q, get_flag p o = Ok (q, true) /\ ready items q.
Proof.
  intros (q & E & H) G. exists q. unfold get_flag. cbn [apply]. unfold query. rewrite E.
  pose proof (has_read_ready _ _ H) as R. split; [|exact R]. destruct H as (_ & _ & _ & Gv & _). rewrite (Gv o a G).
  now destruct (contains (p_flags q) o).
Qed.

(** an option that takes an argument has been given one, or has not *)
Lemma last_given items o : (exists a, given items o a) \/ (forall a, ~ In (Valued o a) items).
Proof.
  induction items as [|x items IH]; [right; intros a []|]. destruct IH as [(a & b & l & -> & N)|N].
  - left. exists a, (x :: b), l. split; [reflexivity|exact N].
  - assert (D : (exists a, x = Valued o a) \/ (forall a, x <> Valued o a)).
    { destruct x as [w|f|f a]; [right; discriminate|right; discriminate|]. destruct (list_eq_dec Z.eq_dec f o) as [->|Q]; [left; now exists a|right; congruence]. }
    destruct D as [(a & ->)|D]; [left; exists a, [], items; split; [reflexivity|exact N]|right; intros a [Q|Q]; [exact (D a Q)|exact (N a Q)]].
Qed.

Section Tools.
Variable files : word -> option (list Z).
Variable md5 : list Z -> list Z.
Variable st : settings.

Lemma set_is junk translate N pr fuel words items t u i o file :
  reading [] items words -> plain_words items = [t; u; i; o] -> files i = Some file ->
  set_main files md5 st junk translate N pr fuel words =
  (do out <- Setter.set_tool md5 st junk translate N pr fuel u file; Ok (o, out)).
Proof.
  intros R P F. unfold set_main. destruct (parameters_ready _ _ (unregistered _ _ R)) as (p1 & -> & _). cbn [bind]. rewrite P.
  unfold open_input. rewrite F. reflexivity.
Qed.
Lemma mdset_is to_double fuel words items t u i o file :
  reading [] items words -> plain_words items = [t; u; i; o] -> files i = Some file ->
  mdset_main files md5 st to_double fuel words = Ok (o, MdSet.mdset md5 st (Z.of_nat (length file)) to_double fuel u file).
Proof.
  intros R P F. unfold mdset_main. destruct (parameters_ready _ _ (unregistered _ _ R)) as (p1 & -> & _). cbn [bind]. rewrite P.
  unfold open_input. rewrite F. reflexivity.
Qed.
Lemma compact_is N pr nans junk junk1 junk2 fuel words items t i o file :
  reading [] items words -> plain_words items = [t; i; o] -> files i = Some file ->
  compact_main files md5 st N pr nans junk junk1 junk2 fuel words =
  (do r <- Compact.compact_file md5 st N pr nans junk junk1 junk2 fuel file; Ok (o, r)).
Proof.
  intros R P F. unfold compact_main. destruct (parameters_ready _ _ (unregistered _ _ R)) as (p1 & -> & _). cbn [bind]. rewrite P.
  unfold open_input. rewrite F. reflexivity.
Qed.
Lemma index_is N pr select fuel words items t i o file :
  reading [] items words -> plain_words items = [t; i; o] \/ plain_words items = [t; i] /\ o = i ++ str ".idx" -> files i = Some file ->
  index_main files md5 st N pr select fuel words =
  (do out <- Index.create_index md5 st N pr select file (Z.of_nat (length file)) fuel; Ok (o, out)).
Proof.
  intros R P F. unfold index_main. destruct (parameters_ready _ _ (unregistered _ _ R)) as (p1 & -> & _). cbn [bind].
  unfold open_input. destruct P as [->|(-> & ->)]; cbn [bind]; rewrite F; reflexivity.
Qed.

(** C74: a wrong number of parameters is refused, and so is an input file that does not exist. *)
Theorem C74_refused : forall junk junk1 junk2 translate to_double N pr nans select fuel words items,
  reading [] items words -> let ps := plain_words items in
  (length ps <> 4%nat -> set_main files md5 st junk translate N pr fuel words = Throw UserError /\
                         mdset_main files md5 st to_double fuel words = Throw UserError) /\
  (length ps <> 3%nat -> compact_main files md5 st N pr nans junk junk1 junk2 fuel words = Throw UserError) /\
  (length ps <> 2%nat -> length ps <> 3%nat -> index_main files md5 st N pr select fuel words = Throw UserError) /\
  (forall t u i o, ps = [t; u; i; o] -> files i = None ->
     set_main files md5 st junk translate N pr fuel words = Throw SeriousBug /\ mdset_main files md5 st to_double fuel words = Throw SeriousBug) /\
  (forall t i o, ps = [t; i; o] -> files i = None -> compact_main files md5 st N pr nans junk junk1 junk2 fuel words = Throw SeriousBug) /\
  (forall t i os, ps = t :: i :: os -> (length os <= 1)%nat -> files i = None -> index_main files md5 st N pr select fuel words = Throw SeriousBug).
Proof.
  intros junk junk1 junk2 translate to_double N pr nans select fuel words items R ps.
  unfold set_main, mdset_main, compact_main, index_main, open_input. destruct (parameters_ready _ _ (unregistered _ _ R)) as (p1 & -> & _). cbn [bind]. fold ps. clearbody ps.
  repeat split.
  - destruct ps as [|a [|b [|c [|d [|e l]]]]]; try reflexivity. now destruct H.
  - destruct ps as [|a [|b [|c [|d [|e l]]]]]; try reflexivity. now destruct H.
  - destruct ps as [|a [|b [|c [|d l]]]]; try reflexivity. now destruct 1.
  - destruct ps as [|a [|b [|c [|d l]]]]; try reflexivity; intros H1 H2; [now destruct H1|now destruct H2].
  - subst ps. now rewrite H0.
  - subst ps. now rewrite H0.
  - intros t i o -> F. now rewrite F.
  - intros t i os -> L F. destruct os as [|o [|o' os]]; [| |cbn in L; lia]; cbn [bind]; now rewrite F.
Qed.

(** ** ls and header *)

Lemma ls_is junk fuel words items t db file dest :
  reading [str "-o"] items words -> plain_words items = [t; db] -> files db = Some file ->
  (exists o, given items (str "-o") o /\ dest = Some o) \/ (forall b, ~ In (Valued (str "-o") b) items) /\ dest = None ->
  ls_main files md5 st junk fuel words = Ok (dest, LsTool.ls_file md5 st junk fuel file).
Proof.
  intros R P F D. unfold ls_main. destruct (parameters_ready _ _ (registered _ _ _ R)) as (p1 & -> & R1). cbn [bind]. rewrite P.
  unfold open_input. rewrite F. destruct D as [(o & G & ->)|(Nv & ->)].
  - destruct (flag_given _ _ _ _ R1 G) as (p2 & -> & R2). cbn [bind]. destruct (argument_ready _ _ (str "-o") [] R2) as (p3 & a & -> & _ & A & _). cbn [bind]. now rewrite (A o G).
  - destruct (flag_ready _ _ _ R1 Nv) as (p2 & b & -> & _ & B). cbn [bind]. destruct b; [|reflexivity]. exfalso.
    destruct B as [B _]. specialize (B eq_refl). destruct R as [Fi _]. rewrite Forall_forall in Fi. destruct (Fi _ B) as [_ Q]. apply Q. now left.
Qed.

Lemma header_is verbose fuel words items t db file name :
  reading [str "-table"] items words -> plain_words items = [t; db] -> files db = Some file ->
  given items (str "-table") name \/ (forall b, ~ In (Valued (str "-table") b) items) /\ name = str "foo" ->
  (In (Flag (str "-offsets")) items -> header_main files md5 st verbose fuel words = HeaderTool.header_offsets md5 st file fuel) /\
  (~ In (Flag (str "-offsets")) items -> In (Flag (str "-ddl")) items -> header_main files md5 st verbose fuel words = HeaderTool.header_ddl md5 st file db name fuel) /\
  (~ In (Flag (str "-offsets")) items -> ~ In (Flag (str "-ddl")) items -> header_main files md5 st verbose fuel words = verbose file).
Proof.
  intros R P F G. unfold header_main. destruct (parameters_ready _ _ (registered _ _ _ R)) as (p1 & -> & R1). cbn [bind]. rewrite P.
  destruct (argument_ready _ _ (str "-table") (str "foo") R1) as (p2 & a & -> & R2 & A1 & A2). cbn [bind].
  assert (a = name) as -> by (destruct G as [G|(G & ->)]; [now apply A1|now apply A2]).
  destruct R as [Fi _].
  destruct (flag_ready _ _ (str "-offsets") R2) as (p3 & b & -> & R3 & B).
  { apply (no_valued _ _ _ Fi). intros [X|[]]; vm_compute in X; discriminate X. }
  cbn [bind]. destruct (flag_ready _ _ (str "-ddl") R3) as (p4 & b' & -> & _ & B').
  { apply (no_valued _ _ _ Fi). intros [X|[]]; vm_compute in X; discriminate X. }
  unfold open_input. rewrite F. destruct b; cbn [bind].
  - split; [reflexivity|]. split; intros X; exfalso; apply X; now apply B.
  - split; [intros X; apply B in X; discriminate X|]. destruct b'; cbn [bind Z.eqb Pos.eqb].
    + split; [reflexivity|]. intros _ X. exfalso. apply X. now apply B'.
    + split; [intros _ X; apply B' in X; discriminate X|reflexivity].
Qed.

(** C75: both want the name of one file that exists. *)
Theorem C75_refused : forall junk verbose fuel words items,
  (reading [str "-o"] items words -> length (plain_words items) <> 2%nat -> ls_main files md5 st junk fuel words = Throw UserError) /\
  (reading [str "-table"] items words -> length (plain_words items) <> 2%nat -> header_main files md5 st verbose fuel words = Throw UserError).
Proof.
  intros junk verbose fuel words items. unfold ls_main, header_main.
  split; intros R L; destruct (parameters_ready _ _ (registered _ _ _ R)) as (p1 & -> & R1); cbn [bind];
    (destruct (plain_words items) as [|a [|b [|c l]]]; try reflexivity; now destruct L).
Qed.
End Tools.
Print Assumptions C74_refused.
Print Assumptions C75_refused.

(** ** split *)
Section Split.
Variable md5 : list Z -> list Z.
Variable st : settings.

(** the number of files that may be open *)
Definition open_files (to_long : word -> outcome Z) (items : list item) (max : Z) : Prop :=
  (exists a, given items (str "-maxopenfiles") a /\ to_long a = Ok max) \/ (forall a, ~ In (Valued (str "-maxopenfiles") a) items) /\ max = 200.

Lemma split_main_is to_long N nans junk0 junk junks fuel sorted k words items t i template file max :
  reading [str "-maxopenfiles"] items words -> plain_words items = [t; i; template] -> Dispatcher.files k i = Some file ->
  open_files to_long items max -> 0 <= max < 2 ^ 63 ->
  (In (Flag (str "-sort")) items -> split_main md5 st to_long N nans junk0 junk junks fuel sorted k words = (do k' <- sorted file template; Ok (k', None))) /\
  (~ In (Flag (str "-sort")) items -> In (Flag (str "-no_verification")) items ->
     split_main md5 st to_long N nans junk0 junk junks fuel sorted k words =
     (do k' <- Dispatcher.split_file md5 st N template (Z.to_nat max) junk0 fuel false k file; Ok (k', None))) /\
  (~ In (Flag (str "-sort")) items -> ~ In (Flag (str "-no_verification")) items ->
     split_main md5 st to_long N nans junk0 junk junks fuel sorted k words =
     (do r <- Verify.split_tool md5 st N template (Z.to_nat max) nans junk0 junk junks fuel k file; Ok (fst (fst r), Some (snd (fst r), snd r)))).
Proof.
  intros R P F G Hm. unfold split_main. destruct (parameters_ready _ _ (registered _ _ _ R)) as (p1 & -> & R1). cbn [bind]. rewrite P.
  destruct R as [Fi _].
  destruct (flag_ready _ _ (str "-sort") R1) as (p2 & b & -> & R2 & B).
  { apply (no_valued _ _ _ Fi). intros [X|[]]; vm_compute in X; discriminate X. }
  cbn [bind]. assert (X : exists p3, get_number to_long p2 (str "-maxopenfiles") 200 = Ok (p3, max) /\ ready items p3).
  { destruct (number_ready to_long items p2 (str "-maxopenfiles") 200 R2) as [N1 N2]. destruct G as [(a & G & T)|(G & ->)]; [exact (N1 a max G T)|exact (N2 G)]. }
  destruct X as (p3 & -> & R3). cbn [bind]. rewrite Z.mod_small by lia. unfold open_input. rewrite F. cbn [bind].
  destruct (flag_ready _ _ (str "-no_verification") R3) as (p4 & b' & -> & _ & B').
  { apply (no_valued _ _ _ Fi). intros [X|[]]; vm_compute in X; discriminate X. }
  destruct b.
  - split; [reflexivity|]. split; intros X; exfalso; apply X; now apply B.
  - split; [intros X; apply B in X; discriminate X|]. cbn [bind]. destruct b'.
    + split; [reflexivity|]. intros _ X. exfalso. apply X. now apply B'.
    + split; [intros _ X; apply B' in X; discriminate X|reflexivity].
Qed.
End Split.
