(** C76: the split tool. *)
From Coq Require Import String.
From Verif Require Import CsvRows Api.
From Verif Require Import IntProofs Spec Base Fp FpProofs FpNearest RealProofs RealColumn Stream StreamProofs StreamLocal Codec Meta Header HeaderProofs Encoder Table Reader ReadSpec
  ColumnProofs TableProofs FrameProofs Through P_Reader P_Reals Writer RowReader RowList WriterSpec WriterProofs WriterRun WriterRead Comparator ComparatorSpec P_Compare
  Copy CopySpec CopyProofs P_Copy P_Tables Dispatcher DispatchSpec DispatchNames DispatchProofs DispatchRun P_Dispatch P_AgreeWritten
  Verify VerifySpec P_Verify P_VerifyClean CommandLine CommandLineSpec ToolRest P_ToolRest.
Open Scope Z_scope.
Local Notation length := List.length.

(** With -no_verification: every row of the file named first goes, in order, to the file that
    the template makes of its values; at most as many files are open as -maxopenfiles says, or 200. *)
Theorem C76_split : forall md5 st st' N max nans junk0 junk junks to_long sorted file rows template route k words items t i,
  digest md5 -> (0 < N)%nat -> 0 < max < 2 ^ 63 -> rows <> [] ->
  reading [str "-maxopenfiles"] items words -> plain_words items = [t; i; template] -> files k i = Some file -> open_files to_long items max ->
  ~ In (Flag (str "-sort")) items -> In (Flag (str "-no_verification")) items ->
  (forall f, (length rows < f)%nat -> file_rows md5 st junk0 f file = (rows, Clean)) ->
  rows_copyable st N [] rows -> routed template rows route ->
  (forall n, In n (map route rows) -> files k n = None) \/ few (Z.to_nat max) (map route rows) ->
  few (Z.to_nat max) (map route rows) \/ (forall n d, In n (map route rows) -> in_directory n d -> dirs k d = true) ->
  forall fuel, (length rows < fuel)%nat ->
  exists k', split_main md5 st to_long N nans junk0 junk junks fuel sorted k words = Ok (k', None) /\
    (forall n, ~ In n (map route rows) -> files k' n = files k n) /\
    (forall n, In n (map route rows) -> exists new, files k' n = Some new /\
       forall junk', exists rows', Forall2 (copied st st') (filter (fun r => if list_eq_dec Z.eq_dec (route r) n then true else false) rows) rows' /\
         forall f, (length rows < f)%nat -> file_rows md5 st' junk' f new = (rows', Clean)).
Proof.
  intros md5 st st' N max nans junk0 junk junks to_long sorted file rows template route k words items t i Hd HN Hmax Hne R P F G NS NV RR HC HR H1 H2 fuel Hf.
  destruct (C44_split md5 st st' N (Z.to_nat max) junk0 file rows template route false k Hd HN ltac:(lia) Hne RR HC HR (or_intror H1)) with (fuel := fuel) as (k' & K1 & K2 & K3).
  { destruct H2 as [H2|H2]; [left; auto|right; exact H2]. }
  { exact Hf. }
  exists k'. split; [|split; [exact K2|exact K3]].
  destruct (split_main_is md5 st to_long N nans junk0 junk junks fuel sorted k words items t i template file max R P F G ltac:(lia)) as (_ & H & _).
  rewrite (H NS NV), K1. reflexivity.
Qed.
Print Assumptions C76_split.

(** Without options: the same files, and all rows verified without differences, if they go to no
    more files than may be open. *)
Theorem C76_verified : forall md5 st N max nans junk0 junk junks to_long sorted file rows template route k words items t i,
  digest md5 -> (0 < N)%nat -> 0 < max < 2 ^ 63 -> rows <> [] ->
  reading [str "-maxopenfiles"] items words -> plain_words items = [t; i; template] -> files k i = Some file -> open_files to_long items max ->
  ~ In (Flag (str "-sort")) items -> ~ In (Flag (str "-no_verification")) items ->
  (forall f, (length rows < f)%nat -> file_rows md5 st junk0 f file = (rows, Clean)) ->
  (forall f, (length rows < f)%nat -> file_rows md5 st junk f file = (rows, Clean)) ->
  rows_copyable st N [] rows -> routed template rows route -> few (Z.to_nat max) (map route rows) ->
  iad st = true -> (forall r c, In r rows -> In c (fst r) -> marked c) ->
  (forall r r', In r rows -> In r' rows -> map col_name (fst r) = map col_name (fst r')) ->
  (forall r i c x, In r rows -> nth_error (fst r) i = Some c -> nth_error (snd r) i = Some x -> checkable c x) ->
  forall fuel, (length rows < fuel)%nat ->
  exists k', split_main md5 st to_long N nans junk0 junk junks fuel sorted k words = Ok (k', Some (length rows, O)) /\
    (forall n, ~ In n (map route rows) -> files k' n = files k n) /\
    (forall n st', In n (map route rows) -> exists new, files k' n = Some new /\
       forall junk', exists rows', Forall2 (copied st st') (filter (fun r => if list_eq_dec Z.eq_dec (route r) n then true else false) rows) rows' /\
         forall f, (length rows < f)%nat -> file_rows md5 st' junk' f new = (rows', Clean)).
Proof.
  intros md5 st N max nans junk0 junk junks to_long sorted file rows template route k words items t i Hd HN Hmax Hne R P F G NS NV R0 RR HC HR Hfew Hi Hm Hn Hk fuel Hf.
  destruct (C63_clean md5 st N (Z.to_nat max) nans junk0 junk junks file rows template route k Hd HN ltac:(lia) Hne R0 RR HC HR Hfew Hi Hm Hn Hk fuel Hf) as (k' & K & V).
  assert (S : forall st', (forall n, ~ In n (map route rows) -> files k' n = files k n) /\
    (forall n, In n (map route rows) -> exists new, files k' n = Some new /\
       forall junk', exists rows', Forall2 (copied st st') (filter (fun r => if list_eq_dec Z.eq_dec (route r) n then true else false) rows) rows' /\
         forall f, (length rows < f)%nat -> file_rows md5 st' junk' f new = (rows', Clean))).
  { intros st'. destruct (C44_split md5 st st' N (Z.to_nat max) junk0 file rows template route false k Hd HN ltac:(lia) Hne R0 HC HR (or_intror (or_intror Hfew)) (or_introl (conj eq_refl Hfew)) fuel Hf)
      as (k2 & K1 & K2 & K3). rewrite K in K1. injection K1 as <-. split; [exact K2|exact K3]. }
  exists k'. split; [|split; [exact (proj1 (S st))|intros n st' Hn'; exact (proj2 (S st') n Hn')]].
  destruct (split_main_is md5 st to_long N nans junk0 junk junks fuel sorted k words items t i template file max R P F G ltac:(lia)) as (_ & _ & H).
  rewrite (H NS NV), V. reflexivity.
Qed.
Print Assumptions C76_verified.

(** With -sort, -maxopenfiles and -no_verification change nothing: nothing is verified. *)
Theorem C76_sort_refuted : forall md5 st N nans junk0 junk junks to_long fuel sorted k words items words' items' t i template file max max',
  reading [str "-maxopenfiles"] items words -> plain_words items = [t; i; template] -> open_files to_long items max -> 0 <= max < 2 ^ 63 ->
  reading [str "-maxopenfiles"] items' words' -> plain_words items' = [t; i; template] -> open_files to_long items' max' -> 0 <= max' < 2 ^ 63 ->
  files k i = Some file -> In (Flag (str "-sort")) items -> In (Flag (str "-sort")) items' ->
  split_main md5 st to_long N nans junk0 junk junks fuel sorted k words = split_main md5 st to_long N nans junk0 junk junks fuel sorted k words' /\
  (forall k' v, split_main md5 st to_long N nans junk0 junk junks fuel sorted k words = Ok (k', v) -> v = None).
Proof.
  intros md5 st N nans junk0 junk junks to_long fuel sorted k words items words' items' t i template file max max' R P G B R' P' G' B' F S S'.
  destruct (split_main_is md5 st to_long N nans junk0 junk junks fuel sorted k words items t i template file max R P F G B) as (H & _ & _).
  destruct (split_main_is md5 st to_long N nans junk0 junk junks fuel sorted k words' items' t i template file max' R' P' F G' B') as (H' & _ & _).
  rewrite (H S), (H' S'). split; [reflexivity|]. intros k' v. destruct (sorted file template); cbn [bind]; try discriminate. intros E. injection E as _ <-. reflexivity.
Qed.
Print Assumptions C76_sort_refuted.
