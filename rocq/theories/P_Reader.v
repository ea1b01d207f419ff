(** C06, C27 - C30, C33, C35, C39, C42: reading files made of frames. *)
From Coq Require Import String.
From Verif Require Import Spec Base Fp Stream StreamProofs StreamLocal Codec Meta Header Encoder Table Reader ReadSpec
  ReaderProofs AggregateProofs Iterators P_Frame Md5 Through GoldenData Golden.
Open Scope Z_scope.

Lemma estimate_ok est (file : list Z) : estimate est file -> est = 0 \/ len file <= est.
Proof. intros [H|H]; [now left|right]. unfold len. lia. Qed.

(** ** C27: the tables of a concatenation of frames *)

Theorem C27_concat : forall md5 st fs est, frames md5 st fs -> estimate est (concat fs) ->
  exists tables, tables_of md5 st fs tables /\
    forall fuel, (List.length fs < fuel)%nat -> read_tables md5 st est (concat fs) fuel [] = (tables, Clean).
Proof.
  intros md5 st fs est F He. destruct (frames_good md5 st fs F) as (l & G & <-). exists (place 0 l).
  split; [now apply place_tables_of|]. intros fuel Hf. rewrite map_length in Hf. change (@nil table) with (firstn 0 (place 0 l)).
  rewrite (read_tables_prefix md5 st l est G) by (try lia; now apply estimate_ok). reflexivity.
Qed.
Print Assumptions C27_concat.

(** offsets and lengths tile the file *)
Theorem C27_tiling : forall md5 st fs tables i t, tables_of md5 st fs tables -> nth_error tables i = Some t ->
  t_start t = len (concat (firstn i fs)) /\ t_next t = len (concat (firstn (S i) fs)) /\
  (i = 0%nat -> t_start t = 0) /\ (S i = List.length fs -> t_next t = len (concat fs)) /\
  (forall t', nth_error tables (S i) = Some t' -> t_start t' = t_next t).
Proof.
  intros md5 st fs tables i t [L H] E.
  assert (Hi : (i < List.length fs)%nat) by (rewrite <- L; apply nth_error_Some; congruence).
  destruct (nth_error fs i) as [f|] eqn:Ef; [|apply nth_error_None in Ef; lia].
  destruct (H i f Ef) as (t0 & F & E'). rewrite E in E'. inversion E'; subst t. clear E'.
  destruct (frame_shape md5 st f t0 F) as (hb & body & h & _ & _ & _ & _ & _ & T). pose proof F as [_ Nx].
  assert (Hs : t_start t0 = 0) by (now rewrite T).
  assert (S1 : concat (firstn (S i) fs) = concat (firstn i fs) ++ f).
  { rewrite <- (firstn_snoc f fs i Ef), concat_app. cbn. now rewrite app_nil_r. }
  cbn [moved t_start t_next]. rewrite Hs, Nx. unfold len. rewrite S1, app_length, Nat2Z.inj_add.
  split; [lia|]. split; [lia|]. split; [intros ->; cbn; lia|]. split.
  - intros Q. assert (E2 : concat fs = concat (firstn i fs) ++ f) by (rewrite <- S1, Q, firstn_all; reflexivity).
    rewrite E2, app_length, Nat2Z.inj_add. lia.
  - intros t' E2. destruct (nth_error fs (S i)) as [f'|] eqn:Ef'.
    + destruct (H (S i) f' Ef') as (t1 & F1 & E3). rewrite E2 in E3. apply (f_equal (fun o => match o with Some x => x | None => t' end)) in E3. rewrite E3. cbn [moved t_start].
      destruct (frame_shape md5 st f' t1 F1) as (? & ? & ? & _ & _ & _ & _ & _ & T1). rewrite T1. cbn [t_start].
      rewrite S1, app_length, Nat2Z.inj_add. lia.
    + apply nth_error_None in Ef'. assert (X : nth_error tables (S i) <> None) by congruence. apply nth_error_Some in X. lia.
Qed.
Print Assumptions C27_tiling.

(** What the encoder writes is a frame, for a reader with any settings. *)
Theorem C27_encoded : forall md5 st st' o version n cols data pr f, digest md5 ->
  valid_table st version n cols data pr -> encode_frame md5 version st o cols data pr = Ok f ->
  exists t, frame md5 st' f t /\ t_rows t = Z.of_nat n.
Proof.
  intros md5 st st' o version n cols data pr f Hd V E.
  destruct (C19_roundtrip st st' o version md5 n cols data pr Hd V) as (f' & E' & R). rewrite E in E'. inversion E'; subst f'.
  destruct (R [] [] 0 (or_introl eq_refl)) as (t & R1 & R2 & R3 & R4 & R5 & _). cbn [app List.length] in R1, R3. rewrite app_nil_r in R1.
  exists t. split; [|assumption]. split; assumption.
Qed.
Print Assumptions C27_encoded.

(** ** C06: truncation *)

(** [i] is the number of frames that are whole in the first [k] bytes. *)
Definition whole (fs : list (list Z)) (k : nat) (i : nat) : Prop :=
  (i <= List.length fs)%nat /\ len (concat (firstn i fs)) <= Z.of_nat k /\
  (i = List.length fs \/ Z.of_nat k < len (concat (firstn (S i) fs))).

Lemma whole_cut fs k i : whole fs k i -> (k <= List.length (concat fs))%nat ->
  firstn k (concat fs) = concat (firstn i fs) \/
  exists f n, nth_error fs i = Some f /\ (0 < n < List.length f)%nat /\
    firstn k (concat fs) = concat (firstn i fs) ++ firstn n f /\ (k = List.length (concat (firstn i fs)) + n)%nat.
Proof.
  intros (W1 & W2 & W3) Hk. unfold len in *.
  assert (Sp : concat fs = concat (firstn i fs) ++ concat (skipn i fs)) by (rewrite <- concat_app, firstn_skipn; reflexivity).
  destruct (Nat.eq_dec k (List.length (concat (firstn i fs)))) as [->|Nk].
  { left. rewrite Sp at 1. rewrite firstn_app, Nat.sub_diag, firstn_O, app_nil_r. apply firstn_all. }
  destruct W3 as [-> |W3]; [rewrite firstn_all in *; lia|]. right.
  destruct (nth_error fs i) as [f|] eqn:Ef.
  2:{ apply nth_error_None in Ef. rewrite firstn_all2 in W3 by lia. rewrite firstn_all2 in W2 by lia. lia. }
  rewrite <- (firstn_snoc f fs i Ef), concat_app, app_length in W3. cbn [concat] in W3. rewrite app_nil_r in W3.
  exists f, (k - List.length (concat (firstn i fs)))%nat. split; [reflexivity|]. split; [lia|]. split; [|lia].
  rewrite Sp, firstn_app. f_equal; [apply firstn_all2; lia|].
  assert (Es : skipn i fs = f :: skipn (S i) fs).
  { clear -Ef. revert i Ef. induction fs as [|x fs IH]; intros [|i] E; try discriminate; cbn in *; [congruence|auto]. }
  rewrite Es. cbn [concat]. rewrite firstn_app. replace (k - List.length (concat (firstn i fs)) - List.length f)%nat with 0%nat by lia.
  now rewrite firstn_O, app_nil_r.
Qed.

Lemma frames_firstn md5 st fs i : frames md5 st fs -> frames md5 st (firstn i fs).
Proof. intros F. unfold frames in *. rewrite Forall_forall in *. intros x Hx. apply F. rewrite <- (firstn_skipn i fs). apply in_or_app. now left. Qed.

Lemma boundary fs k i : whole fs k i -> (k <= List.length (concat fs))%nat ->
  firstn k (concat fs) = concat (firstn i fs) -> Z.of_nat k = len (concat (firstn i fs)).
Proof.
  intros W Hk E. apply (f_equal (@List.length Z)) in E. rewrite firstn_length in E. unfold len. lia.
Qed.

Theorem C06_tables : forall md5 st fs k, frames md5 st fs -> (k <= List.length (concat fs))%nat ->
  let file := firstn k (concat fs) in
  exists i tables e, whole fs k i /\ tables_of md5 st (firstn i fs) tables /\
    (forall fuel, (List.length fs < fuel)%nat -> read_tables md5 st (len file) file fuel [] = (tables, e)) /\
    (Z.of_nat k = len (concat (firstn i fs)) -> e = Clean) /\
    (Z.of_nat k <> len (concat (firstn i fs)) -> e = Failed Incomplete).
Proof.
  intros md5 st fs k F Hk file.
  assert (W : exists i, whole fs k i).
  { clear -Hk. revert k Hk. induction fs as [|f fs IH]; intros k Hk.
    - exists 0%nat. repeat split; cbn; try lia.
    - destruct (Nat.le_gt_cases (List.length f) k) as [L|L].
      + cbn [concat] in Hk. rewrite app_length in Hk. destruct (IH (k - List.length f)%nat ltac:(lia)) as (i & W1 & W2 & W3).
        exists (S i). unfold whole, len in *. cbn [firstn concat List.length] in *. rewrite !app_length.
        split; [lia|]. split; [lia|]. destruct W3 as [->|W3]; [now left|right].
        destruct fs; cbn [concat List.length] in *; lia.
      + exists 0%nat. unfold whole, len. cbn [firstn concat List.length]. rewrite app_nil_r. split; [lia|]. split; [lia|]. right. lia. }
  destruct W as (i & W). pose proof W as (W1 & _ & _). exists i.
  destruct (frames_good md5 st _ (frames_firstn md5 st fs i F)) as (l & G & M). exists (place 0 l).
  assert (Li : List.length l = i).
  { rewrite <- (map_length fst), M, firstn_length. lia. }
  assert (Tab : tables_of md5 st (firstn i fs) (place 0 l)) by (rewrite <- M; now apply place_tables_of).
  destruct (whole_cut fs k i W Hk) as [E|(f & n & Ef & Hn & E & Ek)].
  - exists Clean. split; [assumption|]. split; [assumption|]. pose proof (boundary fs k i W Hk E) as B. split; [|split; [reflexivity|congruence]].
    intros fuel Hf. unfold file. rewrite E, <- M. change (@nil table) with (firstn 0 (place 0 l)).
    rewrite (read_tables_prefix md5 st l _ G) by (try lia; right; unfold len; lia). reflexivity.
  - exists (Failed Incomplete). split; [assumption|]. split; [assumption|].
    split; [|split; [unfold len; lia|reflexivity]].
    intros fuel Hf. unfold file. rewrite E, <- M. change (@nil table) with (firstn 0 (place 0 l)).
    assert (Fr : exists t, frame md5 st f t).
    { unfold frames in F. rewrite Forall_forall in F. apply F. eapply nth_error_In; eassumption. }
    destruct Fr as [t Fr]. apply (read_tables_cut md5 st l f t n); auto; lia.
Qed.
Print Assumptions C06_tables.

(** ** C28, C29, C06: the Reader *)

Theorem C28_aggregate : forall md5 st fs tables est aggregated limit,
  tables_of md5 st fs tables -> estimate est (concat fs) -> Forall (fun t => 0 <= t_rows t < 2 ^ 63) tables ->
  forall fuel, (List.length fs < fuel)%nat ->
  exists frs rest e, read_all md5 st est (concat fs) fuel aggregated limit = (frs, e) /\
    grouping compatible aggregated limit tables frs rest /\
    ((rest = [] /\ e = Clean) \/
     (e = Failed AssertFailed /\ 0 <= limit /\ exists t rest', rest = t :: rest' /\ limit < t_rows t)).
Proof.
  intros md5 st fs tables est agg limit T He Hr fuel Hf. destruct (tables_of_place md5 st fs tables T) as (l & G & M & ->).
  apply estimate_ok in He. rewrite <- M in *. rewrite map_length in Hf. unfold len in He.
  set (file := concat (map fst l)) in *.
  assert (Hend : ensure_table md5 st est (file ++ []) (place 0 l) (Z.of_nat (List.length l)) = Ok (false, place 0 l)).
  { rewrite app_nil_r. unfold file. pose proof (ensure_prefix md5 st l est G He (List.length l) (List.length l) ltac:(lia)) as Q.
    rewrite firstn_all2 in Q by (rewrite place_length; lia). rewrite Q, !Nat.ltb_irrefl. reflexivity. }
  unfold read_all. rewrite <- (app_nil_r file).
  destruct (open_ok md5 st l est G He [] None Hend) as [(? & ? & _)|(r & O & A)]; [discriminate|]. fold file in O. rewrite O.
  destruct (read_frames_ok md5 st l est G He [] None Hend Hr agg limit fuel r 0%nat ltac:(lia) ltac:(lia) A)
    as (frs & rest & e & R1 & R2 & R3). fold file in R1. exists frs, rest, e. split; [exact R1|]. split; [exact R2|].
  destruct R3 as [(? & _ & ?)|[(? & ? & _)|R3]]; [left; auto|discriminate|right; exact R3].
Qed.
Print Assumptions C28_aggregate.

(** Without a limit, or when every table respects it, everything is read. *)
Corollary C29_complete : forall md5 st fs tables est aggregated limit,
  tables_of md5 st fs tables -> estimate est (concat fs) -> Forall (fun t => 0 <= t_rows t < 2 ^ 63) tables ->
  limit < 0 \/ Forall (fun t => t_rows t <= limit) tables ->
  forall fuel, (List.length fs < fuel)%nat ->
  exists frs, read_all md5 st est (concat fs) fuel aggregated limit = (frs, Clean) /\ concat frs = tables /\
    grouping compatible aggregated limit tables frs [].
Proof.
  intros md5 st fs tables est agg limit T He Hr Hl fuel Hf.
  destruct (C28_aggregate md5 st fs tables est agg limit T He Hr fuel Hf) as (frs & rest & e & R & Gr & [(-> & ->)|(-> & L & t & rest' & -> & Lt)]).
  - exists frs. split; [assumption|]. split; [|assumption]. pose proof (gr_all _ _ _ _ _ _ Gr) as Q. now rewrite app_nil_r in Q.
  - exfalso. destruct Hl as [Hl|Hl]; [lia|]. rewrite Forall_forall in Hl. pose proof (gr_all _ _ _ _ _ _ Gr) as Q.
    assert (I : In t tables) by (rewrite <- Q; apply in_or_app; right; now left). specialize (Hl t I). lia.
Qed.
Print Assumptions C29_complete.

(** A table larger than the limit is reported, after the frames before it. *)
Corollary C29_too_large : forall md5 st fs tables est aggregated limit t,
  tables_of md5 st fs tables -> estimate est (concat fs) -> Forall (fun t => 0 <= t_rows t < 2 ^ 63) tables ->
  0 <= limit -> In t tables -> limit < t_rows t ->
  forall fuel, (List.length fs < fuel)%nat ->
  exists frs big rest, read_all md5 st est (concat fs) fuel aggregated limit = (frs, Failed AssertFailed) /\
    concat frs ++ big :: rest = tables /\ limit < t_rows big /\ Forall (fun fr => rows_in fr <= limit) frs.
Proof.
  intros md5 st fs tables est agg limit t T He Hr Hl Ht Lt fuel Hf.
  destruct (C28_aggregate md5 st fs tables est agg limit T He Hr fuel Hf) as (frs & rest & e & R & Gr & [(-> & ->)|(-> & L & b & rest' & -> & Lb)]).
  - exfalso. pose proof (gr_all _ _ _ _ _ _ Gr) as Q. rewrite app_nil_r in Q. pose proof (gr_limit _ _ _ _ _ _ Gr Hl) as B.
    rewrite <- Q in Ht. apply in_concat in Ht as (fr & F1 & F2). rewrite Forall_forall in B, Hr. specialize (B fr F1).
    assert (X : forall fr0, (forall u, In u fr0 -> 0 <= t_rows u) -> In t fr0 -> t_rows t <= rows_in fr0).
    { clear. induction fr0 as [|u fr0 IH]; intros P H; [destruct H|]. cbn [rows_in fold_right]. fold (rows_in fr0).
      assert (0 <= rows_in fr0).
      { clear -P. assert (P' : forall u, In u fr0 -> 0 <= t_rows u) by (intros; apply P; now right). clear P.
        induction fr0 as [|v fr0 IH]; cbn [rows_in fold_right]; [lia|]. fold (rows_in fr0).
        assert (0 <= t_rows v) by (apply P'; now left). assert (0 <= rows_in fr0) by (apply IH; intros; apply P'; now right). lia. }
      assert (0 <= t_rows u) by (apply P; now left). destruct H as [->|H]; [lia|].
      assert (t_rows t <= rows_in fr0) by (apply IH; [intros; apply P; now right|assumption]). lia. }
    assert (t_rows t <= rows_in fr).
    { apply X; [|assumption]. intros u Hu. apply Hr. rewrite <- Q. apply in_concat. eauto. }
    lia.
  - exists frs, b, rest'. split; [assumption|]. split; [apply (gr_all _ _ _ _ _ _ Gr)|]. split; [assumption|]. now apply (gr_limit _ _ _ _ _ _ Gr).
Qed.
Print Assumptions C29_too_large.

(** The Reader on a truncated file: never a partial or altered table. *)
Theorem C06_reader : forall md5 st fs k aggregated limit, frames md5 st fs -> (k <= List.length (concat fs))%nat ->
  let file := firstn k (concat fs) in
  exists i tables, whole fs k i /\ tables_of md5 st (firstn i fs) tables /\
  (Forall (fun t => 0 <= t_rows t < 2 ^ 63) tables ->
   forall fuel, (List.length fs < fuel)%nat ->
   exists frs rest e, read_all md5 st (len file) file fuel aggregated limit = (frs, e) /\
    grouping compatible aggregated limit tables frs rest /\
    (e = Clean -> Z.of_nat k = len (concat (firstn i fs)) /\ rest = []) /\
    (Z.of_nat k <> len (concat (firstn i fs)) -> e = Failed Incomplete \/ e = Failed AssertFailed) /\
    (aggregated = false -> limit < 0 -> rest = [])).
Proof.
  intros md5 st fs k agg limit F Hk file. destruct (C06_tables md5 st fs k F Hk) as (i & tables & e & W & T & R & E1 & E2).
  fold file in R. exists i, tables. split; [assumption|]. split; [assumption|]. intros Hr fuel Hf. pose proof W as (W1 & _ & _).
  assert (Li : List.length (firstn i fs) = i) by (rewrite firstn_length; lia).
  destruct (whole_cut fs k i W Hk) as [E|(f & n & Ef & Hn & E & Ek)].
  - pose proof (boundary fs k i W Hk E) as B. unfold file. rewrite E.
    destruct (C28_aggregate md5 st (firstn i fs) tables (len (concat (firstn i fs))) agg limit T (or_intror eq_refl) Hr fuel ltac:(lia))
      as (frs & rest & e' & R1 & R2 & R3). exists frs, rest, e'. split; [assumption|]. split; [assumption|].
    destruct R3 as [(-> & ->)|(-> & L & _)]; (split; [try discriminate; auto|]); (split; [congruence|]); intros; lia || auto.
  - destruct (tables_of_place md5 st _ tables T) as (l & G & M & ->). 
    assert (Ll : List.length l = i) by (rewrite <- (map_length fst), M; exact Li).
    assert (Fr : exists t, frame md5 st f t).
    { unfold frames in F. rewrite Forall_forall in F. apply F. eapply nth_error_In; eassumption. }
    destruct Fr as [t Fr]. pose proof (ensure_cut md5 st l f t n _ G Fr Hn eq_refl) as Hend.
    assert (Ef' : file = concat (map fst l) ++ firstn n f) by (unfold file; rewrite E, M; reflexivity).
    assert (He : len file = 0 \/ Z.of_nat (List.length (concat (map fst l))) <= len file).
    { right. rewrite Ef'. unfold len. rewrite app_length. lia. }
    unfold len in He |- *. rewrite Ef' in He |- *.
    assert (K : Z.of_nat k <> Z.of_nat (List.length (concat (firstn i fs)))) by lia.
    unfold read_all. destruct (open_ok md5 st l _ G He (firstn n f) (Some Incomplete) Hend) as [(ex & E3 & E4 & O)|(r & O & A)]; rewrite O.
    + inversion E3; subst ex. exists [], [], (Failed Incomplete). split; [reflexivity|].
      assert (l = []) as -> by (apply length_zero_iff_nil; exact E4). cbn [place].
      split; [|split; [discriminate|split; auto]].
      split; try reflexivity; try (now constructor); try (intros; now constructor); try (cbn; contradiction); intros _ [|]; discriminate.
    + destruct (read_frames_ok md5 st l _ G He (firstn n f) (Some Incomplete) Hend Hr agg limit fuel r 0%nat ltac:(lia) ltac:(lia) A)
        as (frs & rest & e' & R1 & R2 & R3). exists frs, rest, e'. split; [exact R1|]. split; [exact R2|].
      destruct R3 as [(_ & ? & _)|[(ex & E3 & -> & R3)|(-> & L & _)]]; [discriminate| |].
      * inversion E3; subst ex. split; [discriminate|]. split; auto.
      * split; [discriminate|]. split; [auto|]. intros; lia.
Qed.
Print Assumptions C06_reader.

(** ** C30: the encoded data of a frame *)

Lemma slice_encoded md5 st l : good md5 st l -> forall pre post,
  encoded_data (concat pre ++ concat (map fst l) ++ post) (place (len (concat pre)) l) = Ok (concat (map fst l)).
Proof.
  induction 1 as [|[f t] l F _ IH]; intros pre post; [reflexivity|]. cbn [place encoded_data map fst concat].
  cbn [fst snd] in F. destruct (frame_shape md5 st f t F) as (hb & body & h & _ & _ & _ & _ & _ & T). pose proof F as [_ Nx].
  unfold read_encoded. cbn [moved t_start t_next]. rewrite Nx, T at 1. cbn [t_start].
  replace (Z.of_nat (List.length f) + len (concat pre) - (t_start t + len (concat pre))) with (len f)
    by (rewrite T; cbn [t_start]; unfold len; lia).
  unfold read_range. destruct (Z.ltb_spec (len f) 0); [unfold len in *; lia|].
  replace (0 + len (concat pre)) with (Z.of_nat (List.length (concat pre))) by (unfold len; lia).
  rewrite from_app, <- app_assoc. replace (Z.to_nat (len f)) with (List.length f) by (unfold len; lia).
  rewrite firstn_app, Nat.sub_diag, firstn_O, app_nil_r, firstn_all. unfold len at 1. destruct (Z.ltb_spec (Z.of_nat (List.length f)) (Z.of_nat (List.length f))); [lia|].
  cbn [bind]. specialize (IH (pre ++ [f]) post). rewrite concat_app in IH. cbn [concat] in IH. rewrite app_nil_r in IH.
  rewrite <- app_assoc in IH.
  replace (len (concat pre) + Z.of_nat (List.length f)) with (len (concat pre ++ f)) by (unfold len; rewrite app_length; lia).
  rewrite IH. reflexivity.
Qed.

(** tables [i], ..., [i + n - 1] of a file, as one frame *)
Theorem C30_encoded : forall md5 st fs tables i n, tables_of md5 st fs tables -> (0 < n)%nat -> (i + n <= List.length fs)%nat ->
  let fr := firstn n (skipn i tables) in
  let bytes := concat (firstn n (skipn i fs)) in
  encoded_data (concat fs) fr = Ok bytes /\
  bytes = firstn (Z.to_nat (frame_length fr)) (skipn (Z.to_nat (frame_offset fr)) (concat fs)) /\
  frame_offset fr = len (concat (firstn i fs)) /\ frame_length fr = len bytes /\
  exists again, tables_of md5 st (firstn n (skipn i fs)) again /\
    (forall est fuel, estimate est bytes -> (n < fuel)%nat -> read_tables md5 st est bytes fuel [] = (again, Clean)) /\
    map (moved (frame_offset fr)) again = fr.
Proof.
  intros md5 st fs tables i n T Hn Hi fr bytes. destruct (tables_of_place md5 st fs tables T) as (l & G & M & ->).
  assert (Ll : List.length l = List.length fs) by (rewrite <- M; now rewrite map_length).
  set (a := firstn i l). set (b := firstn n (skipn i l)). set (c := skipn n (skipn i l)).
  assert (El : l = a ++ b ++ c) by (unfold a, b, c; now rewrite !firstn_skipn).
  assert (La : List.length a = i) by (unfold a; rewrite firstn_length; lia).
  assert (Lb : List.length b = n) by (unfold b; rewrite firstn_length, skipn_length; lia).
  assert (Gb : good md5 st b) by (rewrite El in G; apply Forall_app in G as [_ G]; apply Forall_app in G as [G _]; exact G).
  assert (Fr : fr = place (len (concat (map fst a))) b).
  { unfold fr. rewrite El, !place_app. rewrite skipn_app, skipn_all2 by (rewrite place_length; lia).
    rewrite place_length, La, Nat.sub_diag, skipn_O. cbn [app]. rewrite firstn_app, place_length, Lb, Nat.sub_diag, firstn_O, app_nil_r.
    rewrite firstn_all2 by (rewrite place_length; lia). reflexivity. }
  assert (Fa : firstn i fs = map fst a) by (rewrite <- M; unfold a; now rewrite firstn_map).
  assert (Fb : firstn n (skipn i fs) = map fst b) by (rewrite <- M; unfold b; now rewrite skipn_map, firstn_map).
  assert (Ef : concat fs = concat (map fst a) ++ concat (map fst b) ++ concat (map fst c)).
  { rewrite <- M, El, !map_app, !concat_app. reflexivity. }
  assert (By : bytes = concat (map fst b)) by (unfold bytes; now rewrite Fb).
  clearbody a b c fr bytes.
  assert (Off : frame_offset fr = len (concat (map fst a))).
  { rewrite Fr. clear -Gb Lb Hn. destruct b as [|[f t] b']; [cbn in Lb; lia|]. cbn [place frame_offset moved t_start]. inversion Gb as [|? ? F _]; subst.
    cbn [fst snd] in F. destruct (frame_shape md5 st f t F) as (? & ? & ? & _ & _ & _ & _ & _ & Q). rewrite Q. cbn [t_start]. lia. }
  assert (Mv : forall d l0, place d l0 = map (moved d) (place 0 l0)).
  { clear. intros d l0. assert (X : forall e l0, place (e + d) l0 = map (moved d) (place e l0)); [|apply (X 0)].
    clear. intros e l0; revert e; induction l0 as [|[f t] l0 IH]; intros e; [reflexivity|]. cbn [place map]. f_equal.
    - unfold moved. cbn [t_start t_data t_next t_size t_order t_props t_cols t_rows]. f_equal; lia.
    - rewrite <- IH. f_equal. lia. }
  assert (Len : frame_length fr = len (concat (map fst b))).
  { unfold frame_length. rewrite Off, Fr. rewrite Mv. 
    clear -Gb Lb Hn. destruct b as [|p b' _] using rev_ind; [cbn in Lb; lia|].
    assert (Nx : next_position (map (moved (len (concat (map fst a)))) (place 0 (b' ++ [p]))) =
                 next_position (place 0 (b' ++ [p])) + len (concat (map fst a))).
    { destruct p as [f t]. rewrite place_app. cbn [place]. rewrite map_app. cbn [map]. unfold next_position. rewrite !last_last. reflexivity. }
    rewrite Nx, (next_place md5 st) by exact Gb. unfold len. lia. }
  split; [|split; [|split; [|split]]].
  - rewrite Ef, Fr, By. exact (slice_encoded md5 st b Gb (map fst a) (concat (map fst c))).
  - rewrite By, Len, Off, Ef. unfold len. rewrite !Nat2Z.id, skipn_app, skipn_all, Nat.sub_diag, skipn_O. cbn [app].
    rewrite firstn_app, Nat.sub_diag, firstn_O, app_nil_r, firstn_all. reflexivity.
  - now rewrite Off, Fa.
  - now rewrite Len, By.
  - exists (place 0 b). split; [rewrite Fb; now apply place_tables_of|]. split; [|rewrite Off, Fr; symmetry; apply Mv].
    intros est fuel He Hf. rewrite By in *. change (@nil table) with (firstn 0 (place 0 b)).
    rewrite (read_tables_prefix md5 st b est Gb) by (try lia; now apply estimate_ok). reflexivity.
Qed.
Print Assumptions C30_encoded.
