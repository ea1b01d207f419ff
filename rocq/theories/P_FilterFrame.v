(** C62: the frame Frame::filter returns. *)
From Coq Require Import Lia.
From Verif Require HeaderProofs CsvRows FrameDecode.
From Verif Require Import Base Fp Stream Codec Meta Header Encoder StreamProofs TableProofs StreamLocal Table Reader ReadSpec RowReader RowList Through
  WriterSpec Spec WriterProofs WriterRun WriterRead Writer FrameProofs Copy CopySpec CopyProofs P_Copy P_Reader OdaOut OdaSpec SelectOut SelectSpec P_Select
  Filter FilterSpec P_FilterRows.
Open Scope Z_scope.

(** After the empty frame there is nothing. *)
Lemma next_none md5 st est file fuel agg lim r r1 : next_frame md5 st est file fuel agg lim r = Ok (None, r1) ->
  forall fuel' agg' lim', next_frame md5 st est file fuel' agg' lim' r1 = Ok (None, r1).
Proof.
  unfold next_frame at 1. intros H fuel' agg' lim'. assert (r_pos r1 = -1) as E.
  { destruct (Z.eqb_spec (r_pos r) (-1)) as [P|_]; [congruence|].
    apply bind_ok in H as ([ts pos] & _ & H). destruct (Z.eqb_spec pos (-1)) as [P|_]; [inversion H; subst; reflexivity|].
    apply bind_ok in H as (t & _ & H). apply bind_ok in H as ([qq n] & _ & H). apply bind_ok in H as (u & _ & H). discriminate. }
  unfold next_frame. rewrite E. reflexivity.
Qed.

(** What the aggregating reader makes of the file decides. *)
Lemma frame_read md5 st N pr est mem q out n frs fuel : filter_query md5 st N pr mem q = Ok (out, n) ->
  read_all md5 st (est out) out fuel true (-1) = (frs, Clean) ->
  filter_frame md5 st N pr est mem q =
    match frs with [] => Ok (out, None) | [fr] => Ok (out, Some fr) | _ => Throw AssertFailed end.
Proof.
  intros E R. unfold filter_frame. rewrite E. cbn [bind]. unfold read_all in R.
  destruct (open_reader md5 st (est out) out) as [r| |]; cbn [bind]; try discriminate.
  destruct fuel as [|fuel]; [discriminate|]. cbn [Reader.read_frames] in R.
  destruct (next_frame md5 st (est out) out (S (S (length out))) true (-1) r) as [[[fr|] r1]| |] eqn:X1; try discriminate; cbn [bind].
  - destruct (Reader.read_frames md5 st (est out) out fuel true (-1) r1) as [frs1 e1] eqn:R1. assert (frs = fr :: frs1) as -> by congruence. assert (e1 = Clean) as -> by congruence. clear R.
    destruct fuel as [|fuel]; [discriminate|]. cbn [Reader.read_frames] in R1.
    destruct (next_frame md5 st (est out) out (S (S (length out))) true (-1) r1) as [[[fr2|] r2]| |] eqn:X2; try discriminate; cbn [bind assert].
    + destruct (Reader.read_frames md5 st (est out) out fuel true (-1) r2) as [frs2 e2]. assert (frs1 = fr2 :: frs2) as -> by congruence. reflexivity.
    + assert (frs1 = []) as -> by congruence. reflexivity.
  - assert (frs = []) as -> by congruence. rewrite (next_none _ _ _ _ _ _ _ _ _ X1). reflexivity.
Qed.

Section Tables.
Variables (st : settings) (pr : props) (md5 : list Z -> list Z).
Hypothesis Hd : digest md5.

Lemma fit : forall cols rows b t, holds_rows st st cols pr md5 rows b -> frame md5 st b t ->
  t_rows t = Z.of_nat (length rows) /\ t_props t = pr /\
  Forall2 (fun ci c => col_name c = ci_name ci /\ col_type c = ci_type ci /\ 8 <= 8 * data_size_doubles (col_coder c) <= ci_size ci) cols (t_cols t) /\ 0 < t_rows t < 2 ^ 63.
Proof using Hd.
  intros cols rows b t (its & body & h & E1 & _ & WF & -> & (prev & Pv & B1) & B2) (FT & _).
  destruct (wframe_ok st st md5 (fun _ _ => []) Hd its pr rows prev WF ltac:(now rewrite E1)) as (body' & h' & C1 & Lb & C2 & C4 & _).
  rewrite B1 in C1. assert (body' = body) by congruence. subst body'. rewrite B2 in C2.
  assert (h' = h) by congruence. subst h'.
  destruct (C4 []) as (s & M1 & M2). rewrite app_nil_r in M1, M2.
  assert (Hr : Z.of_nat (length rows) < 2 ^ 63).
  { destruct WF as [W1 _ _ _ _ _ _ _ W8 _ _]. assert (0 <= sizes its) by (clear -W1; unfold sizes; induction W1 as [|it its H _ IH]; cbn; [lia|]; pose proof (item_size _ _ _ H); lia). nia. }
  unfold read_table in FT. change (from (h ++ body) 0) with (h ++ body) in FT. rewrite M1 in FT. cbn [bind] in FT. rewrite M2 in FT. cbn [bind h_dataSize h_rows h_cols h_order h_props] in FT.
  cbn [Z.eqb negb] in FT. rewrite Bool.andb_false_r in FT. injection FT as <-. cbn [t_rows t_props t_cols]. rewrite Z.mod_small by lia.
  split; [reflexivity|]. split; [reflexivity|]. split; [|pose proof (wf_rows _ _ _ _ _ WF) as NE; destruct rows as [|r0 rows0]; [contradiction|]; cbn [length] in *; lia].
  rewrite <- E1. pose proof (wf_items _ _ _ _ _ WF) as W1. clear -W1. induction W1 as [|it its H _ IH]; constructor; [|exact IH].
  split; [reflexivity|]. split; [reflexivity|]. destruct H as (_ & _ & _ & H). unfold read_column, HeaderProofs.reload_column. cbn [col_coder]. lia.
Qed.

Lemma frames_tables : forall fs bs, Forall2 (frame_holds st st pr md5) fs bs -> exists tables, tables_of md5 st bs tables /\
  Forall2 (fun f t => t_rows t = Z.of_nat (length (snd f)) /\ t_props t = pr /\
    Forall2 (fun ci c => col_name c = ci_name ci /\ col_type c = ci_type ci /\ 8 <= 8 * data_size_doubles (col_coder c) <= ci_size ci) (fst f) (t_cols t) /\ 0 < t_rows t < 2 ^ 63) fs tables.
Proof using Hd.
  intros fs bs F. assert (FR : frames md5 st bs).
  { clear -F Hd. induction F as [|f b fs bs H F IH]; constructor; [|apply IH]. destruct (WriterRead.frame_table st st pr md5 Hd (fst f) (snd f) b H) as (t & T & _). eauto. }
  destruct (C27_concat md5 st bs 0 FR (or_introl eq_refl)) as (tables & T & _). exists tables. split; [exact T|].
  destruct T as [T1 T2]. apply Forall2_by_nth.
  - rewrite T1. apply (TableProofs.Forall2_length _ _ _ F).
  - intros i f t Ef Et. destruct (nth_error bs i) as [b|] eqn:Eb.
    2: { apply nth_error_None in Eb. assert (i < length tables)%nat by (apply nth_error_Some; congruence). lia. }
    destruct (T2 i b Eb) as (t1 & FT & E). assert (t = moved (Z.of_nat (length (concat (firstn i bs)))) t1) as -> by congruence. cbn [moved t_rows t_props t_cols].
    apply (fit (fst f) (snd f) b t1); [|exact FT]. exact (CsvRows.Forall2_at _ _ _ i _ _ F Ef Eb).
Qed.

End Tables.

Lemma flat_rows : forall (fs : list (list colinfo * list (list (list Z)))) (tables : list table),
  Forall2 (fun f t => t_rows t = Z.of_nat (length (snd f))) fs tables -> rows_in tables = Z.of_nat (length (flat fs)).
Proof.
  induction 1 as [|f t fs ts H F IH]; [reflexivity|]. cbn [rows_in fold_right]. fold (rows_in ts). rewrite IH, H.
  unfold flat. cbn [map concat]. rewrite app_length, map_length. lia.
Qed.

Section Frame.
Variables (st : settings) (N : nat) (pr : props) (md5 : list Z -> list Z).
Hypothesis Hd : digest md5.
Hypothesis HN : (0 < N)%nat.
Variable q : query.
Hypothesis RU : runs q.
Hypothesis FI : filterable st N pr q.
Variables (mem : Z -> Z) (est : list Z -> Z).
Hypothesis He : forall out, estimate (est out) out.

Lemma frame_told : exists bs tables fs, filter_query md5 st N pr mem q = Ok (concat bs, Z.of_nat (length (answer q))) /\
  tables_of md5 st bs tables /\ rows_in tables = Z.of_nat (length (answer q)) /\
  Forall2 (fun f t => t_rows t = Z.of_nat (length (snd f)) /\ t_props t = pr /\
    Forall2 (fun ci c => col_name c = ci_name ci /\ col_type c = ci_type ci /\ 8 <= 8 * data_size_doubles (col_coder c) <= ci_size ci) (fst f) (t_cols t) /\ 0 < t_rows t < 2 ^ 63) fs tables /\
  Forall2 (matched (arows st q)) (arows st q) (flat fs) /\
  filter_frame md5 st N pr est mem q =
    match tables with
    | [] => Ok (concat bs, None)
    | a :: l => if forallb (fun t => compatible (t_cols a) (t_cols t)) l then Ok (concat bs, Some tables) else Throw AssertFailed
    end.
Proof using All.
  destruct (filter_core st st pr md5 Hd N HN q RU FI mem) as (out & r1 & E & (fs & bs & -> & F & <-) & M).
  destruct (frames_tables st pr md5 Hd fs bs F) as (tables & T & FT). exists bs, tables, fs. split; [exact E|]. split; [exact T|].
  assert (LA : length (answer q) = length (flat fs)).
  { rewrite (answer_turns q), map_length, <- (TableProofs.Forall2_length _ _ _ M). unfold arows. rewrite map_length. reflexivity. }
  split. { rewrite LA. apply flat_rows. eapply FrameDecode.Forall2_weaken; [|exact FT]. intros f t H. apply H. }
  split; [exact FT|]. split; [exact M|].
  assert (HR : Forall (fun t => 0 <= t_rows t < 2 ^ 63) tables).
  { clear -FT. induction FT as [|f t fs ts H F IH]; constructor; [|exact IH]. destruct H as (_ & _ & _ & H). lia. }
  destruct (C29_complete md5 st bs tables (est (concat bs)) true (-1) T (He _) HR (or_introl eq_refl) (S (length bs)) (Nat.lt_succ_diag_r _)) as (frs & R & CC & G).
  rewrite (frame_read md5 st N pr est mem q _ _ frs _ E R).
  destruct frs as [|fr frs].
  { cbn [concat] in CC. subst tables. reflexivity. }
  pose proof (gr_some _ _ _ _ _ _ G) as NE. destruct fr as [|a l]; [apply Forall_inv in NE; contradiction|].
  pose proof (gr_same _ _ _ _ _ _ G a l) as SM.
  destruct frs as [|fr2 frs].
  { cbn [concat] in CC. rewrite app_nil_r in CC. subst tables.
    assert (forallb (fun t => compatible (t_cols a) (t_cols t)) l = true) as ->; [|reflexivity].
    apply forallb_forall. intros t Ht. apply (SM t); [left; reflexivity|exact Ht]. }
  destruct fr2 as [|b l2]; [apply Forall_inv_tail, Forall_inv in NE; contradiction|].
  cbn [concat app] in CC. subst tables.
  destruct (gr_maximal _ _ _ _ _ _ G eq_refl 0%nat a l b eq_refl) as [NJ|X]; [reflexivity| |lia].
  assert (forallb (fun t => compatible (t_cols a) (t_cols t)) (l ++ b :: l2 ++ concat frs) = false) as ->; [|reflexivity].
  rewrite forallb_app. cbn [app forallb]. unfold joinable in NJ. apply Bool.not_true_is_false in NJ. rewrite NJ. apply Bool.andb_false_r.
Qed.

End Frame.

(** Frame::filter: the tables of what was written are one frame if all of them are compatible
    with the first; if there are none, the frame is empty; otherwise there is an exception. *)
Theorem C62_frame : forall md5 st N pr mem est q, digest md5 -> (0 < N)%nat -> runs q -> filterable st N pr q ->
  (forall out, estimate (est out) out) ->
  exists out bs tables, filter_query md5 st N pr mem q = Ok (out, Z.of_nat (length (answer q))) /\
    out = concat bs /\ tables_of md5 st bs tables /\ rows_in tables = Z.of_nat (length (answer q)) /\
    Forall (fun t => 0 < t_rows t /\ t_props t = pr) tables /\
    (answer q = [] -> filter_frame md5 st N pr est mem q = Ok (out, None)) /\
    (forall a l, tables = a :: l -> Forall (joinable compatible a) l -> filter_frame md5 st N pr est mem q = Ok (out, Some tables)) /\
    (forall a l, tables = a :: l -> ~ Forall (joinable compatible a) l -> filter_frame md5 st N pr est mem q = Throw AssertFailed).
Proof.
  intros md5 st N pr mem est q Hd HN RU FI He.
  destruct (frame_told st N pr md5 Hd HN q RU FI mem est He) as (bs & tables & fs & E & T & R & FT & _ & X).
  exists (concat bs), bs, tables. split; [exact E|]. split; [reflexivity|]. split; [exact T|]. split; [exact R|].
  assert (P : Forall (fun t => 0 < t_rows t /\ t_props t = pr) tables).
  { clear -FT. induction FT as [|f t fs ts (H1 & H2 & _ & H3) F IH]; constructor; [|exact IH]. split; [apply H3|exact H2]. }
  split; [exact P|]. rewrite X. split; [|split].
  - intros A. rewrite A in R. destruct tables as [|t ts]; [reflexivity|]. exfalso. inversion P as [|? ? (P1 & _) P2]; subst.
    assert (0 <= rows_in ts). { clear -P2. induction P2 as [|t ts (H & _) F IH]; cbn [rows_in fold_right]; [lia|]. fold (rows_in ts). lia. }
    cbn [rows_in fold_right] in R. fold (rows_in ts) in R. cbn [length] in R. lia.
  - intros a l -> J. assert (forallb (fun t => compatible (t_cols a) (t_cols t)) l = true) as ->; [|reflexivity].
    apply forallb_forall. intros t Ht. rewrite Forall_forall in J. apply (J t Ht).
  - intros a l -> J. destruct (forallb (fun t => compatible (t_cols a) (t_cols t)) l) eqn:F; [|reflexivity].
    exfalso. apply J. apply Forall_forall. rewrite forallb_forall in F. exact F.
Qed.
Print Assumptions C62_frame.

(** If the rows have columns of the same titles and types, eight bytes wide each, then all of
    them are in the frame returned. *)
Theorem C62_one_frame : forall md5 st N pr mem est q, digest md5 -> (0 < N)%nat -> runs q -> filterable st N pr q ->
  (forall out, estimate (est out) out) ->
  answer q <> [] -> (forall r1 r2, In r1 (answer q) -> In r2 (answer q) -> map face (fst r1) = map face (fst r2)) ->
  (forall r, In r (answer q) -> Forall (fun ci => ci_size ci = 8) (fst r)) ->
  exists out bs tables, filter_query md5 st N pr mem q = Ok (out, Z.of_nat (length (answer q))) /\
    out = concat bs /\ tables_of md5 st bs tables /\ rows_in tables = Z.of_nat (length (answer q)) /\
    filter_frame md5 st N pr est mem q = Ok (out, Some tables).
Proof.
  intros md5 st N pr mem est q Hd HN RU FI He NE SF S8.
  destruct (frame_told st N pr md5 Hd HN q RU FI mem est He) as (bs & tables & fs & E & T & R & FT & M & X).
  exists (concat bs), bs, tables. split; [exact E|]. split; [reflexivity|]. split; [exact T|]. split; [exact R|].
  rewrite X. destruct tables as [|a l].
  { exfalso. cbn [rows_in fold_right] in R. destruct (answer q); [contradiction|]. cbn [length] in R. lia. }
  assert (CF : forall f, In f fs -> (0 < length (snd f))%nat -> exists r, In r (answer q) /\ map face (fst f) = map face (fst r)).
  { intros [cols rows] Hf L. destruct rows as [|row rows]; [cbn in L; lia|].
    assert (In (cols, row) (flat fs)) as HI. { unfold flat. apply in_concat. eexists. split; [apply in_map; exact Hf|]. cbn [fst snd map]. left. reflexivity. }
    assert (exists cs, cols = map info cs /\ In cs (map fst (arows st q))) as (cs & -> & M4).
    { clear -M HI. generalize dependent (arows st q). intros ar M. assert (forall xs fl, Forall2 (matched ar) xs fl -> In (cols, row) fl -> exists cs, cols = map info cs /\ In cs (map fst ar)) as Y; [|eauto].
      clear. induction 1 as [|x f xs fl (_ & cs & H2 & _ & H4) F IH]; intros HI; [destruct HI|]. destruct HI as [->|HI]; [|auto]. exists cs. split; assumption. }
    unfold arows in M4. rewrite map_map in M4. apply in_map_iff in M4 as (t & <- & It). cbn [arow_of fst].
    pose proof (in_turns_fine q RU t It) as (_ & A & _). destruct (meta_facts st (fst t) A) as (-> & _ & _).
    exists (map fst (fst t), q_vals (snd t)). split; [rewrite (answer_turns q); apply in_map_iff; exists t; split; [reflexivity|exact It]|].
    cbn [fst]. clear -A. induction A as [|ci l (A1 & A2) A IH]; [reflexivity|]. cbn [map]. rewrite IH. f_equal. unfold face, announced. cbn [ci_name ci_type ci_size].
    destruct (ci_type ci =? ty_STRING); [reflexivity|]. rewrite A2. reflexivity. }
  assert (forallb (fun t => compatible (t_cols a) (t_cols t)) l = true) as ->; [|reflexivity].
  apply forallb_forall. intros t Ht.
  assert (CT : forall t, In t (a :: l) -> exists f, In f fs /\ (0 < length (snd f))%nat /\
    Forall2 (fun ci c => col_name c = ci_name ci /\ col_type c = ci_type ci /\ 8 <= 8 * data_size_doubles (col_coder c) <= ci_size ci) (fst f) (t_cols t)).
  { clear -FT. generalize dependent (a :: l). intros ts FT t Ht. induction FT as [|f u fs ts (H1 & _ & H2 & H3) F IH]; [destruct Ht|].
    destruct Ht as [->|Ht]; [exists f; split; [left; reflexivity|split; [lia|exact H2]]|]. destruct (IH Ht) as (g & G1 & G2). exists g. split; [right; exact G1|exact G2]. }
  destruct (CT a (or_introl eq_refl)) as (fa & A1 & A2 & A3). destruct (CT t (or_intror Ht)) as (ft & B1 & B2 & B3).
  destruct (CF fa A1 A2) as (ra & Ra & Fa). destruct (CF ft B1 B2) as (rt & Rt & Ft).
  assert (FF : map face (fst fa) = map face (fst ft)) by (rewrite Fa, Ft; apply SF; assumption).
  assert (S8a : Forall (fun ci => ci_size ci = 8) (fst fa)).
  { pose proof (S8 ra Ra) as S. clear -S Fa. revert Fa. generalize (fst fa) as la. induction S as [|c l Hc S IH]; intros [|x la] Fa; try discriminate; constructor.
    - cbn [map] in Fa. assert (face x = face c) as Q by congruence. unfold face in Q. congruence.
    - apply IH. cbn [map] in Fa. congruence. }
  clear -A3 B3 FF S8a. unfold compatible.
  assert (EQ : length (t_cols a) = length (t_cols t) /\ columns_equal (t_cols a) (t_cols t) = true).
  { revert FF S8a B3. generalize (fst ft) as lt. generalize (t_cols t) as ct. revert A3. generalize (t_cols a) as ca. generalize (fst fa) as la.
    induction 1 as [|x c la ca (H1 & H2 & H3) F IH]; intros ct lt FF S8 B3; destruct lt as [|y lt]; try discriminate; inversion B3 as [|? d ? cd (K1 & K2 & K3) F']; subst; [split; reflexivity|].
    inversion S8 as [|? ? S1 S2]; subst. cbn [map] in FF. assert (face x = face y) as Q by congruence. unfold face in Q.
    destruct (IH cd lt ltac:(congruence) S2 F') as [L C]. split; [cbn [length]; congruence|].
    unfold columns_equal in *. cbn [combine forallb fst snd]. rewrite C, Bool.andb_true_r. unfold column_equals.
    assert (ci_name x = ci_name y) as Q1 by congruence. assert (ci_type x = ci_type y) as Q2 by congruence. assert (ci_size x = ci_size y) as Q3 by congruence.
    rewrite H1, K1, H2, K2, Q1, Q2, bytes_eqb_refl, Z.eqb_refl. cbn [andb]. apply Z.eqb_eq. lia. }
  destruct EQ as [L C]. rewrite L, Nat.eqb_refl. cbn [negb]. rewrite C. reflexivity.
Qed.
Print Assumptions C62_one_frame.

(** Rows of ordinary values, in columns small enough, can be filtered. *)
Theorem C62_ordinary : forall st N pr q,
  (forall cs, In cs (map fst (qy_cols q) :: map fst (answer q)) -> writable_columns (map announced cs) pr /\ WriterSpec.small (Z.of_nat N) (map announced cs) pr) ->
  (forall r, In r (answer q) -> Forall accepted (fst r) /\ Forall2 (ordinary st) (map announced (fst r)) (row_cells st r)) ->
  filterable st N pr q.
Proof.
  intros st N pr q H R. split.
  - intros cs Hc. apply (H cs Hc).
  - intros cs part Hc Hne Hl Hp. destruct (H cs (or_intror Hc)) as (_ & SM).
    apply (OrdinaryProofs.ordinary_writable st (map announced cs) pr (Z.of_nat N)); auto; [|unfold len; lia].
    apply Forall_forall. intros row Hr. destruct (Hp row Hr) as (r & Hin & -> & Hs). destruct (R r Hin) as (_ & O). clear -O Hs.
    revert O. generalize (row_cells st r) as row. revert cs Hs. generalize (fst r) as cs'.
    induction cs' as [|c' cs' IH]; intros [|c cs] Hs row O; try discriminate; inversion O as [|? x ? xs R1 R2]; subst; constructor.
    + cbn [map] in Hs. assert (E : face c' = face c) by congruence. unfold face in E.
      assert (E1 : ci_type (announced c') = ci_type (announced c)) by (cbn [announced ci_type]; congruence).
      assert (E2 : ci_size (announced c') = ci_size (announced c)).
      { cbn [announced ci_size]. assert (ci_type c' = ci_type c) as -> by congruence. destruct (ci_type c =? ty_STRING); congruence. }
      destruct R1 as [n T S | v T S | v T S | dsd x T S]; rewrite E1 in T; rewrite E2 in S.
      * now apply or_int.
      * now apply or_real.
      * now apply or_double.
      * now apply (or_string st (announced c) dsd).
    + apply IH; [cbn [map] in Hs; congruence|exact R2].
Qed.
Print Assumptions C62_ordinary.
