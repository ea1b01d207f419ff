(** Reading frames written row by row, with possibly different columns. *)
From Coq Require Import String.
From Verif Require Import Spec Base Fp Stream StreamProofs Codec Meta Header HeaderProofs Encoder Table Reader ReadSpec
  FrameProofs Through P_Reader Writer RowReader RowList WriterSpec WriterProofs WriterRun.
Open Scope Z_scope.
Local Notation length := List.length.

(** The rows of frames, each with its columns. *)
Definition flat (fs : list (list colinfo * list (list (list Z)))) : list (list colinfo * list (list Z)) :=
  concat (map (fun f => map (pair (fst f)) (snd f)) fs).

Lemma flat_app a b : flat (a ++ b) = flat a ++ flat b.
Proof. unfold flat. now rewrite map_app, concat_app. Qed.

Lemma flat_one cols fs : flat (map (pair cols) fs) = map (pair cols) (concat fs).
Proof. unfold flat. rewrite map_map. cbn [fst snd]. induction fs; cbn [map concat]; [reflexivity|]. rewrite IHfs. now rewrite map_app. Qed.

Section Read.
Variables (st st' : settings).
Variables (pr : props) (md5 : list Z -> list Z).
Hypothesis Hd : digest md5.

Definition frame_holds (f : list colinfo * list (list (list Z))) (b : list Z) : Prop :=
  holds_rows st st' (fst f) pr md5 (snd f) b.

Section One.
Variable cols : list colinfo.

Lemma agree_same its row out : map i_ci its = cols -> agree st st' its row out -> same_row st st' cols row out.
Proof.
  intros E A. destruct (agree_len _ _ _ _ _ A) as (L1 & L2). unfold same_row. rewrite <- E, map_length, L1, L2.
  split; [reflexivity|]. split; [reflexivity|]. clear E L1 L2. intros i. revert i.
  induction A as [|it its x xs y ys S1 _ A IH]; intros [|i] ci a b; cbn [map nth_error]; try discriminate.
  - intros E1 E2 E3. assert (ci = i_ci it) by congruence. assert (a = x) by congruence. assert (b = y) by congruence. subst. exact S1.
  - apply IH.
Qed.

Lemma described_read its : map i_ci its = cols -> Forall2 described cols (map read_column its).
Proof.
  intros <-. induction its as [|it its IH]; constructor; [|exact IH].
  unfold read_column, reload_column, described. cbn [final_column col_name col_type col_bfnames col_bfsizes].
  split; [reflexivity|]. split; [reflexivity|]. intros ->. split; reflexivity.
Qed.


Lemma frame_table rows b : holds_rows st st' cols pr md5 rows b ->
  exists t, frame md5 st' b t /\ t_rows t = Z.of_nat (length rows) /\ t_props t = pr /\
    Forall2 (fun ci c => col_name c = ci_name ci /\ col_type c = ci_type ci) cols (t_cols t).
Proof using Hd.
  intros (its & body & h & E1 & _ & WF & -> & (prev & Pv & B1) & B2).
  destruct (wframe_ok st st' md5 (fun _ _ => []) Hd its pr rows prev WF ltac:(now rewrite E1)) as (body' & h' & C1 & Lb & C2 & C4 & _).
  rewrite B1 in C1. assert (body' = body) by congruence. subst body'. rewrite B2 in C2.
  assert (h' = h) by congruence. subst h'.
  destruct (C4 []) as (s & M1 & M2). rewrite app_nil_r in M1, M2.
  assert (Hr : Z.of_nat (length rows) < 2 ^ 63).
  { destruct WF as [W1 _ _ _ _ _ _ _ W8 _ _]. assert (0 <= sizes its) by (clear -W1; unfold sizes; induction W1 as [|it its H _ IH]; cbn; [lia|]; pose proof (item_size _ _ _ H); lia). nia. }
  eexists. split; [split|].
  - unfold read_table. change (from (h ++ body) 0) with (h ++ body). rewrite M1. cbn [bind]. rewrite M2. cbn [bind h_dataSize h_rows h_cols h_order h_props].
    cbn [Z.eqb negb]. rewrite Bool.andb_false_r. reflexivity.
  - cbn [t_next]. rewrite app_length. lia.
  - cbn [t_rows t_props t_cols]. rewrite Z.mod_small by lia. split; [reflexivity|]. split; [reflexivity|].
    rewrite <- E1. clear. induction its; constructor; [|assumption]. split; reflexivity.
Qed.

End One.

Section Junk.
Variable junk : nat -> nat -> list Z.
Notation list_rows := (list_rows md5 st' junk).

Lemma read_frames : forall fs bs, Forall2 frame_holds fs bs -> forall count,
  exists rows', Forall2 (comes_back st st') (flat fs) rows' /\ Forall2 snug (flat fs) rows' /\
    forall f, (0 < f)%nat -> list_rows (length (flat fs) + f) (between (concat bs) count) = (rows', Clean).
Proof using Hd.
  induction 1 as [|[cols rows] b fs bs (its & body & h & E1 & _ & WF & Eb & (prev & Pv & B1) & B2) F IH]; intros count.
  - exists []. split; [constructor|]. split; [constructor|]. intros [|f] Hf; [lia|]. reflexivity.
  - destruct (IH (S count)) as (rows' & S' & Sn & R'). cbn [fst snd] in *.
    destruct (wframe_ok st st' md5 junk Hd its pr rows prev WF ltac:(now rewrite E1)) as (body' & h' & C1 & _ & C2 & _ & C3).
    rewrite B1 in C1. assert (body' = body) by congruence. subst body'. rewrite B2 in C2.
    assert (h' = h) by congruence. subst h'.
    destruct (C3 count (concat bs)) as (rows1 & A & R & _).
    exists (map (pair (map read_column its)) rows1 ++ rows'). unfold flat. cbn [map concat fst snd]. fold (flat fs). split.
    { apply Forall2_app; [|exact S']. clear -A E1. induction A as [|x y l l' A1 A IH]; cbn [map]; constructor; [|exact IH].
      split; cbn [fst snd]; [now apply described_read|now apply agree_same with (its := its)]. }
    split.
    { apply Forall2_app; [|exact Sn]. clear -A E1 WF. pose proof (wf_items _ _ _ _ _ WF) as W1. pose proof (wf_some _ _ _ _ _ WF) as W3.
      assert (Sg : forall x y, snug (cols, x) (map read_column its, y)).
      { intros x y. unfold snug. cbn [fst]. rewrite <- E1. split; [destruct its; [congruence|discriminate]|]. clear -W1.
        induction W1 as [|it its (_ & _ & _ & I1 & I2) W1 IH]; constructor; [|exact IH]. split; [exact I1|apply I2]. }
      clear WF. induction A as [|x y l l' A1 A IH]; cbn [map]; [constructor|]. constructor; [apply Sg|exact IH]. }
    intros f Hf. rewrite app_length, map_length, <- Nat.add_assoc, Eb, <- app_assoc, R, R' by exact Hf. reflexivity.
Qed.

Lemma opened_left fs bs : Forall2 frame_holds fs bs ->
  exists it, open_rows md5 st' junk (concat bs) = Ok it /\ (r_end it = false -> r_left it <> 0).
Proof using Hd.
  intros F. unfold open_rows. destruct F as [|[cols rows] b fs bs (its & body & h & E1 & _ & WF & Eb & (prev & Pv & B1) & B2) F].
  - cbn. eexists. split; [reflexivity|discriminate].
  - cbn [fst snd] in *. destruct (wframe_ok st st' md5 junk Hd its pr rows prev WF ltac:(now rewrite E1)) as (body' & h' & C1 & _ & C2 & _ & C3).
    rewrite B1 in C1. assert (body' = body) by congruence. subst body'. rewrite B2 in C2.
    assert (h' = h) by congruence. subst h'.
    destruct (C3 0%nat (concat bs)) as (_ & _ & _ & it & LT & Lf & _). cbn [concat]. rewrite Eb, <- app_assoc, LT. eauto.
Qed.

Lemma read_file_snug fs bs : Forall2 frame_holds fs bs ->
  exists rows', Forall2 (comes_back st st') (flat fs) rows' /\ Forall2 snug (flat fs) rows' /\
    forall f, (length (flat fs) < f)%nat -> file_rows md5 st' junk f (concat bs) = (rows', Clean).
Proof using Hd.
  intros F. destruct (read_frames fs bs F 0) as (rows' & S' & Sn & R). exists rows'. split; [exact S'|]. split; [exact Sn|]. intros f Hf.
  replace f with (length (flat fs) + (f - length (flat fs)))%nat by lia.
  rewrite <- (R (f - length (flat fs))%nat) by lia. generalize (length (flat fs) + (f - length (flat fs)))%nat as k. intros k.
  unfold file_rows, open_rows. destruct F as [|[cols rows] b fs bs (its & body & h & E1 & _ & WF & Eb & (prev & Pv & B1) & B2) F].
  - cbn [concat length load_table]. cbn. destruct k; reflexivity.
  - cbn [fst snd] in *. destruct (wframe_ok st st' md5 junk Hd its pr rows prev WF ltac:(now rewrite E1)) as (body' & h' & C1 & _ & C2 & _ & C3).
    rewrite B1 in C1. assert (body' = body) by congruence. subst body'. rewrite B2 in C2.
    assert (h' = h) by congruence. subst h'.
    destruct (C3 0%nat (concat bs)) as (_ & _ & _ & it & LT & _ & AR). cbn [concat]. rewrite Eb, <- app_assoc, LT. apply AR.
Qed.

Lemma read_file fs bs : Forall2 frame_holds fs bs ->
  exists rows', Forall2 (comes_back st st') (flat fs) rows' /\
    forall f, (length (flat fs) < f)%nat -> file_rows md5 st' junk f (concat bs) = (rows', Clean).
Proof using Hd. intros F. destruct (read_file_snug fs bs F) as (rows' & S' & _ & R). eauto. Qed.

(** Without the columns. *)
Lemma read_plain cols fs bs : Forall2 (holds_rows st st' cols pr md5) fs bs ->
  exists rows', Forall2 (same_row st st' cols) (concat fs) rows' /\
    forall f, (length (concat fs) < f)%nat -> read_rows md5 st' junk f (concat bs) = (rows', Clean).
Proof using Hd.
  intros F. destruct (read_file (map (pair cols) fs) bs) as (rows' & A & R).
  { clear -F. induction F; constructor; assumption. }
  rewrite flat_one in *. exists (map snd rows'). split.
  - clear -A. remember (map (pair cols) (concat fs)) as l eqn:E. revert E. generalize (concat fs) as m. induction A as [|x y l l' (A0 & A1) A IH]; intros [|z m] E; try discriminate; constructor.
    + cbn [map] in E. assert (x = (cols, z)) by congruence. subst x. exact A1.
    + apply IH. cbn [map] in E. congruence.
  - intros f Hf. rewrite file_rows_rows, R by (now rewrite map_length). reflexivity.
Qed.

End Junk.
End Read.
