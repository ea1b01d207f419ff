(** Decoding fewer columns: the columns decoded are not affected. *)
From Coq Require Import String.
From Verif Require Import Spec RowSpec Base Fp FpProofs Stream StreamProofs StreamLocal Codec Meta Header Encoder Table
  TableProofs DecodeProofs LookupProofs FrameDecode P_Decode.
Open Scope Z_scope.
Local Notation length := List.length.

(** [d2] is [d1], or the same column not requested *)
Definition thin (d1 d2 : dcol) : Prop := d_codec d2 = d_codec d1 /\ (d2 = d1 \/ (d_fac d2 = None /\ d_last d2 = 0%nat)).

Lemma thin_map (f : dcol -> outcome dcol) :
  (forall d d', f d = Ok d' -> d_codec d' = d_codec d) -> (forall d, d_fac d = None -> f d = Ok d) ->
  forall ds1 ds2 r1, Forall2 thin ds1 ds2 -> map_dcols f ds1 = Ok r1 ->
  exists r2, map_dcols f ds2 = Ok r2 /\ Forall2 thin r1 r2.
Proof.
  intros Hc Hn ds1 ds2 r1 F. revert r1. induction F as [|d1 d2 ds1 ds2 (C & T) F IH]; intros r1 H; cbn [map_dcols] in *.
  - inversion H; subst. exists []. split; [reflexivity|constructor].
  - apply bind_ok in H as (d1' & E1 & H). apply bind_ok in H as (ds1' & E2 & H). inversion H; subst.
    destruct (IH _ E2) as (r2 & E3 & F'). destruct T as [->|[T1 T2]].
    + exists (d1' :: r2). rewrite E1. cbn [bind]. rewrite E3. split; [reflexivity|]. constructor; [split; auto|assumption].
    + exists (d2 :: r2). rewrite (Hn d2 T1). cbn [bind]. rewrite E3. split; [reflexivity|]. constructor; [|assumption].
      split; [rewrite C; symmetry; apply (Hc _ _ E1)|right; auto].
Qed.

Lemma prefill_codec d d' : prefill d = Ok d' -> d_codec d' = d_codec d.
Proof. unfold prefill. destruct (d_fac d); [|congruence]. intros H. apply bind_ok in H as (f' & _ & H). now inversion H. Qed.
Lemma fill_codec l d d' : fill_col l d = Ok d' -> d_codec d' = d_codec d.
Proof. unfold fill_col. destruct (d_fac d); [|congruence]. intros H. apply bind_ok in H as (f' & _ & H). now inversion H. Qed.

Lemma thin_decode row : forall ds1 ds2 s r1 s1, Forall2 thin ds1 ds2 -> decode_cols row ds1 s = Ok (r1, s1) ->
  exists r2, decode_cols row ds2 s = Ok (r2, s1) /\ Forall2 thin r1 r2.
Proof.
  intros ds1 ds2 s r1 s1 F. revert s r1 s1. induction F as [|d1 d2 ds1 ds2 (C & T) F IH]; intros s r1 s1 H; cbn [decode_cols] in *.
  - inversion H; subst. exists []. split; [reflexivity|constructor].
  - apply bind_ok in H as ((d1' & sa) & E1 & H). apply bind_ok in H as ((ds1' & sb) & E2 & H). inversion H; subst.
    destruct (IH _ _ _ E2) as (r2 & E3 & F'). destruct T as [->|[T1 T2]].
    + exists (d1' :: r2). rewrite E1. cbn [bind]. rewrite E3. split; [reflexivity|]. constructor; [split; auto|assumption].
    + exists (d2 :: r2). rewrite T1.
      assert (Sk : exists u, skip (d_codec d1) s = Ok (u, sa) /\ d_codec d1' = d_codec d1).
      { destruct (d_fac d1).
        - apply bind_ok in E1 as ((cell & sc) & D & E1). apply bind_ok in E1 as (f' & _ & E1). inversion E1; subst. cbn [d_codec].
          exists tt. split; [eapply decode_skip; eassumption|reflexivity].
        - apply bind_ok in E1 as ((u & sc) & D & E1). inversion E1; subst. exists u. auto. }
      destruct Sk as (u & Sk & C'). rewrite C, Sk. cbn [bind]. rewrite E3. split; [reflexivity|]. constructor; [|assumption].
      split; [congruence|right; auto].
Qed.

Lemma thin_firstn n ds1 ds2 : Forall2 thin ds1 ds2 -> Forall2 thin (firstn n ds1) (firstn n ds2).
Proof. intros F. revert n. induction F; intros [|n]; cbn [firstn]; constructor; auto. Qed.
Lemma thin_skipn n ds1 ds2 : Forall2 thin ds1 ds2 -> Forall2 thin (skipn n ds1) (skipn n ds2).
Proof. intros F. revert n. induction F; intros [|n]; cbn [skipn]; try constructor; auto. Qed.

Lemma thin_row row ls ds1 ds2 s st r1 s1 : Forall2 thin ds1 ds2 -> decode_row row ls ds1 s = Ok (st, r1, s1) ->
  exists r2, decode_row row ls ds2 s = Ok (st, r2, s1) /\ Forall2 thin r1 r2.
Proof.
  intros F H. unfold decode_row in *. apply bind_ok in H as ((m & sa) & E & H). rewrite E. cbn [bind] in *.
  apply bind_ok in H as (cols1 & E1 & H). apply bind_ok in H as ((dec & sb) & E2 & H). inversion H; subst.
  set (start := marker_val m) in *.
  assert (X : exists cols2, (if (start <? ls)%nat then
       if (length ds2 <? ls)%nat then UB
       else do mid <- map_dcols (fill_col (row - 1)) (firstn (ls - start) (skipn start ds2));
            Ok (firstn start ds2 ++ mid ++ skipn ls ds2)
     else Ok ds2) = Ok cols2 /\ Forall2 thin cols1 cols2).
  { destruct (start <? ls)%nat; [|exists ds2; inversion E1; subst; auto]. rewrite <- (Forall2_length _ _ _ F).
    destruct (length ds1 <? ls)%nat; [discriminate|]. apply bind_ok in E1 as (mid & M & E1). inversion E1; subst.
    destruct (thin_map (fill_col (row - 1)) (fun d d' => fill_codec (row - 1) d d') (fun d N => ltac:(unfold fill_col; now rewrite N))
       _ _ _ (thin_firstn (ls - start) _ _ (thin_skipn start _ _ F)) M) as (mid2 & M2 & F2).
    rewrite M2. cbn [bind]. eexists. split; [reflexivity|]. apply Forall2_app; [now apply thin_firstn|]. apply Forall2_app; [assumption|now apply thin_skipn]. }
  destruct X as (cols2 & X1 & X2). rewrite X1. cbn [bind].
  destruct (thin_decode row _ _ _ _ _ (thin_skipn start _ _ X2) E2) as (dec2 & D2 & F2). rewrite D2. cbn [bind].
  eexists. split; [reflexivity|]. apply Forall2_app; [now apply thin_firstn|assumption].
Qed.

(** what [d_last] is after [row] rows, the last of which started at column [ls] *)
Definition last_ok (row ls i : nat) (d : dcol) : Prop :=
  match d_fac d with
  | None => d_last d = 0%nat
  | Some _ => (row = 0%nat -> d_last d = 0%nat) /\ ((0 < row)%nat -> (ls <= i)%nat -> d_last d = (row - 1)%nat) /\
              ((1 < row)%nat -> (i < ls)%nat -> (d_last d < row - 1)%nat) /\ ((0 < row)%nat -> (d_last d < row)%nat)
  end.
Definition lasts (row ls : nat) (cols : list dcol) : Prop := forall i d, nth_error cols i = Some d -> last_ok row ls i d.

Lemma map_dcols_nth f : forall ds r, map_dcols f ds = Ok r -> Forall2 (fun d d' => f d = Ok d') ds r.
Proof.
  induction ds as [|d ds IH]; intros r H; cbn [map_dcols] in H; [inversion H; constructor|].
  apply bind_ok in H as (d' & E1 & H). apply bind_ok in H as (ds' & E2 & H). inversion H; subst. constructor; auto.
Qed.

Definition same_last (d d' : dcol) : Prop := d_last d' = d_last d /\ (d_fac d' = None <-> d_fac d = None).

Lemma fill_last l d d' : fill_col l d = Ok d' -> same_last d d'.
Proof.
  unfold fill_col, same_last. destruct (d_fac d) eqn:E; [|intros [= <-]; rewrite E; tauto].
  intros H. apply bind_ok in H as (f' & _ & H). inversion H; subst. cbn. split; [reflexivity|]. split; discriminate.
Qed.
Lemma prefill_last d d' : prefill d = Ok d' -> same_last d d'.
Proof.
  unfold prefill, same_last. destruct (d_fac d) eqn:E; [|intros [= <-]; rewrite E; tauto].
  intros H. apply bind_ok in H as (f' & _ & H). inversion H; subst. cbn. split; [reflexivity|]. split; discriminate.
Qed.
Lemma same_last_ok row ls i d d' : same_last d d' -> last_ok row ls i d -> last_ok row ls i d'.
Proof.
  unfold same_last, last_ok. intros [-> E]. destruct (d_fac d), (d_fac d'); auto; destruct E as [E1 E2]; [discriminate (E1 eq_refl)|discriminate (E2 eq_refl)].
Qed.

Lemma same_lasts row ls ds ds' : Forall2 same_last ds ds' -> lasts row ls ds -> lasts row ls ds'.
Proof.
  intros F H i d' Hd. assert (exists d, nth_error ds i = Some d /\ same_last d d') as (d & E & S0).
  { clear H. revert i Hd. induction F; intros [|i] Q; try discriminate; [injection Q as <-; eexists; split; [reflexivity|assumption]|exact (IHF i Q)]. }
  eapply same_last_ok; eauto.
Qed.

Lemma same_last_refl ds : Forall2 same_last ds ds.
Proof. induction ds; constructor; auto. split; tauto. Qed.

Lemma decode_cols_last row : forall ds s r s', decode_cols row ds s = Ok (r, s') ->
  Forall2 (fun d d' => (d_fac d = None /\ d' = d) \/ (d_fac d <> None /\ d_fac d' <> None /\ d_last d' = row)) ds r.
Proof.
  induction ds as [|d ds IH]; intros s r s' H; cbn [decode_cols] in H; [inversion H; constructor|].
  apply bind_ok in H as ((d' & sa) & E1 & H). apply bind_ok in H as ((ds' & sb) & E2 & H). inversion H; subst. constructor; [|eauto].
  destruct (d_fac d).
  - apply bind_ok in E1 as ((cell & sc) & D & E1). apply bind_ok in E1 as (f' & _ & E1). inversion E1; subst. right. cbn. split; [discriminate|]. split; [discriminate|reflexivity].
  - apply bind_ok in E1 as ((u & sc) & D & E1). inversion E1; subst. now left.
Qed.

Lemma lasts_row row ls ds s start r s' : lasts row ls ds -> decode_row row ls ds s = Ok (start, r, s') -> lasts (S row) start r.
Proof.
  intros L H. unfold decode_row in H. apply bind_ok in H as ((m & sa) & E & H). apply bind_ok in H as (cols1 & E1 & H).
  apply bind_ok in H as ((dec & sb) & E2 & H). inversion H; subst. clear H. set (start := marker_val m) in *.
  assert (SL : Forall2 same_last ds cols1).
  { destruct (start <? ls)%nat eqn:Q; [|inversion E1; subst; apply same_last_refl]. destruct (length ds <? ls)%nat; [discriminate|].
    apply bind_ok in E1 as (mid & M & E1). inversion E1; subst.
    rewrite <- (firstn_skipn start ds) at 1. apply Forall2_app; [apply same_last_refl|].
    rewrite <- (firstn_skipn (ls - start) (skipn start ds)) at 1. apply Forall2_app.
    - eapply Forall2_weaken; [|eapply map_dcols_nth, M]. intros a b. apply fill_last.
    - assert (E9 : forall {A} (l : list A) a b, skipn a (skipn b l) = skipn (b + a) l).
      { clear. intros A l a b. revert l. induction b; intros l; [reflexivity|]. destruct l; [now rewrite !skipn_nil|cbn; auto]. }
      rewrite E9. replace (start + (ls - start))%nat with ls by (apply Nat.ltb_lt in Q; lia). apply same_last_refl. }
  pose proof (same_lasts row ls _ _ SL L) as L1. apply decode_cols_last in E2.
  intros i d Hd. destruct (Nat.lt_ge_cases i start) as [Hi|Hi].
  - assert (Hn : nth_error cols1 i = Some d).
    { rewrite nth_error_app1 in Hd.
      - rewrite <- (firstn_skipn start cols1). rewrite nth_error_app1; [exact Hd|].
        apply nth_error_Some. congruence.
      - destruct (Nat.lt_ge_cases i (length (firstn start cols1))) as [Q|Q]; [exact Q|].
        rewrite firstn_length in Q. rewrite nth_error_app2 in Hd by (rewrite firstn_length; lia).
        assert (skipn start cols1 = []) as W by (apply skipn_all2; lia). rewrite W in E2. inversion E2; subst. destruct (i - length (firstn start cols1))%nat; discriminate. }
    specialize (L1 i d Hn). unfold last_ok in *. destruct (d_fac d); [|exact L1]. destruct L1 as (A & B & C & D).
    split; [lia|]. split; [lia|]. split; [|intros _; destruct row; [specialize (A eq_refl); lia|specialize (D ltac:(lia)); lia]].
    intros Hr _. replace (S row - 1)%nat with row by lia. apply D. lia.
  - rewrite nth_error_app2 in Hd by (rewrite firstn_length; lia). set (j := (i - length (firstn start cols1))%nat) in *.
    assert (exists d0, nth_error (skipn start cols1) j = Some d0 /\ ((d_fac d0 = None /\ d = d0) \/ (d_fac d0 <> None /\ d_fac d <> None /\ d_last d = row))) as (d0 & N0 & Q).
    { clear -E2 Hd. clearbody j. revert j Hd. induction E2; intros [|j] Hd; try discriminate; [injection Hd as <-; eexists; split; [reflexivity|assumption]|exact (IHE2 j Hd)]. }
    destruct Q as [[Q1 ->]|(Q1 & Q2 & Q3)].
    + assert (exists i', nth_error cols1 i' = Some d0) as (i' & N1).
      { apply nth_error_In in N0. rewrite <- (firstn_skipn start cols1). apply In_nth_error. apply in_or_app. now right. }
      specialize (L1 i' d0 N1). unfold last_ok in *. rewrite Q1 in *. exact L1.
    + unfold last_ok. destruct (d_fac d); [|congruence]. rewrite Q3. repeat split; lia.
Qed.

Lemma decode_rows_sim : forall n row ls ds1 ds2 s r1, Forall2 thin ds1 ds2 -> lasts row ls ds1 -> lasts row ls ds2 ->
  decode_rows n row ls ds1 s = Ok r1 ->
  exists r2 ls', decode_rows n row ls ds2 s = Ok r2 /\ Forall2 thin r1 r2 /\ lasts (row + n) ls' r1 /\ lasts (row + n) ls' r2.
Proof.
  induction n as [|n IH]; intros row ls ds1 ds2 s r1 F L1 L2 H; cbn [decode_rows] in *.
  - inversion H; subst. exists ds2, ls. rewrite Nat.add_0_r. auto.
  - apply bind_ok in H as (((start & c1) & s1) & E & H). cbn [fst snd] in H.
    destruct (thin_row _ _ _ _ _ _ _ _ F E) as (c2 & E2 & F2). rewrite E2. cbn [bind fst snd].
    replace (row + S n)%nat with (S row + n)%nat by lia.
    eapply IH; [exact F2|exact (lasts_row _ _ _ _ _ _ _ L1 E)|exact (lasts_row _ _ _ _ _ _ _ L2 E2)|exact H].
Qed.

(** the final fill is a fill of the columns before the last marker *)
Lemma final_fill_eq n : (1 < n)%nat -> forall cols off ls,
  (forall i d, nth_error cols i = Some d -> last_ok n ls (off + i) d) ->
  final_fill n cols = do a <- map_dcols (fill_col (n - 1)) (firstn (ls - off) cols); Ok (a ++ skipn (ls - off) cols).
Proof.
  intros Hn. induction cols as [|d ds IH]; intros off ls H.
  - rewrite firstn_nil, skipn_nil. reflexivity.
  - pose proof (H 0%nat d eq_refl) as H0. rewrite Nat.add_0_r in H0. cbn [final_fill].
    assert (IH' := IH (S off) ls (fun i d' E => ltac:(replace (S off + i)%nat with (off + S i)%nat by lia; apply H; exact E))).
    destruct (Nat.lt_ge_cases off ls) as [Q|Q].
    + replace (ls - off)%nat with (S (ls - S off)) by lia. rewrite firstn_cons, skipn_cons. cbn [map_dcols].
      assert (T : (d_last d <? n - 1)%nat = true).
      { apply Nat.ltb_lt. unfold last_ok in H0. destruct (d_fac d); [|lia]. apply H0; lia. }
      rewrite T. destruct (fill_col (n - 1) d) as [d'| |]; [|reflexivity|reflexivity]. cbn [bind]. rewrite IH'.
      destruct (map_dcols (fill_col (n - 1)) (firstn (ls - S off) ds)); reflexivity.
    + replace (ls - off)%nat with 0%nat by lia. replace (ls - S off)%nat with 0%nat in IH' by lia. rewrite firstn_O, skipn_O in *. cbn [map_dcols bind app] in *.
      unfold last_ok in H0. destruct (d_fac d) as [f|] eqn:Ef.
      * destruct H0 as (_ & B & _). rewrite B by lia. now rewrite Nat.ltb_irrefl.
      * rewrite H0. replace (0 <? n - 1)%nat with true by (symmetry; apply Nat.ltb_lt; lia). unfold fill_col. rewrite Ef. cbn [bind]. rewrite IH'. reflexivity.
Qed.

Lemma final_fill_one cols : final_fill 1 cols = Ok cols.
Proof. destruct cols as [|d ds]; [reflexivity|]. cbn [final_fill]. replace (d_last d <? 1 - 1)%nat with false by (symmetry; apply Nat.ltb_ge; lia). reflexivity. Qed.

Lemma final_sim n ls ds1 ds2 r1 : (0 < n)%nat -> Forall2 thin ds1 ds2 -> lasts n ls ds1 -> lasts n ls ds2 ->
  final_fill n ds1 = Ok r1 -> exists r2, final_fill n ds2 = Ok r2 /\ Forall2 thin r1 r2.
Proof.
  intros Hn F L1 L2 H. destruct (Nat.eq_dec n 1) as [->|Nn]; [rewrite final_fill_one in *; inversion H; subst; eauto|].
  rewrite (final_fill_eq n ltac:(lia) _ 0 ls L1) in H. rewrite (final_fill_eq n ltac:(lia) _ 0 ls L2). rewrite Nat.sub_0_r in *.
  apply bind_ok in H as (a & M & H). inversion H; subst.
  destruct (thin_map (fill_col (n - 1)) (fun d d' => fill_codec (n - 1) d d') (fun d N => ltac:(unfold fill_col; now rewrite N))
       _ _ _ (thin_firstn ls _ _ F) M) as (a2 & M2 & F2).
  rewrite M2. cbn [bind]. eexists. split; [reflexivity|]. apply Forall2_app; [assumption|now apply thin_skipn].
Qed.

Lemma lasts_fresh cols : Forall (fun d => d_last d = 0%nat) cols -> lasts 0 0 cols.
Proof.
  intros F i d E. rewrite Forall_forall in F. specialize (F d (nth_error_In _ _ E)). unfold last_ok. destruct (d_fac d); [|assumption].
  repeat split; intros; lia.
Qed.

(** the whole of the decoding loops *)
Lemma loops_sim n cols1 cols2 buf r1 : (0 < n)%nat -> Forall2 thin cols1 cols2 ->
  Forall (fun d => d_last d = 0%nat) cols1 -> Forall (fun d => d_last d = 0%nat) cols2 ->
  (do a <- map_dcols prefill cols1; do b <- decode_rows n 0 0 a buf; final_fill n b) = Ok r1 ->
  exists r2, (do a <- map_dcols prefill cols2; do b <- decode_rows n 0 0 a buf; final_fill n b) = Ok r2 /\ Forall2 thin r1 r2.
Proof.
  intros Hn F Z1 Z2 H. apply bind_ok in H as (a1 & A1 & H). apply bind_ok in H as (b1 & B1 & H).
  destruct (thin_map prefill prefill_codec (fun d N => ltac:(unfold prefill; now rewrite N)) _ _ _ F A1) as (a2 & A2 & F2).
  rewrite A2. cbn [bind].
  assert (Pre : forall cols a, map_dcols prefill cols = Ok a -> Forall (fun d => d_last d = 0%nat) cols -> lasts 0 0 a).
  { intros cols a M Z. apply map_dcols_nth in M. eapply same_lasts; [|apply lasts_fresh, Z]. eapply Forall2_weaken; [|exact M]. intros x y. apply prefill_last. }
  destruct (decode_rows_sim n 0 0 a1 a2 buf b1 F2 (Pre _ _ A1 Z1) (Pre _ _ A2 Z2) B1) as (b2 & ls & B2 & F3 & L1 & L2).
  rewrite B2. cbn [bind]. eapply final_sim; eassumption.
Qed.
