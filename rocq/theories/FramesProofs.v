(** The readers and frames of the C API: what [next_after] does. *)
From Verif Require Import Base Fp Stream StreamProofs StreamLocal Codec Meta Header Table TableProofs Reader ReadSpec ReaderProofs AggregateProofs P_Reader ColumnInfo CFrames FramesSpec.
Open Scope Z_scope.
Local Notation length := List.length.

Section M.
Variable md5 : list Z -> list Z.
Variable st : settings.

Lemma aggregate_agrees est file limit : forall fuel ts pos acc n,
  snd (aggregate_after md5 st est file fuel limit ts pos acc n) = (do q <- aggregate md5 st est file fuel limit ts pos acc n; Ok (snd (fst q), snd q)) /\
  forall q, aggregate md5 st est file fuel limit ts pos acc n = Ok q -> fst (aggregate_after md5 st est file fuel limit ts pos acc n) = fst (fst q).
Proof.
  induction fuel as [|fuel IH]; intros ts pos acc n; cbn [aggregate aggregate_after]; [split; [reflexivity|discriminate]|].
  destruct (iter_next md5 st est file ts pos) as [[ts' pos']| |]; cbn [bind]; [|split; [reflexivity|discriminate]|split; [reflexivity|discriminate]].
  destruct (pos' =? -1); [cbn [bind fst snd]; split; [reflexivity|intros q E; inversion E; reflexivity]|].
  destruct (iter_get ts' pos') as [t| |]; cbn [bind]; [|split; [reflexivity|discriminate]|split; [reflexivity|discriminate]]. cbv zeta.
  destruct ((0 <=? limit) && (limit <? n + rows_long t)); [cbn [bind fst snd]; split; [reflexivity|intros q E; inversion E; reflexivity]|].
  destruct (negb _); [cbn [bind fst snd]; split; [reflexivity|intros q E; inversion E; reflexivity]|]. apply IH.
Qed.

Lemma next_agrees est file fuel agg limit r :
  snd (next_after md5 st est file fuel agg limit r) = (do q <- next_frame md5 st est file fuel agg limit r; Ok (fst q)) /\
  forall q, next_frame md5 st est file fuel agg limit r = Ok q -> fst (next_after md5 st est file fuel agg limit r) = snd q.
Proof.
  unfold next_after, next_frame. destruct (r_pos r =? -1); [cbn [bind fst snd]; split; [reflexivity|intros q E; inversion E; reflexivity]|].
  destruct (if r_first r then Ok (r_tables r, r_pos r) else iter_next md5 st est file (r_tables r) (r_pos r)) as [[ts pos]| |]; cbn [bind]; [|split; [reflexivity|discriminate]|split; [reflexivity|discriminate]].
  destruct (pos =? -1); [cbn [bind fst snd]; split; [reflexivity|intros q E; inversion E; reflexivity]|].
  destruct (iter_get ts pos) as [t| |]; cbn [bind]; [|split; [reflexivity|discriminate]|split; [reflexivity|discriminate]].
  destruct agg.
  - destruct (aggregate_agrees est file limit fuel ts pos [t] (rows_long t)) as [A1 A2].
    destruct (aggregate_after md5 st est file fuel limit ts pos [t] (rows_long t)) as [[ts' pos'] res]. cbn [fst snd] in *.
    destruct (aggregate md5 st est file fuel limit ts pos [t] (rows_long t)) as [[[[ts2 pos2] acc] n]| |]; cbn [bind fst snd] in *; rewrite A1; cbn [bind].
    + specialize (A2 _ eq_refl). cbn [fst] in A2. inversion A2; subst ts' pos'. destruct ((limit <? 0) || (n <=? limit)); cbn [assert bind fst snd]; (split; [reflexivity|]); [|discriminate].
      intros q E. inversion E. reflexivity.
    + split; [reflexivity|discriminate].
    + split; [reflexivity|discriminate].
  - cbn [fst snd bind]. destruct ((limit <? 0) || (rows_long t <=? limit)); cbn [assert bind fst snd]; (split; [reflexivity|]); [|discriminate].
    intros q E. inversion E. reflexivity.
Qed.

(** ** The tables of a file *)

Record intact (file : list Z) (est : Z) (l : list (list Z * table)) : Prop := {
  in_good : good md5 st l; in_file : file = concat (map fst l); in_est : est = 0 \/ Z.of_nat (length file) <= est;
  in_rows : Forall (fun t => 0 <= t_rows t < 2 ^ 63) (place 0 l)
}.

Section F.
Variable file : list Z.
Variable est : Z.
Variable l : list (list Z * table).
Hypothesis I : intact file est l.

Lemma whole_file : file = concat (map fst l) ++ [].
Proof. rewrite app_nil_r. apply (in_file _ _ _ I). Qed.
Lemma est_ok : est = 0 \/ Z.of_nat (length (concat (map fst l))) <= est.
Proof. destruct I as [_ -> E _]. exact E. Qed.
Lemma no_more : ensure_table md5 st est (concat (map fst l) ++ []) (place 0 l) (Z.of_nat (length l)) = Ok (false, place 0 l).
Proof.
  rewrite app_nil_r. pose proof (ensure_prefix md5 st l est (in_good _ _ _ I) est_ok (length l) (length l) ltac:(lia)) as Q.
  rewrite firstn_all2 in Q by (rewrite place_length; lia). rewrite Q, !Nat.ltb_irrefl. reflexivity.
Qed.

(** the reader has delivered the first [s] tables *)
Definition reached (s : nat) (r : reader_state) : Prop := at_ l None s r.

Lemma opens : exists r, open_reader md5 st est file = Ok r /\ reached 0 r.
Proof.
  rewrite whole_file. destruct (open_ok md5 st l est (in_good _ _ _ I) est_ok [] None no_more) as [(? & ? & _)|Q]; [discriminate|exact Q].
Qed.

Lemma delivers agg limit r s : reached s r -> (s <= length l)%nat -> let left := skipn s (place 0 l) in
  let n := next_after md5 st est file (S (S (length file))) agg limit r in
  (left = [] /\ snd n = Ok None /\ reached s (fst n)) \/
  (exists fr e, (s < e <= length l)%nat /\ taken agg limit left fr (skipn e (place 0 l)) /\ snd n = Ok (Some fr) /\ reached e (fst n)) \/
  (exists t left', left = t :: left' /\ 0 <= limit < t_rows t /\ snd n = Throw AssertFailed /\ left' = skipn (S s) (place 0 l) /\ reached (S s) (fst n)).
Proof.
  intros A Hs left n. pose proof (in_good _ _ _ I) as G. pose proof (in_rows _ _ _ I) as Hr.
  assert (Fu : (length l <= S (S (length file)))%nat).
  { rewrite whole_file. pose proof (N_file md5 st l G []). lia. }
  destruct (next_agrees est file (S (S (length file))) agg limit r) as [N1 N2]. fold n in N1, N2.
  destruct (nth_error (place 0 l) s) as [a|] eqn:Ea.
  2:{ left. assert (s = length l) as -> by (apply nth_error_None in Ea; rewrite place_length in Ea; lia). split; [unfold left; apply skipn_all2; rewrite place_length; lia|].
      pose proof (next_end md5 st l est G est_ok [] None no_more (S (S (length file))) agg limit r A) as E. rewrite <- whole_file in E.
      destruct E as (r' & E). rewrite E in N1, N2. cbn [bind fst] in N1. split; [exact N1|]. rewrite (N2 _ eq_refl). cbn [snd].
      unfold next_frame in E. destruct A as [(P & Q1 & Q2)|(j & T & Hj & C)].
      - rewrite P, Z.eqb_refl in E. inversion E; subst r'. left. auto.
      - destruct C as [(F & S0 & P & J)|(F & S0 & P & J)]; [lia|]. rewrite P, F, T in E.
        rewrite (proj2 (Z.eqb_neq _ _)) in E by lia. rewrite whole_file in E. rewrite (iter_next_ok md5 st l est G est_ok [] None no_more) in E by lia.
        rewrite (proj2 (Nat.ltb_ge _ _)) in E by lia. rewrite (proj2 (Nat.ltb_ge _ _)) in E by lia. cbn [bind] in E. rewrite Z.eqb_refl in E. inversion E; subst r'. left. auto. }
  right. destruct (next_ok md5 st l est G est_ok [] None no_more Hr (S (S (length file))) agg limit r s a Fu A Ea) as [(? & ? & _)|(e & He & Hc & Hsg & Hl & Hm & Hx)]; [discriminate|].
  rewrite <- whole_file in Hx.
  assert (Sp : left = seg l s e ++ skipn e (place 0 l)) by (unfold left; rewrite seg_skipn by lia; reflexivity).
  assert (Sh : exists tl0, seg l s e = a :: tl0).
  { unfold seg. replace (e - s)%nat with (S (e - S s)) by lia. clear -Ea. revert s Ea. generalize (place 0 l) as ts. induction ts as [|x ts IH]; intros [|s] E; try discriminate; cbn [nth_error skipn] in *; [inversion E; subst; cbn [firstn]; eauto|].
    destruct (IH s E) as (q & Q). replace (e - S s)%nat with (e - S s)%nat in * by reflexivity. destruct (skipn s ts) as [|y ys]; cbn [firstn] in *; [discriminate|]. inversion Q; subst. eauto. }
  destruct Sh as (tl0 & Sh).
  destruct ((limit <? 0) || (rows_in (seg l s e) <=? limit)) eqn:Lim.
  - left. destruct Hx as (r' & E & A'). rewrite E in N1, N2. cbn [bind fst] in N1. exists (seg l s e), e. split; [lia|]. split; [|split; [exact N1|rewrite (N2 _ eq_refl); exact A']].
    constructor.
    + exact Sp.
    + rewrite Sh. discriminate.
    + intros Ag. rewrite (Hsg Ag). unfold seg. replace (S s - s)%nat with 1%nat by lia. rewrite firstn_length, skipn_length, place_length. lia.
    + intros a' l' t Q Ht. rewrite Sh in Q. inversion Q; subst a' l'. apply Hc. rewrite Sh. exact Ht.
    + intros L0. apply orb_prop in Lim as [L1|L1]; [lia|]. lia.
    + intros Ag a' l' t rest Q Q2. rewrite Sh in Q. inversion Q; subst a' l'. apply (Hm Ag).
      clear -Q2. revert Q2. generalize (place 0 l) as ts. revert e. induction e as [|e IH]; intros [|x ts] Q; try discriminate; cbn [skipn nth_error] in *; [congruence|now apply IH].
  - right. apply orb_false_elim in Lim as [L1 L2]. assert (L0 : 0 <= limit) by lia. assert (e = S s) as ->. { destruct (Nat.eq_dec e (S s)) as [|Ne]; [assumption|]. specialize (Hl L0 ltac:(lia)). lia. }
    rewrite Hx in N1. cbn [bind] in N1. exists a, (skipn (S s) (place 0 l)).
    assert (Sg : seg l s (S s) = [a]).
    { assert (Q : (length (seg l s (S s)) <= 1)%nat) by (unfold seg; rewrite firstn_length; lia). rewrite Sh in *. destruct tl0; [reflexivity|cbn in Q; lia]. }
    split; [unfold left in Sp |- *; rewrite Sp, Sg; reflexivity|]. split; [rewrite Sg in L2; cbn [rows_in fold_right] in L2; lia|]. split; [exact N1|]. split; [reflexivity|].
    (* the state *)
    assert (S1 : exists j, (s < j <= length l)%nat /\ r_pos r <> -1 /\
      (if r_first r then Ok (r_tables r, r_pos r) else iter_next md5 st est file (r_tables r) (r_pos r)) = Ok (firstn j (place 0 l), Z.of_nat s)).
    { rewrite whole_file. destruct A as [(P & Q & _)|(j & T & Hj & [(F & Q & P & J)|(F & S0 & P & J)])]; [lia| |].
      - exists j. subst s. rewrite F, T, P. split; [lia|]. split; [lia|reflexivity].
      - rewrite F, T, P, (iter_next_ok md5 st l est G est_ok [] None no_more) by lia. destruct (Nat.ltb_spec (S (s - 1)) j) as [Q|Q].
        + exists j. split; [lia|]. split; [lia|]. do 3 f_equal. lia.
        + destruct (Nat.ltb_spec j (length l)); [|lia]. exists (S j). split; [lia|]. split; [lia|]. do 3 f_equal. lia. }
    destruct S1 as (j & Hj & Np & E1).
    unfold n, next_after. rewrite (proj2 (Z.eqb_neq _ _) Np), E1.
    rewrite (proj2 (Z.eqb_neq _ _)) by lia. rewrite (iter_get_ok l j s a) by (assumption || lia).
    assert (K : forall j' p', (p' < j')%nat -> (j' <= length l)%nat -> p' = s -> reached (S s) {| r_tables := firstn j' (place 0 l); r_pos := Z.of_nat p'; r_first := false |}).
    { intros j' p' K1 K2 ->. right. exists j'. cbn [r_tables r_pos r_first]. split; [reflexivity|]. split; [lia|]. right. split; [reflexivity|]. split; [lia|]. split; [f_equal; lia|lia]. }
    destruct agg; [|cbn [fst]; apply K; lia].
    destruct (aggregate_ok md5 st l est G est_ok [] None no_more Hr limit a s (S (S (length file))) j s [a] (t_rows a)) as [(ex & Q1 & _)|(j2 & p2 & Q1 & Q2 & Q3 & Q4 & Q5 & Q6)]; try assumption; try lia.
    + now rewrite Sg.
    + cbn. lia.
    + cbn. tauto.
    + discriminate.
    + rewrite <- whole_file in Q5. rewrite rows_long_ok with (l := l) by (try assumption; eapply nth_error_In; eassumption).
      destruct (aggregate_agrees est file limit (S (S (length file))) (firstn j (place 0 l)) (Z.of_nat s) [a] (t_rows a)) as [_ A2]. specialize (A2 _ Q5). cbn [fst] in A2.
      destruct (aggregate_after md5 st est file (S (S (length file))) limit (firstn j (place 0 l)) (Z.of_nat s) [a] (t_rows a)) as [[ts' pos'] res]. cbn [fst] in A2 |- *. inversion A2; subst ts' pos'.
      apply K; [lia|lia|]. destruct (Nat.eq_dec p2 s) as [|Ne]; [assumption|]. exfalso. specialize (Q4 L0 ltac:(lia)).
      assert (M : rows_in (seg l s (S s)) <= rows_in (seg l s (S p2))).
      { assert (X : seg l s (S p2) = seg l s (S s) ++ seg l (S s) (S p2)).
        { assert (Y : seg l s (S p2) ++ skipn (S p2) (place 0 l) = (seg l s (S s) ++ seg l (S s) (S p2)) ++ skipn (S p2) (place 0 l)).
          { rewrite <- app_assoc, !seg_skipn by lia. reflexivity. }
          eapply app_inv_tail; exact Y. }
        rewrite X, (rows_in_app l). enough (0 <= rows_in (seg l (S s) (S p2))) by lia.
        assert (Y : Forall (fun t => 0 <= t_rows t) (seg l (S s) (S p2))).
        { apply Forall_forall. intros t Ht. rewrite Forall_forall in Hr. apply Hr. unfold seg in Ht. rewrite <- (firstn_skipn (S s) (place 0 l)). apply in_or_app. right. rewrite <- (firstn_skipn (S p2 - S s) (skipn (S s) (place 0 l))). apply in_or_app. left. exact Ht. }
        clear -Y. unfold rows_in. induction Y as [|t ts Y1 Y2 IH]; cbn [fold_right]; lia. }
      lia.
Qed.

End F.
End M.
