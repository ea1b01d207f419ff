(** The api Reader on a concatenation of frames. *)
From Verif Require Import Base Fp Stream StreamProofs StreamLocal Codec Meta Header Table Reader ReadSpec ReaderProofs.

Section A.
Variable md5 : list Z -> list Z.
Variable st : settings.
Variable l : list (list Z * table).
Variable est : Z.
Local Notation len l := (Z.of_nat (length l)).
Hypothesis G : good md5 st l.
Hypothesis He : est = 0 \/ len (concat (map fst l)) <= est.
(** What follows the frames, and how reading it ends: no table, or an error. *)
Variable rest : list Z.
Variable fin : option exn.
Let file := concat (map fst l) ++ rest.
Let TS := place 0 l.
Let N := length l.
Hypothesis Hend : ensure_table md5 st est file TS (Z.of_nat N) =
  match fin with None => Ok (false, TS) | Some e => Throw e end.
Hypothesis Hr : Forall (fun t => 0 <= t_rows t < 2 ^ 63) TS.

Definition seg (s p : nat) : list table := firstn (p - s) (skipn s TS).

Lemma TS_length : length TS = N.
Proof. apply place_length. Qed.

Lemma seg_snoc s p t : (s <= p)%nat -> nth_error TS p = Some t -> seg s p ++ [t] = seg s (S p).
Proof.
  intros H E. unfold seg. replace (S p - s)%nat with (S (p - s)) by lia. apply firstn_snoc.
  clear -H E. revert s p H E. generalize TS as ts. induction ts as [|x ts IH]; intros [|s] [|p] H E; try discriminate; cbn in *; try lia; auto.
  apply IH; [lia|assumption].
Qed.

Lemma rows_in_app a b : rows_in (a ++ b) = rows_in a + rows_in b.
Proof. unfold rows_in. induction a as [|x a IH]; cbn [app fold_right]; [reflexivity|]. rewrite IH. lia. Qed.

Lemma rows_long_ok t : In t TS -> rows_long t = t_rows t.
Proof using Hr. intros H. rewrite Forall_forall in Hr. unfold rows_long, signed. specialize (Hr t H). destruct (Z.ltb_spec (t_rows t) (2 ^ (64 - 1))) as [|Q]; [reflexivity|]. change (64 - 1) with 63 in Q. lia. Qed.

Lemma iter_next_ok j p : (p < j <= N)%nat ->
  iter_next md5 st est file (firstn j TS) (Z.of_nat p) =
    if (S p <? j)%nat then Ok (firstn j TS, Z.of_nat (S p))
    else if (j <? N)%nat then Ok (firstn (S j) TS, Z.of_nat (S p))
         else match fin with None => Ok (firstn j TS, -1) | Some e => Throw e end.
Proof using G He Hend.
  intros H. unfold iter_next. replace (Z.of_nat p + 1) with (Z.of_nat (S p)) by lia.
  destruct (Nat.ltb_spec j N) as [J|J].
  { unfold file. rewrite (ensure_more md5 st l est G He) by (unfold N in *; lia). fold TS.
    destruct (S p <? j)%nat; reflexivity. }
  assert (j = N) by lia. subst j. rewrite firstn_all2 by (rewrite TS_length; lia).
  destruct (Nat.ltb_spec (S p) N) as [P|P].
  - unfold ensure_table. rewrite TS_length.
    destruct (Z.leb_spec 0 (Z.of_nat (S p))); [|lia]. destruct (Z.leb_spec (Z.of_nat (S p)) (Z.of_nat N)); [|lia]. cbn [assert bind].
    destruct (Z.eqb_spec (Z.of_nat (S p)) (Z.of_nat N)); [lia|]. reflexivity.
  - replace (S p) with N by lia. rewrite Hend. destruct fin; reflexivity.
Qed.

Lemma nth_firstn {A} (ts : list A) j p : (p < j)%nat -> nth_error (firstn j ts) p = nth_error ts p.
Proof.
  revert ts p. induction j as [|j IH]; intros ts p H; [lia|]. destruct ts as [|x ts], p as [|p]; cbn; auto. apply IH. lia.
Qed.

Lemma iter_get_ok j p t : (p < j)%nat -> nth_error TS p = Some t -> iter_get (firstn j TS) (Z.of_nat p) = Ok t.
Proof.
  intros H E. unfold iter_get. destruct (Z.ltb_spec (Z.of_nat p) 0); [lia|]. rewrite Nat2Z.id, nth_firstn, E by assumption. reflexivity.
Qed.

Definition agg_result rowlimit a s p (x : outcome (list table * Z * list table * Z)) : Prop :=
  (exists e, fin = Some e /\ x = Throw e) \/
  exists j' p', (p <= p' < j')%nat /\ (j' <= N)%nat /\ (forall t, In t (tl (seg s (S p'))) -> joinable compatible a t) /\
    (0 <= rowlimit -> (s < p')%nat -> rows_in (seg s (S p')) <= rowlimit) /\
    x = Ok (firstn j' TS, Z.of_nat p', seg s (S p'), rows_in (seg s (S p'))) /\
    (forall t, nth_error TS (S p') = Some t ->
       ~ joinable compatible a t \/ 0 <= rowlimit < rows_in (seg s (S p')) + t_rows t).

(** What the loop of ReaderImpl::next does. *)
Lemma aggregate_ok rowlimit a s : forall fuel j p acc nrows,
  (s <= p < j)%nat -> (j <= N)%nat -> (N - p <= fuel)%nat ->
  nth_error TS s = Some a ->
  acc = seg s (S p) -> nrows = rows_in acc ->
  (forall t, In t (tl acc) -> joinable compatible a t) -> (0 <= rowlimit -> (s < p)%nat -> nrows <= rowlimit) ->
  agg_result rowlimit a s p (aggregate md5 st est file fuel rowlimit (firstn j TS) (Z.of_nat p) acc nrows).
Proof using G He Hr Hend.
  induction fuel as [|fuel IH]; intros j p acc nrows H1 H2 H3 Ha Eacc En Hc Hl; [lia|].
  assert (Hacc : match acc with x :: _ => t_cols x | [] => [] end = t_cols a).
  { subst acc. unfold seg. replace (S p - s)%nat with (S (p - s)) by lia.
    assert (Q : exists tl, skipn s TS = a :: tl).
    { clear -Ha. revert s Ha. generalize TS as ts. induction ts as [|x ts IH]; intros [|s] E; try discriminate; cbn in *; [inversion E; eauto|eauto]. }
    destruct Q as [tl ->]. reflexivity. }
  assert (Stop : forall j', (p < j' <= N)%nat -> (forall t, nth_error TS (S p) = Some t ->
       ~ joinable compatible a t \/ 0 <= rowlimit < rows_in (seg s (S p)) + t_rows t) ->
     forall x, x = Ok (firstn j' TS, Z.of_nat p, acc, nrows) ->
     agg_result rowlimit a s p x).
  { intros j' Hj Hs x ->. right. exists j', p. subst acc nrows. split; [lia|]. split; [lia|]. split; [assumption|]. split; [assumption|].
    split; [reflexivity|assumption]. }
  cbn [aggregate]. rewrite iter_next_ok by lia.
  assert (Go : forall j', (S p < j' <= N)%nat -> forall x,
    x = (do t <- iter_get (firstn j' TS) (Z.of_nat (S p));
         let next_rows := nrows + rows_long t in
         if (0 <=? rowlimit) && (rowlimit <? next_rows) then Ok (firstn j' TS, Z.of_nat p, acc, nrows)
         else if negb (compatible (match acc with a :: _ => t_cols a | [] => [] end) (t_cols t))
              then Ok (firstn j' TS, Z.of_nat p, acc, nrows)
              else aggregate md5 st est file fuel rowlimit (firstn j' TS) (Z.of_nat (S p)) (acc ++ [t]) next_rows) ->
    agg_result rowlimit a s p x).
  { intros j' Hj x Hx. destruct (nth_error TS (S p)) as [t|] eqn:Et; [|apply nth_error_None in Et; rewrite TS_length in Et; lia].
    rewrite (iter_get_ok j' (S p) t) in Hx by (assumption || lia). cbn [bind] in Hx. cbv zeta in Hx.
    rewrite rows_long_ok in Hx by (eapply nth_error_In; eassumption). rewrite Hacc in Hx.
    destruct (Z.leb_spec 0 rowlimit) as [R0|R0]; [destruct (Z.ltb_spec rowlimit (nrows + t_rows t)) as [R1|R1]|]; cbn [andb] in Hx.
    - apply (Stop j'); [lia| |exact Hx]. intros t' E'. inversion E'; subst t'. right. subst nrows acc. lia.
    - destruct (compatible (t_cols a) (t_cols t)) eqn:C; cbn [negb] in Hx.
      + destruct (IH j' (S p) (acc ++ [t]) (nrows + t_rows t)) as [(ex & Q1 & Q2)|(j2 & p2 & Q1 & Q2 & Q3 & Q4 & Q5 & Q6)]; try assumption; try lia.
        * subst acc. apply seg_snoc; [lia|assumption].
        * subst nrows. rewrite rows_in_app. cbn. lia.
        * intros t' Ht'. destruct acc as [|x0 acc']; [cbn in Ht'; contradiction|]. cbn [tl app] in *.
          apply in_app_iff in Ht' as [Ht'|[<-|[]]]; [now apply Hc|exact C].
        * left. exists ex. split; [assumption|now rewrite Hx].
        * right. exists j2, p2. split; [lia|]. split; [lia|]. split; [assumption|]. split; [assumption|]. split; [now rewrite Hx|assumption].
      + apply (Stop j'); [lia| |exact Hx]. intros t' E'. inversion E'; subst t'. left. unfold joinable. congruence.
    - destruct (compatible (t_cols a) (t_cols t)) eqn:C; cbn [negb] in Hx.
      + destruct (IH j' (S p) (acc ++ [t]) (nrows + t_rows t)) as [(ex & Q1 & Q2)|(j2 & p2 & Q1 & Q2 & Q3 & Q4 & Q5 & Q6)]; try assumption; try lia.
        * subst acc. apply seg_snoc; [lia|assumption].
        * subst nrows. rewrite rows_in_app. cbn. lia.
        * intros t' Ht'. destruct acc as [|x0 acc']; [cbn in Ht'; contradiction|]. cbn [tl app] in *.
          apply in_app_iff in Ht' as [Ht'|[<-|[]]]; [now apply Hc|exact C].
        * left. exists ex. split; [assumption|now rewrite Hx].
        * right. exists j2, p2. split; [lia|]. split; [lia|]. split; [assumption|]. split; [assumption|]. split; [now rewrite Hx|assumption].
      + apply (Stop j'); [lia| |exact Hx]. intros t' E'. inversion E'; subst t'. left. unfold joinable. congruence. }
  destruct (Nat.ltb_spec (S p) j) as [J|J].
  - cbn [bind]. destruct (Z.eqb_spec (Z.of_nat (S p)) (-1)); [lia|]. apply (Go j); [lia|reflexivity].
  - destruct (Nat.ltb_spec j N) as [J2|J2]; cbn [bind].
    + destruct (Z.eqb_spec (Z.of_nat (S p)) (-1)); [lia|]. apply (Go (S j)); [lia|reflexivity].
    + destruct fin as [ex|] eqn:Efin; [left; exists ex; split; [assumption|reflexivity]|]. cbn [bind].
      rewrite Z.eqb_refl. apply (Stop j); [lia| |reflexivity]. intros t Et.
      assert (X : nth_error TS (S p) <> None) by congruence. apply nth_error_Some in X. rewrite TS_length in X. lia.
Qed.

(** The reader has delivered the tables before [s]; it is at the end, or positioned on
    the last table delivered (or on the first one, before the first call). *)
Definition at_ (s : nat) (r : reader_state) : Prop :=
  (r_pos r = -1 /\ s = N /\ fin = None) \/
  exists j, r_tables r = firstn j TS /\ (j <= N)%nat /\
    ((r_first r = true /\ s = 0%nat /\ r_pos r = 0 /\ (0 < j)%nat) \/
     (r_first r = false /\ (0 < s)%nat /\ r_pos r = Z.of_nat (s - 1) /\ (s - 1 < j)%nat)).

Lemma open_ok : (exists e, fin = Some e /\ N = 0%nat /\ open_reader md5 st est file = Throw e) \/
  exists r, open_reader md5 st est file = Ok r /\ at_ 0 r.
Proof using G He Hend.
  unfold open_reader. destruct (Nat.eq_dec N 0) as [Z0|NZ].
  - assert (ET : TS = []) by (apply length_zero_iff_nil; rewrite TS_length; assumption).
    rewrite Z0, ET in Hend. change (Z.of_nat 0) with 0 in Hend. rewrite Hend. destruct fin as [e|] eqn:Ef; cbn [bind].
    + left. exists e. auto.
    + right. eexists. split; [reflexivity|]. left. split; [reflexivity|]. now split.
  - right. change (@nil table) with (firstn 0 TS) at 1. change 0 with (Z.of_nat 0) at 1.
    unfold file. rewrite (ensure_more md5 st l est G He) by (unfold N in NZ; lia). fold TS. rewrite Nat.ltb_irrefl. cbn [bind].
    eexists; (split; [reflexivity|]). right. exists 1%nat. split; [reflexivity|]. split; [lia|]. left. repeat split; auto.
Qed.

Definition fuel_ok (fuel : nat) : Prop := (N <= fuel)%nat.

Lemma next_end fuel agg limit r : at_ N r ->
  match fin with
  | Some e => next_frame md5 st est file fuel agg limit r = Throw e
  | None => exists r', next_frame md5 st est file fuel agg limit r = Ok (None, r')
  end.
Proof using G He Hend.
  intros [(P & _ & Ef)|(j & T & Hj & C)]; unfold next_frame.
  - rewrite P, Ef, Z.eqb_refl. eauto.
  - destruct C as [(F & S0 & P & J)|(F & S0 & P & J)].
    + lia.
    + rewrite P, F, T. destruct (Z.eqb_spec (Z.of_nat (N - 1)) (-1)); [lia|].
      rewrite iter_next_ok by lia. rewrite (proj2 (Nat.ltb_ge _ _)) by lia. rewrite (proj2 (Nat.ltb_ge _ _)) by lia.
      destruct fin; cbn [bind]; [reflexivity|]. rewrite Z.eqb_refl. eauto.
Qed.

Lemma next_ok fuel agg limit r s a : fuel_ok fuel -> at_ s r -> nth_error TS s = Some a ->
  (exists ex, fin = Some ex /\ agg = true /\ next_frame md5 st est file fuel agg limit r = Throw ex) \/
  exists e, (s < e <= N)%nat /\
    (forall t, In t (tl (seg s e)) -> joinable compatible a t) /\
    (agg = false -> e = S s) /\
    (0 <= limit -> (S s < e)%nat -> rows_in (seg s e) <= limit) /\
    (agg = true -> forall t, nth_error TS e = Some t -> ~ joinable compatible a t \/ 0 <= limit < rows_in (seg s e) + t_rows t) /\
    if (limit <? 0) || (rows_in (seg s e) <=? limit)
    then exists r', next_frame md5 st est file fuel agg limit r = Ok (Some (seg s e), r') /\ at_ e r'
    else next_frame md5 st est file fuel agg limit r = Throw AssertFailed.
Proof using G He Hr Hend.
  intros Hf A Ea. assert (Hs : (s < N)%nat).
  { assert (X : nth_error TS s <> None) by congruence. apply nth_error_Some in X. now rewrite TS_length in X. }
  assert (S1 : exists j, (s < j <= N)%nat /\ r_pos r <> -1 /\
    (if r_first r then Ok (r_tables r, r_pos r) else iter_next md5 st est file (r_tables r) (r_pos r)) = Ok (firstn j TS, Z.of_nat s)).
  { destruct A as [(P & -> & _)|(j & T & Hj & [(F & -> & P & J)|(F & S0 & P & J)])]; [lia| |].
    - exists j. rewrite F, T, P. split; [lia|]. split; [lia|reflexivity].
    - rewrite F, T, P, iter_next_ok by lia. destruct (Nat.ltb_spec (S (s - 1)) j) as [Q|Q].
      + exists j. split; [lia|]. split; [lia|]. do 3 f_equal. lia.
      + destruct (Nat.ltb_spec j N); [|lia]. exists (S j). split; [lia|]. split; [lia|]. do 3 f_equal. lia. }
  destruct S1 as (j & Hj & Np & E1).
  assert (Sg : seg s (S s) = [a]).
  { unfold seg. replace (S s - s)%nat with 1%nat by lia. clear -Ea. revert s Ea. generalize TS as ts.
    induction ts as [|x ts IH]; intros [|s] E; try discriminate; cbn in *; [now inversion E|now apply IH]. }
  unfold next_frame. rewrite (proj2 (Z.eqb_neq _ _) Np), E1. cbn [bind].
  destruct (Z.eqb_spec (Z.of_nat s) (-1)); [lia|]. rewrite (iter_get_ok j s a) by (assumption || lia). cbn [bind].
  rewrite (rows_long_ok a) by (eapply nth_error_In; eassumption).
  assert (X : (exists ex, fin = Some ex /\ agg = true /\
     (if agg then aggregate md5 st est file fuel limit (firstn j TS) (Z.of_nat s) [a] (t_rows a)
      else Ok (firstn j TS, Z.of_nat s, [a], t_rows a)) = Throw ex) \/
     exists j' p', (s <= p' < j')%nat /\ (j' <= N)%nat /\ (agg = false -> p' = s) /\
     (forall t, In t (tl (seg s (S p'))) -> joinable compatible a t) /\
     (0 <= limit -> (s < p')%nat -> rows_in (seg s (S p')) <= limit) /\
     (if agg then aggregate md5 st est file fuel limit (firstn j TS) (Z.of_nat s) [a] (t_rows a)
      else Ok (firstn j TS, Z.of_nat s, [a], t_rows a)) = Ok (firstn j' TS, Z.of_nat p', seg s (S p'), rows_in (seg s (S p'))) /\
     (agg = true -> forall t, nth_error TS (S p') = Some t ->
         ~ joinable compatible a t \/ 0 <= limit < rows_in (seg s (S p')) + t_rows t)).
  { destruct agg.
    - destruct (aggregate_ok limit a s fuel j s [a] (t_rows a)) as [(ex & Q1 & Q2)|(j2 & p2 & Q1 & Q2 & Q3 & Q4 & Q5 & Q6)]; try assumption; try lia.
      + unfold fuel_ok in Hf. lia.
      + now rewrite Sg.
      + cbn. lia.
      + cbn. tauto.
      + left. exists ex. auto.
      + right. exists j2, p2. split; [lia|]. split; [lia|]. split; [discriminate|]. split; [assumption|]. split; [assumption|]. split; [assumption|]. intros _. assumption.
    - right. exists j, s. split; [lia|]. split; [lia|]. split; [reflexivity|]. rewrite Sg. split; [cbn; tauto|]. split; [lia|].
      split; [unfold rows_in; cbn [fold_right]; rewrite Z.add_0_r; reflexivity|discriminate]. }
  destruct X as [(ex & Y1 & Y2 & Y3)|(j' & p' & X1 & X2 & X3 & X4 & X5 & X6 & X7)].
  { left. exists ex. split; [assumption|]. split; [assumption|]. rewrite Y3. reflexivity. }
  right. exists (S p'). split; [lia|]. split; [assumption|].
  split; [intros H; f_equal; auto|]. split; [intros; apply X5; lia|]. split; [assumption|].
  rewrite X6. cbn [bind fst snd].
  destruct ((limit <? 0) || (rows_in (seg s (S p')) <=? limit)); cbn [assert bind]; [|reflexivity].
  eexists. split; [reflexivity|]. right. exists j'. cbn [r_tables r_pos r_first]. split; [reflexivity|]. split; [lia|].
  right. split; [reflexivity|]. split; [lia|]. split; [f_equal; lia|lia].
Qed.

Lemma N_file : (N <= length file)%nat.
Proof using G.
  unfold N, file. rewrite app_length. enough (length l <= length (concat (map fst l)))%nat by lia. clear -G. unfold good in G. induction l as [|[f t] l' IH]; [cbn; lia|].
  inversion G as [|? ? F G']; subst. cbn [length map concat fst]. cbn [fst snd] in F. rewrite app_length.
  pose proof (frame_nonempty _ _ _ _ F). specialize (IH G'). lia.
Qed.

Lemma seg_skipn s e : (s <= e)%nat -> seg s e ++ skipn e TS = skipn s TS.
Proof.
  intros H. unfold seg. rewrite <- (firstn_skipn (e - s) (skipn s TS)) at 2. f_equal.
  clear -H. revert s e H. generalize TS as ts. induction ts as [|x ts IH]; intros [|s] [|e] H; cbn [skipn Nat.sub]; try lia; try reflexivity.
  - now rewrite skipn_nil.
  - apply IH. lia.
Qed.

(** All frames, from position [s] on. *)
Lemma read_frames_ok agg limit : forall fuel r s, (s <= N)%nat -> (N - s < fuel)%nat -> at_ s r ->
  exists frs left e, read_frames md5 st est file fuel agg limit r = (frs, e) /\
    grouping compatible agg limit (skipn s TS) frs left /\
    ((left = [] /\ fin = None /\ e = Clean) \/
     (exists ex, fin = Some ex /\ e = Failed ex /\ (agg = false -> left = [])) \/
     (e = Failed AssertFailed /\ 0 <= limit /\ exists t left', left = t :: left' /\ limit < t_rows t)).
Proof using G He Hr Hend.
  induction fuel as [|fuel IH]; intros r s Hs Hf A; [lia|]. cbn [read_frames].
  destruct (Nat.eq_dec s N) as [->|Ns].
  { assert (Gn : grouping compatible agg limit (skipn N TS) [] []).
    { rewrite skipn_all2 by (rewrite TS_length; lia).
      split; try (now constructor); try (intros; now constructor); try (cbn; contradiction); intros _ [|i]; discriminate. }
    pose proof (next_end (S (S (length file))) agg limit r A) as E. destruct fin as [ex|].
    - rewrite E. exists [], [], (Failed ex). split; [reflexivity|]. split; [exact Gn|]. right. left. eauto.
    - destruct E as (r' & ->). exists [], [], Clean. split; [reflexivity|]. split; [exact Gn|]. now left. }
  destruct (nth_error TS s) as [a|] eqn:Ea; [|apply nth_error_None in Ea; rewrite TS_length in Ea; lia].
  assert (FO : fuel_ok (S (S (length file)))) by (unfold fuel_ok; pose proof N_file; lia).
  destruct (next_ok (S (S (length file))) agg limit r s a FO A Ea) as [(ex & Y1 & Y2 & Y3)|(e & E1 & E2 & E3 & E4 & E5 & E6)].
  { rewrite Y3. exists [], (skipn s TS), (Failed ex). split; [reflexivity|]. split; [|right; left; exists ex; split; [assumption|split; [reflexivity|congruence]]].
    split; try reflexivity; try (now constructor); try (intros; now constructor); try (cbn; contradiction); intros _ [|i]; discriminate. }
  assert (Sh : exists tl0, seg s e = a :: tl0).
  { unfold seg. destruct (e - s)%nat as [|n] eqn:En; [lia|].
    assert (Q : exists tl, skipn s TS = a :: tl).
    { clear -Ea. revert s Ea. generalize TS as ts. induction ts as [|x ts IH]; intros [|s] E; try discriminate; cbn in *; [inversion E; eauto|eauto]. }
    destruct Q as [tl ->]. cbn. eauto. }
  destruct Sh as [tl0 Sh].
  destruct ((limit <? 0) || (rows_in (seg s e) <=? limit)) eqn:L.
  - destruct E6 as (r' & -> & A').
    destruct (IH r' e ltac:(lia) ltac:(lia) A') as (frs & left & en & R1 & [G1 G2 G3 G4 G5 G6] & R3). rewrite R1.
    exists (seg s e :: frs), left, en. split; [reflexivity|]. split; [|assumption].
    split.
    + cbn [concat]. rewrite <- app_assoc, G1. apply seg_skipn. lia.
    + constructor; [rewrite Sh; discriminate|assumption].
    + intros Ag. constructor; [|now apply G3]. rewrite (E3 Ag) in *. unfold seg. rewrite firstn_length, skipn_length, TS_length. lia.
    + intros a' l' t [H|H] Ht; [|eapply G4; eassumption]. rewrite Sh in H. inversion H; subst a' l'. apply E2. rewrite Sh. exact Ht.
    + intros L0. constructor; [|now apply G5]. apply orb_true_iff in L as [L|L]; [apply Z.ltb_lt in L; lia|now apply Z.leb_le in L].
    + intros Ag [|i] a' l' t Hi Ht; cbn [nth_error] in Hi.
      * cbn [skipn] in Ht. rewrite G1 in Ht. assert (Q : a' :: l' = seg s e) by congruence. rewrite Q. assert (a' = a) by congruence. subst a'.
        apply E5; [assumption|]. clear -Ht. revert e Ht. generalize TS as ts.
        induction ts as [|x ts IH]; intros [|e] E; try discriminate; cbn in *; auto.
      * exact (G6 Ag i a' l' t Hi Ht).
  - rewrite E6. exists [], (skipn s TS), (Failed AssertFailed). split; [reflexivity|].
    apply orb_false_iff in L as [L1 L2]. apply Z.ltb_ge in L1. apply Z.leb_gt in L2.
    split; [|right; right; split; [reflexivity|split; [assumption|]]].
    + split; try reflexivity; try (now constructor); try (intros; now constructor); try (cbn; contradiction); intros _ [|i]; discriminate.
    + assert (e = S s) as ->.
      { destruct (Nat.lt_ge_cases (S s) e) as [Q|Q]; [|lia]. specialize (E4 L1 Q). lia. }
      assert (Q : exists tl, skipn s TS = a :: tl).
      { clear -Ea. revert s Ea. generalize TS as ts. induction ts as [|x ts IH]; intros [|s] E; try discriminate; cbn in *; [inversion E; eauto|eauto]. }
      destruct Q as [tl1 Q]. exists a, tl1. split; [assumption|]. unfold seg in L2. rewrite Q in L2.
      replace (S s - s)%nat with 1%nat in L2 by lia. cbn in L2. lia.
Qed.
End A.
