(** Table::columnLookup and the search of requested names. *)
From Verif Require Import Spec Base Fp FpProofs Stream StreamProofs StreamLocal Codec Meta Header Table TableProofs.

Definition names_of (cs : list column) : list (list Z) := map col_name cs.

Lemma first_pos_app {A} (f : A -> bool) a b : first_pos f (a ++ b) =
  match first_pos f a with Some i => Some i | None => option_map (fun i => (length a + i)%nat) (first_pos f b) end.
Proof.
  induction a as [|x a IH]; cbn.
  - destruct (first_pos f b); reflexivity.
  - destruct (f x); [reflexivity|]. rewrite IH. destruct (first_pos f a); [reflexivity|]. destruct (first_pos f b); reflexivity.
Qed.

Lemma first_pos_some {A} (f : A -> bool) l i : first_pos f l = Some i ->
  exists x, nth_error l i = Some x /\ f x = true /\ forall j y, (j < i)%nat -> nth_error l j = Some y -> f y = false.
Proof.
  revert i; induction l as [|x l IH]; intros i; cbn; [discriminate|].
  destruct (f x) eqn:E.
  - intros [= <-]. exists x. repeat split; auto. intros j y H. lia.
  - destruct (first_pos f l) as [k|]; [|discriminate]. cbn. intros [= <-].
    destruct (IH k eq_refl) as (y & A1 & A2 & A3). exists y. repeat split; auto.
    intros [|j] z Hj Hz; cbn in Hz; [congruence|]. eapply A3; [|exact Hz]. lia.
Qed.

Lemma first_pos_none {A} (f : A -> bool) l : first_pos f l = None <-> forall x, In x l -> f x = false.
Proof.
  induction l as [|x l IH]; cbn; [tauto|]. destruct (f x) eqn:E.
  - split; [discriminate|]. intros H. specialize (H x (or_introl eq_refl)). congruence.
  - destruct (first_pos f l); cbn; split; intros H; try discriminate.
    + assert (Some n = None); [|discriminate]. apply IH. intros y Hy. apply H. now right.
    + intros y [<-|Hy]; [assumption|]. now apply IH.
    + reflexivity.
Qed.

(** invariant of the loop after the columns called [done] *)
Definition lk_inv (done : list (list Z)) (full simple : smap Z) : Prop :=
  msorted full /\ msorted simple /\
  (forall nm, mget full nm = option_map Z.of_nat (first_pos (bytes_eqb nm) done)) /\
  (forall nm, mget simple nm = option_map Z.of_nat (first_pos (fun f => bytes_eqb nm (before_at f)) done)).

Lemma bytes_eqb_true a b : bytes_eqb a b = true -> a = b.
Proof. apply bytes_eqb_eq. Qed.

Lemma lookup_loop_ok : forall cs done full simple,
  lk_inv done full simple ->
  (NoDup (done ++ names_of cs) -> exists full' simple',
     lookup_loop cs (Z.of_nat (length done)) full simple = Ok (full', simple') /\
     lk_inv (done ++ names_of cs) full' simple') /\
  (NoDup done -> ~ NoDup (done ++ names_of cs) -> lookup_loop cs (Z.of_nat (length done)) full simple = Throw DecodeError).
Proof.
  induction cs as [|c cs IH]; intros done full simple HI.
  - cbn. rewrite app_nil_r. split; [eauto|]. tauto.
  - pose proof HI as (S1 & S2 & F & G). cbn [lookup_loop names_of map].
    rewrite F. set (nm := col_name c).
    assert (Assoc : done ++ nm :: map col_name cs = (done ++ [nm]) ++ names_of cs) by (rewrite <- app_assoc; reflexivity).
    rewrite Assoc.
    destruct (first_pos (bytes_eqb nm) done) as [i|] eqn:E; cbn [option_map].
    + assert (Hin : In nm done).
      { apply first_pos_some in E. destruct E as (x & A1 & A2 & _). apply bytes_eqb_true in A2. subst x. eapply nth_error_In; eassumption. }
      split; [|auto]. intros N. exfalso. rewrite <- Assoc in N. apply NoDup_remove_2 in N. apply N, in_or_app. now left.
    + assert (Hnin : ~ In nm done).
      { intros Hin. rewrite first_pos_none in E. specialize (E nm Hin). now rewrite bytes_eqb_refl in E. }
      assert (HI' : lk_inv (done ++ [nm]) (memplace full nm (Z.of_nat (length done)))
                      (memplace simple (before_at nm) (Z.of_nat (length done)))).
      { split; [now apply memplace_sorted|]. split; [now apply memplace_sorted|]. split; intros q.
        - rewrite mget_memplace by assumption. rewrite first_pos_app. cbn [first_pos].
          destruct (bytes_eqb q nm) eqn:Q.
          + apply bytes_eqb_true in Q; subst q. rewrite F, E. cbn. f_equal. lia.
          + rewrite F. destruct (first_pos (bytes_eqb q) done); reflexivity.
        - rewrite mget_memplace by assumption. rewrite first_pos_app. cbn [first_pos].
          destruct (bytes_eqb q (before_at nm)) eqn:Q.
          + apply bytes_eqb_true in Q; subst q. rewrite G. destruct (first_pos (fun f => bytes_eqb (before_at nm) (before_at f)) done); cbn [option_map]; [reflexivity|]. f_equal. lia.
          + rewrite G. destruct (first_pos (fun f => bytes_eqb q (before_at f)) done); reflexivity. }
      replace (Z.of_nat (length done) + 1) with (Z.of_nat (length (done ++ [nm]))) by (rewrite app_length; cbn; lia).
      destruct (IH (done ++ [nm]) _ _ HI') as [A B]. split; [exact A|].
      intros Nd N. apply B; [|exact N].
      rewrite <- (rev_involutive (done ++ [nm])). apply NoDup_rev. rewrite rev_app_distr. cbn.
      constructor; [rewrite <- in_rev; assumption|apply NoDup_rev; assumption].
Qed.

Lemma lk_inv_nil : lk_inv [] [] [].
Proof. repeat split. Qed.

Theorem column_lookup_ok cs : NoDup (names_of cs) -> exists full simple,
  column_lookup cs = Ok (full, simple) /\
  forall nm, lookup_name full simple nm =
    match select (names_of cs) nm with Some i => Ok (Z.of_nat i) | None => Throw DecodeError end.
Proof.
  intros N. destruct (lookup_loop_ok cs [] [] [] lk_inv_nil) as [A _].
  destruct (A N) as (full & simple & E & (_ & _ & F & G)). exists full, simple. split; [exact E|].
  intros nm. unfold lookup_name, select. cbn [app] in F, G. rewrite F, G.
  destruct (first_pos (bytes_eqb nm) (names_of cs)); cbn; [reflexivity|].
  destruct (first_pos _ (names_of cs)); reflexivity.
Qed.

Theorem column_lookup_dup cs : ~ NoDup (names_of cs) -> column_lookup cs = Throw DecodeError.
Proof.
  intros N. destruct (lookup_loop_ok cs [] [] [] lk_inv_nil) as [_ B]. apply B; [constructor|exact N].
Qed.

Lemma select_lt names nm i : select names nm = Some i -> (i < length names)%nat.
Proof.
  unfold select. intros H. apply nth_error_Some.
  destruct (first_pos (bytes_eqb nm) names) eqn:E.
  - inversion H; subst. apply first_pos_some in E. destruct E as (x & E & _). congruence.
  - apply first_pos_some in H. destruct H as (x & H & _). congruence.
Qed.

(** a full name selects its column *)
Lemma select_full names i nm : NoDup names -> nth_error names i = Some nm -> select names nm = Some i.
Proof.
  intros N H. unfold select. destruct (first_pos (bytes_eqb nm) names) as [j|] eqn:E.
  - apply first_pos_some in E. destruct E as (x & E & Q & _). apply bytes_eqb_true in Q. subst x. f_equal.
    eapply NoDup_nth_error; [exact N|apply nth_error_Some; congruence|congruence].
  - rewrite first_pos_none in E. specialize (E nm (nth_error_In _ _ H)). now rewrite bytes_eqb_refl in E.
Qed.

(** ** Attaching fails on unknown and on repeated names *)

Lemma attach_unknown full simple nrows nm rest_n f rest_f cols :
  lookup_name full simple nm = Throw DecodeError ->
  attach full simple nrows (nm :: rest_n) (f :: rest_f) cols = Throw DecodeError.
Proof. intros H. cbn [attach]. rewrite H. reflexivity. Qed.
