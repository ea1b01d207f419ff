(** Decoding with other codecs that give the same cells where a target asks for them. *)
From Coq Require Import String ListDec.
From Verif Require Import Spec Base Fp Stream StreamProofs StreamLocal Codec Meta Header Table TableProofs LookupProofs.
Open Scope Z_scope.
Local Notation length := List.length.

(** Two computations agree: the same exception, or results in a relation. *)
Definition agree {A} (R : A -> A -> Prop) (x y : outcome A) : Prop :=
  match x, y with
  | Ok a, Ok b => R a b
  | Throw e, Throw e' => e = e'
  | UB, UB => True
  | _, _ => False
  end.

Lemma agree_bind {A B} (R : A -> A -> Prop) (Q : B -> B -> Prop) x y f g :
  agree R x y -> (forall a b, R a b -> agree Q (f a) (g b)) -> agree Q (bind x f) (bind y g).
Proof. destruct x, y; cbn; auto; contradiction. Qed.

Lemma agree_refl {A} (x : outcome A) : agree eq x x.
Proof. destruct x; cbn; auto. Qed.

(** The codecs skip the same bytes. *)
Definition same_skip (k k' : codec) : Prop := c_kind k' = c_kind k /\ c_dsd k' = c_dsd k.
(** The codecs decode the same cells. *)
Definition same_decode (k k' : codec) : Prop :=
  c_kind k' = c_kind k /\ c_dsd k' = c_dsd k /\ c_int64 k' = c_int64 k /\ c_ord k' = c_ord k /\ c_min k' = c_min k /\
  c_missing k' = c_missing k /\ c_strings k' = c_strings k.

Lemma skip_same k k' s : same_skip k k' -> skip k' s = skip k s.
Proof. intros [E1 E2]. unfold skip. now rewrite E1, E2. Qed.

Lemma decode_same k k' s : same_decode k k' -> decode k' s = decode k s.
Proof.
  intros (E1 & E2 & E3 & E4 & E5 & E6 & E7). unfold decode, dec_string. rewrite E1, E2, E3, E4, E5, E6, E7. reflexivity.
Qed.

Lemma missing_same k k' : same_decode k k' -> missing_value k' = missing_value k.
Proof. intros (E1 & E2 & E3 & E4 & E5 & E6 & E7). unfold missing_value. now rewrite E1, E3, E6. Qed.

Definition rel (d d' : dcol) : Prop :=
  d_fac d' = d_fac d /\ d_last d' = d_last d /\ same_skip (d_codec d) (d_codec d') /\
  (d_fac d <> None -> same_decode (d_codec d) (d_codec d')).

Lemma map_rel f g cs cs' : Forall2 rel cs cs' -> (forall d d', rel d d' -> agree rel (f d) (g d')) ->
  agree (Forall2 rel) (map_dcols f cs) (map_dcols g cs').
Proof.
  intros F H. induction F as [|d d' cs cs' Hd F IH]; cbn [map_dcols]; [cbn; constructor|].
  eapply agree_bind; [apply H, Hd|]. intros a b Rab. eapply agree_bind; [exact IH|]. intros l l' Rl. cbn. now constructor.
Qed.

Lemma fill_rel n d d' : rel d d' -> agree rel (fill_col n d) (fill_col n d').
Proof.
  intros (E1 & E2 & E3 & E4). unfold fill_col. rewrite E1, E2. destruct (d_fac d) as [f|] eqn:Ef.
  - eapply agree_bind; [apply agree_refl|]. intros a b <-. cbn. refine (conj eq_refl (conj _ (conj E3 _))); [first [exact E2|reflexivity]|]. intros _. apply E4. discriminate.
  - cbn. refine (conj _ (conj E2 (conj E3 _))); [now rewrite Ef|congruence].
Qed.

Lemma prefill_rel d d' : rel d d' -> agree rel (prefill d) (prefill d').
Proof.
  intros (E1 & E2 & E3 & E4). unfold prefill. rewrite E1. destruct (d_fac d) as [f|] eqn:Ef.
  - rewrite (missing_same (d_codec d) (d_codec d')) by (apply E4; discriminate).
    eapply agree_bind; [apply agree_refl|]. intros a b <-. cbn. refine (conj eq_refl (conj _ (conj E3 _))); [first [exact E2|reflexivity]|]. intros _. apply E4. discriminate.
  - cbn. refine (conj _ (conj E2 (conj E3 _))); [now rewrite Ef|congruence].
Qed.

Definition prel {A B} (R : A -> A -> Prop) (p q : A * B) : Prop := R (fst p) (fst q) /\ snd p = snd q.

Lemma cols_rel row cs cs' : Forall2 rel cs cs' -> forall s,
  agree (prel (Forall2 rel)) (decode_cols row cs s) (decode_cols row cs' s).
Proof.
  intros F. induction F as [|d d' cs cs' Hd F IH]; intros s; cbn [decode_cols]; [cbn; split; [constructor|reflexivity]|].
  apply (agree_bind (prel rel)).
  - destruct Hd as (E1 & E2 & E3 & E4). rewrite E1. destruct (d_fac d) as [f|] eqn:Ef.
    + assert (SD : same_decode (d_codec d) (d_codec d')) by (apply E4; discriminate).
      rewrite (decode_same _ _ s SD). eapply agree_bind; [apply agree_refl|]. intros [c1 s1] b <-.
      eapply agree_bind; [apply agree_refl|]. intros a b <-. cbn. split; cbn; [|reflexivity].
      exact (conj eq_refl (conj eq_refl (conj E3 (fun _ => SD)))).
    + rewrite (skip_same _ _ s E3). eapply agree_bind; [apply agree_refl|]. intros [c1 s1] b <-. cbn.
      split; cbn; [|reflexivity]. refine (conj _ (conj E2 (conj E3 _))); [now rewrite Ef|congruence].
  - intros [x s1] [y s2] [Rx Es]. cbn [fst snd] in *. subst s2. eapply agree_bind; [apply IH|].
    intros [x2 s2] [y2 s3] [Ry Es]. cbn [fst snd] in *. subst s3. cbn. split; cbn; [now constructor|reflexivity].
Qed.

Lemma Forall2_firstn {A B} (R : A -> B -> Prop) n l l' : Forall2 R l l' -> Forall2 R (firstn n l) (firstn n l').
Proof. intros F. revert n. induction F; intros [|n]; cbn; constructor; auto. Qed.
Lemma Forall2_skipn {A B} (R : A -> B -> Prop) n l l' : Forall2 R l l' -> Forall2 R (skipn n l) (skipn n l').
Proof. intros F. revert n. induction F; intros [|n]; cbn; auto. Qed.

Lemma row_rel row ls cs cs' s : Forall2 rel cs cs' ->
  agree (prel (prel (fun l l' => Forall2 rel l l'))) 
    (do (r, s1) <- decode_row row ls cs s; Ok ((snd r, fst r), s1))
    (do (r, s1) <- decode_row row ls cs' s; Ok ((snd r, fst r), s1)).
Proof.
  intros F. unfold decode_row. pose proof (Forall2_length _ _ _ F) as L.
  destruct (read_raw 2 s) as [[m s1]| |]; cbn [bind]; [|reflexivity|exact I].
  rewrite <- L.
  match goal with |- agree _ (bind (bind ?x _) _) (bind (bind ?y _) _) =>
    assert (A : agree (Forall2 rel) x y) end.
  { destruct (marker_val m <? ls)%nat; [|exact F]. destruct (length cs <? ls)%nat; [exact I|].
    eapply agree_bind; [apply map_rel; [apply Forall2_firstn, Forall2_skipn, F|intros; now apply fill_rel]|].
    intros a b Rab. cbn. apply Forall2_app; [now apply Forall2_firstn|]. apply Forall2_app; [exact Rab|now apply Forall2_skipn]. }
  match goal with |- agree _ (bind (bind ?x _) _) (bind (bind ?y _) _) =>
    destruct x as [a| |], y as [b| |]; cbn in A; try contradiction; cbn [bind]; auto end.
  pose proof (cols_rel row _ _ (Forall2_skipn _ (marker_val m) _ _ A) s1) as C.
  destruct (decode_cols row (skipn (marker_val m) a) s1) as [[x s2]| |], (decode_cols row (skipn (marker_val m) b) s1) as [[y s3]| |];
    cbn in C; try contradiction; cbn [bind]; auto.
  destruct C as [C1 C2]. cbn in C1, C2. subst s3. cbn. repeat split; cbn. apply Forall2_app; [now apply Forall2_firstn|exact C1].
Qed.

Lemma rows_rel : forall n row ls cs cs' s, Forall2 rel cs cs' ->
  agree (Forall2 rel) (decode_rows n row ls cs s) (decode_rows n row ls cs' s).
Proof.
  induction n as [|n IH]; intros row ls cs cs' s F; cbn [decode_rows]; [exact F|].
  pose proof (row_rel row ls cs cs' s F) as R.
  destruct (decode_row row ls cs s) as [[[x y] s1]| |], (decode_row row ls cs' s) as [[[x' y'] s1']| |]; cbn in R; try contradiction; cbn [bind fst snd]; auto.
  destruct R as [[R1 R2] R3]. cbn in *. subst. now apply IH.
Qed.

Lemma final_rel n cs cs' : Forall2 rel cs cs' -> agree (Forall2 rel) (final_fill n cs) (final_fill n cs').
Proof.
  intros F. induction F as [|d d' cs cs' Hd F IH]; cbn [final_fill]; [constructor|].
  replace (d_last d') with (d_last d) by (symmetry; apply Hd). destruct (d_last d <? n - 1)%nat.
  - eapply agree_bind; [now apply fill_rel|]. intros a b Rab. eapply agree_bind; [exact IH|]. intros l l' Rl. cbn. now constructor.
  - cbn. now constructor.
Qed.

Lemma Forall2_list_set {A B} (R : A -> B -> Prop) l l' i x y : Forall2 R l l' -> R x y -> Forall2 R (list_set l i x) (list_set l' i y).
Proof. intros F H. revert i. induction F as [|a b l l' Hab F IH]; intros [|i]; cbn; constructor; auto. Qed.

Lemma Forall2_get {A B} (P : A -> B -> Prop) la lb i a : Forall2 P la lb -> nth_error la i = Some a -> exists b, nth_error lb i = Some b /\ P a b.
Proof.
  intros F. revert i. induction F as [|x y la lb Hxy F IH]; intros [|i] E; try discriminate; cbn in *; [|auto].
  injection E as <-. eauto.
Qed.

Lemma attach_rel full simple nrows : forall names facs cs cs' (qs : list Prop),
  (forall nm p q, In nm names -> lookup_name full simple nm = Ok p -> nth_error qs (Z.to_nat p) = Some q -> q) ->
  Forall2 (fun dd (q : Prop) => q -> same_decode (d_codec (fst dd)) (d_codec (snd dd))) (combine cs cs') qs ->
  Forall2 rel cs cs' -> agree (Forall2 rel) (attach full simple nrows names facs cs) (attach full simple nrows names facs cs').
Proof.
  induction names as [|nm names IH]; intros facs cs cs' qs Hq HQ F; [exact F|]. destruct facs as [|f facs]; [exact F|].
  cbn [attach]. destruct (lookup_name full simple nm) as [p| |] eqn:El; cbn [bind]; [|reflexivity|exact I].
  destruct (nth_error cs (Z.to_nat p)) as [d|] eqn:E1.
  - destruct (Forall2_get _ _ _ _ _ F E1) as (d' & E2 & Rd). rewrite E2.
    pose proof Rd as (R1 & R2 & R3 & R4). rewrite R1. destruct (d_fac d) as [g|] eqn:Ef; [reflexivity|].
    destruct (nrows <=? Z.of_nat (length (f_elems f))); cbn [assert bind]; [|reflexivity].
    assert (EC : nth_error (combine cs cs') (Z.to_nat p) = Some (d, d')).
    { clear -E1 E2. revert cs' E1 E2. generalize (Z.to_nat p) as i. induction cs as [|a cs IH]; intros [|i] [|b cs'] A B; try discriminate; cbn in *.
      - congruence.
      - auto. }
    destruct (Forall2_get _ _ _ _ _ HQ EC) as (q & Eq & Sq). cbn [fst snd] in Sq.
    pose proof (Hq nm p q (or_introl eq_refl) El Eq) as Q. specialize (Sq Q).
    apply (IH facs _ _ qs).
    + intros. eapply Hq; eauto. now right.
    + replace (combine (list_set cs (Z.to_nat p) {| d_codec := d_codec d; d_fac := Some f; d_last := d_last d |})
                 (list_set cs' (Z.to_nat p) {| d_codec := d_codec d'; d_fac := Some f; d_last := d_last d' |}))
        with (list_set (combine cs cs') (Z.to_nat p) ({| d_codec := d_codec d; d_fac := Some f; d_last := d_last d |}, {| d_codec := d_codec d'; d_fac := Some f; d_last := d_last d' |})).
      2:{ clear. revert cs'. generalize (Z.to_nat p) as i. induction cs as [|a cs IH]; intros [|i] [|b cs']; cbn; try reflexivity. now rewrite IH. }
      replace qs with (list_set qs (Z.to_nat p) q).
      2:{ clear -Eq. revert Eq. generalize (Z.to_nat p) as i. induction qs as [|a qs IH]; intros [|i] H; cbn in *; try discriminate; [congruence|now rewrite IH]. }
      apply Forall2_list_set; [exact HQ|]. cbn. auto.
    + apply Forall2_list_set; [exact F|]. split; cbn; [reflexivity|]. split; [exact R2|]. split; [exact R3|]. auto.
  - assert (E2 : nth_error cs' (Z.to_nat p) = None).
    { apply nth_error_None. apply nth_error_None in E1. now rewrite <- (Forall2_length _ _ _ F). }
    rewrite E2. exact I.
Qed.

Lemma lookup_loop_names : forall cs cs', map col_name cs' = map col_name cs -> forall i full simple,
  lookup_loop cs' i full simple = lookup_loop cs i full simple.
Proof.
  induction cs as [|c cs IH]; intros [|c' cs'] E; try discriminate; intros i full simple; [reflexivity|].
  cbn [map] in E. injection E as E1 E2. cbn [lookup_loop]. rewrite E1. destruct (mget full (col_name c)); [reflexivity|]. now apply IH.
Qed.

(** Decoding the columns whose codecs decode the same. *)
Theorem decode_target_same file t file' t' names facs :
  t_rows t' = t_rows t -> read_encoded file' false t' = read_encoded file false t ->
  Forall2 (fun c c' => col_name c' = col_name c /\ same_skip (col_coder c) (col_coder c')) (t_cols t) (t_cols t') ->
  (forall nm p c c', In nm names -> select (names_of (t_cols t)) nm = Some p -> nth_error (t_cols t) p = Some c ->
     nth_error (t_cols t') p = Some c' -> same_decode (col_coder c) (col_coder c')) ->
  decode_target file' t' names facs = decode_target file t names facs.
Proof.
  intros Er Ee F H. unfold decode_target, decode_table.
  assert (En : map col_name (t_cols t') = map col_name (t_cols t)).
  { clear -F. induction F as [|a b la lb (E & _) F IH]; cbn; [reflexivity|]. now rewrite E, IH. }
  assert (El : column_lookup (t_cols t') = column_lookup (t_cols t)) by (unfold column_lookup; now apply lookup_loop_names).
  rewrite El, Er, Ee, <- (Forall2_length _ _ _ F).
  destruct (NoDup_decidable (fun a b => match list_eq_dec Z.eq_dec a b with left e => or_introl e | right n => or_intror n end) (names_of (t_cols t))) as [N|N]; [|now rewrite (column_lookup_dup _ N)].
  destruct (column_lookup_ok _ N) as (full & simple & EL & LK). rewrite EL. cbn [bind].
  destruct (assert (length names =? length facs)%nat) as [u| |]; cbn [bind]; [|reflexivity|reflexivity].
  destruct (assert (length names <=? length (t_cols t))%nat) as [u1| |]; cbn [bind]; [|reflexivity|reflexivity].
  set (d0 := fun c => {| d_codec := col_coder c; d_fac := None; d_last := 0 |}).
  assert (A : agree (Forall2 rel) (attach full simple (t_rows t) names facs (map d0 (t_cols t)))
                (attach full simple (t_rows t) names facs (map d0 (t_cols t')))).
  { apply (attach_rel full simple (t_rows t) names facs _ _ (map (fun cc => same_decode (col_coder (fst cc)) (col_coder (snd cc))) (combine (t_cols t) (t_cols t')))).
    - intros nm p q Hin Hl Hq. rewrite LK in Hl. destruct (select (names_of (t_cols t)) nm) as [i|] eqn:Es; [|discriminate].
      injection Hl as <-. rewrite Nat2Z.id in Hq. rewrite nth_error_map in Hq.
      destruct (nth_error (combine (t_cols t) (t_cols t')) i) as [[c c']|] eqn:Ec; [|discriminate]. cbn in Hq. injection Hq as <-.
      assert (X : nth_error (t_cols t) i = Some c /\ nth_error (t_cols t') i = Some c').
      { clear -Ec. revert Ec. generalize (t_cols t) (t_cols t'). induction i as [|i IH]; intros [|a l] [|b l'] E; try discriminate; cbn in *; [split; congruence|auto]. }
      destruct X. eapply H; eauto.
    - clear. generalize (t_cols t) (t_cols t'). induction l as [|a l IH]; intros [|b l']; cbn; constructor; auto.
    - clear -F. induction F as [|a b la lb (_ & E) F IH]; cbn; constructor; [|exact IH]. split; cbn; auto. split; [reflexivity|]. split; [exact E|congruence]. }
  assert (Fin : forall cs cs', Forall2 rel cs cs' -> Ok (collect full simple names cs') = Ok (collect full simple names cs) :> outcome (list (option facade))).
  { intros cs cs' R. f_equal. unfold collect. apply map_ext. intros nm. destruct (lookup_name full simple nm) as [p| |]; auto.
    destruct (nth_error cs (Z.to_nat p)) as [d|] eqn:E1.
    - destruct (Forall2_get _ _ _ _ _ R E1) as (d' & E2 & Rd). rewrite E2. apply Rd.
    - replace (nth_error cs' (Z.to_nat p)) with (@None dcol); [reflexivity|]. symmetry. apply nth_error_None. apply nth_error_None in E1. now rewrite <- (Forall2_length _ _ _ R). }
  assert (X : forall x y, agree (Forall2 rel) x y -> bind y (fun cs => Ok (collect full simple names cs)) = bind x (fun cs => Ok (collect full simple names cs))).
  { intros x y R. destruct x, y; cbn in R; try contradiction; cbn [bind]; auto. now subst. }
  apply X. eapply agree_bind; [exact A|]. intros a b Rab.
  eapply agree_bind; [apply agree_refl|]. intros buf ? <-. destruct (t_rows t =? 0); [exact Rab|].
  eapply agree_bind; [apply map_rel; [exact Rab|intros; now apply prefill_rel]|]. intros a1 b1 R1.
  eapply agree_bind; [apply rows_rel, R1|]. intros a2 b2 R2. now apply final_rel.
Qed.
