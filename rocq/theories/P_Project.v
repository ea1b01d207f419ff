(** C21: decoding a subset of the columns, whatever the content of the frame. *)
From Coq Require Import String.
From Verif Require Import Spec RowSpec Base Fp FpProofs Stream StreamProofs StreamLocal Codec Meta Header Encoder Table
  TableProofs DecodeProofs LookupProofs FrameDecode P_Decode ProjectProofs.
Open Scope Z_scope.
Local Notation length := List.length.

Lemma Forall2_at {A B} (P : A -> B -> Prop) la lb : Forall2 P la lb ->
  forall k a b, nth_error la k = Some a -> nth_error lb k = Some b -> P a b.
Proof. induction 1; intros [|k] a b E1 E2; try discriminate; [injection E1 as <-; injection E2 as <-; assumption|eapply IHForall2; eassumption]. Qed.

Lemma Forall2_some {A B} (P : A -> B -> Prop) la lb : Forall2 P la lb ->
  forall k b, nth_error lb k = Some b -> exists a, nth_error la k = Some a /\ P a b.
Proof. induction 1; intros [|k] b E; try discriminate; [injection E as <-; eexists; split; [reflexivity|assumption]|exact (IHForall2 k b E)]. Qed.
Lemma Forall2_some_l {A B} (P : A -> B -> Prop) la lb : Forall2 P la lb ->
  forall k a, nth_error la k = Some a -> exists b, nth_error lb k = Some b /\ P a b.
Proof. induction 1; intros [|k] b E; try discriminate; [injection E as <-; eexists; split; [reflexivity|assumption]|exact (IHForall2 k b E)]. Qed.

(** What decoding does, in terms of the columns selected. *)
Lemma decode_target_inv file t names facs outs : decode_target file t names facs = Ok outs ->
  exists ps full simple cols buf cols', requests (t_cols t) names ps /\
    length facs = length names /\
    column_lookup (t_cols t) = Ok (full, simple) /\
    Forall2 (fun nm p => lookup_name full simple nm = Ok (Z.of_nat p)) names ps /\
    Forall (fun p => (p < length (t_cols t))%nat) ps /\
    Forall (fun f => t_rows t <= Z.of_nat (length (f_elems f))) facs /\
    attach full simple (t_rows t) names facs (fresh_cols (t_cols t)) = Ok cols /\
    read_encoded file false t = Ok buf /\
    (if t_rows t =? 0 then Ok cols else
       do a <- map_dcols prefill cols; do b <- decode_rows (Z.to_nat (t_rows t)) 0 0 a buf; final_fill (Z.to_nat (t_rows t)) b) = Ok cols' /\
    outs = collect full simple names cols'.
Proof.
  intros H. unfold decode_target in H. apply bind_ok in H as ((full & simple) & E & H).
  apply bind_ok in H as (cols' & H & Ho). unfold decode_table in H. rewrite E in H. cbn [bind] in H.
  apply bind_ok in H as (u1 & A1 & H). apply bind_ok in H as (u2 & A2 & H). apply bind_ok in H as (cols & Ha & H).
  apply bind_ok in H as (buf & Hb & H). fold (fresh_cols (t_cols t)) in Ha.
  destruct (look_total _ _ _ E) as (ND & L1 & L2).
  assert (Hlen : length facs = length names).
  { unfold assert in A1. destruct (Nat.eqb_spec (length names) (length facs)); [lia|discriminate]. }
  destruct (attach_inv full simple (t_rows t) (length (t_cols t)) L2 names facs _ cols ltac:(unfold fresh_cols; now rewrite map_length) Hlen Ha)
    as (ps & B1 & B2 & B3 & B4 & B5).
  exists ps, full, simple, cols, buf, cols'. split.
  { split; [exact ND|]. split; [|exact B2]. eapply Forall2_weaken; [|exact B1]. intros nm p. apply L1. }
  inversion Ho. repeat (split; [assumption|]). reflexivity.
Qed.

Lemma attached_cols cs full simple nrows names facs ps cols :
  Forall2 (fun nm p => lookup_name full simple nm = Ok (Z.of_nat p)) names ps -> length facs = length names -> NoDup ps ->
  Forall (fun p => (p < length cs)%nat) ps -> Forall (fun f => nrows <= Z.of_nat (length (f_elems f))) facs ->
  attach full simple nrows names facs (fresh_cols cs) = Ok cols ->
  length cols = length cs /\
  (forall i c, nth_error cs i = Some c -> ~ In i ps -> nth_error cols i = Some {| d_codec := col_coder c; d_fac := None; d_last := 0 |}) /\
  (forall k i c f, nth_error cs i = Some c -> nth_error ps k = Some i -> nth_error facs k = Some f ->
     nth_error cols i = Some {| d_codec := col_coder c; d_fac := Some f; d_last := 0 |}).
Proof.
  intros HF HL HN HP HR Ha.
  assert (Fr : forall i c, nth_error cs i = Some c -> nth_error (fresh_cols cs) i = Some {| d_codec := col_coder c; d_fac := None; d_last := 0 |}).
  { intros i c E. unfold fresh_cols. now rewrite nth_error_map, E. }
  destruct (attach_ok full simple nrows names facs ps (fresh_cols cs)) as (cols' & E & L & A & B); auto.
  { apply Forall_forall. intros p Hp. rewrite Forall_forall in HP. specialize (HP p Hp).
    destruct (nth_error cs p) as [c|] eqn:Ec; [|apply nth_error_None in Ec; lia]. eexists. split; [apply Fr, Ec|reflexivity]. }
  rewrite Ha in E. inversion E; subst cols'. split; [unfold fresh_cols in L; now rewrite map_length in L|]. split.
  - intros i c Hc Ni. rewrite A by assumption. now apply Fr.
  - intros k i c f Hc Hp Hf. apply (B k i f _ Hp Hf (Fr i c Hc)).
Qed.

Lemma attached_last cols n (cs : list column) ps facs : length cols = length cs -> length facs = n -> length ps = n ->
  (forall i c, nth_error cs i = Some c -> ~ In i ps -> nth_error cols i = Some {| d_codec := col_coder c; d_fac := None; d_last := 0 |}) ->
  (forall k i c f, nth_error cs i = Some c -> nth_error ps k = Some i -> nth_error facs k = Some f ->
     nth_error cols i = Some {| d_codec := col_coder c; d_fac := Some f; d_last := 0 |}) ->
  Forall (fun d => d_last d = 0%nat) cols.
Proof.
  intros L Lf Lp A B. apply Forall_forall. intros d Hd. apply In_nth_error in Hd as (i & Hi).
  assert (i < length cs)%nat by (rewrite <- L; apply nth_error_Some; congruence).
  destruct (nth_error cs i) as [c|] eqn:Ec; [|apply nth_error_None in Ec; lia].
  destruct (in_dec Nat.eq_dec i ps) as [I|I].
  - apply In_nth_error in I as (k & Hk). assert (k < length facs)%nat by (rewrite Lf, <- Lp; apply nth_error_Some; congruence).
    destruct (nth_error facs k) as [f|] eqn:Ef; [|apply nth_error_None in Ef; lia]. rewrite (B k i c f Ec Hk Ef) in Hi. now inversion Hi.
  - rewrite (A i c Ec I) in Hi. now inversion Hi.
Qed.

(** A request [names'] for some of the columns requested by [names], each with the same
    array: it succeeds if the larger one does, and gives the same content. *)
Theorem C21_subset : forall file t names facs outs names' facs' ps',
  decode_target file t names facs = Ok outs -> requests (t_cols t) names' ps' ->
  Forall2 (fun p' f' => exists k nm, nth_error names k = Some nm /\ nth_error facs k = Some f' /\
                          select (map col_name (t_cols t)) nm = Some p') ps' facs' ->
  exists outs', decode_target file t names' facs' = Ok outs' /\
    forall k k' nm nm' f, nth_error names k = Some nm -> nth_error names' k' = Some nm' ->
      nth_error facs k = Some f -> nth_error facs' k' = Some f ->
      select (map col_name (t_cols t)) nm = select (map col_name (t_cols t)) nm' ->
      nth_error outs' k' = nth_error outs k.
Proof.
  intros file t names facs outs names' facs' ps' H R' HS.
  destruct (decode_target_inv _ _ _ _ _ H) as (ps & full & simple & cols & buf & colsF & (ND & R1 & R2) & Hlen & E & HF & HP & HR & Ha & Hb & HD & ->).
  destruct R' as (_ & R1' & R2'). destruct (look_total _ _ _ E) as (_ & L1 & L2).
  assert (Lps : length ps = length names) by (symmetry; apply (Forall2_length _ _ _ HF)).
  assert (Lps' : length ps' = length names') by (symmetry; apply (Forall2_length _ _ _ R1')).
  assert (Hlen' : length facs' = length names') by (rewrite <- Lps'; symmetry; apply (Forall2_length _ _ _ HS)).
  assert (HF' : Forall2 (fun nm p => lookup_name full simple nm = Ok (Z.of_nat p)) names' ps').
  { eapply Forall2_weaken; [|exact R1']. intros nm p. apply L1. }
  assert (HP' : Forall (fun p => (p < length (t_cols t))%nat) ps').
  { clear -R1'. induction R1'; constructor; auto. apply select_lt in H. now rewrite map_length in H. }
  (* each facade of the second request is one of the first, on the same column *)
  assert (Same : forall k' i f', nth_error ps' k' = Some i -> nth_error facs' k' = Some f' -> exists k, nth_error ps k = Some i /\ nth_error facs k = Some f').
  { intros k' i f' Hi Hf. destruct (Forall2_at _ _ _ HS k' i f' Hi Hf) as (k & nm & A1 & A2 & A3). exists k. split; [|assumption].
    destruct (Forall2_some_l _ _ _ R1 k nm A1) as (p & B1 & B2). congruence. }
  assert (HR' : Forall (fun f => t_rows t <= Z.of_nat (length (f_elems f))) facs').
  { apply Forall_forall. intros f Hf. apply In_nth_error in Hf as (k' & Hk). destruct (Forall2_some _ _ _ HS k' f Hk) as (p & Hp & _).
    destruct (Same k' p f Hp Hk) as (k & _ & A). rewrite Forall_forall in HR. apply HR. eapply nth_error_In; eassumption. }
  destruct (attached_cols _ _ _ _ _ _ _ _ HF Hlen R2 HP HR Ha) as (Lc & C1 & C2).
  assert (Ha' : exists cols2, attach full simple (t_rows t) names' facs' (fresh_cols (t_cols t)) = Ok cols2).
  { destruct (attach_ok full simple (t_rows t) names' facs' ps' (fresh_cols (t_cols t))) as (cols' & E' & _); eauto.
    apply Forall_forall. intros p Hp. rewrite Forall_forall in HP'. specialize (HP' p Hp).
    destruct (nth_error (t_cols t) p) as [c|] eqn:Ec; [|apply nth_error_None in Ec; lia].
    eexists. unfold fresh_cols. rewrite nth_error_map, Ec. split; reflexivity. }
  destruct Ha' as (cols2 & Ha').
  destruct (attached_cols _ _ _ _ _ _ _ _ HF' Hlen' R2' HP' HR' Ha') as (Lc2 & C1' & C2').
  assert (TH : Forall2 thin cols cols2).
  { apply Forall2_nth; [congruence|]. intros i d1 d2 E1 E2.
    assert (i < length (t_cols t))%nat by (rewrite <- Lc; apply nth_error_Some; congruence).
    destruct (nth_error (t_cols t) i) as [c|] eqn:Ec; [|apply nth_error_None in Ec; lia].
    assert (Cd : d_codec d1 = col_coder c).
    { destruct (in_dec Nat.eq_dec i ps) as [I|I].
      - apply In_nth_error in I as (k & Hk). assert (k < length facs)%nat by (rewrite Hlen, <- Lps; apply nth_error_Some; congruence).
        destruct (nth_error facs k) as [f|] eqn:Ef; [|apply nth_error_None in Ef; lia]. rewrite (C2 k i c f Ec Hk Ef) in E1. now inversion E1.
      - rewrite (C1 i c Ec I) in E1. now inversion E1. }
    destruct (in_dec Nat.eq_dec i ps') as [I|I].
    - apply In_nth_error in I as (k' & Hk'). destruct (Forall2_some_l _ _ _ HS k' i Hk') as (f' & Hf' & _).
      destruct (Same k' i f' Hk' Hf') as (k & Hk & Hf). rewrite (C2 k i c f' Ec Hk Hf) in E1. rewrite (C2' k' i c f' Ec Hk' Hf') in E2.
      split; [congruence|left; congruence].
    - rewrite (C1' i c Ec I) in E2. inversion E2; subst d2. split; [cbn; congruence|right; split; reflexivity]. }
  assert (SF : exists cols2F, (if t_rows t =? 0 then Ok cols2 else
       do a <- map_dcols prefill cols2; do b <- decode_rows (Z.to_nat (t_rows t)) 0 0 a buf; final_fill (Z.to_nat (t_rows t)) b) = Ok cols2F /\ Forall2 thin colsF cols2F).
  { destruct (Z.eqb_spec (t_rows t) 0) as [Z0|NZ]; [exists cols2; inversion HD; subst; auto|].
    destruct (Nat.eq_dec (Z.to_nat (t_rows t)) 0) as [N0|N0].
    - rewrite N0 in *. cbn [decode_rows] in *. apply bind_ok in HD as (a & A & HD). cbn [bind] in HD.
      destruct (thin_map prefill prefill_codec (fun d N => ltac:(unfold prefill; now rewrite N)) _ _ _ TH A) as (a2 & A2 & F2). rewrite A2. cbn [bind].
      assert (FF : forall ds, final_fill 0 ds = Ok ds) by (intros [|d ds]; [reflexivity|]; cbn [final_fill]; now rewrite (proj2 (Nat.ltb_ge _ _)) by lia).
      rewrite FF in *. exists a2. inversion HD; subst. auto.
    - eapply loops_sim; [lia|exact TH| | |exact HD].
      + eapply (attached_last cols (length names) (t_cols t) ps facs); eauto.
      + eapply (attached_last cols2 (length names') (t_cols t) ps' facs'); eauto. }
  destruct SF as (cols2F & D2 & TF).
  exists (collect full simple names' cols2F). split.
  - unfold decode_target, decode_table. rewrite E. cbn [bind]. rewrite Hlen', Nat.eqb_refl. cbn [assert bind].
    assert (Le : (length names' <=? length (t_cols t))%nat = true).
    { apply Nat.leb_le. rewrite <- Lps'. rewrite <- (seq_length (length (t_cols t)) 0). apply NoDup_incl_length; [assumption|].
      intros p Hp. apply in_seq. rewrite Forall_forall in HP'. specialize (HP' p Hp). lia. }
    rewrite Le. cbn [assert bind]. fold (fresh_cols (t_cols t)). rewrite Ha'. cbn [bind]. rewrite Hb. cbn [bind].
    rewrite D2. reflexivity.
  - intros k k' nm nm' f N1 N2 F1 F2 S0.
    destruct (Forall2_some_l _ _ _ R1 k nm N1) as (p & P1 & P2). destruct (Forall2_some_l _ _ _ R1' k' nm' N2) as (p' & P1' & P2').
    assert (p' = p) by congruence. subst p'.
    unfold collect. rewrite !nth_error_map, N1, N2. cbn [option_map].
    rewrite (proj2 (L1 nm p) P2), (proj2 (L1 nm' p) P2'). f_equal.
    rewrite Nat2Z.id.
    assert (Hp : (p < length (t_cols t))%nat) by (apply select_lt in P2; now rewrite map_length in P2).
    (* the column is requested in both, so thin means equal there *)
    assert (X : forall cs1 cs2, Forall2 thin cs1 cs2 -> forall d1 d2, nth_error cs1 p = Some d1 -> nth_error cs2 p = Some d2 -> d_fac d2 <> None -> d2 = d1).
    { intros cs1 cs2 T d1 d2 E1 E2 N. destruct (Forall2_at _ _ _ T p d1 d2 E1 E2) as (_ & [Q|[Q _]]); [assumption|contradiction]. }
    assert (Len : length colsF = length cols2F) by apply (Forall2_length _ _ _ TF).
    assert (KF : forall d2, nth_error cols2F p = Some d2 -> d_fac d2 <> None).
    { intros d2 Q.
      destruct (nth_error (t_cols t) p) as [c|] eqn:Ec; [|apply nth_error_None in Ec; lia].
      pose proof (C2' k' p c f Ec P1' F2) as K.
      assert (K2 : Forall2 (fun a b => d_fac a <> None -> d_fac b <> None) cols2 cols2F).
      { clear -D2. assert (Rf : forall l, Forall2 (fun a b => d_fac a <> None -> d_fac b <> None) l l) by (induction l; constructor; auto).
        assert (Tr : forall a b c, Forall2 (fun a b => d_fac a <> None -> d_fac b <> None) a b -> Forall2 (fun a b => d_fac a <> None -> d_fac b <> None) b c ->
                       Forall2 (fun a b => d_fac a <> None -> d_fac b <> None) a c).
        { intros a b c F. revert c. induction F; intros c G; inversion G; subst; constructor; auto. }
        assert (Md : forall g, (forall d d', g d = Ok d' -> same_last d d') -> forall a b, map_dcols g a = Ok b -> Forall2 (fun a b => d_fac a <> None -> d_fac b <> None) a b).
        { intros g Hg a b M. eapply Forall2_weaken; [|eapply map_dcols_nth, M]. intros x y Q N. apply Hg in Q as [_ Q]. intros W. apply N. now apply Q. }
        destruct (t_rows t =? 0); [inversion D2; subst; apply Rf|]. apply bind_ok in D2 as (a & A & D2). apply bind_ok in D2 as (b & B & D2).
        eapply Tr; [eapply Md; [apply prefill_last|exact A]|]. clear A cols2.
        assert (FF : forall n x y, final_fill n x = Ok y -> Forall2 (fun a b => d_fac a <> None -> d_fac b <> None) x y).
        { induction x as [|d ds IH]; intros y G; cbn [final_fill] in G; [inversion G; constructor|]. destruct (_ <? _)%nat; [|inversion G; subst; apply Rf].
          apply bind_ok in G as (d' & G1 & G). apply bind_ok in G as (ds' & G2 & G). inversion G; subst. constructor; [|auto].
          apply fill_last in G1 as [_ Q]. intros N W. apply N. now apply Q. }
        eapply Tr; [|eapply FF, D2]. clear D2 FF cols2F.
        assert (DR : forall n row ls x s y, decode_rows n row ls x s = Ok y -> Forall2 (fun a b => d_fac a <> None -> d_fac b <> None) x y); [|eapply DR, B].
        clear -Rf Tr Md.
        induction n as [|n IH]; intros row ls x s y H; cbn [decode_rows] in H; [inversion H; apply Rf|].
        apply bind_ok in H as (((start & c) & s1) & R & H). cbn [fst snd] in H. eapply Tr; [|eapply IH, H]. clear H IH.
        unfold decode_row in R. apply bind_ok in R as ((m & sa) & _ & R). apply bind_ok in R as (c1 & R1 & R). apply bind_ok in R as ((dec & sb) & R2 & R).
        inversion R; subst. clear R. eapply Tr with (b := c1).
        - destruct (marker_val m <? ls)%nat eqn:Q; [|injection R1 as <-; apply Rf]. destruct (List.length x <? ls)%nat; [discriminate|]. apply bind_ok in R1 as (mid & M & R1). inversion R1; subst.
          rewrite <- (firstn_skipn (marker_val m) x) at 1. apply Forall2_app; [apply Rf|].
          rewrite <- (firstn_skipn (ls - marker_val m) (skipn (marker_val m) x)) at 1. apply Forall2_app; [eapply Md; [apply fill_last|exact M]|].
          assert (E9 : forall {A} (l : list A) a b, skipn a (skipn b l) = skipn (b + a) l).
          { clear. intros A l a b. revert l. induction b; intros l; [reflexivity|]. destruct l; [now rewrite !skipn_nil|cbn; auto]. }
          rewrite E9. replace (marker_val m + (ls - marker_val m))%nat with ls by (apply Nat.ltb_lt in Q; lia). apply Rf.
        - rewrite <- (firstn_skipn (marker_val m) c1) at 1. apply Forall2_app; [apply Rf|]. eapply Forall2_weaken; [|eapply decode_cols_last, R2].
          cbn beta. intros x0 y0 [[Q1 ->]|(_ & Q & _)]; auto. }
      pose proof (Forall2_at _ _ _ K2 p _ d2 K Q) as K3. apply K3. discriminate. }
    destruct (nth_error cols2F p) as [d2|] eqn:E2; [|].
    + destruct (nth_error colsF p) as [d1|] eqn:E1; [|apply nth_error_None in E1; assert (nth_error cols2F p <> None) by congruence; apply nth_error_Some in H0; lia].
      rewrite (X colsF cols2F TF d1 d2 E1 E2 (KF d2 eq_refl)). reflexivity.
    + apply nth_error_None in E2. rewrite (proj2 (nth_error_None colsF p)) by lia. reflexivity.
Qed.
Print Assumptions C21_subset.

(** Two requests with the same array for the same column get the same content. *)
Theorem C21_projection : forall file t names1 facs1 outs1 names2 facs2 outs2 k1 k2 nm1 nm2 f,
  decode_target file t names1 facs1 = Ok outs1 -> decode_target file t names2 facs2 = Ok outs2 ->
  nth_error names1 k1 = Some nm1 -> nth_error names2 k2 = Some nm2 ->
  select (map col_name (t_cols t)) nm1 = select (map col_name (t_cols t)) nm2 ->
  nth_error facs1 k1 = Some f -> nth_error facs2 k2 = Some f ->
  nth_error outs1 k1 = nth_error outs2 k2.
Proof.
  intros file t names1 facs1 outs1 names2 facs2 outs2 k1 k2 nm1 nm2 f H1 H2 N1 N2 S0 F1 F2.
  destruct (C22_accepted _ _ _ _ _ H1) as (ps & ND & R1 & _). destruct (Forall2_some_l _ _ _ R1 k1 nm1 N1) as (p & _ & P).
  assert (R : requests (t_cols t) [nm1] [p]).
  { split; [exact ND|]. split; [constructor; [exact P|constructor]|]. constructor; [intros []|constructor]. }
  destruct (C21_subset file t names1 facs1 outs1 [nm1] [f] [p] H1 R) as (o1 & D1 & G1).
  { constructor; [|constructor]. exists k1, nm1. auto. }
  destruct (C21_subset file t names2 facs2 outs2 [nm1] [f] [p] H2 R) as (o2 & D2 & G2).
  { constructor; [|constructor]. exists k2, nm2. split; [assumption|]. split; [assumption|congruence]. }
  rewrite D1 in D2. inversion D2; subst o2.
  rewrite <- (G1 k1 0%nat nm1 nm1 f N1 eq_refl F1 eq_refl eq_refl). apply (G2 k2 0%nat nm2 nm1 f N2 eq_refl F2 eq_refl (eq_sym S0)).
Qed.
Print Assumptions C21_projection.

(** ** Nothing else is written *)

(** [f'] has the shape of [f] and the same elements from row [n] on *)
Definition keeps (n : nat) (f f' : facade) : Prop :=
  f_size f' = f_size f /\ length (f_elems f') = length (f_elems f) /\
  forall r, (n <= r)%nat -> nth r (f_elems f') [] = nth r (f_elems f) [].

Definition keepsd (n : nat) (d d' : dcol) : Prop :=
  match d_fac d, d_fac d' with None, None => True | Some f, Some f' => keeps n f f' | _, _ => False end.

Lemma keepsd_refl n l : Forall2 (keepsd n) l l.
Proof. induction l; constructor; auto. unfold keepsd. destruct (d_fac a); auto. repeat split. Qed.

Lemma keepsd_trans n a b c : Forall2 (keepsd n) a b -> Forall2 (keepsd n) b c -> Forall2 (keepsd n) a c.
Proof.
  intros F. revert c. induction F as [|x y a b K F IH]; intros c G; inversion G as [|? z ? c' K' G']; subst; constructor; [|now apply IH].
  unfold keepsd in *. destruct (d_fac x), (d_fac y), (d_fac z); auto; try contradiction.
  destruct K as (A & B & C), K' as (A' & B' & C'). split; [congruence|]. split; [congruence|]. intros r Hr. rewrite C', C; auto.
Qed.

Lemma put_keeps n f r b f' : (r < n)%nat -> put f r b = Ok f' -> keeps n f f'.
Proof.
  intros Hr H. unfold put in H. destruct (_ || _) eqn:Q; [discriminate|]. apply orb_false_iff in Q as [_ Q]. apply Nat.leb_gt in Q.
  injection H as <-. split; [reflexivity|]. cbn [f_elems]. rewrite list_set_length. split; [reflexivity|]. intros q Hq.
  rewrite nth_list_set by assumption. destruct (Nat.eqb_spec q r); [lia|reflexivity].
Qed.

Lemma fill_keeps n f src fin f' : (fin < n)%nat -> fill f src fin = Ok f' -> keeps n f f'.
Proof.
  intros Hr H. unfold fill in H. destruct (Nat.leb_spec src fin) as [Q|Q]; [|discriminate]. cbn [assert bind] in H.
  destruct (Nat.leb_spec (length (f_elems f)) fin) as [Q1|Q1]; [discriminate|]. injection H as <-. split; [reflexivity|]. cbn [f_elems].
  unfold fill_elems. split.
  - rewrite !app_length, firstn_length, repeat_length, skipn_length. lia.
  - intros q Hq. rewrite !app_nth2; rewrite ?firstn_length, ?repeat_length; try lia.
    rewrite nth_skipn. f_equal. lia.
Qed.

Lemma map_keeps n g : (forall d d', g d = Ok d' -> keepsd n d d') -> forall a b, map_dcols g a = Ok b -> Forall2 (keepsd n) a b.
Proof. intros Hg a b M. eapply Forall2_weaken; [|eapply map_dcols_nth, M]. exact Hg. Qed.

Lemma fill_col_keeps n l d d' : (l < n)%nat -> fill_col l d = Ok d' -> keepsd n d d'.
Proof.
  unfold fill_col, keepsd. intros Hl. destruct (d_fac d) eqn:E; [|intros [= <-]; now rewrite E].
  intros H. apply bind_ok in H as (f' & F & H). injection H as <-. cbn. eapply fill_keeps; eassumption.
Qed.

Lemma prefill_keeps n d d' : (0 < n)%nat -> prefill d = Ok d' -> keepsd n d d'.
Proof.
  unfold prefill, keepsd. intros Hl. destruct (d_fac d) eqn:E; [|intros [= <-]; now rewrite E].
  intros H. apply bind_ok in H as (f' & F & H). injection H as <-. cbn. eapply put_keeps; eassumption.
Qed.

Lemma decode_cols_keeps n row : (row < n)%nat -> forall ds s r s', decode_cols row ds s = Ok (r, s') -> Forall2 (keepsd n) ds r.
Proof.
  intros Hr. induction ds as [|d ds IH]; intros s r s' H; cbn [decode_cols] in H; [injection H as <- _; constructor|].
  apply bind_ok in H as ((d' & sa) & E1 & H). apply bind_ok in H as ((ds' & sb) & E2 & H). injection H as <- _. constructor; [|eauto].
  unfold keepsd. destruct (d_fac d) eqn:E.
  - apply bind_ok in E1 as ((cell & sc) & D & E1). apply bind_ok in E1 as (f' & P & E1). injection E1 as <- _. cbn. eapply put_keeps; eassumption.
  - apply bind_ok in E1 as ((u & sc) & D & E1). injection E1 as <- _. now rewrite E.
Qed.

Lemma decode_rows_keeps N : forall n row ls x s y, (row + n <= N)%nat -> decode_rows n row ls x s = Ok y -> Forall2 (keepsd N) x y.
Proof.
  induction n as [|n IH]; intros row ls x s y Hn H; cbn [decode_rows] in H; [injection H as <-; apply keepsd_refl|].
  apply bind_ok in H as (((start & c) & s1) & R & H). cbn [fst snd] in H. eapply keepsd_trans; [|eapply IH; [|exact H]; lia]. clear H IH.
  unfold decode_row in R. apply bind_ok in R as ((m & sa) & _ & R). apply bind_ok in R as (c1 & R1 & R). apply bind_ok in R as ((dec & sb) & R2 & R).
  injection R as _ <- _. eapply keepsd_trans with (b := c1).
  - destruct (marker_val m <? ls)%nat eqn:Q; [|injection R1 as <-; apply keepsd_refl]. destruct (List.length x <? ls)%nat; [discriminate|].
    apply bind_ok in R1 as (mid & M & R1). injection R1 as <-.
    rewrite <- (firstn_skipn (marker_val m) x) at 1. apply Forall2_app; [apply keepsd_refl|].
    rewrite <- (firstn_skipn (ls - marker_val m) (skipn (marker_val m) x)) at 1. apply Forall2_app; [eapply map_keeps; [|exact M]; intros d d'; apply fill_col_keeps; lia|].
    assert (E9 : forall {A} (l : list A) a b, skipn a (skipn b l) = skipn (b + a) l).
    { clear. intros A l a b. revert l. induction b; intros l; [reflexivity|]. destruct l; [now rewrite !skipn_nil|cbn; auto]. }
    rewrite E9. replace (marker_val m + (ls - marker_val m))%nat with ls by (apply Nat.ltb_lt in Q; lia). apply keepsd_refl.
  - rewrite <- (firstn_skipn (marker_val m) c1) at 1. apply Forall2_app; [apply keepsd_refl|]. eapply decode_cols_keeps; [|exact R2]; lia.
Qed.

Lemma final_keeps n : (0 < n)%nat -> forall x y, final_fill n x = Ok y -> Forall2 (keepsd n) x y.
Proof.
  intros Hn. induction x as [|d ds IH]; intros y G; cbn [final_fill] in G; [injection G as <-; constructor|].
  destruct (d_last d <? n - 1)%nat; [|injection G as <-; apply keepsd_refl].
  apply bind_ok in G as (d' & G1 & G). apply bind_ok in G as (ds' & G2 & G). injection G as <-. constructor; [|auto]. eapply fill_col_keeps; [|exact G1]; lia.
Qed.

(** Whatever the frame contains, only the first rows of the requested arrays are written. *)
Theorem C21_untouched : forall file t names facs outs k f, 0 <= t_rows t ->
  decode_target file t names facs = Ok outs -> nth_error facs k = Some f ->
  exists out, nth_error outs k = Some (Some out) /\ keeps (Z.to_nat (t_rows t)) f out.
Proof.
  intros file t names facs outs k f H0 H Hf.
  destruct (decode_target_inv _ _ _ _ _ H) as (ps & full & simple & cols & buf & colsF & (ND & R1 & R2) & Hlen & E & HF & HP & HR & Ha & Hb & HD & ->).
  assert (Hk : (k < length names)%nat) by (rewrite <- Hlen; apply nth_error_Some; congruence).
  destruct (nth_error names k) as [nm|] eqn:En; [|apply nth_error_None in En; lia].
  destruct (Forall2_some_l _ _ _ HF k nm En) as (p & P1 & P2).
  destruct (attached_cols _ _ _ _ _ _ _ _ HF Hlen R2 HP HR Ha) as (Lc & C1 & C2).
  rewrite Forall_forall in HP. pose proof (HP p (nth_error_In _ _ P1)) as Hp.
  destruct (nth_error (t_cols t) p) as [c|] eqn:Ec; [|apply nth_error_None in Ec; lia].
  pose proof (C2 k p c f Ec P1 Hf) as K.
  assert (KD : Forall2 (keepsd (Z.to_nat (t_rows t))) cols colsF).
  { destruct (Z.eqb_spec (t_rows t) 0) as [Z0|NZ]; [injection HD as <-; apply keepsd_refl|].
    apply bind_ok in HD as (a & A & HD). apply bind_ok in HD as (b & B & HD).
    eapply keepsd_trans; [eapply map_keeps; [|exact A]; intros d d'; apply prefill_keeps; lia|].
    eapply keepsd_trans; [eapply decode_rows_keeps; [|exact B]; lia|]. eapply final_keeps; [lia|exact HD]. }
  destruct (Forall2_some_l _ _ _ KD p _ K) as (d' & E' & Kd). unfold keepsd in Kd. cbn [d_fac] in Kd.
  destruct (d_fac d') as [out|] eqn:Ed; [|contradiction]. exists out. split; [|exact Kd].
  unfold collect. rewrite nth_error_map, En. cbn [option_map]. rewrite P2, Nat2Z.id, E', Ed. reflexivity.
Qed.
Print Assumptions C21_untouched.
