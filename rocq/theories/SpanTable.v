(** The span of one table. *)
From Verif Require Import Base Fp FpProofs Stream StreamProofs StreamLocal Codec Meta Header Table TableProofs DecodeProofs LookupProofs Roundtrip P_Strings RowSpec Spec Reader ReaderProofs FrameDecode P_Tables P_Decode Span SpanProofs.
Open Scope Z_scope.

Definition start_values (k : sort) : values := match k with SInt => VInts [] | SReal => VReals [] | SText => VStrs [] end.

Lemma new_values_ok ty : known_type ty -> new_values ty = Ok (start_values (sort_ty ty)).
Proof.
  intros K. unfold new_values, sort_ty, int_type, real_type in *. rewrite orb_comm. destruct ((ty =? ty_INTEGER) || (ty =? ty_BITFIELD)) eqn:A; [reflexivity|].
  destruct ((ty =? ty_REAL) || (ty =? ty_DOUBLE)) eqn:B; [reflexivity|]. unfold known_type, int_type, real_type in K.
  destruct K as [K|[K|K]]; try congruence. subst ty. reflexivity.
Qed.
Lemma start_values_none k x : ~ is_in x (start_values k).
Proof. destruct x, k; cbn; auto; intros (? & [] & _). Qed.
Lemma start_values_sort k : sort_of (start_values k) = k. Proof. now destruct k. Qed.
Lemma start_values_clean k : clean (start_values k). Proof. destruct k; cbn; auto. constructor. Qed.

Definition unvisited (c : column) : scol := {| v_codec := col_coder c; v_type := col_type c; v_visit := None |}.
Definition visited (nm : list Z) (c : scol) : scol :=
  {| v_codec := v_codec c; v_type := v_type c; v_visit := Some {| v_name := nm; v_values := start_values (sort_ty (v_type c)) |} |}.

Lemma visit_ok full simple : forall names ps cols,
  Forall2 (fun nm p => lookup_name full simple nm = Ok (Z.of_nat p)) names ps -> NoDup ps ->
  Forall (fun p => exists c, nth_error cols p = Some c /\ known_type (v_type c)) ps ->
  exists cols', visit_columns full simple names cols = Ok cols' /\ List.length cols' = List.length cols /\
    (forall i, ~ In i ps -> nth_error cols' i = nth_error cols i) /\
    (forall k p nm c, nth_error ps k = Some p -> nth_error names k = Some nm -> nth_error cols p = Some c -> nth_error cols' p = Some (visited nm c)).
Proof.
  induction names as [|nm names IH]; intros ps cols HF HN HP.
  - inversion HF; subst. exists cols. cbn. split; [reflexivity|]. split; [reflexivity|]. split; [auto|]. intros [|k]; discriminate.
  - inversion HF as [|? p ? ps' Hp HF']; subst. inversion HN as [|? ? Hnin HN']; subst. inversion HP as [|? ? (c & Ec & Kc) HP']; subst.
    cbn [visit_columns]. rewrite Hp. cbn [bind]. rewrite Nat2Z.id, Ec, (new_values_ok _ Kc). cbn [bind]. fold (visited nm c).
    assert (Hlt : (p < List.length cols)%nat) by (apply nth_error_Some; congruence).
    destruct (IH ps' (list_set cols p (visited nm c))) as (cols' & E & L & A & B); auto.
    + apply Forall_forall. intros q Hq. rewrite Forall_forall in HP'. destruct (HP' q Hq) as (d & Eq & Fq).
      exists d. rewrite nth_error_list_set by assumption. destruct (Nat.eqb_spec q p); [subst; contradiction|]. auto.
    + exists cols'. split; [exact E|]. rewrite list_set_length in L. split; [exact L|]. split.
      * intros i Hi. rewrite A by (cbn in Hi; tauto). rewrite nth_error_list_set by assumption.
        destruct (Nat.eqb_spec i p); [subst; cbn in Hi; tauto|reflexivity].
      * intros [|k] q nm' e H1 H2 H3; cbn in H1, H2.
        { inversion H1; inversion H2; subst. rewrite A by assumption. rewrite nth_error_list_set by assumption. rewrite Nat.eqb_refl. congruence. }
        { apply (B k q nm' e H1 H2). rewrite nth_error_list_set by assumption. destruct (Nat.eqb_spec q p) as [Q|Q]; [|exact H3].
          subst q. exfalso. apply Hnin. eapply nth_error_In; exact H1. }
Qed.

Lemma buffer_ge cols : 1 <= buffer_doubles cols /\ forall c, In c cols -> v_visit c <> None -> v_type c = ty_STRING -> data_size_doubles (v_codec c) <= buffer_doubles cols.
Proof.
  induction cols as [|d cols [IH1 IH2]]; cbn [buffer_doubles]; [split; [lia|]; intros c []|]. destruct (v_visit d) eqn:V.
  - destruct (Z.eqb_spec (v_type d) ty_STRING).
    + split; [lia|]. intros c [<-|Hc] A B; [lia|]. specialize (IH2 c Hc A B). lia.
    + split; [lia|]. intros c [<-|Hc] A B; [congruence|]. exact (IH2 c Hc A B).
  - split; [lia|]. intros c [<-|Hc] A B; [congruence|]. exact (IH2 c Hc A B).
Qed.

(** the visited columns of a list have different names, free for all sorts in the span *)
Lemma update_span_ok : forall cols s, wf s -> Forall col_ok cols ->
  (forall i j ci cj vi vj, nth_error cols i = Some ci -> nth_error cols j = Some cj -> v_visit ci = Some vi -> v_visit cj = Some vj -> v_name vi = v_name vj -> i = j) ->
  (forall c v, In c cols -> v_visit c = Some v -> forall k, free_for s (v_name v) k) ->
  exists s', update_span s cols = Ok s' /\ wf s' /\ sp_start s' = sp_start s /\ sp_length s' = sp_length s /\
    (forall nm x, has s' nm x <-> has s nm x \/ exists c v, In c cols /\ v_visit c = Some v /\ v_name v = nm /\ is_in x (v_values v)) /\
    (forall nm k, free_for s' nm k <-> free_for s nm k /\ forall c v, In c cols -> v_visit c = Some v -> v_name v = nm -> k = sort_ty (v_type c)).
Proof.
  induction cols as [|c cols IH]; intros s W O D F; cbn [update_span].
  - exists s. split; [reflexivity|]. split; [exact W|]. split; [reflexivity|]. split; [reflexivity|]. split.
    + intros nm x. split; [auto|]. intros [H|(? & ? & [] & _)]. exact H.
    + intros nm k. split; [intros H; split; [exact H|]; intros ? ? []|]. tauto.
  - inversion O as [|? ? O1 O2]; subst. destruct (v_visit c) as [v|] eqn:V.
    + pose proof O1 as O1'. unfold col_ok in O1'. rewrite V in O1'. destruct O1' as (K & So & Cl).
      destruct (add_values_ok s (v_name v) (v_values v) W Cl (F c v (or_introl eq_refl) V _)) as (s1 & E & W1 & A1 & A2 & H1 & F1).
      rewrite E. cbn [bind]. destruct (IH s1 W1 O2) as (s2 & E2 & W2 & B1 & B2 & H2 & F2).
      { intros i j ci cj vi vj I1 I2 V1 V2 Q. assert (S i = S j) by (eapply D; eassumption). lia. }
      { intros c' v' Hc' V' k. rewrite F1. split; [apply (F c' v' (or_intror Hc') V')|]. intros Q. apply In_nth_error in Hc' as (j & Hj).
        assert (S j = 0%nat); [|discriminate]. apply (D (S j) 0%nat c' c v' v); auto. }
      exists s2. split; [exact E2|]. split; [exact W2|]. split; [congruence|]. split; [congruence|]. split.
      * intros nm x. rewrite H2, H1. split.
        { intros [[H|[-> H]]|(c' & v' & A & B & G & H)]; [now left|right; exists c, v; repeat split; auto; now left|right; exists c', v'; repeat split; auto; now right]. }
        { intros [H|(c' & v' & [<-|A] & B & G & H)]; [auto| |right; exists c', v'; auto]. rewrite V in B. injection B as <-. left. right. auto. }
      * intros nm k. rewrite F2, F1. rewrite So. split.
        { intros [[H H'] G]. split; [exact H|]. intros c' v' [<-|A] B Q; [rewrite V in B; injection B as <-; auto|eapply G; eassumption]. }
        { intros [H G]. split; [split; [exact H|]|]; [intros Q; eapply G; [now left|eassumption|auto]|]. intros c' v' A B Q. eapply G; [now right|eassumption|auto]. }
    + destruct (IH s W O2) as (s2 & E2 & W2 & B1 & B2 & H2 & F2).
      { intros i j ci cj vi vj I1 I2 V1 V2 Q. assert (S i = S j) by (eapply D; eassumption). lia. }
      { intros c' v' Hc' V'. exact (F c' v' (or_intror Hc') V'). }
      exists s2. split; [exact E2|]. split; [exact W2|]. split; [exact B1|]. split; [exact B2|]. split.
      * intros nm x. rewrite H2. split; (intros [H|(c' & v' & A & B & G & H)]; [now left|right; exists c', v']).
        { repeat split; auto. now right. }
        { destruct A as [<-|A]; [congruence|]. auto. }
      * intros nm k. rewrite F2. split; intros [H G]; (split; [exact H|]); intros c' v' A B; [destruct A as [<-|A]; [congruence|]; eauto|eapply G; [now right|exact B]].
Qed.

Lemma empty_wf t : wf (empty_span t). Proof. constructor; cbn; try constructor. intros nm l H. discriminate. Qed.
Lemma empty_free t nm k : free_for (empty_span t) nm k. Proof. repeat split. Qed.
Lemma empty_has t nm x : ~ has (empty_span t) nm x.
Proof. destruct x; cbn; auto. intros (? & [] & _). Qed.

(** ** Table::decodeSpan *)

(** a column whose values can be collected one by one *)
Definition collectable (c : column) : Prop :=
  known_type (col_type c) /\
  (if chars_based (c_kind (col_coder c))
   then col_type c = ty_STRING /\ 0 <= c_dsd (col_coder c) /\ 8 * c_dsd (col_coder c) < 2 ^ 64
   else True).

Lemma cell_width c s cell s' : collectable c -> decode (col_coder c) s = Ok (cell, s') ->
  Z.of_nat (List.length cell) = 8 * data_size_doubles (col_coder c).
Proof.
  intros [_ C] D. eapply decode_width; [| |exact D]; unfold data_size_doubles; destruct (chars_based _); try tauto; lia.
Qed.

Lemma cells_stream_nth ks cells s s' : cells_stream ks cells s s' -> forall i k cell, nth_error ks i = Some k -> nth_error cells i = Some cell ->
  exists s1 s2, decode k s1 = Ok (cell, s2).
Proof.
  induction 1 as [|k ks cell cells s s1 s2 D H IH]; intros [|i] k0 c0 A B; try discriminate; [injection A as <-; injection B as <-; eauto|eauto].
Qed.

Lemma stored_decode ks rows s rest : row_stream ks rows s rest -> forall i r cell k, stored rows i r = Some cell -> nth_error ks i = Some k ->
  exists s1 s2, decode k s1 = Ok (cell, s2).
Proof.
  induction 1 as [s|start cells rows m s1 s2 s3 Lm Mv Ls CS RS IH]; intros i r cell k St K.
  - unfold stored in St. destruct r; discriminate.
  - destruct r as [|r]; [|exact (IH i r cell k St K)]. unfold stored in St. cbn [nth_error] in St. destruct (Nat.leb_spec start i); [|discriminate].
    eapply cells_stream_nth; [exact CS| |exact St]. rewrite <- (firstn_skipn start ks) in K. rewrite nth_error_app2 in K by (rewrite firstn_length; lia).
    rewrite firstn_length, Nat.min_l in K by lia. exact K.
Qed.

Lemma decode_span_ok iad file t names ps rows buf rest :
  NoDup (map col_name (t_cols t)) ->
  Forall2 (fun nm p => select (map col_name (t_cols t)) nm = Some p) names ps -> NoDup ps -> NoDup names ->
  read_encoded file false t = Ok buf -> t_rows t = Z.of_nat (List.length rows) ->
  row_stream (map col_coder (t_cols t)) rows buf rest ->
  (forall p c, In p ps -> nth_error (t_cols t) p = Some c -> collectable c /\
     forall r cell, stored rows p r = Some cell -> readable iad (col_type c) cell) ->
  exists s, decode_span iad file t names = Ok s /\ wf s /\ sp_start s = t_start t /\ sp_length s = t_next t - t_start t /\
    (forall nm x, has s nm x <-> exists k p c, nth_error names k = Some nm /\ nth_error ps k = Some p /\ nth_error (t_cols t) p = Some c /\
       exists r cell, stored rows p r = Some cell /\ reads iad (col_type c) cell x) /\
    (forall nm k, free_for s nm k <-> forall j p c, nth_error names j = Some nm -> nth_error ps j = Some p -> nth_error (t_cols t) p = Some c -> k = sort_ty (col_type c)).
Proof.
  intros ND HF HN NN Hbuf Hrows HS HC. unfold decode_span.
  destruct (column_lookup_ok (t_cols t) ND) as (full & simple & EL & LK). rewrite EL. cbn [bind].
  assert (HF' : Forall2 (fun nm p => lookup_name full simple nm = Ok (Z.of_nat p)) names ps).
  { eapply Forall2_weaken; [|exact HF]. intros nm p Hs. rewrite LK. unfold names_of. now rewrite Hs. }
  assert (HP : forall p, In p ps -> exists c, nth_error (t_cols t) p = Some c).
  { clear -HF. induction HF as [|nm p names ps H HF IH]; intros q Hq; [destruct Hq|]. destruct Hq as [<-|Hq]; [|auto].
    apply select_lt in H. rewrite map_length in H. destruct (nth_error (t_cols t) p) eqn:E; [eauto|]. apply nth_error_None in E. lia. }
  change (fun c : column => {| v_codec := col_coder c; v_type := col_type c; v_visit := None |}) with unvisited.
  assert (Len : List.length names = List.length ps) by (eapply Forall2_length; exact HF).
  destruct (visit_ok full simple names ps (map unvisited (t_cols t)) HF' HN) as (cols & E & L & V1 & V2).
  { apply Forall_forall. intros p Hp. destruct (HP p Hp) as (c & Hc). exists (unvisited c). rewrite nth_error_map, Hc. split; [reflexivity|]. apply (HC p c Hp Hc). }
  rewrite E. cbn [bind]. rewrite Hbuf. cbn [bind]. rewrite Hrows, Nat2Z.id. rewrite map_length in L.
  (* what the visited columns are *)
  assert (Col : forall i d, nth_error cols i = Some d -> exists c, nth_error (t_cols t) i = Some c /\
    ((~ In i ps /\ d = unvisited c) \/ exists k nm, nth_error ps k = Some i /\ nth_error names k = Some nm /\ d = visited nm (unvisited c))).
  { intros i d Hd. assert (Hi : (i < List.length (t_cols t))%nat) by (rewrite <- L; apply nth_error_Some; congruence).
    destruct (nth_error (t_cols t) i) as [c|] eqn:Ec; [|apply nth_error_None in Ec; lia]. exists c. split; [reflexivity|].
    assert (Eu : nth_error (map unvisited (t_cols t)) i = Some (unvisited c)) by (rewrite nth_error_map, Ec; reflexivity).
    destruct (in_dec Nat.eq_dec i ps) as [Q|Q].
    - right. apply In_nth_error in Q as (k & Hk). assert (Hk' : (k < List.length names)%nat) by (rewrite Len; apply nth_error_Some; congruence).
      destruct (nth_error names k) as [nm|] eqn:En; [|apply nth_error_None in En; lia]. exists k, nm. split; [exact Hk|]. split; [exact En|].
      rewrite (V2 k i nm _ Hk En Eu) in Hd. congruence.
    - left. split; [exact Q|]. rewrite (V1 i Q), Eu in Hd. congruence. }
  assert (CK : map v_codec cols = map col_coder (t_cols t)).
  { apply nth_ext_error. intros i. rewrite !nth_error_map. destruct (nth_error cols i) as [d|] eqn:Hd.
    - destruct (Col i d Hd) as (c & Hc & [[_ ->]|(k & nm & _ & _ & ->)]); rewrite Hc; reflexivity.
    - apply nth_error_None in Hd. assert (Q : nth_error (t_cols t) i = None) by (apply nth_error_None; lia). now rewrite Q. }
  assert (CO : Forall col_ok cols).
  { apply Forall_forall. intros d Hd. apply In_nth_error in Hd as (i & Hd). destruct (Col i d Hd) as (c & Hc & [[_ ->]|(k & nm & Hk & _ & ->)]); [exact I|].
    unfold col_ok, visited. cbn [v_visit v_type v_values unvisited]. split; [apply (HC i c); [eapply nth_error_In; exact Hk|exact Hc]|].
    split; [apply start_values_sort|apply start_values_clean]. }
  destruct (buffer_ge cols) as [BG1 BG2].
  destruct (span_rows_ok iad (8 * buffer_doubles cols) _ _ _ _ HS cols CK CO) as (cols' & E' & L' & G).
  { intros i d r cell Hd St Vd. destruct (Col i d Hd) as (c & Hc & [[_ ->]|(k & nm & Hk & _ & Ed)]); [cbn in Vd; congruence|].
    assert (Ip : In i ps) by (eapply nth_error_In; exact Hk). destruct (HC i c Ip Hc) as [C1 C2].
    assert (Hk' : nth_error (map col_coder (t_cols t)) i = Some (col_coder c)) by (rewrite nth_error_map, Hc; reflexivity).
    destruct (stored_decode _ _ _ _ HS i r cell _ St Hk') as (s1 & s2 & D). pose proof (cell_width c s1 cell s2 C1 D) as Wd.
    assert (Ty : v_type d = col_type c) by (rewrite Ed; reflexivity). assert (Cd : v_codec d = col_coder c) by (rewrite Ed; reflexivity).
    rewrite Ty, Cd. split; [|split; [exact (C2 r cell St)|auto]]. rewrite Wd. destruct (Z.eq_dec (col_type c) ty_STRING) as [Q|Q].
    - apply Z.mul_le_mono_nonneg_l; [lia|]. rewrite <- Cd. apply BG2; [eapply nth_error_In; exact Hd|exact Vd|congruence].
    - destruct C1 as [_ C1]. unfold data_size_doubles. destruct (chars_based (c_kind (col_coder c))); [destruct C1; contradiction|lia]. }
  rewrite E'. cbn [bind].
  (* the columns after the rows *)
  assert (Col' : forall i d', nth_error cols' i = Some d' -> exists c, nth_error (t_cols t) i = Some c /\ v_type d' = col_type c /\
    ((~ In i ps /\ v_visit d' = None) \/ exists k nm v, nth_error ps k = Some i /\ nth_error names k = Some nm /\ v_visit d' = Some v /\ v_name v = nm /\
       forall x, is_in x (v_values v) <-> exists r cell, stored rows i r = Some cell /\ reads iad (col_type c) cell x)).
  { intros i d' Hd'. assert (Hi : (i < List.length cols)%nat) by (rewrite <- L'; apply nth_error_Some; congruence).
    destruct (nth_error cols i) as [d|] eqn:Hd; [|apply nth_error_None in Hd; lia]. destruct (G i d Hd) as (d2 & Hd2 & Gr). rewrite Hd' in Hd2. injection Hd2 as <-.
    destruct (Col i d Hd) as (c & Hc & Q). exists c. split; [exact Hc|]. destruct Gr as (_ & Ty & Gr).
    destruct Q as [[Q ->]|(k & nm & Hk & Hn & ->)]; cbn [unvisited visited v_type v_visit] in Ty, Gr; (split; [exact Ty|]).
    - left. split; [exact Q|]. destruct (v_visit d'); [contradiction|reflexivity].
    - right. destruct (v_visit d') as [v|]; [|contradiction]. exists k, nm, v. destruct Gr as (A & _ & _ & D). cbn [v_name v_values] in A, D.
      repeat (split; [assumption||reflexivity|]). intros x. rewrite D. split; [intros [Z0|Z0]; [destruct (start_values_none _ _ Z0)|exact Z0]|auto]. }
  destruct (update_span_ok cols' (empty_span t) (empty_wf t)) as (s & Es & Ws & S1 & S2 & Hs & Fs).
  { apply Forall_forall. intros d' Hd'. apply In_nth_error in Hd' as (i & Hd'). assert (Hi : (i < List.length cols)%nat) by (rewrite <- L'; apply nth_error_Some; congruence).
    destruct (nth_error cols i) as [d|] eqn:Hd; [|apply nth_error_None in Hd; lia]. destruct (G i d Hd) as (d2 & Hd2 & Gr). rewrite Hd' in Hd2. injection Hd2 as <-.
    eapply grown_col_ok; [exact Gr|]. rewrite Forall_forall in CO. apply CO. eapply nth_error_In; exact Hd. }
  { intros i j di dj vi vj Hi Hj Vi Vj Q. destruct (Col' i di Hi) as (ci & Hci & _ & [[_ N]|(k & nm & v & Hk & Hn & Vv & Nv & _)]); [congruence|].
    destruct (Col' j dj Hj) as (cj & Hcj & _ & [[_ N]|(k2 & nm2 & v2 & Hk2 & Hn2 & Vv2 & Nv2 & _)]); [congruence|].
    assert (v = vi) by congruence. assert (v2 = vj) by congruence. subst v v2. assert (nm = nm2) by congruence. subst nm2.
    assert (k = k2). { eapply NoDup_nth_error; [exact NN|apply nth_error_Some; congruence|congruence]. } subst k2. congruence. }
  { intros. apply empty_free. }
  exists s. split; [exact Es|]. split; [exact Ws|]. split; [exact S1|]. split; [exact S2|].
  assert (Fwd : forall k nm p c, nth_error names k = Some nm -> nth_error ps k = Some p -> nth_error (t_cols t) p = Some c ->
    exists d' v, In d' cols' /\ v_visit d' = Some v /\ v_name v = nm /\ v_type d' = col_type c /\
      forall x, is_in x (v_values v) <-> exists r cell, stored rows p r = Some cell /\ reads iad (col_type c) cell x).
  { intros k nm p c Hn Hp Hc. assert (Hi : (p < List.length cols')%nat) by (rewrite L', L; apply nth_error_Some; congruence).
    destruct (nth_error cols' p) as [d'|] eqn:Hd'; [|apply nth_error_None in Hd'; lia].
    destruct (Col' p d' Hd') as (c' & Hc' & Ty & [[N _]|(k2 & nm2 & v & Hk2 & Hn2 & Vv & Nv & X)]); [exfalso; apply N; eapply nth_error_In; exact Hp|].
    rewrite Hc in Hc'. injection Hc' as <-. assert (k = k2). { eapply NoDup_nth_error; [exact HN|apply nth_error_Some; congruence|congruence]. } subst k2.
    exists d', v. split; [eapply nth_error_In; exact Hd'|]. split; [exact Vv|]. split; [congruence|]. split; [exact Ty|exact X]. }
  split.
  - intros nm x. rewrite Hs. split.
    + intros [H|(d' & v & Hd' & Vv & Nv & X)]; [destruct (empty_has _ _ _ H)|]. apply In_nth_error in Hd' as (i & Hd').
      destruct (Col' i d' Hd') as (c & Hc & _ & [[_ N]|(k & nm2 & v2 & Hk & Hn & Vv2 & Nv2 & Y)]); [congruence|]. assert (v2 = v) by congruence. subst v2.
      exists k, i, c. split; [congruence|]. split; [exact Hk|]. split; [exact Hc|]. now apply Y.
    + intros (k & p & c & Hn & Hp & Hc & X). right. destruct (Fwd k nm p c Hn Hp Hc) as (d' & v & A & B & D & _ & F). exists d', v.
      split; [exact A|]. split; [exact B|]. split; [exact D|]. now apply F.
  - intros nm k. rewrite Fs. split.
    + intros [_ H] j p c Hn Hp Hc. destruct (Fwd j nm p c Hn Hp Hc) as (d' & v & A & B & D & Ty & _). rewrite <- Ty. exact (H d' v A B D).
    + intros H. split; [apply empty_free|]. intros d' v Hd' Vv Nv. apply In_nth_error in Hd' as (i & Hd').
      destruct (Col' i d' Hd') as (c & Hc & Ty & [[_ N]|(j & nm2 & v2 & Hk & Hn & Vv2 & Nv2 & Y)]); [congruence|]. assert (v2 = v) by congruence. subst v2.
      rewrite Ty. apply (H j i c); [congruence|exact Hk|exact Hc].
Qed.

(** ** Constant columns *)

Lemma in_combine_nth {A B} (a : A) (b : B) : forall la lb, In (a, b) (combine la lb) <-> exists k, nth_error la k = Some a /\ nth_error lb k = Some b.
Proof.
  induction la as [|x la IH]; intros lb; cbn [combine]; [split; [intros []|intros ([|k] & Q & _); discriminate]|].
  destruct lb as [|y lb]; [split; [intros []|intros ([|k] & _ & Q); discriminate]|]. cbn [In]. rewrite IH. split.
  - intros [[= -> ->]|(k & P & Q)]; [exists 0%nat; auto|exists (S k); auto].
  - intros ([|k] & P & Q); [left; cbn in P, Q; congruence|right; exists k; auto].
Qed.

(** what the constant [b] of a column of type [ty] reads as *)
Definition constant_reads (ty b : Z) (x : value) : Prop :=
  if int_type ty then exists n, x = Int n /\ d2z_trunc b = Some n
  else if real_type ty then exists y, x = Real y /\ deq y b = true
  else x = Text (until_nul (le_bytes 8 b)).
Definition constant_ok (ty b : Z) : Prop :=
  known_type ty /\ (int_type ty = true -> exists n, d2z_trunc b = Some n /\ - 2 ^ 63 <= n < 2 ^ 63) /\ (real_type ty = true -> is_nan f64 b = false).

Lemma add_value_ok s nm ty b : wf s -> constant_ok ty b -> free_for s nm (sort_ty ty) ->
  exists s', add_value s nm ty b = Ok s' /\ wf s' /\ sp_start s' = sp_start s /\ sp_length s' = sp_length s /\
    (forall nm' x, has s' nm' x <-> has s nm' x \/ (nm' = nm /\ constant_reads ty b x)) /\
    (forall nm' k, free_for s' nm' k <-> free_for s nm' k /\ (nm' = nm -> k = sort_ty ty)).
Proof.
  intros W (K & C1 & C2) F. unfold add_value. fold (int_type ty). fold (real_type ty). unfold constant_reads, sort_ty in *.
  destruct (int_type ty) eqn:EI; [|destruct (real_type ty) eqn:ER].
  - destruct (C1 eq_refl) as (n & T & Rn). rewrite (trunc_i64 _ _ T Rn). cbn [bind].
    destruct (add_values_ok s nm (VInts [n]) W I F) as (s' & E & W' & A & B & H & G). exists s'. split; [exact E|]. split; [exact W'|]. split; [exact A|]. split; [exact B|].
    split; [|exact G]. intros nm' x. rewrite H. split; (intros [Q|[-> Q]]; [now left|right; split; [reflexivity|]]).
    + destruct x; cbn in Q; try contradiction. destruct Q as [<-|[]]. exists n. auto.
    + destruct Q as (m & -> & Q). cbn. left. congruence.
  - destruct (add_values_ok s nm (VReals [b]) W) as (s' & E & W' & A & B & H & G); [repeat constructor; auto|exact F|]. exists s'.
    split; [exact E|]. split; [exact W'|]. split; [exact A|]. split; [exact B|].
    split; [|exact G]. intros nm' x. rewrite H. split; (intros [Q|[-> Q]]; [now left|right; split; [reflexivity|]]).
    + destruct x; cbn in Q; try contradiction. destruct Q as (z & [<-|[]] & Q). eauto.
    + destruct Q as (y & -> & Q). cbn. exists b. auto.
  - destruct K as [K|[K|K]]; try congruence. replace (ty =? ty_STRING) with true by lia.
    destruct (add_values_ok s nm (VStrs [until_nul (le_bytes 8 b)]) W I F) as (s' & E & W' & A & B & H & G). exists s'. split; [exact E|]. split; [exact W'|]. split; [exact A|]. split; [exact B|].
    split; [|exact G]. intros nm' x. rewrite H. split; (intros [Q|[-> Q]]; [now left|right; split; [reflexivity|]]).
    + destruct x; cbn [is_in In] in Q; try contradiction. destruct Q as [<-|[]]. reflexivity.
    + subst x. cbn [is_in In]. now left.
Qed.

Lemma constant_span_ok t : forall names ps s,
  Forall2 (fun nm p => column_index (t_cols t) nm = Ok (Z.of_nat p)) names ps ->
  NoDup names -> NoDup ps -> wf s -> (forall nm k, In nm names -> free_for s nm k) ->
  (forall p, In p ps -> exists c, nth_error (t_cols t) p = Some c /\ (is_constant c = true -> constant_ok (col_type c) (c_min (col_coder c)))) ->
  exists s' rest rps, constant_span t names s = Ok (s', rest) /\ wf s' /\ sp_start s' = sp_start s /\ sp_length s' = sp_length s /\
    (forall nm x, has s' nm x <-> has s nm x \/ exists p c, In (nm, p) (combine names ps) /\ nth_error (t_cols t) p = Some c /\ is_constant c = true /\
        constant_reads (col_type c) (c_min (col_coder c)) x) /\
    (forall nm k, free_for s' nm k <-> free_for s nm k /\ forall p c, In (nm, p) (combine names ps) -> nth_error (t_cols t) p = Some c -> is_constant c = true -> k = sort_ty (col_type c)) /\
    List.length rest = List.length rps /\ NoDup rest /\ NoDup rps /\ incl rest names /\ incl rps ps /\
    (forall nm p, In (nm, p) (combine rest rps) <-> In (nm, p) (combine names ps) /\ exists c, nth_error (t_cols t) p = Some c /\ is_constant c = false).
Proof.
  induction names as [|nm names IH]; intros ps s HF NN NP W F C; inversion HF as [|? p ? ps' Hp HF']; subst.
  - exists s, [], []. cbn. split; [reflexivity|]. split; [exact W|]. split; [reflexivity|]. split; [reflexivity|].
    split; [intros; split; [auto|]; intros [H|(? & ? & [] & _)]; exact H|].
    split; [intros; split; [intros H; split; [exact H|]; intros ? ? []|tauto]|]. split; [reflexivity|]. split; [constructor|]. split; [constructor|].
    split; [intros ? []|]. split; [intros ? []|]. intros; tauto.
  - inversion NN as [|? ? Nn NN']; subst. inversion NP as [|? ? Np NP']; subst. destruct (C p (or_introl eq_refl)) as (c & Hc & Cc).
    cbn [constant_span]. rewrite Hp. cbn [bind]. rewrite Nat2Z.id, Hc. destruct (is_constant c) eqn:IC.
    + destruct (add_value_ok s nm _ _ W (Cc eq_refl) (F nm _ (or_introl eq_refl))) as (s1 & E1 & W1 & A1 & A2 & H1 & F1). rewrite E1. cbn [bind].
      destruct (IH ps' s1 HF' NN' NP' W1) as (s' & rest & rps & E & W' & B1 & B2 & H' & F' & L & N1 & N2 & I1 & I2 & X).
      { intros nm' k Hn. rewrite F1. split; [apply F; now right|]. intros ->. contradiction. }
      { intros q Hq. apply C. now right. }
      exists s', rest, rps. split; [exact E|]. split; [exact W'|]. split; [congruence|]. split; [congruence|]. split; [|split; [|split; [|split; [|split; [|split; [|split]]]]]]; auto.
      * intros nm' x. rewrite H', H1. cbn [combine In]. split.
        { intros [[H|[-> H]]|(q & d & A & B & D & H)]; [now left|right; exists p, c; auto|right; exists q, d; auto]. }
        { intros [H|(q & d & [Eq|A] & B & D & H)]; [auto| |right; exists q, d; auto]. injection Eq as -> ->. left. right. split; [reflexivity|]. rewrite Hc in B. injection B as <-. exact H. }
      * intros nm' k. rewrite F', F1. cbn [combine In]. split.
        { intros [[H G] G']. split; [exact H|]. intros q d [[= -> ->]|A] B D; [rewrite Hc in B; injection B as <-; auto|eapply G'; eassumption]. }
        { intros [H G]. split; [split; [exact H|]|]; [intros ->; apply (G p c); auto|]. intros q d A B D. eapply G; eauto. }
      * intros q Hq. right. auto.
      * intros q Hq. right. auto.
      * intros nm' q. rewrite X. cbn [combine In]. split; [intros [A B]; auto|]. intros [[[= -> ->]|A] (d & B & D)]; [congruence|]. split; [exact A|eauto].
    + destruct (IH ps' s HF' NN' NP' W) as (s' & rest & rps & E & W' & B1 & B2 & H' & F' & L & N1 & N2 & I1 & I2 & X).
      { intros nm' k Hn. apply F; now right. }
      { intros q Hq. apply C. now right. }
      rewrite E. cbn [bind]. exists s', (nm :: rest), (p :: rps). split; [reflexivity|]. split; [exact W'|]. split; [congruence|]. split; [congruence|]. split; [|split; [|split; [|split; [|split; [|split; [|split]]]]]].
      * intros nm' x. rewrite H'. cbn [combine In]. split; (intros [H|(q & d & A & B & D & H)]; [now left|right; exists q, d]); [auto|].
        destruct A as [[= -> ->]|A]; [congruence|auto].
      * intros nm' k. rewrite F'. cbn [combine In]. split; intros [H G]; (split; [exact H|]); intros q d A B D; [destruct A as [[= -> ->]|A]; [congruence|eauto]|eapply G; eauto].
      * cbn. now rewrite L.
      * constructor; [|exact N1]. intros H. apply Nn. now apply I1.
      * constructor; [|exact N2]. intros H. apply Np. now apply I2.
      * intros q [<-|Hq]; [now left|right; auto].
      * intros q [<-|Hq]; [now left|right; auto].
      * intros nm' q. cbn [combine In]. rewrite X. split.
        { intros [[= -> ->]|[A B]]; [split; [now left|eauto]|auto]. }
        { intros [[[= -> ->]|A] B]; auto. }
Qed.

(** ** Table::span *)

(** A column the encoder of this library makes: a type it knows, a codec of that type, and
    not a constant string of more than 8 bytes. *)
Definition plain (iad : bool) (c : column) : Prop :=
  let k := col_coder c in
  known_type (col_type c) /\
  match c_kind k with
  | KLongConstantString => False
  | KConstant => 0 <= c_min k < 2 ^ 64 /\ c_int64 k = int_type (col_type c) && negb iad
  | KConstantString => 0 <= c_min k < 2 ^ 64 /\ col_type c = ty_STRING
  | KChars | KInt8String | KInt16String => col_type c = ty_STRING /\ 0 <= c_dsd k /\ 8 * c_dsd k < 2 ^ 64
  | _ => True
  end.

Lemma plain_collectable iad c : plain iad c -> is_constant c = false -> collectable c.
Proof. unfold plain, is_constant, collectable. intros [K H] N. split; [exact K|]. destruct (c_kind (col_coder c)); cbn [chars_based]; try exact I; try discriminate; exact H. Qed.

Lemma signed_small n : - 2 ^ 63 <= n < 2 ^ 63 -> signed 64 (n mod 2 ^ 64) = n.
Proof.
  intros H. unfold signed. change (2 ^ (64 - 1)) with (2 ^ 63).
  destruct (Z.lt_ge_cases n 0) as [N|N].
  - replace (n mod 2 ^ 64) with (n + 2 ^ 64) by (symmetry; rewrite <- (Z.mod_add n 1) by lia; apply Z.mod_small; lia).
    destruct (Z.ltb_spec (n + 2 ^ 64) (2 ^ 63)); lia.
  - rewrite Z.mod_small by lia. destruct (Z.ltb_spec n (2 ^ 63)); lia.
Qed.

Lemma plain_constant iad c s cell s' : plain iad c -> is_constant c = true -> decode (col_coder c) s = Ok (cell, s') -> readable iad (col_type c) cell ->
  constant_ok (col_type c) (c_min (col_coder c)) /\ forall x, reads iad (col_type c) cell x <-> constant_reads (col_type c) (c_min (col_coder c)) x.
Proof.
  unfold plain, is_constant, decode. intros [K P] IC D [R1 R2]. set (k := col_coder c) in *. set (ty := col_type c) in *.
  assert (Main : 0 <= c_min k < 2 ^ 64 -> (int_type ty = true -> iad = true) -> cell = le_bytes 8 (c_min k) ->
    constant_ok ty (c_min k) /\ forall x, reads iad ty cell x <-> constant_reads ty (c_min k) x).
  { intros Rm Hi ->. assert (V : le_val (firstn 8 (le_bytes 8 (c_min k))) = c_min k).
    { rewrite firstn_all2 by (rewrite le_bytes_length; lia). apply le_val_small. exact Rm. }
    rewrite V in R1, R2. split.
    - split; [exact K|]. split; [intros Q; apply R1; auto|exact R2].
    - intros x. unfold reads, constant_reads. rewrite V. destruct (int_type ty) eqn:Q; [rewrite (Hi eq_refl); reflexivity|]. destruct (real_type ty); reflexivity. }
  destruct (c_kind k) eqn:EK; try discriminate; try contradiction.
  - apply bind_ok in D as (cell' & Es & D). injection D as -> ->. destruct P as [Rm Hc]. unfold store_value in Es. rewrite Hc in Es.
    destruct (int_type ty) eqn:Q; [destruct iad|]; cbn [andb negb] in Es.
    + apply Main; auto. congruence.
    + apply bind_ok in Es as (n & En & Es). assert (cell = le_bytes 8 n) by congruence. subst cell. clear Es. apply i64_trunc in En as [T Rn]. split.
      * split; [exact K|]. split; [intros _; eauto|]. unfold int_type, real_type in *. intros Q'. exfalso.
        apply orb_true_iff in Q as [Q|Q], Q' as [Q'|Q']; apply Z.eqb_eq in Q, Q'; rewrite Q in Q'; discriminate.
      * intros x. unfold reads, constant_reads. rewrite Q. rewrite firstn_all2 by (rewrite le_bytes_length; lia). rewrite le_val_le_bytes.
        change (256 ^ Z.of_nat 8) with (2 ^ 64). rewrite signed_small by exact Rn. rewrite T. split; intros (m & -> & H); exists m; split; congruence.
    + apply Main; [exact Rm|discriminate|congruence].
  - injection D as <- ->. destruct P as [Rm Hc]. apply Main; [exact Rm|rewrite Hc; discriminate|reflexivity].
Qed.

Theorem table_span_ok iad file t names ps rows buf rest :
  NoDup (map col_name (t_cols t)) ->
  Forall2 (fun nm p => select (map col_name (t_cols t)) nm = Some p) names ps ->
  Forall2 (fun nm p => column_index (t_cols t) nm = Ok (Z.of_nat p)) names ps -> NoDup ps -> NoDup names ->
  read_encoded file false t = Ok buf -> t_rows t = Z.of_nat (List.length rows) ->
  row_stream (map col_coder (t_cols t)) rows buf rest ->
  (forall p c, In p ps -> nth_error (t_cols t) p = Some c -> plain iad c /\ (exists r cell, stored rows p r = Some cell) /\
     forall r cell, stored rows p r = Some cell -> readable iad (col_type c) cell) ->
  exists s, table_span iad file t names false = Ok s /\ wf s /\ sp_start s = t_start t /\ sp_length s = t_next t - t_start t /\
    (forall nm x, has s nm x <-> exists k p c, nth_error names k = Some nm /\ nth_error ps k = Some p /\ nth_error (t_cols t) p = Some c /\
       exists r cell, stored rows p r = Some cell /\ reads iad (col_type c) cell x) /\
    (forall nm k, free_for s nm k <-> forall j p c, nth_error names j = Some nm -> nth_error ps j = Some p -> nth_error (t_cols t) p = Some c -> k = sort_ty (col_type c)).
Proof.
  intros ND HF HX HN NN Hbuf Hrows HS HC. unfold table_span.
  assert (HP : forall p, In p ps -> exists c, nth_error (t_cols t) p = Some c).
  { clear -HF. induction HF as [|nm p names ps H HF IH]; intros q Hq; [destruct Hq|]. destruct Hq as [<-|Hq]; [|auto].
    apply select_lt in H. rewrite map_length in H. destruct (nth_error (t_cols t) p) eqn:E; [eauto|]. apply nth_error_None in E. lia. }
  assert (Dec : forall p c r cell, nth_error (t_cols t) p = Some c -> stored rows p r = Some cell -> exists s1 s2, decode (col_coder c) s1 = Ok (cell, s2)).
  { intros p c r cell Hc St. eapply stored_decode; [exact HS|exact St|]. rewrite nth_error_map, Hc. reflexivity. }
  destruct (constant_span_ok t names ps (empty_span t) HX NN HN (empty_wf t)) as (s1 & rest' & rps & E & W & A1 & A2 & H1 & F1 & L & N1 & N2 & I1 & I2 & X).
  { intros. apply empty_free. }
  { intros p Hp. destruct (HP p Hp) as (c & Hc). exists c. split; [exact Hc|]. intros IC. destruct (HC p c Hp Hc) as (Pl & (r & cell & St) & Rd).
    destruct (Dec p c r cell Hc St) as (s1 & s2 & D). apply (plain_constant iad c s1 cell s2 Pl IC D (Rd r cell St)). }
  rewrite E. cbn [bind].
  assert (CR : forall p c, In p ps -> nth_error (t_cols t) p = Some c -> is_constant c = true ->
    forall x, constant_reads (col_type c) (c_min (col_coder c)) x <-> exists r cell, stored rows p r = Some cell /\ reads iad (col_type c) cell x).
  { intros p c Hp Hc IC x. destruct (HC p c Hp Hc) as (Pl & (r & cell & St) & Rd). split.
    - intros Q. exists r, cell. split; [exact St|]. destruct (Dec p c r cell Hc St) as (s2 & s3 & D). now apply (plain_constant iad c s2 cell s3 Pl IC D (Rd r cell St)).
    - intros (r' & cell' & St' & Q). destruct (Dec p c r' cell' Hc St') as (s2 & s3 & D). now apply (plain_constant iad c s2 cell' s3 Pl IC D (Rd r' cell' St')) in Q. }
  assert (Inps : forall nm p, In (nm, p) (combine names ps) -> In p ps) by (intros nm p Q; eapply in_combine_r; exact Q).
  assert (R2 : Forall2 (fun nm p => select (map col_name (t_cols t)) nm = Some p) rest' rps).
  { apply Forall2_nth; [exact L|]. intros i nm p A B. assert (Q : In (nm, p) (combine rest' rps)) by (apply in_combine_nth; eauto).
    apply X in Q as [Q _]. apply in_combine_nth in Q as (k & K1 & K2). clear -HF K1 K2. revert k K1 K2. induction HF; intros [|k] K1 K2; try discriminate; [cbn in K1, K2; congruence|eauto]. }
  assert (Zero : rest' = [] -> forall nm p c, In (nm, p) (combine names ps) -> nth_error (t_cols t) p = Some c -> is_constant c = true).
  { intros -> nm p c Q Hc. destruct (is_constant c) eqn:IC; [reflexivity|]. assert (B : In (nm, p) (combine [] rps)) by (apply X; eauto). destruct B. }
  destruct rest' as [|n0 rest'].
  - exists s1. split; [reflexivity|]. split; [exact W|]. split; [exact A1|]. split; [exact A2|]. split.
    + intros nm x. rewrite H1. split.
      * intros [Q|(p & c & B & Hc & IC & Q)]; [destruct (empty_has _ _ _ Q)|]. pose proof (Inps _ _ B). apply in_combine_nth in B as (k & K1 & K2).
        exists k, p, c. split; [exact K1|]. split; [exact K2|]. split; [exact Hc|]. apply (CR p c); auto.
      * intros (k & p & c & K1 & K2 & Hc & Q). right. assert (B : In (nm, p) (combine names ps)) by (apply in_combine_nth; eauto). pose proof (Zero eq_refl _ _ _ B Hc) as IC.
        exists p, c. split; [exact B|]. split; [exact Hc|]. split; [exact IC|]. apply (CR p c); auto. eapply Inps; exact B.
    + intros nm k. rewrite F1. split.
      * intros [_ Q] j p c K1 K2 Hc. assert (B : In (nm, p) (combine names ps)) by (apply in_combine_nth; eauto). exact (Q p c B Hc (Zero eq_refl _ _ _ B Hc)).
      * intros Q. split; [apply empty_free|]. intros p c B Hc _. apply in_combine_nth in B as (j & K1 & K2). eapply Q; eassumption.
  - set (names' := n0 :: rest') in *.
    destruct (decode_span_ok iad file t names' rps rows buf rest ND R2 N2 N1 Hbuf Hrows HS) as (s2 & E2 & W2 & B1 & B2 & H2 & F2).
    { intros p c Hp Hc. destruct (HC p c (I2 _ Hp) Hc) as (Pl & _ & Rd). split; [|exact Rd]. apply (plain_collectable iad); [exact Pl|].
      apply In_nth_error in Hp as (k & Hk). assert (Hn : (k < List.length names')%nat) by (rewrite L; apply nth_error_Some; congruence).
      destruct (nth_error names' k) as [nm|] eqn:En; [|apply nth_error_None in En; lia]. assert (B : In (nm, p) (combine names' rps)) by (apply in_combine_nth; eauto).
      apply X in B as (_ & c' & Hc' & Q). congruence. }
    rewrite E2. cbn [bind].
    assert (Uniq : forall nm p q, In (nm, p) (combine names ps) -> In (nm, q) (combine names ps) -> p = q).
    { intros nm p q P Q. apply in_combine_nth in P as (i & P1 & P2), Q as (j & Q1 & Q2).
      assert (i = j) by (eapply NoDup_nth_error; [exact NN|apply nth_error_Some; congruence|congruence]). congruence. }
    destruct (extend_ok s1 s2 W W2) as (s & Es & Ws & S1 & S2 & Hs & Fs).
    { intros nm.
      assert (Fre : forall k0, ~ free_for s2 nm k0 -> (forall k, free_for s1 nm k)).
      { intros k0 Nf k. apply F1. split; [apply empty_free|]. intros p c B Hc IC. exfalso. apply Nf. apply F2. intros j q d K1 K2 Hd.
        exfalso. assert (B2' : In (nm, q) (combine names' rps)) by (apply in_combine_nth; eauto). apply X in B2' as (B3 & d' & Hd' & Q). rewrite (Uniq nm q p B3 B) in Hd'. congruence. }
      assert (Own : forall k0, (forall k, k <> k0 -> ~ free_for s2 nm k) -> free_for s1 nm k0 /\ free_for s2 nm k0).
      { intros k0 Q. assert (exists k, k <> k0) as (k & Nk) by (destruct k0; [exists SReal|exists SInt|exists SInt]; discriminate).
        split; [exact (Fre k (Q k Nk) k0)|]. apply F2. intros j p c K1 K2 Hc.
        assert (Dk : {k0 = sort_ty (col_type c)} + {k0 <> sort_ty (col_type c)}) by decide equality. destruct Dk as [Dk|Dk]; [exact Dk|]. exfalso.
        apply (Q (sort_ty (col_type c))); [congruence|]. apply F2. intros j' p' c' K1' K2' Hc'.
        assert (j = j') by (eapply NoDup_nth_error; [exact N1|apply nth_error_Some; congruence|congruence]). subst j'. congruence. }
      split; [|split]; intros M; apply Own; intros k Nk (G1 & G2 & G3); apply M; auto. }
    rewrite Es. exists s. split; [reflexivity|]. split; [exact Ws|]. split; [rewrite S1; exact A1|].
    split; [rewrite S2, A1, B1; cbn [sp_start empty_span]; rewrite Z.eqb_refl; exact A2|]. split.
    + intros nm x. rewrite Hs, H1, H2. split.
      * intros [[Q|(p & c & B & Hc & IC & Q)]|(k & p & c & K1 & K2 & Hc & Q)]; [destruct (empty_has _ _ _ Q)| |].
        { pose proof (Inps _ _ B). apply in_combine_nth in B as (k & K1 & K2). exists k, p, c. split; [exact K1|]. split; [exact K2|]. split; [exact Hc|]. apply (CR p c); auto. }
        { assert (B : In (nm, p) (combine names' rps)) by (apply in_combine_nth; eauto). apply X in B as [B _]. apply in_combine_nth in B as (k' & K1' & K2'). exists k', p, c. auto. }
      * intros (k & p & c & K1 & K2 & Hc & Q). assert (B : In (nm, p) (combine names ps)) by (apply in_combine_nth; eauto). destruct (is_constant c) eqn:IC.
        { left. right. exists p, c. split; [exact B|]. split; [exact Hc|]. split; [exact IC|]. apply (CR p c); auto. eapply Inps; exact B. }
        { right. assert (B' : In (nm, p) (combine names' rps)) by (apply X; eauto). apply in_combine_nth in B' as (k' & K1' & K2'). exists k', p, c. auto. }
    + intros nm k. rewrite Fs, F1, F2. split.
      * intros [[_ Q] Q'] j p c K1 K2 Hc. assert (B : In (nm, p) (combine names ps)) by (apply in_combine_nth; eauto). destruct (is_constant c) eqn:IC; [exact (Q p c B Hc IC)|].
        assert (B' : In (nm, p) (combine names' rps)) by (apply X; eauto). apply in_combine_nth in B' as (k' & K1' & K2'). exact (Q' k' p c K1' K2' Hc).
      * intros Q. split; [split; [apply empty_free|]|].
        { intros p c B Hc _. apply in_combine_nth in B as (j & K1 & K2). eapply Q; eassumption. }
        { intros j p c K1 K2 Hc. assert (B : In (nm, p) (combine names' rps)) by (apply in_combine_nth; eauto). apply X in B as [B _]. apply in_combine_nth in B as (j' & K1' & K2'). eapply Q; eassumption. }
Qed.
