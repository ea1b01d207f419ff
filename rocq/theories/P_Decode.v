(** C20 - C22: decoding the rows of a table. *)
From Coq Require Import String.
From Verif Require Import Spec RowSpec Base Fp FpProofs Stream StreamProofs StreamLocal Codec Meta Header Encoder Table
  TableProofs DecodeProofs LookupProofs FrameDecode.
Open Scope Z_scope.

(** ** C20: row compression *)

Lemma latest_shows rows i r : match latest rows i r with
  | Some (r', cell) => shows rows i r r' cell
  | None => unset rows i r end.
Proof.
  induction r as [|r IH]; cbn [latest].
  - destruct (stored rows i 0) as [cell|] eqn:E.
    + split; [lia|]. split; [assumption|]. intros q Hq. lia.
    + intros q Hq. assert (q = 0%nat) as -> by lia. exact E.
  - destruct (stored rows i (S r)) as [cell|] eqn:E.
    + split; [lia|]. split; [assumption|]. intros q Hq. lia.
    + destruct (latest rows i r) as [[r' cell]|].
      * destruct IH as (A & B & C). split; [lia|]. split; [assumption|]. intros q Hq.
        destruct (Nat.eq_dec q (S r)) as [->|]; [assumption|]. apply C. lia.
      * intros q Hq. destruct (Nat.eq_dec q (S r)) as [->|]; [assumption|]. apply IH. lia.
Qed.

Lemma shows_fun rows i r r1 c1 r2 c2 : shows rows i r r1 c1 -> shows rows i r r2 c2 -> r1 = r2 /\ c1 = c2.
Proof.
  intros (A1 & A2 & A3) (B1 & B2 & B3). destruct (Nat.lt_total r1 r2) as [L|[->|L]].
  - rewrite A3 in B2 by lia. discriminate.
  - split; congruence.
  - rewrite B3 in A2 by lia. discriminate.
Qed.

Lemma shows_unset rows i r r1 c1 : shows rows i r r1 c1 -> unset rows i r -> False.
Proof. intros (A1 & A2 & A3) U. rewrite U in A2 by lia. discriminate. Qed.

(** An array wide and long enough for the values of column [p]. *)
Definition fits_rows (rows : list stored_row) (p : nat) (f : facade) : Prop :=
  8 <= f_size f /\ (List.length rows <= List.length (f_elems f))%nat /\
  Forall (fun e => Z.of_nat (List.length e) = f_size f) (f_elems f) /\
  forall r cell, stored rows p r = Some cell -> Z.of_nat (List.length cell) <= f_size f.

Theorem C20_rows : forall file t names facs ps rows buf rest,
  NoDup (map col_name (t_cols t)) ->
  Forall2 (fun nm p => select (map col_name (t_cols t)) nm = Some p) names ps -> NoDup ps ->
  read_encoded file false t = Ok buf -> t_rows t = Z.of_nat (List.length rows) ->
  row_stream (map col_coder (t_cols t)) rows buf rest ->
  Forall2 (fits_rows rows) ps facs ->
  exists outs, decode_target file t names facs = Ok (map Some outs) /\ List.length outs = List.length names /\
    forall k p f out c, nth_error ps k = Some p -> nth_error facs k = Some f -> nth_error outs k = Some out ->
      nth_error (t_cols t) p = Some c ->
      f_size out = f_size f /\ List.length (f_elems out) = List.length (f_elems f) /\
      (forall r, (r < List.length rows)%nat ->
         Z.of_nat (List.length (nth r (f_elems out) [])) = f_size f /\
         (forall r' cell, shows rows p r r' cell -> firstn (List.length cell) (nth r (f_elems out) []) = cell) /\
         (unset rows p r -> firstn 8 (nth r (f_elems out) []) = le_bytes 8 (missing_value (col_coder c)))) /\
      (forall r, (List.length rows <= r)%nat -> nth r (f_elems out) [] = nth r (f_elems f) []).
Proof.
  intros file t names facs ps rows buf rest ND HF HN Hbuf Hrows HS HT.
  destruct (column_lookup_ok (t_cols t) ND) as (full & simple & EL & LK).
  assert (HF' : Forall2 (fun nm p => lookup_name full simple nm = Ok (Z.of_nat p)) names ps).
  { eapply Forall2_weaken; [|exact HF]. intros nm p Hs. rewrite LK. unfold names_of. now rewrite Hs. }
  assert (HP : Forall (fun p => (p < List.length (t_cols t))%nat) ps).
  { clear -HF. induction HF; constructor; auto. apply select_lt in H. now rewrite map_length in H. }
  assert (Hlen : List.length facs = List.length names).
  { rewrite <- (Forall2_length _ _ _ HT), (Forall2_length _ _ _ HF). reflexivity. }
  assert (Hfit : forall k p f, nth_error ps k = Some p -> nth_error facs k = Some f -> fits_rows rows p f).
  { clear -HT. induction HT; intros [|k] p f A B; try discriminate; [inversion A; inversion B; now subst|eauto]. }
  destruct (Nat.eq_dec (List.length rows) 0) as [Z0|NZ].
  - exists facs. split; [eapply decode_target_zero; try eassumption; lia|]. split; [assumption|].
    intros k p f out c Hp Hf Ho Hc. rewrite Hf in Ho. inversion Ho; subst out. repeat split; auto; intros; lia.
  - destruct (decode_target_ok file t names facs ps rows buf rest full simple) as (outs & E & L & D); auto; [lia| |].
    { intros k p f Hp Hf. destruct (Hfit k p f Hp Hf) as (A1 & A2 & A3 & A4). auto. }
    exists outs. split; [exact E|]. split; [exact L|]. intros k p f out c Hp Hf Ho Hc.
    destruct (D k p f out c Hp Hf Ho Hc) as (D1 & D2 & D3 & D4). destruct (Hfit k p f Hp Hf) as (A1 & A2 & A3 & A4).
    split; [exact D1|]. split; [exact D2|]. split; [|exact D4]. intros r Hr. rewrite D3 by exact Hr. unfold spec_elem.
    set (f1 := prefilled (col_coder c) f).
    assert (E2 : List.length (f_elems f1) = List.length (f_elems f)) by (apply list_set_length).
    assert (W1 : Forall (fun e => Z.of_nat (List.length e) = f_size f) (f_elems f1)) by (apply prefilled_elems; auto; lia).
    pose proof (latest_shows rows p r) as LS. destruct (latest rows p r) as [[r' cell]|].
    + pose proof LS as (B1 & B2 & B3). specialize (A4 r' cell B2). split; [|split].
      * apply (written_length f1 r' cell); [lia|exact W1|exact A4].
      * intros r2 c2 S2. destruct (shows_fun _ _ _ _ _ _ _ LS S2) as [_ <-]. unfold written. rewrite firstn_app, Nat.sub_diag, firstn_O, firstn_all, app_nil_r. reflexivity.
      * intros U. destruct (shows_unset _ _ _ _ _ LS U).
    + split; [|split].
      * rewrite Forall_forall in W1. apply W1. apply nth_In. lia.
      * intros r2 c2 S2. destruct (shows_unset _ _ _ _ _ S2 LS).
      * intros _. unfold f1, prefilled, putf. cbn [f_elems]. rewrite nth_list_set by lia. rewrite Nat.eqb_refl.
        rewrite firstn_app, le_bytes_length, Nat.sub_diag, firstn_O, app_nil_r. apply firstn_all2. rewrite le_bytes_length. lia.
Qed.
Print Assumptions C20_rows.

(** The values [full r i] stored with any choice of leading columns left out, as long as
    those equal the row before. *)
Definition compressed (ncols n : nat) (skipped : nat -> nat) (full : nat -> nat -> list Z) : list stored_row :=
  map (fun r => (skipped r, map (full r) (seq (skipped r) (ncols - skipped r)))) (seq 0 n).

Theorem C20_transparent : forall ncols n skipped full,
  skipped 0%nat = 0%nat ->
  (forall r i, (i < skipped (S r))%nat -> full (S r) i = full r i) ->
  forall r i, (r < n)%nat -> (i < ncols)%nat -> exists r', shows (compressed ncols n skipped full) i r r' (full r i).
Proof.
  intros ncols n skipped full H0 HE r i Hr Hi.
  assert (St : forall q, (q < n)%nat -> stored (compressed ncols n skipped full) i q = if (skipped q <=? i)%nat then Some (full q i) else None).
  { intros q Hq. unfold stored, compressed. rewrite nth_error_map.
    rewrite (nth_error_nth' (seq 0 n) 0%nat) by (rewrite seq_length; lia). rewrite seq_nth by lia. cbn [option_map Nat.add].
    destruct (Nat.leb_spec (skipped q) i); [|reflexivity]. rewrite nth_error_map.
    rewrite (nth_error_nth' (seq (skipped q) (ncols - skipped q)) 0%nat) by (rewrite seq_length; lia). rewrite seq_nth by lia. cbn [option_map].
    do 2 f_equal. lia. }
  induction r as [|r IH].
  - exists 0%nat. split; [lia|]. split; [|intros q Hq; lia]. rewrite St by lia. rewrite H0. reflexivity.
  - destruct (Nat.le_gt_cases (skipped (S r)) i) as [L|L].
    + exists (S r). split; [lia|]. split; [|intros q Hq; lia]. rewrite St by lia. now rewrite (proj2 (Nat.leb_le _ _) L).
    + destruct (IH ltac:(lia)) as (r' & A & B & C). exists r'. rewrite HE by assumption. split; [lia|]. split; [exact B|].
      intros q Hq. destruct (Nat.eq_dec q (S r)) as [->|]; [|apply C; lia]. rewrite St by lia. now rewrite (proj2 (Nat.leb_gt _ _) L).
Qed.
Print Assumptions C20_transparent.

(** ** Attaching *)

Section Attach.
Variables (full simple : smap Z) (nrows : Z) (N : nat).
Hypothesis Look : forall nm, (exists p, lookup_name full simple nm = Ok (Z.of_nat p) /\ (p < N)%nat) \/ lookup_name full simple nm = Throw DecodeError.

Lemma attach_inv : forall names facs cols cols', List.length cols = N -> List.length facs = List.length names ->
  attach full simple nrows names facs cols = Ok cols' ->
  exists ps, Forall2 (fun nm p => lookup_name full simple nm = Ok (Z.of_nat p)) names ps /\ NoDup ps /\
    Forall (fun p => (p < N)%nat) ps /\
    Forall (fun p => exists d, nth_error cols p = Some d /\ d_fac d = None) ps /\
    Forall (fun f => nrows <= Z.of_nat (List.length (f_elems f))) facs.
Proof using Look.
  induction names as [|nm names IH]; intros facs cols cols' HC HL H.
  - destruct facs; [|discriminate]. exists []. repeat split; constructor.
  - destruct facs as [|f facs]; [discriminate|]. cbn [attach] in H. destruct (Look nm) as [(p & E & Hp)|E]; rewrite E in H; [|discriminate].
    cbn [bind] in H. rewrite Nat2Z.id in H. destruct (nth_error cols p) as [d|] eqn:Ed; [|discriminate].
    destruct (d_fac d) eqn:Fd; [discriminate|]. destruct (nrows <=? Z.of_nat (List.length (f_elems f))) eqn:Hf; [|discriminate]. cbn [assert bind] in H.
    assert (HpC : (p < List.length cols)%nat) by lia.
    apply IH in H; [|now rewrite list_set_length|cbn in HL; lia]. destruct H as (ps & A1 & A2 & A3 & A4 & A5).
    assert (Np : ~ In p ps).
    { intros I. rewrite Forall_forall in A4. destruct (A4 p I) as (d' & D1 & D2). rewrite nth_error_list_set, Nat.eqb_refl in D1 by lia.
      inversion D1; subst d'. discriminate. }
    exists (p :: ps). split; [constructor; assumption|]. split; [constructor; assumption|]. split; [constructor; assumption|]. split.
    + constructor; [exists d; auto|]. apply Forall_forall. intros q Hq. rewrite Forall_forall in A4. destruct (A4 q Hq) as (d' & D1 & D2).
      rewrite nth_error_list_set in D1 by lia. destruct (Nat.eqb_spec q p) as [->|]; [contradiction|]. exists d'. auto.
    + constructor; [lia|assumption].
Qed.

Lemma attach_total : forall names facs cols, List.length cols = N ->
  (exists cols', attach full simple nrows names facs cols = Ok cols') \/
  attach full simple nrows names facs cols = Throw DecodeError \/ attach full simple nrows names facs cols = Throw AssertFailed.
Proof using Look.
  induction names as [|nm names IH]; intros facs cols HC; [left; exists cols; reflexivity|]. destruct facs as [|f facs]; [left; exists cols; reflexivity|].
  cbn [attach]. destruct (Look nm) as [(p & E & Hp)|E]; rewrite E; [|auto]. cbn [bind]. rewrite Nat2Z.id.
  destruct (nth_error cols p) as [d|] eqn:Ed; [|apply nth_error_None in Ed; lia].
  destruct (d_fac d); [auto|]. destruct (nrows <=? _); cbn [assert bind]; [|auto]. apply IH. now rewrite list_set_length.
Qed.
End Attach.

Lemma look_total cs full simple : column_lookup cs = Ok (full, simple) ->
  NoDup (names_of cs) /\ (forall nm p, lookup_name full simple nm = Ok (Z.of_nat p) <-> select (names_of cs) nm = Some p) /\
  (forall nm, (exists p, lookup_name full simple nm = Ok (Z.of_nat p) /\ (p < List.length cs)%nat) \/ lookup_name full simple nm = Throw DecodeError).
Proof.
  intros E. assert (ND : NoDup (names_of cs)).
  { destruct (ListDec.NoDup_dec (list_eq_dec Z.eq_dec) (names_of cs)) as [ND|ND]; [assumption|].
    rewrite (column_lookup_dup cs ND) in E. discriminate. }
  split; [assumption|]. destruct (column_lookup_ok cs ND) as (f & s & E' & L). rewrite E in E'. inversion E'; subst f s. split.
  - intros nm p. rewrite L. destruct (select (names_of cs) nm) as [q|]; split; intros H; inversion H; [|reflexivity]. f_equal. lia.
  - intros nm. rewrite L. destruct (select (names_of cs) nm) as [q|] eqn:S; [|now right]. left. exists q. split; [reflexivity|].
    apply select_lt in S. unfold names_of in S. now rewrite map_length in S.
Qed.

(** ** C22: column lookup *)

(** The request is acceptable: the table's names are distinct, and the requested names
    select different columns. *)
Definition requests (cs : list column) (names : list (list Z)) (ps : list nat) : Prop :=
  NoDup (map col_name cs) /\ Forall2 (fun nm p => select (map col_name cs) nm = Some p) names ps /\ NoDup ps.

Theorem C22_accepted : forall file t names facs outs, decode_target file t names facs = Ok outs ->
  exists ps, requests (t_cols t) names ps.
Proof.
  intros file t names facs outs H. unfold decode_target in H. apply bind_ok in H as ((full & simple) & E & H).
  apply bind_ok in H as (cols & H & _). unfold decode_table in H. rewrite E in H. cbn [bind] in H.
  apply bind_ok in H as (u1 & A1 & H). apply bind_ok in H as (u2 & A2 & H). apply bind_ok in H as (cols0 & H & _).
  destruct (look_total _ _ _ E) as (ND & L1 & L2).
  assert (Hlen : List.length facs = List.length names).
  { unfold assert in A1. destruct (Nat.eqb_spec (List.length names) (List.length facs)); [lia|discriminate]. }
  destruct (attach_inv full simple (t_rows t) (List.length (t_cols t)) L2 names facs _ cols0 ltac:(now rewrite map_length) Hlen H)
    as (ps & B1 & B2 & _). exists ps. split; [exact ND|]. split; [|exact B2].
  eapply Forall2_weaken; [|exact B1]. intros nm p. apply L1.
Qed.
Print Assumptions C22_accepted.

Theorem C22_refused : forall file t names facs, ~ (exists ps, requests (t_cols t) names ps) ->
  decode_target file t names facs = Throw DecodeError \/ decode_target file t names facs = Throw AssertFailed.
Proof.
  intros file t names facs H. unfold decode_target.
  destruct (column_lookup (t_cols t)) as [[full simple]|e|] eqn:E.
  - destruct (look_total _ _ _ E) as (ND & L1 & L2). cbn [bind]. unfold decode_table. rewrite E. cbn [bind].
    unfold assert. destruct (Nat.eqb_spec (List.length names) (List.length facs)) as [Hlen|]; cbn [bind]; [|auto].
    destruct (_ <=? _)%nat; cbn [bind]; [|auto].
    match goal with |- context [attach full simple (t_rows t) names facs ?c] =>
      destruct (attach_total full simple (t_rows t) (List.length (t_cols t)) L2 names facs c ltac:(now rewrite map_length)) as [(cols' & A)|[A|A]] end.
    + exfalso. apply H. destruct (attach_inv _ _ _ _ L2 names facs _ cols' ltac:(now rewrite map_length) ltac:(lia) A) as (ps & B1 & B2 & _).
      exists ps. split; [exact ND|]. split; [|exact B2]. eapply Forall2_weaken; [|exact B1]. intros nm p. apply L1.
    + rewrite A. cbn [bind]. auto.
    + rewrite A. cbn [bind]. auto.
  - assert (e = DecodeError) as ->; [|cbn; auto].
    destruct (ListDec.NoDup_dec (list_eq_dec Z.eq_dec) (names_of (t_cols t))) as [ND|ND].
    + destruct (column_lookup_ok _ ND) as (f & s & E' & _). congruence.
    + rewrite (column_lookup_dup _ ND) in E. congruence.
  - exfalso. destruct (ListDec.NoDup_dec (list_eq_dec Z.eq_dec) (names_of (t_cols t))) as [ND|ND].
    + destruct (column_lookup_ok _ ND) as (f & s & E' & _). congruence.
    + rewrite (column_lookup_dup _ ND) in E. congruence.
Qed.
Print Assumptions C22_refused.

(** [nm] is what precedes the first '@' of [full], all of it if there is none. *)
Definition short (full nm : list Z) : Prop := ~ In 64 nm /\ (full = nm \/ exists rest, full = nm ++ 64 :: rest).

Lemma before_at_short full nm : before_at full = nm <-> short full nm.
Proof.
  unfold short. revert nm. induction full as [|b full IH]; intros nm; cbn [before_at].
  - split; [intros <-; split; [intros []|now left]|]. intros [_ [<-|(r & E)]]; [reflexivity|]. destruct nm; discriminate.
  - destruct (Z.eqb_spec b 64) as [->|N].
    + split; [intros <-; split; [intros []|right; now exists full]|]. intros [H E]. destruct nm as [|c nm]; [reflexivity|]. exfalso. apply H. left. destruct E as [E|(r & E)]; now injection E.
    + split.
      * intros <-. destruct (proj1 (IH _) eq_refl) as [H1 H2]. split; [intros [Q|Q]; [congruence|contradiction]|]. destruct H2 as [Q|(r & Q)]; [left; f_equal; exact Q|right; exists r; cbn; f_equal; exact Q].
      * intros [H E]. destruct nm as [|c nm]; [destruct E as [E|(r & E)]; [discriminate|injection E as E _; congruence]|].
        assert (c = b) as -> by (destruct E as [E|(r & E)]; now injection E). f_equal. apply IH. split; [intros Q; apply H; now right|].
        destruct E as [E|(r & E)]; [left; now injection E|right; exists r; now injection E].
Qed.

(** What a request selects, said directly. *)
Theorem C22_select : forall names nm p, NoDup names ->
  (select names nm = Some p <->
   nth_error names p = Some nm \/
   (~ In nm names /\ exists full, nth_error names p = Some full /\ short full nm /\
      forall q full', (q < p)%nat -> nth_error names q = Some full' -> ~ short full' nm)).
Proof.
  intros names nm p ND. setoid_rewrite <- before_at_short. unfold select. destruct (first_pos (bytes_eqb nm) names) as [i|] eqn:E.
  - apply first_pos_some in E as (x & E1 & E2 & E3). apply bytes_eqb_true in E2. subst x. split.
    + intros [= <-]. now left.
    + intros [H|(H & _)]; [|exfalso; apply H; eapply nth_error_In; eassumption]. f_equal.
      eapply NoDup_nth_error; [exact ND|apply nth_error_Some; congruence|congruence].
  - rewrite first_pos_none in E. assert (NI : ~ In nm names).
    { intros I. specialize (E nm I). now rewrite bytes_eqb_refl in E. }
    split.
    + intros H. right. split; [assumption|]. apply first_pos_some in H as (x & H1 & H2 & H3). apply bytes_eqb_true in H2. exists x.
      split; [assumption|]. split; [congruence|]. intros q full' Hq Hf <-. specialize (H3 q full' Hq Hf). now rewrite bytes_eqb_refl in H3.
    + intros [H|(_ & full & H1 & H2 & H3)]; [exfalso; apply NI; eapply nth_error_In; eassumption|].
      destruct (first_pos (fun full0 => bytes_eqb nm (before_at full0)) names) as [i|] eqn:F.
      * apply first_pos_some in F as (x & F1 & F2 & F3). apply bytes_eqb_true in F2. f_equal.
        destruct (Nat.lt_total i p) as [L|[L|L]]; [|assumption|].
        -- exfalso. eapply H3; [exact L|exact F1|congruence].
        -- specialize (F3 p full L H1). rewrite H2, bytes_eqb_refl in F3. discriminate.
      * rewrite first_pos_none in F. specialize (F full (nth_error_In _ _ H1)). rewrite H2, bytes_eqb_refl in F. discriminate.
Qed.
Print Assumptions C22_select.
