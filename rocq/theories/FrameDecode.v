(** Decoding a frame that [encode_frame] wrote: every requested column gives back the
    stored values. *)
From Coq Require Import String.
From Verif Require Import Spec Base Fp FpProofs Stream StreamProofs StreamLocal Codec Meta Header Encoder Table
  ColumnProofs HeaderProofs TableProofs DecodeProofs LookupProofs FrameProofs.
Open Scope Z_scope.

Lemma Forall2_weaken {A B} (P Q : A -> B -> Prop) la lb : (forall a b, P a b -> Q a b) -> Forall2 P la lb -> Forall2 Q la lb.
Proof. intros H F. induction F; constructor; auto. Qed.

(** A table without rows: the targets are left alone. *)
Theorem decode_target_zero file t names facs ps buf full simple :
  column_lookup (t_cols t) = Ok (full, simple) ->
  Forall2 (fun nm p => lookup_name full simple nm = Ok (Z.of_nat p)) names ps ->
  NoDup ps -> Forall (fun p => (p < List.length (t_cols t))%nat) ps ->
  List.length facs = List.length names ->
  read_encoded file false t = Ok buf -> t_rows t = 0 ->
  decode_target file t names facs = Ok (map Some facs).
Proof.
  intros HL HF HN HP Hlen Hbuf Hrows.
  pose proof (Forall2_length _ _ _ HF) as Lps.
  unfold decode_target, decode_table. rewrite HL. cbn [bind].
  rewrite Hlen, Nat.eqb_refl. cbn [assert bind].
  assert (Le : (List.length names <=? List.length (t_cols t))%nat = true).
  { apply Nat.leb_le. rewrite Lps. rewrite <- (seq_length (List.length (t_cols t)) 0). apply NoDup_incl_length; [assumption|].
    intros p Hp. apply in_seq. rewrite Forall_forall in HP. specialize (HP p Hp). lia. }
  rewrite Le. cbn [assert bind].
  fold (fresh_cols (t_cols t)).
  assert (Fr : forall p c, nth_error (t_cols t) p = Some c ->
     nth_error (fresh_cols (t_cols t)) p = Some {| d_codec := col_coder c; d_fac := None; d_last := 0 |}).
  { intros p c E. unfold fresh_cols. rewrite nth_error_map, E. reflexivity. }
  destruct (attach_ok full simple (t_rows t) names facs ps (fresh_cols (t_cols t))) as (cols & Ea & La & A & B); auto.
  { apply Forall_forall. intros p Hp. rewrite Forall_forall in HP. specialize (HP p Hp).
    destruct (nth_error (t_cols t) p) as [c|] eqn:Ec; [|apply nth_error_None in Ec; lia].
    eexists. split; [apply Fr, Ec|reflexivity]. }
  { apply Forall_forall. intros f _. rewrite Hrows. lia. }
  rewrite Ea. cbn [bind]. rewrite Hbuf. cbn [bind]. rewrite Hrows. cbn [Z.eqb bind]. f_equal.
  assert (G : forall names' ps' facs',
    Forall2 (fun nm p => lookup_name full simple nm = Ok (Z.of_nat p)) names' ps' -> List.length facs' = List.length names' ->
    (forall k p f, nth_error ps' k = Some p -> nth_error facs' k = Some f ->
       match nth_error cols p with Some d => d_fac d | None => None end = Some f) ->
    collect full simple names' cols = map Some facs').
  { clear. induction names' as [|nm names' IH]; intros ps' facs' HF Hl HC.
    - destruct facs'; [reflexivity|discriminate].
    - inversion HF as [|? p ? ps'' H1 H2]; subst. destruct facs' as [|f facs']; [discriminate|].
      cbn [collect map]. rewrite H1, Nat2Z.id, (HC 0%nat p f eq_refl eq_refl). f_equal.
      apply (IH ps'' facs' H2); [now injection Hl|intros k; apply (HC (S k))]. }
  apply (G names ps facs HF Hlen). intros k p f Hp Hf.
  rewrite Forall_forall in HP. pose proof (HP p (nth_error_In _ _ Hp)) as Hlt.
  destruct (nth_error (t_cols t) p) as [c|] eqn:Ec; [|apply nth_error_None in Ec; lia].
  rewrite (B k p f _ Hp Hf (Fr p c Ec)). reflexivity.
Qed.

(** A facade whose elements have the announced size, room for [n] rows and for values
    of [w] bytes. *)
Definition roomy (n : nat) (f : facade) : Prop :=
  8 <= f_size f /\ (n <= List.length (f_elems f))%nat /\
  Forall (fun e => Z.of_nat (List.length e) = f_size f) (f_elems f).

Section Frame.
Variables (st st' : settings) (o : order).
Variable version : list Z.

Lemma written_length (f : facade) r' cell : (r' < List.length (f_elems f))%nat ->
  Forall (fun e => Z.of_nat (List.length e) = f_size f) (f_elems f) -> Z.of_nat (List.length cell) <= f_size f ->
  Z.of_nat (List.length (written f r' cell)) = f_size f.
Proof.
  intros H F L. unfold written. rewrite app_length, skipn_length. rewrite Forall_forall in F.
  specialize (F (nth r' (f_elems f) []) (nth_In _ _ H)). lia.
Qed.

Lemma prefilled_elems k f : 8 <= f_size f -> (0 < List.length (f_elems f))%nat ->
  Forall (fun e => Z.of_nat (List.length e) = f_size f) (f_elems f) ->
  Forall (fun e => Z.of_nat (List.length e) = f_size f) (f_elems (prefilled k f)).
Proof.
  intros H8 H0 F. unfold prefilled, putf. cbn [f_elems]. apply Forall_forall. intros e He.
  apply In_nth with (d := []) in He. destruct He as (j & Hj & <-). rewrite list_set_length in Hj.
  rewrite nth_list_set by assumption. destruct (Nat.eqb_spec j 0).
  - rewrite app_length, skipn_length, le_bytes_length. rewrite Forall_forall in F.
    specialize (F (nth 0 (f_elems f) []) (nth_In _ _ H0)). lia.
  - rewrite Forall_forall in F. apply F, nth_In, Hj.
Qed.

Lemma names_of_items its : names_of (map read_column its) = map (fun it => ci_name (i_ci it)) its.
Proof. unfold names_of. rewrite map_map. reflexivity. Qed.

Theorem items_decode nrows its file t body names ps facs :
  Forall item_rt its -> Forall (fun it => List.length (i_cells it) = nrows) its ->
  NoDup (map (fun it => ci_name (i_ci it)) its) ->
  map col_name (t_cols t) = map (fun it => ci_name (i_ci it)) its -> map col_coder (t_cols t) = map i_k' its -> t_rows t = Z.of_nat nrows ->
  read_encoded file false t = Ok body ->
  (exists rest, row_stream (map i_k' its) (map (srow its) (seq 0 nrows)) body rest) ->
  Forall2 (fun nm p => select (map (fun it => ci_name (i_ci it)) its) nm = Some p) names ps -> NoDup ps ->
  List.length facs = List.length names ->
  (forall k p f it, nth_error ps k = Some p -> nth_error facs k = Some f -> nth_error its p = Some it ->
     (0 < nrows)%nat -> roomy nrows f /\ Forall (fun v => Z.of_nat (List.length v) <= f_size f) (i_outs it)) ->
  exists outs, decode_target file t names facs = Ok (map Some outs) /\ List.length outs = List.length names /\
    forall k p f out it, nth_error ps k = Some p -> nth_error facs k = Some f -> nth_error outs k = Some out ->
      nth_error its p = Some it -> holds (i_outs it) f out.
Proof.
  intros O1 O2 Hnd Hnames Hcd Hr Hbuf (rest & HS) HF HN Hlen Hroom.
  assert (Lc : List.length (t_cols t) = List.length its) by (rewrite <- (map_length col_coder), Hcd; apply map_length).
  destruct (column_lookup_ok (t_cols t)) as (full & simple & EL & LK).
  { unfold names_of. now rewrite Hnames. }
  assert (HF' : Forall2 (fun nm p => lookup_name full simple nm = Ok (Z.of_nat p)) names ps).
  { eapply Forall2_weaken; [|exact HF]. intros nm p Hs. rewrite LK. unfold names_of. rewrite Hnames, Hs. reflexivity. }
  assert (HP : Forall (fun p => (p < List.length (t_cols t))%nat) ps).
  { apply Forall_forall. intros p Hp. apply In_nth_error in Hp as (k & Hk).
    assert (exists nm, nth_error names k = Some nm) as (nm & Hnm).
    { destruct (nth_error names k) eqn:E; [eauto|]. apply nth_error_None in E.
      rewrite (Forall2_length _ _ _ HF) in E. apply nth_error_None in E. congruence. }
    assert (S1 : select (map (fun it => ci_name (i_ci it)) its) nm = Some p).
    { clear -HF Hk Hnm. revert k Hk Hnm. induction HF; intros [|k] A B; try discriminate.
      - inversion A; inversion B; subst; assumption.
      - eapply IHHF; eassumption. }
    apply select_lt in S1. rewrite map_length in S1. now rewrite Lc. }
  assert (Hlo : forall it, In it its -> List.length (i_outs it) = nrows).
  { intros it Hin. rewrite Forall_forall in O1, O2.
    pose proof (O1 it Hin) as F. unfold item_rt in F. rewrite <- (Forall2_length _ _ _ F). auto. }
  destruct (Nat.eq_dec nrows 0) as [Z0|NZ].
  - exists facs. split; [eapply decode_target_zero; try eassumption; lia|]. split; [assumption|].
    intros k p f out it Hp Hf Ho Hi. rewrite Hf in Ho. inversion Ho; subst out.
    pose proof (Hlo it (nth_error_In _ _ Hi)). repeat split; auto; intros; lia.
  - set (rows := map (srow its) (seq 0 nrows)) in *.
    assert (Lr : List.length rows = nrows) by (unfold rows; rewrite map_length, seq_length; reflexivity).
    assert (Hit : forall p, (p < List.length (t_cols t))%nat -> exists it, nth_error its p = Some it /\
              exists c, nth_error (t_cols t) p = Some c).
    { intros p Hp. destruct (nth_error its p) as [it|] eqn:E; [|apply nth_error_None in E; lia].
      exists it. split; [reflexivity|]. destruct (nth_error (t_cols t) p) as [c|] eqn:E'; [eauto|]. apply nth_error_None in E'. lia. }
    destruct (decode_target_ok file t names facs ps rows body rest full simple) as (outs & E & L & D); auto.
    + congruence.
    + lia.
    + rewrite Hcd. exact HS.
    + intros k p f Hp Hf. rewrite Forall_forall in HP. pose proof (HP p (nth_error_In _ _ Hp)) as Hlt.
      destruct (Hit p Hlt) as (it & Hi & _). destruct (Hroom k p f it Hp Hf Hi ltac:(lia)) as ((R1 & R2 & R3) & R4).
      split; [assumption|]. split; [lia|]. intros r cell Hst.
      assert (Hrr : (r < nrows)%nat).
      { unfold stored in Hst. destruct (nth_error rows r) eqn:Er; [|discriminate]. rewrite <- Lr. apply nth_error_Some. congruence. }
      destruct (latest_srow its nrows p it O1 O2 Hi r Hrr) as (r' & _ & El).
      fold rows in El. destruct r; cbn [latest] in El; rewrite Hst in El; injection El as _ Ecell; rewrite Ecell;
        (rewrite Forall_forall in R4; apply R4, nth_In; rewrite (Hlo it (nth_error_In _ _ Hi)); lia).
    + exists outs. split; [exact E|]. split; [exact L|]. intros k p f out it Hp Hf Ho Hi.
      rewrite Forall_forall in HP. pose proof (HP p (nth_error_In _ _ Hp)) as Hlt.
      destruct (Hit p Hlt) as (it' & Hi' & col & Hcol). rewrite Hi in Hi'. inversion Hi'; subst it'.
      destruct (D k p f out col Hp Hf Ho Hcol) as (D1 & D2 & D3 & D4).
      destruct (Hroom k p f it Hp Hf Hi ltac:(lia)) as ((R1 & R2 & R3) & R4).
      pose proof (Hlo it (nth_error_In _ _ Hi)) as Li.
      split; [assumption|]. split; [assumption|]. split.
      * intros r Hrr. rewrite Li in Hrr. rewrite D3 by lia.
        destruct (latest_srow its nrows p it O1 O2 Hi r Hrr) as (r' & Lr' & El). fold rows in El.
        unfold spec_elem. rewrite El.
        assert (Lv : Z.of_nat (List.length (nth r (i_outs it) [])) <= f_size f).
        { rewrite Forall_forall in R4. apply R4, nth_In. lia. }
        set (f1 := prefilled (col_coder col) f).
        assert (E1 : f_size f1 = f_size f) by reflexivity.
        assert (E2 : List.length (f_elems f1) = List.length (f_elems f)) by (apply list_set_length).
        split.
        { unfold written. now apply firstn_app_exact. }
        { rewrite <- E1. apply written_length; [lia| |lia]. rewrite E1. apply prefilled_elems; auto; lia. }
      * intros r Hrr. apply D4. lia.
Qed.

Theorem frame_decodes nrows its pr file t body names ps facs :
  frame_ok st st' o version nrows its pr ->
  t_cols t = map read_column its -> t_rows t = Z.of_nat nrows ->
  read_encoded file false t = Ok body ->
  (exists rest, row_stream (map i_k' its) (map (srow its) (seq 0 nrows)) body rest) ->
  Forall2 (fun nm p => select (map (fun it => ci_name (i_ci it)) its) nm = Some p) names ps -> NoDup ps ->
  List.length facs = List.length names ->
  (forall k p f it, nth_error ps k = Some p -> nth_error facs k = Some f -> nth_error its p = Some it ->
     (0 < nrows)%nat -> roomy nrows f /\ Forall (fun v => Z.of_nat (List.length v) <= f_size f) (i_outs it)) ->
  exists outs, decode_target file t names facs = Ok (map Some outs) /\ List.length outs = List.length names /\
    forall k p f out it, nth_error ps k = Some p -> nth_error facs k = Some f -> nth_error outs k = Some out ->
      nth_error its p = Some it -> holds (i_outs it) f out.
Proof.
  intros Hok Hc. destruct Hok as [O1 O2 _ _ O5 _ _ _ _]. apply items_decode; auto.
  - eapply items_rt. exact O1.
  - rewrite Hc, map_map. reflexivity.
  - rewrite Hc, map_map. reflexivity.
Qed.

End Frame.
