(** Table::decode as a whole. *)
From Verif Require Import Base Fp FpProofs Stream StreamProofs StreamLocal Codec Meta Header Table TableProofs.

(** ** Attaching the target columns *)

(** column [p] of the table gets facade [f] *)
Lemma attach_ok full simple nrows : forall names facs ps cols,
  Forall2 (fun nm p => lookup_name full simple nm = Ok (Z.of_nat p)) names ps ->
  length facs = length names -> NoDup ps ->
  Forall (fun p => exists d, nth_error cols p = Some d /\ d_fac d = None) ps ->
  Forall (fun f => nrows <= Z.of_nat (length (f_elems f))) facs ->
  exists cols', attach full simple nrows names facs cols = Ok cols' /\ length cols' = length cols /\
    (forall i, ~ In i ps -> nth_error cols' i = nth_error cols i) /\
    (forall k p f d, nth_error ps k = Some p -> nth_error facs k = Some f -> nth_error cols p = Some d ->
       nth_error cols' p = Some {| d_codec := d_codec d; d_fac := Some f; d_last := d_last d |}).
Proof.
  induction names as [|nm names IH]; intros facs ps cols HF HL HN HP HR.
  - inversion HF; subst. destruct facs; [|discriminate]. exists cols. cbn. repeat split; auto.
    intros [|k]; discriminate.
  - inversion HF as [|? p ? ps' Hp HF']; subst. destruct facs as [|f facs]; [discriminate|].
    inversion HN as [|? ? Hnin HN']; subst. inversion HP as [|? ? (d & Ed & Hd) HP']; subst.
    inversion HR as [|? ? Hf HR']; subst. cbn [attach]. rewrite Hp. cbn [bind]. rewrite Nat2Z.id, Ed, Hd.
    replace (nrows <=? Z.of_nat (length (f_elems f))) with true by lia. cbn [assert bind].
    assert (Hlt : (p < length cols)%nat) by (apply nth_error_Some; congruence).
    destruct (IH facs ps' (list_set cols p {| d_codec := d_codec d; d_fac := Some f; d_last := d_last d |}))
      as (cols' & E & L & A & B); auto.
    + apply Forall_forall. intros q Hq. rewrite Forall_forall in HP'. destruct (HP' q Hq) as (dq & Eq & Fq).
      exists dq. rewrite nth_error_list_set by assumption. destruct (Nat.eqb_spec q p); [subst; contradiction|]. auto.
    + exists cols'. split; [exact E|]. rewrite list_set_length in L. split; [exact L|]. split.
      * intros i Hi. rewrite A by (cbn in Hi; tauto). rewrite nth_error_list_set by assumption.
        destruct (Nat.eqb_spec i p); [subst; cbn in Hi; tauto|reflexivity].
      * intros [|k] q g e H1 H2 H3; cbn in H1, H2.
        { inversion H1; inversion H2; subst. rewrite A by assumption.
          rewrite nth_error_list_set by assumption. rewrite Nat.eqb_refl. congruence. }
        { apply (B k q g e H1 H2). rewrite nth_error_list_set by assumption.
          destruct (Nat.eqb_spec q p); [subst; apply nth_error_In in H1; contradiction|assumption]. }
Qed.

(** ** Decoding *)

(** the target column with the missing value put in its first row *)
Definition prefilled (k : codec) (f : facade) : facade := putf f 0 (le_bytes 8 (missing_value k)).

(** [out] is [f] after decoding column [p], of codec [k], of the stored rows [rows] *)
Definition decoded_as (rows : list stored_row) (p : nat) (k : codec) (f out : facade) : Prop :=
  f_size out = f_size f /\ length (f_elems out) = length (f_elems f) /\
  (forall r, (r < length rows)%nat -> nth r (f_elems out) [] = spec_elem rows (prefilled k f) p r) /\
  (forall r, (length rows <= r)%nat -> nth r (f_elems out) [] = nth r (f_elems f) []).

Definition upd_prefill (d : dcol) : dcol :=
  match d_fac d with None => d | Some f => with_fac d (prefilled (d_codec d) f) (d_last d) end.

Lemma map_dcols_prefill : forall ds,
  Forall (fun d => forall f, d_fac d = Some f -> 8 <= f_size f /\ (0 < length (f_elems f))%nat) ds ->
  map_dcols prefill ds = Ok (map upd_prefill ds).
Proof.
  induction 1 as [|d ds Hd H IH]; [reflexivity|]. cbn [map_dcols map].
  assert (E : prefill d = Ok (upd_prefill d)).
  { unfold prefill, upd_prefill. destruct (d_fac d) as [f|] eqn:Ef; [|reflexivity].
    destruct (Hd f eq_refl). rewrite put_ok; [reflexivity| |assumption]. rewrite le_bytes_length. lia. }
  rewrite E. cbn [bind]. rewrite IH. reflexivity.
Qed.

Lemma row_stream_shape ks rows s s' : row_stream ks rows s s' ->
  Forall (fun r : stored_row => (fst r <= length ks)%nat /\ length (snd r) = (length ks - fst r)%nat) rows.
Proof.
  induction 1; constructor; cbn; auto. split; [assumption|].
  apply cells_stream_length in H2. now rewrite skipn_length in H2.
Qed.

Lemma inv_initial rows cols0 : Forall (fun d => d_last d = O) cols0 -> inv rows 0 0 cols0 cols0.
Proof.
  intros H. split; [reflexivity|]. intros i d0 d E0 E1. rewrite E0 in E1. inversion E1; subst d.
  rewrite Forall_forall in H. specialize (H d0 (nth_error_In _ _ E0)). split; [reflexivity|].
  destruct (d_fac d0) as [f|]; [|assumption]. repeat split; auto. intros r Hr. lia.
Qed.

(** every part of the C++ decoding loop: prefill, rows, final fill *)
Theorem decode_loop_ok rows buf rest cols :
  (0 < length rows)%nat ->
  Forall (fun d => d_last d = O) cols ->
  row_stream (map d_codec cols) rows buf rest ->
  target_ok (length rows) rows cols ->
  Forall (fun d => forall f, d_fac d = Some f -> 8 <= f_size f) cols ->
  exists cols', (do cols1 <- map_dcols prefill cols;
                 do cols2 <- decode_rows (length rows) 0 0 cols1 buf;
                 final_fill (length rows) cols2) = Ok cols' /\ length cols' = length cols /\
    forall i d d', nth_error cols i = Some d -> nth_error cols' i = Some d' ->
      match d_fac d with
      | None => d_fac d' = None
      | Some f => exists out, d_fac d' = Some out /\ decoded_as rows i (d_codec d) f out
      end.
Proof.
  intros Hn Hz HS HT H8.
  assert (Pre : map_dcols prefill cols = Ok (map upd_prefill cols)).
  { apply map_dcols_prefill. apply Forall_forall. intros d Hd f Hf. rewrite Forall_forall in H8. split; [eauto|].
    apply In_nth_error in Hd. destruct Hd as [i Hi]. destruct (HT i d f Hi Hf). lia. }
  rewrite Pre. cbn [bind]. set (cols0 := map upd_prefill cols).
  assert (Cod : map d_codec cols0 = map d_codec cols).
  { unfold cols0. rewrite map_map. apply map_ext. intros d. unfold upd_prefill. destruct (d_fac d); reflexivity. }
  assert (HT0 : target_ok (length rows) rows cols0).
  { intros i d0 f E F. unfold cols0 in E. rewrite nth_error_map in E.
    destruct (nth_error cols i) as [d|] eqn:Ei; [|discriminate]. cbn in E. inversion E; subst d0.
    unfold upd_prefill in F. destruct (d_fac d) as [g|] eqn:G; cbn in F; [|congruence]. inversion F; subst f.
    destruct (HT i d g Ei G) as [A B]. cbn [prefilled putf f_elems f_size]. rewrite list_set_length. auto. }
  assert (HI0 : inv rows 0 0 cols0 cols0).
  { apply inv_initial. unfold cols0. apply Forall_forall. intros d Hd. apply in_map_iff in Hd. destruct Hd as (e & <- & He).
    rewrite Forall_forall in Hz. specialize (Hz e He). unfold upd_prefill. destruct (d_fac e); [exact Hz|exact Hz]. }
  destruct (decode_rows_ok rows cols0 (length rows) HT0 eq_refl rows 0 0 cols0 buf rest) as (cols2 & ls & E2 & HI2); auto; try lia.
  { rewrite Cod. exact HS. }
  rewrite E2. cbn [bind].
  assert (L0 : length cols0 = length cols) by (unfold cols0; apply map_length).
  destruct (final_fill_ok rows (length rows) cols0 cols0 cols2 0) as (cols' & E3 & L3 & HI3); auto.
  { rewrite L0. pose proof (row_stream_shape _ _ _ _ HS) as Sh. rewrite map_length in Sh. exact Sh. }
  { apply HI2. }
  { intros i d0 d A B. exists ls. cbn [Nat.add]. apply HI2; assumption. }
  exists cols'. split; [exact E3|]. split; [congruence|].
  intros i d d' Ei Ei'. assert (E0 : nth_error cols0 i = Some (upd_prefill d)).
  { unfold cols0. rewrite nth_error_map, Ei. reflexivity. }
  specialize (HI3 i _ _ E0 Ei'). destruct HI3 as [_ HI3]. unfold upd_prefill in HI3.
  destruct (d_fac d) as [f|] eqn:Ef.
  2:{ rewrite Ef in HI3. destruct (d_fac d'); [contradiction|reflexivity]. }
  cbn [d_fac with_fac] in HI3. destruct (d_fac d') as [out|] eqn:Ef'; [|contradiction].
  destruct HI3 as (A & B & C & D & E & F). exists out. split; [reflexivity|].
  cbn [prefilled putf f_size f_elems] in A, B. rewrite list_set_length in B. split; [exact A|]. split; [exact B|].
  split; [intros r Hr; apply D; [assumption|now left]|].
  intros r Hr. rewrite E by assumption. cbn [prefilled putf f_elems].
  destruct (HT i d f Ei Ef) as [T _]. rewrite nth_list_set by lia. destruct (Nat.eqb_spec r 0); [lia|reflexivity].
Qed.

Definition fresh_cols (cs : list column) : list dcol :=
  map (fun c => {| d_codec := col_coder c; d_fac := None; d_last := 0 |}) cs.

(** The whole of Table::decode on a well-formed table. *)
Theorem decode_target_ok file t names facs ps rows buf rest full simple :
  column_lookup (t_cols t) = Ok (full, simple) ->
  Forall2 (fun nm p => lookup_name full simple nm = Ok (Z.of_nat p)) names ps ->
  NoDup ps -> Forall (fun p => (p < length (t_cols t))%nat) ps ->
  length facs = length names ->
  read_encoded file false t = Ok buf ->
  t_rows t = Z.of_nat (length rows) -> (0 < length rows)%nat ->
  row_stream (map col_coder (t_cols t)) rows buf rest ->
  (forall k p f, nth_error ps k = Some p -> nth_error facs k = Some f ->
     8 <= f_size f /\ (length rows <= length (f_elems f))%nat /\
     forall r cell, stored rows p r = Some cell -> Z.of_nat (length cell) <= f_size f) ->
  exists outs, decode_target file t names facs = Ok (map Some outs) /\ length outs = length names /\
    forall k p f out c, nth_error ps k = Some p -> nth_error facs k = Some f -> nth_error outs k = Some out ->
      nth_error (t_cols t) p = Some c -> decoded_as rows p (col_coder c) f out.
Proof.
  intros HL HF HN HP Hlen Hbuf Hrows Hpos HS Htgt.
  pose proof (Forall2_length _ _ _ HF) as Lps.
  unfold decode_target, decode_table. rewrite HL. cbn [bind].
  rewrite Hlen, Nat.eqb_refl. cbn [assert bind].
  assert (Le : (length names <=? length (t_cols t))%nat = true).
  { apply Nat.leb_le. rewrite Lps. rewrite <- (seq_length (length (t_cols t)) 0). apply NoDup_incl_length; [assumption|].
    intros p Hp. apply in_seq. rewrite Forall_forall in HP. specialize (HP p Hp). lia. }
  rewrite Le. cbn [assert bind].
  fold (fresh_cols (t_cols t)).
  destruct (attach_ok full simple (t_rows t) names facs ps (fresh_cols (t_cols t))) as (cols & Ea & La & A & B); auto.
  { apply Forall_forall. intros p Hp. rewrite Forall_forall in HP. specialize (HP p Hp).
    destruct (nth_error (t_cols t) p) as [c|] eqn:Ec; [|apply nth_error_None in Ec; lia].
    exists {| d_codec := col_coder c; d_fac := None; d_last := 0 |}. split; [|reflexivity].
    unfold fresh_cols. rewrite nth_error_map, Ec. reflexivity. }
  { apply Forall_forall. intros f Hf. apply In_nth_error in Hf. destruct Hf as [k Hk].
    assert (k < length ps)%nat by (rewrite <- Lps, <- Hlen; apply nth_error_Some; congruence).
    destruct (nth_error ps k) as [p|] eqn:Ep; [|apply nth_error_None in Ep; lia].
    destruct (Htgt k p f Ep Hk) as (_ & Hx & _). lia. }
  rewrite Ea. cbn [bind]. rewrite Hbuf. cbn [bind].
  destruct (Z.eqb_spec (t_rows t) 0); [lia|].
  assert (LF : length (fresh_cols (t_cols t)) = length (t_cols t)) by (unfold fresh_cols; apply map_length).
  (* each column of [cols] *)
  assert (Cols : forall i d, nth_error cols i = Some d -> exists c, nth_error (t_cols t) i = Some c /\
            d_codec d = col_coder c /\ d_last d = O /\
            (d_fac d = None \/ exists k f, nth_error ps k = Some i /\ nth_error facs k = Some f /\ d_fac d = Some f)).
  { intros i d Hd. assert (i < length (t_cols t))%nat by (rewrite <- LF, <- La; apply nth_error_Some; congruence).
    destruct (nth_error (t_cols t) i) as [c|] eqn:Ec; [|apply nth_error_None in Ec; lia].
    assert (Fr : nth_error (fresh_cols (t_cols t)) i = Some {| d_codec := col_coder c; d_fac := None; d_last := 0 |}).
    { unfold fresh_cols. rewrite nth_error_map, Ec. reflexivity. }
    exists c. split; [reflexivity|]. destruct (in_dec Nat.eq_dec i ps) as [Hin|Hni].
    - apply In_nth_error in Hin. destruct Hin as [k Hk].
      assert (k < length facs)%nat by (rewrite Hlen, Lps; apply nth_error_Some; congruence).
      destruct (nth_error facs k) as [f|] eqn:Ef; [|apply nth_error_None in Ef; lia].
      rewrite (B k i f _ Hk Ef Fr) in Hd. inversion Hd; subst d. cbn. split; [reflexivity|]. split; [reflexivity|].
      right. exists k, f. auto.
    - rewrite A, Fr in Hd by assumption. inversion Hd; subst d. cbn. auto. }
  assert (Cod : map d_codec cols = map col_coder (t_cols t)).
  { assert (F : Forall2 (fun d c => d_codec d = col_coder c) cols (t_cols t)).
    { apply Forall2_nth; [congruence|]. intros i d c H1 H2. destruct (Cols i d H1) as (c' & H3 & H4 & _). congruence. }
    clear -F. induction F; cbn; congruence. }
  destruct (decode_loop_ok rows buf rest cols) as (cols' & E & L' & P); auto.
  { apply Forall_forall. intros d Hd. apply In_nth_error in Hd. destruct Hd as [i Hi]. now destruct (Cols i d Hi) as (c & _ & _ & H & _). }
  { rewrite Cod. exact HS. }
  { intros i d f Hi Hf. destruct (Cols i d Hi) as (c & _ & _ & _ & [H|(k & g & H1 & H2 & H3)]); [congruence|].
    assert (g = f) by congruence. subst g. destruct (Htgt k i f H1 H2) as (_ & H4 & H5). auto. }
  { apply Forall_forall. intros d Hd f Hf. apply In_nth_error in Hd. destruct Hd as [i Hi].
    destruct (Cols i d Hi) as (c & _ & _ & _ & [H|(k & g & H1 & H2 & H3)]); [congruence|].
    assert (g = f) by congruence. subst g. now destruct (Htgt k i f H1 H2). }
  rewrite Hrows, Nat2Z.id. rewrite E. cbn [bind].
  (* collecting the results *)
  assert (Col : forall k p f, nth_error ps k = Some p -> nth_error facs k = Some f ->
            exists out, (match nth_error cols' p with Some d => d_fac d | None => None end) = Some out /\
              forall c, nth_error (t_cols t) p = Some c -> decoded_as rows p (col_coder c) f out).
  { intros k p f Hp Hf. rewrite Forall_forall in HP. pose proof (HP p (nth_error_In _ _ Hp)) as Hlt.
    destruct (nth_error (t_cols t) p) as [c|] eqn:Ec; [|apply nth_error_None in Ec; lia].
    assert (Fr : nth_error (fresh_cols (t_cols t)) p = Some {| d_codec := col_coder c; d_fac := None; d_last := 0 |}).
    { unfold fresh_cols. rewrite nth_error_map, Ec. reflexivity. }
    pose proof (B k p f _ Hp Hf Fr) as Hc. cbn in Hc.
    destruct (nth_error cols' p) as [d'|] eqn:Ed'; [|apply nth_error_None in Ed'; lia].
    specialize (P p _ d' Hc Ed'). cbn in P. destruct P as (out & P1 & P2). exists out. split; [assumption|].
    intros c' [= <-]. exact P2. }
  assert (G : forall names' ps' facs', 
    Forall2 (fun nm p => lookup_name full simple nm = Ok (Z.of_nat p)) names' ps' -> length facs' = length names' ->
    (forall k p f, nth_error ps' k = Some p -> nth_error facs' k = Some f ->
            exists out, (match nth_error cols' p with Some d => d_fac d | None => None end) = Some out /\
              forall c, nth_error (t_cols t) p = Some c -> decoded_as rows p (col_coder c) f out) ->
    exists outs, collect full simple names' cols' = map Some outs /\ length outs = length names' /\
      forall k p f out c, nth_error ps' k = Some p -> nth_error facs' k = Some f -> nth_error outs k = Some out ->
      nth_error (t_cols t) p = Some c -> decoded_as rows p (col_coder c) f out).
  { clear. induction names' as [|nm names' IH]; intros ps' facs' HF Hl HC.
    - exists []. inversion HF; subst. split; [reflexivity|]. split; [reflexivity|]. intros [|k0]; discriminate.
    - inversion HF as [|? p ? ps'' H1 H2]; subst. destruct facs' as [|f facs']; [discriminate|].
      destruct (IH ps'' facs' H2) as (outs & E & L & Q); [now injection Hl|intros k; apply (HC (S k))|].
      destruct (HC 0%nat p f eq_refl eq_refl) as (out & O1 & O2).
      exists (out :: outs). split; [|split; [cbn; congruence|]].
      + cbn [collect map]. rewrite H1, Nat2Z.id, O1. unfold collect in E. rewrite E. reflexivity.
      + intros [|k] q g o c A1 A2 A3 A4; cbn in A1, A2, A3.
        * inversion A1; inversion A2; inversion A3; subst. auto.
        * eapply Q; eassumption. }
  destruct (G names ps facs HF Hlen Col) as (outs & E1 & L1 & Q).
  exists outs. rewrite E1. split; [reflexivity|]. split; [exact L1|]. exact Q.
Qed.
