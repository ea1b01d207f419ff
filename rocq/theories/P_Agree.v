(** C58: the rows of a file and its decoded tables hold the same values. *)
From Coq Require Import String.
From Verif Require Import Base Fp Stream StreamProofs StreamLocal Codec Meta Header Table TableProofs DecodeProofs FrameDecode Reader ReadSpec ReaderProofs Writer RowReader RowList
  RowSpec Spec Roundtrip WriterRun CsvRows P_Decode AgreeSpec AgreeProofs.
From Verif Require Import RowSpec AgreeSpec.
Open Scope Z_scope.
Local Notation length := List.length.

Lemma cells_widths cols cells s s2 : Forall sound cols -> cells_stream (map col_coder cols) cells s s2 -> Forall2 wide_cell cols cells.
Proof.
  revert cells s. induction cols as [|c cols IH]; intros cells s Sd C; inversion C; subst; constructor.
  - apply Forall_inv in Sd. eapply decode_width; [| |eassumption]; destruct Sd; lia.
  - eapply IH; [now apply Forall_inv_tail in Sd|eassumption].
Qed.

Lemma stored_width cols : Forall sound cols -> forall srows s s', row_stream (map col_coder cols) srows s s' ->
  forall p r x, stored srows p r = Some x -> exists c, nth_error cols p = Some c /\ wide_cell c x.
Proof.
  intros Sd. induction 1 as [s|start cells srows m s1 s2 s3 L2 M Hs C RS IH]; intros p r x E.
  - unfold stored in E. destruct r; discriminate.
  - destruct r as [|r]; [|exact (IH p r x E)]. unfold stored in E. cbn [nth_error] in E. destruct (Nat.leb_spec start p) as [Hp|]; [|discriminate].
    rewrite <- map_skipn in C || rewrite skipn_map in C. pose proof (cells_widths (skipn start cols) cells s1 s2) as W.
    assert (Forall sound (skipn start cols)) as Sd' by (rewrite <- (firstn_skipn start cols) in Sd; now apply Forall_app in Sd).
    specialize (W Sd' C). destruct (nth_error (skipn start cols) (p - start)) as [c|] eqn:Ec.
    + exists c. split; [rewrite nth_error_skipn' in Ec || idtac|].
      * rewrite <- Ec. clear -Hp. revert p cols Hp. induction start as [|n IH]; intros [|p] [|c l] Hp; try lia; cbn [skipn nth_error Nat.sub]; try reflexivity.
        -- now destruct (p - n)%nat.
        -- apply IH. lia.
      * clear -W E Ec. revert E Ec. generalize (p - start)%nat as i. intros i. revert i. induction W as [|a b l l' H W IH]; intros [|i]; cbn [nth_error]; try discriminate; [|apply IH]. intros Q1 Q2. congruence.
    + apply nth_error_None in Ec. assert (p - start < length cells)%nat by (apply nth_error_Some; congruence). pose proof (Forall2_length _ _ _ W). lia.
Qed.

Lemma init_wide junk : forall cols n i, Forall sound cols -> Forall2 wide_cell cols (init_row junk n i cols).
Proof.
  induction cols as [|c cols IH]; intros n i Sd; cbn [init_row]; constructor; [|apply IH; now apply Forall_inv_tail in Sd].
  apply Forall_inv in Sd. destruct Sd as (S1 & S2). unfold wide_cell, width. rewrite app_length, le_bytes_length, pad_length. lia.
Qed.

Lemma init_nth junk : forall cols n i p c, nth_error cols p = Some c ->
  firstn 8 (nth p (init_row junk n i cols) []) = le_bytes 8 (missing_value (col_coder c)).
Proof.
  induction cols as [|c0 cols IH]; intros n i [|p] c E; cbn [nth_error] in E; try discriminate; cbn [init_row nth]; [|now apply IH].
  assert (c0 = c) by congruence. subst c0. rewrite firstn_app, le_bytes_length, Nat.sub_diag, firstn_O, app_nil_r. apply firstn_all2. rewrite le_bytes_length. lia.
Qed.

Lemma init_length junk : forall cols n i, length (init_row junk n i cols) = length cols.
Proof. induction cols as [|c cols IH]; intros n i; cbn [init_row length]; [reflexivity|]. now rewrite IH. Qed.

Lemma next_cells_length : forall cols start last s row s', length last = length cols -> next_cells start cols last s = Ok (row, s') -> length row = length cols.
Proof.
  induction cols as [|c cols IH]; intros start [|x last] s row s' L N; try discriminate; cbn [next_cells] in N; [assert (row = []) by congruence; now subst|].
  cbn [length] in *. destruct start as [|start].
  - apply bind_ok in N as ([out s1] & _ & N). cbv beta iota zeta in N. apply bind_ok in N as (y & _ & N). apply bind_ok in N as ([r s2] & N1 & N). cbv beta iota zeta in N.
    assert (row = y :: r) by congruence. subst row. cbn [length]. f_equal. eapply IH; [|exact N1]. lia.
  - apply bind_ok in N as ([r s2] & N1 & N). cbv beta iota zeta in N. assert (row = x :: r) by congruence. subst row. cbn [length]. f_equal. eapply IH; [|exact N1]. lia.
Qed.

Lemma run_lengths cols : forall n last s rows s', rows_run cols n last s = Ok (rows, s') -> length last = length cols ->
  length rows = n /\ Forall (fun row => length row = length cols) rows.
Proof.
  induction n as [|n IH]; intros last s rows s' R L; cbn [rows_run] in R.
  - assert (rows = []) by congruence. subst. split; [reflexivity|constructor].
  - apply bind_ok in R as ([m s1] & _ & R). cbv beta iota zeta in R. apply bind_ok in R as ([row s2] & N & R). cbv beta iota zeta in R. apply bind_ok in R as ([rs s3] & R1 & R).
    cbv beta iota zeta in R. assert (rows = row :: rs) by congruence. subst rows. pose proof (next_cells_length _ _ _ _ _ _ L N) as L1.
    destruct (IH _ _ _ _ R1 L1) as (E & F). split; [cbn [length]; congruence|]. constructor; assumption.
Qed.

Lemma part_decodes junk file t part : table_part junk file t part -> rows_of_table t part /\ decodes_as file t part.
Proof.
  intros (rws & -> & P). split.
  - unfold rows_of_table. rewrite map_length. destruct P as [(-> & E)|(n & buf & s' & P0 & P1 & P2)]; [split; [exact E|constructor]|].
    destruct (run_lengths _ _ _ _ _ _ P2) as (L1 & L2); [apply init_length|]. split; [lia|].
    apply Forall_forall. intros x I. apply in_map_iff in I as (row & <- & I). cbn [fst snd]. split; [reflexivity|]. rewrite Forall_forall in L2. now apply L2.
  - intros srows names ps facs (Hn & buf & rest & B & RS) ND Sd Sel NDp Room.
    destruct (C20_rows file t names facs ps srows buf rest ND Sel NDp B Hn RS) as (outs & D & Lo & V).
    { assert (Ln : length (map (pair (t_cols t)) rws) = length srows).
      { rewrite map_length. destruct P as [(-> & E)|(n & buf' & s' & P0 & P1 & P2)]; [cbn; lia|].
        destruct (run_lengths _ _ _ _ _ _ P2) as (L1 & L2); [apply init_length|]. lia. }
      rewrite Ln in Room. apply Forall2_weaken with (2 := Room). intros p f (c & Ec & (R1 & R2 & R3)).
      assert (Sc : sound c) by (rewrite Forall_forall in Sd; apply Sd; eapply nth_error_In; exact Ec). destruct Sc.
      split; [lia|]. split; [exact R2|]. split; [exact R3|]. intros r x Sx.
      destruct (stored_width (t_cols t) Sd srows buf rest RS p r x Sx) as (c' & Ec' & W). assert (c' = c) by congruence. subst c'. unfold wide_cell in W. lia. }
    exists outs. split; [exact D|].
    assert (Lf : length ps = length facs) by (apply (Forall2_length _ _ _ Room)). pose proof (Forall2_length _ _ _ Sel) as Ls.
    apply Forall2_by_nth; [lia|]. intros k p out Ep Eo.
    assert (Hk : (k < length ps)%nat) by (apply nth_error_Some; congruence).
    destruct (nth_error facs k) as [f|] eqn:Ef; [|apply nth_error_None in Ef; lia].
    destruct (Forall2_at _ _ _ k p f Room Ep Ef) as (c & Ec & (R1 & R2 & R3)).
    destruct (V k p f out c Ep Ef Eo Ec) as (V1 & V2 & V3 & _). intros r row' Er.
    assert (Hr : (r < length rws)%nat) by (rewrite <- (map_length (pair (t_cols t)) rws); apply nth_error_Some; congruence).
    destruct P as [(-> & E)|(n & buf' & s' & P0 & P1 & P2)]; [cbn in Hr; lia|].
    assert (buf' = buf) by congruence. subst buf'. replace (Z.to_nat (t_rows t)) with (length srows) in P2 by lia.
    destruct (run_values (t_cols t) Sd srows buf rest RS _ _ _ (init_wide junk (t_cols t) n 0 Sd) P2) as (L & RV).
    rewrite nth_error_map in Er. destruct (nth_error rws r) as [row|] eqn:Ew; [|discriminate]. cbn [option_map] in Er.
    assert (row' = (t_cols t, row)) by congruence. subst row'. cbn [snd]. destruct (RV r row Ew) as (W & Vp).
    assert (Hp : (p < length (t_cols t))%nat) by (apply nth_error_Some; congruence). specialize (Vp p Hp).
    destruct (nth_error row p) as [cell|] eqn:Ece; [|apply nth_error_None in Ece; pose proof (Forall2_length _ _ _ W); lia].
    assert (Ecell : nth p row [] = cell) by (now apply nth_error_nth). rewrite Ecell in Vp.
    pose proof (Forall2_at _ _ _ p c cell W Ec Ece) as Wc. unfold wide_cell in Wc.
    assert (Sc : sound c) by (rewrite Forall_forall in Sd; apply Sd; eapply nth_error_In; exact Ec). destruct Sc as (Sc1 & Sc2).
    rewrite map_length in R2. destruct (nth_error (f_elems out) r) as [elem|] eqn:Ee; [|apply nth_error_None in Ee; lia].
    exists elem, cell. split; [reflexivity|]. split; [reflexivity|].
    destruct (V3 r ltac:(lia)) as (_ & V5 & V6). assert (Eel : nth r (f_elems out) [] = elem) by (now apply nth_error_nth). rewrite Eel in V5, V6.
    pose proof (latest_shows srows p r) as LS. destruct (latest srows p r) as [[r' x]|].
    + subst x. specialize (V5 r' cell LS). split; [|split; [intros _; exact V5|intros U; destruct (shows_unset _ _ _ _ _ LS U)]]. transitivity (firstn 8 (firstn (length cell) elem)); [rewrite firstn_firstn, Nat.min_l by lia; reflexivity|now rewrite V5].
    + assert (I8 : firstn 8 cell = le_bytes 8 (missing_value (col_coder c))) by (rewrite Vp; now apply init_nth).
      split; [rewrite V6 by exact LS; now rewrite I8|]. split; [intros H; contradiction|]. intros _ c' Ec'. cbn [fst] in Ec'. assert (c' = c) by congruence. now subst c'.
Qed.

(** Reading a file row by row and reading it table by table see the same tables, columns and
    rows, and decoding any choice of columns of a table gives the values of its rows. *)
Theorem C58_agree : forall md5 st junk est file fuel rows, bytes_ok file -> estimate est file ->
  file_rows md5 st junk fuel file = (rows, Clean) ->
  exists tables parts,
    (forall f, (length tables < f)%nat -> read_tables md5 st est file f [] = (tables, Clean)) /\
    rows = concat parts /\ Forall2 rows_of_table tables parts /\ Forall2 (decodes_as file) tables parts.
Proof.
  intros md5 st junk est file fuel rows Hb He E.
  destruct (whole md5 st junk est file He Hb fuel rows E) as (ts & parts & -> & F & R). exists ts, parts. split; [exact R|]. split; [reflexivity|].
  clear R E. split; (induction F as [|t part ts parts P _ IH]; constructor; [apply (part_decodes junk file t part P)|exact IH]).
Qed.
Print Assumptions C58_agree.
