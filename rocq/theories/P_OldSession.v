(** C56: files written through the older C interface and read through it. *)
From Verif Require Import Base Fp Stream Codec Meta Header Encoder Table Spec Writer Reader RowReader RowList StreamLocal WriterSpec Through.
From Verif Require Import StreamProofs TableProofs WriterProofs WriterRun WriterRead P_Writer P_Compare QuerySpec P_Query P_Tables Dispatcher OldApi OldSpec P_Old.
Open Scope Z_scope.

Lemma mapped_length {A B} (f : A -> outcome B) : forall l r, map_out f l = Ok r -> length r = length l.
Proof.
  induction l as [|x l IH]; intros r H; cbn [map_out] in H; [now assert (r = []) by congruence; subst|].
  apply bind_ok in H as (y & _ & H). apply bind_ok in H as (ys & E & H). assert (r = y :: ys) by congruence. subst. cbn. f_equal. now apply IH.
Qed.

Lemma split_length : forall cols data row, split_row cols data = Ok row -> length row = length cols.
Proof.
  induction cols as [|c cs IH]; intros data row H; cbn [split_row] in H; [assert (row = []) by congruence; now subst|].
  destruct (_ <? _); [discriminate|]. apply bind_ok in H as (r & E & H). match type of H with Ok ?x = _ => assert (row = x) by congruence end. subst row. cbn. f_equal. now apply (IH _ _ E).
Qed.

Lemma gathered_length : forall cols row cols', gather_row cols row = Ok cols' -> length row = length cols -> length cols' = length cols.
Proof.
  induction cols as [|c cs IH]; intros row cols' H L; cbn [gather_row] in H; [assert (cols' = []) by congruence; now subst|].
  destruct row as [|x xs]; [discriminate|]. apply bind_ok in H as (k & _ & H). apply bind_ok in H as (r & E & H).
  match type of H with Ok ?y = _ => assert (cols' = y) by congruence end. subst cols'. cbn. f_equal. apply (IH _ _ E). cbn in L. lia.
Qed.

Section Writing.
Variable md5 : list Z -> list Z.
Variable st : settings.
Variable N : nat.
Variable pr : props.

Lemma flush_keeps w w1 : flush md5 st N pr w = Ok w1 -> length (w_cols w1) = length (w_cols w) /\ w_init w1 = true.
Proof.
  unfold flush. intros H. apply bind_ok in H as (u & A & H). unfold assert in A. destruct (w_init w) eqn:I; [|discriminate].
  destruct (w_rows w); [assert (w1 = w) by congruence; subst; auto|].
  apply bind_ok in H as (cols & E1 & H). destruct (65536 <=? _); [discriminate|]. apply bind_ok in H as (body & _ & H). destruct (_ <? _); [discriminate|].
  apply bind_ok in H as (h & _ & H). apply bind_ok in H as (cols' & E2 & H). match type of H with Ok ?y = _ => assert (w1 = y) by congruence end. subst w1.
  cbn [w_cols w_init]. split; [|reflexivity]. rewrite map_length, (mapped_length _ _ _ E2), (mapped_length _ _ _ E1). reflexivity.
Qed.

Lemma write_row_keeps w data w1 : write_row md5 st N pr w data = Ok w1 -> length (w_cols w1) = length (w_cols w) /\ w_init w1 = true.
Proof.
  unfold write_row. intros H. apply bind_ok in H as (u & A & H). unfold assert in A. destruct (w_init w) eqn:I; [|discriminate].
  apply bind_ok in H as (row & E1 & H). apply bind_ok in H as (cols & E2 & H). destruct (N <=? _)%nat; [discriminate|].
  pose proof (gathered_length _ _ _ E2 (split_length _ _ _ E1)) as L. cbn [w_rows] in H. destruct (_ =? N)%nat.
  - apply flush_keeps in H. cbn [w_cols] in H. destruct H. split; congruence.
  - match type of H with Ok ?y = _ => assert (w1 = y) by congruence end. subst w1. cbn. auto.
Qed.

(** with the right counts the rows are those of the writer *)
Lemma old_rows_ops n : forall rows w, w_init w = true -> length (w_cols w) = n ->
  old_write_rows md5 st N pr w (map (fun d => (d, Z.of_nat n)) rows) = write_ops md5 st N pr w (map WRow rows).
Proof.
  induction rows as [|d rows IH]; intros w I L; [reflexivity|]. cbn [map old_write_rows write_ops write_op]. unfold old_write_row. rewrite I, L, Z.eqb_refl. cbn [assert bind].
  destruct (write_row md5 st N pr w d) as [w1| |] eqn:E; cbn [bind]; try reflexivity. destruct (write_row_keeps _ _ _ E) as (K1 & K2). apply IH; congruence.
Qed.

Lemma opened_writer cols w : open_writer st cols [] = Ok w -> w_init w = true /\ length (w_cols w) = length cols.
Proof.
  unfold open_writer. intros H. apply bind_ok in H as (cs & E & H). cbn [set_missing bind] in H. match type of H with Ok ?y = _ => assert (w = y) by congruence end. subst w.
  cbn [write_header new_writer w_init w_cols]. split; [reflexivity|]. rewrite map_length. generalize dependent cs. generalize (@nil (list Z)). clear.
  induction cols as [|ci cols IH]; intros dn cs E H; cbn [set_columns] in E; [assert (cs = []) by congruence; now subst|]. destruct (existsb _ _); [discriminate|].
  apply bind_ok in E as (c & _ & E). apply bind_ok in E as (r & E2 & E). assert (cs = c :: r) by congruence. subst cs. cbn. f_equal. apply (IH _ _ E2). reflexivity.
Qed.

(** A row with a wrong count is refused. *)
Theorem C56_wrong_count w data count : w_init w = true -> count <> Z.of_nat (length (w_cols w)) -> old_write_row md5 st N pr w data count = Throw AssertFailed.
Proof. intros I D. unfold old_write_row. rewrite I. cbn [assert bind]. replace (count =? _) with false by (symmetry; now apply Z.eqb_neq). reflexivity. Qed.

Lemma old_file_file cols rows :
  old_write_file md5 st N pr cols (map (fun row => (concat row, Z.of_nat (length cols))) rows) = write_file md5 st N pr cols [] (map call (map Row rows)).
Proof.
  unfold old_write_file, write_file. destruct (open_writer st cols []) as [w| |] eqn:E; cbn [bind]; try reflexivity. destruct (opened_writer _ _ E) as (I & L).
  rewrite <- (map_map (@concat Z) (fun d => (d, Z.of_nat (length cols)))), (old_rows_ops _ _ _ I L), !map_map. reflexivity.
Qed.

End Writing.

Lemma rows_of_rows rows : rows_of_actions (map Row rows) = rows.
Proof. induction rows; cbn; congruence. Qed.

Lemma snug_usual r out : snug r out -> usual out.
Proof.
  intros (N & F). unfold usual, wide. split.
  - destruct F; [congruence|discriminate].
  - induction F as [|? ? ? ? (R & _) F IH]; constructor; [exact R|]. destruct F; [constructor|]. apply IH. discriminate.
Qed.

Lemma roomy_bytes : forall cols cs, Forall2 roomy cols cs -> row_bytes cs <= fold_right Z.add 0 (map ci_size cols).
Proof. unfold row_bytes. induction 1 as [|ci c cols cs (R1 & R2) F IH]; cbn [map fold_right]; unfold width in *; lia. Qed.

Lemma roomy_eights : forall cols cs, Forall2 roomy cols cs -> Forall (fun ci => ci_size ci = 8) cols -> row_bytes cs = 8 * Z.of_nat (length cols).
Proof.
  unfold row_bytes. induction 1 as [|ci c cols cs (R1 & R2) F IH]; intros H; [reflexivity|]. inversion H; subst. cbn [map fold_right length]. rewrite IH by assumption. unfold width. lia.
Qed.

Lemma listed md5 st junk fuel file it rows : file_rows md5 st junk fuel file = (rows, Clean) -> old_open md5 st junk file = Ok it ->
  Forall (fun r => usual r -> Z.of_nat (length (flat_row r)) = row_bytes (fst r)) rows.
Proof.
  intros F O. destruct (opened _ _ _ _ _ O) as (Sh & G). unfold file_rows in F. unfold old_open in O. rewrite O in F. now apply (listed_sized _ _ _ _ _ _ _ Sh G F).
Qed.

Lemma can_open md5 st junk fuel file rows : file_rows md5 st junk fuel file = (rows, Clean) -> exists it, old_open md5 st junk file = Ok it.
Proof. unfold file_rows, old_open. destruct (open_rows md5 st junk file); [eauto|discriminate..]. Qed.

(** Rows written through this interface are read through it, one by one, by a caller that has
    room for the rows as they were written, whatever is in the buffers. *)
Theorem C56_session : forall md5 st st' N pr cols rows, digest md5 -> (0 < N)%nat ->
  writable_columns cols pr -> Forall (writable st cols pr) (split_frames N [] (map Row rows)) ->
  exists file, old_write_file md5 st N pr cols (map (fun row => (concat row, Z.of_nat (length cols))) rows) = Ok file /\
    forall junk, exists it outs, old_open md5 st' junk file = Ok it /\ Forall2 (same_row st st' cols) rows outs /\
      forall buffers, length buffers = length rows -> Forall (fun b => fold_right Z.add 0 (map ci_size cols) <= Z.of_nat (length b)) buffers ->
      exists it1 l, old_calls md5 st' junk it (map (pair (Z.of_nat (length cols))) buffers) = Ok (it1, l) /\
        Forall2 (fun out a => a_code a = 0 /\ firstn (length (concat out)) (a_buffer a) = concat out) outs l /\
        forall more, exists it2, old_calls md5 st' junk it1 more = Ok (it2, map no_more more).
Proof.
  intros md5 st st' N pr cols rows Hd HN WC HW. destruct (C36_columns md5 st st' N pr cols (map Row rows) Hd HN WC HW) as (file & W & R).
  exists file. rewrite old_file_file. split; [exact W|]. intros junk. destruct (R junk) as (rows' & A & B & C). rewrite rows_of_rows in *.
  specialize (C (S (length rows)) ltac:(lia)). destruct (can_open _ _ _ _ _ _ C) as (it & O). exists it, (map snd rows'). split; [exact O|]. split.
  { clear -A. revert rows' A. induction rows as [|r rows IH]; intros rows' A; inversion A as [|? ? ? ? (_ & S1) A']; subst; cbn [map]; constructor; [exact S1|now apply IH]. }
  intros buffers Lb Fb. pose proof (listed _ _ _ _ _ _ _ C O) as Sz. pose proof C as C0. rewrite <- (app_nil_r rows') in C.
  assert (U : Forall usual rows') by (clear -B; remember (map (pair cols) rows) as l eqn:E; clear E; induction B; constructor; eauto using snug_usual).
  assert (Ln : length rows' = length rows) by (rewrite <- (Forall2_length _ _ _ A), map_length; reflexivity).
  assert (Fl : Forall (fun r => length (fst r) = length cols /\ Z.of_nat (length (flat_row r)) <= fold_right Z.add 0 (map ci_size cols)) rows').
  { clear -B Sz U. revert rows' B Sz U. induction rows as [|r rows IH]; intros rows' B Sz U; inversion B as [|? ? ? ? (B0 & B1) B2]; subst; [constructor|].
    inversion Sz as [|? ? S1 S2]; subst. inversion U as [|? ? U1 U2]; subst. cbn [fst] in *. constructor; [|now apply IH]. split; [now rewrite (Forall2_length _ _ _ B1)|].
    rewrite (S1 U1). now apply roomy_bytes. }
  assert (Sv : Forall2 serves rows' (map (pair (Z.of_nat (length cols))) buffers)).
  { clear -Fl Fb Lb Ln. assert (L : length buffers = length rows') by congruence. clear Lb Ln. revert buffers Fb L. induction Fl as [|r rows' (F1 & F2) Fl IH]; intros [|b buffers] Fb L; try discriminate; cbn [map]; constructor.
    - inversion Fb; subst. unfold serves. cbn [fst snd]. split; [lia|]. intros _. lia.
    - apply IH; [now inversion Fb|]. cbn in L. lia. }
  destruct (C56_calls _ _ _ _ _ _ _ _ _ _ C O U Sv) as (it1 & l & R1 & R2 & _ & R4). exists it1, l. split; [exact R1|]. split; [|intros more; apply R4; reflexivity].
  clear -R2 Fl Lb Ln. assert (L : length buffers = length rows') by congruence. clear Lb Ln. revert buffers L l R2. induction Fl as [|r rows' (F1 & F2) Fl IH]; intros [|b buffers] L l R2; try discriminate; cbn [map combine] in R2.
  - inversion R2. constructor.
  - inversion R2 as [|? ? ? ? An R2']; subst. cbn [map fst snd] in *. constructor; [|apply (IH buffers); [cbn in L; lia|exact R2']].
    destruct An as (_ & A1 & _). cbn [fst snd] in A1. destruct A1 as (A1 & A2); [now rewrite F1|]. split; [exact A1|]. rewrite A2. unfold flat_row.
    rewrite firstn_app, firstn_all, Nat.sub_diag. cbn [firstn]. now rewrite app_nil_r.
Qed.
Print Assumptions C56_session.

(** Columns of eight bytes: also the usual caller, who asks for sizes, is given every row. *)
Theorem C56_session_poll : forall md5 st st' N pr cols rows, digest md5 -> (0 < N)%nat ->
  writable_columns cols pr -> Forall (writable st cols pr) (split_frames N [] (map Row rows)) -> Forall (fun ci => ci_size ci = 8) cols ->
  exists file, old_write_file md5 st N pr cols (map (fun row => (concat row, Z.of_nat (length cols))) rows) = Ok file /\
    forall junk, exists it outs, old_open md5 st' junk file = Ok it /\ Forall2 (same_row st st' cols) rows outs /\
      forall fill fuel, (length rows < fuel)%nat -> old_poll md5 st' junk fill fuel it = (map (fun out => Some (concat out)) outs, Clean).
Proof.
  intros md5 st st' N pr cols rows Hd HN WC HW H8. destruct (written_frames md5 st st' N pr cols (map Row rows) Hd HN WC HW) as (fs & bs & W & F & R).
  exists (concat bs). rewrite old_file_file. split; [exact W|]. intros junk. rewrite rows_of_rows in R. subst rows.
  assert (F2 : Forall2 (frame_holds st st' pr md5) (map (pair cols) fs) bs) by (clear -F; induction F; constructor; assumption).
  destruct (read_file_snug st st' pr md5 Hd junk _ _ F2) as (rows' & A & B & C). destruct (opened_left st st' pr md5 Hd junk _ _ F2) as (it & O & Lf). rewrite flat_one in *.
  exists it, (map snd rows'). split; [exact O|]. split.
  { clear -A. revert rows' A. generalize (concat fs). induction l as [|r rows IH]; intros rows' A; inversion A as [|? ? ? ? (_ & S1) A']; subst; cbn [map]; constructor; [exact S1|now apply IH]. }
  intros fill fuel Hf. rewrite map_length in C. specialize (C fuel Hf). destruct (opened _ _ _ _ _ O) as (Sh & G). pose proof C as C0. unfold file_rows in C. rewrite O in C.
  assert (U : Forall usual rows') by (clear -B; remember (map (pair cols) (concat fs)) as l eqn:E; clear E; induction B; constructor; eauto using snug_usual).
  assert (Fl : Forall (fun r => length (fst r) = length cols /\ row_bytes (fst r) = 8 * Z.of_nat (length cols)) rows').
  { clear -B H8. revert rows' B. generalize (concat fs). induction l as [|r rows IH]; intros rows' B; inversion B as [|? ? ? ? (B0 & B1) B2]; subst; [constructor|]. constructor; [|now apply IH].
    cbn [fst] in B1. split; [now rewrite (Forall2_length _ _ _ B1)|now apply roomy_eights]. }
  assert (P : forall r rs, rows' = r :: rs -> fst r = r_cols it).
  { intros r rs ->. destruct fuel as [|fuel]; [discriminate|]. cbn [list_rows] in C.
    destruct (next_row md5 st' junk it) as [[it1 [row|]]| |] eqn:N1; try discriminate.
    destruct (list_rows md5 st' junk fuel it1) as [rs1 e1]. assert (r = (r_cols it1, row)) by congruence. subst r. cbn [fst].
    unfold next_row in N1. destruct (r_end it) eqn:E; [discriminate|]. specialize (Lf eq_refl). apply Z.eqb_neq in Lf. rewrite Lf in N1. cbn [bind] in N1.
    rewrite E in N1. destruct (read_raw 2 (r_data it)) as [[m s]| |]; cbn [bind] in N1; try discriminate.
    destruct (next_cells (marker_val m) (r_cols it) (r_last it) s) as [[row1 s1]| |]; cbn [bind] in N1; try discriminate.
    match type of N1 with Ok (?x, _) = _ => assert (Ex : it1 = x) by congruence end. now rewrite Ex. }
  assert (K : forall rs prev, Forall (fun r => length (fst r) = length cols /\ row_bytes (fst r) = 8 * Z.of_nat (length cols)) rs ->
     (rs <> [] -> length prev = length cols /\ row_bytes prev = 8 * Z.of_nat (length cols)) ->
     not_wider prev rs /\ forall l, polled prev rs l -> l = map (fun out => Some (concat out)) (map snd rs)).
  { clear. induction rs as [|r rs IH]; intros prev Fr Hp.
    - split; [exact I|]. intros l Pl. inversion Pl. reflexivity.
    - inversion Fr as [|? ? (F1 & F2) Fr']; subst. destruct Hp as (P1 & P2); [discriminate|]. destruct (IH (fst r) Fr') as (I1 & I2); [auto|]. split.
      + cbn [not_wider]. split; [lia|exact I1].
      + intros l Pl. inversion Pl; subst; [|congruence]. cbn [map]. f_equal. now apply I2. }
  destruct (K rows' (r_cols it) Fl) as (K1 & K2).
  { intros Ne. destruct rows' as [|r rs]; [congruence|]. rewrite <- (P r rs eq_refl). now apply (Forall_inv Fl). }
  destruct (poll_run md5 st' junk fill fuel it rows' Clean Sh G C U K1) as (l & R1 & R2). rewrite R1. f_equal. now apply K2.
Qed.
Print Assumptions C56_session_poll.
