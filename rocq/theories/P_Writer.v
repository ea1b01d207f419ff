(** C36, C37: files written row by row. *)
From Coq Require Import String.
From Verif Require Import Spec Base Fp Stream StreamProofs Codec Meta Header HeaderProofs Encoder Table Reader ReadSpec
  FrameProofs Through P_Reader Writer RowReader RowList WriterSpec WriterProofs WriterRun WriterRead.
Open Scope Z_scope.
Local Notation length := List.length.

(** ** The frames of a sequence of calls *)

(** Every row is in exactly one frame, in order, and no frame is empty or larger than the
    buffer. *)
Theorem C37_split : forall N acts, (0 < N)%nat ->
  concat (split_frames N [] acts) = rows_of_actions acts /\
  Forall (fun rows => (1 <= length rows <= N)%nat) (split_frames N [] acts).
Proof.
  intros N acts HN.
  assert (X : forall acts p, (length p < N)%nat ->
    concat (split_frames N p acts) = p ++ rows_of_actions acts /\
    Forall (fun rows => (1 <= length rows <= N)%nat) (split_frames N p acts)).
  { clear acts. assert (O : forall p, (length p < N)%nat -> concat (one_frame p) = p /\ Forall (fun rows => (1 <= length rows <= N)%nat) (one_frame p)).
    { intros [|r p] L; cbn [one_frame concat]; [split; [reflexivity|constructor]|]. rewrite app_nil_r. split; [reflexivity|]. constructor; [cbn in *; lia|constructor]. }
    induction acts as [|[cells|] acts IH]; intros p L; cbn [split_frames rows_of_actions].
    - rewrite app_nil_r. now apply O.
    - destruct (Nat.eqb_spec (length (p ++ [cells])) N) as [E|E].
      + destruct (IH [] HN) as (A & B). cbn [concat]. rewrite A. rewrite <- app_assoc. split; [reflexivity|]. constructor; [lia|exact B].
      + assert (L1 : (length (p ++ [cells]) < N)%nat) by (rewrite app_length in *; cbn in *; lia).
        destruct (IH _ L1) as (A & B). rewrite A, <- app_assoc. split; [reflexivity|exact B].
    - destruct (O p L) as (A & B). destruct (IH [] HN) as (C & D). rewrite concat_app, A, C. split; [reflexivity|]. now apply Forall_app. }
  apply (X acts []). cbn. lia.
Qed.
Print Assumptions C37_split.

(** Without explicit flushes all frames but the last have exactly [N] rows. *)
Theorem C37_full : forall N rows i f, (0 < N)%nat -> nth_error (split_frames N [] (map Row rows)) i = Some f ->
  (S i < length (split_frames N [] (map Row rows)))%nat -> length f = N.
Proof.
  intros N rows i f HN.
  assert (X : forall rows p i f, (length p < N)%nat -> nth_error (split_frames N p (map Row rows)) i = Some f ->
    (S i < length (split_frames N p (map Row rows)))%nat -> length f = N).
  { clear. induction rows as [|r rows IH]; intros p i f L E Hi; cbn [map split_frames] in *.
    - destruct p; cbn [one_frame length] in *; [destruct i; discriminate|]. lia.
    - destruct (Nat.eqb_spec (length (p ++ [r])) N) as [Q|Q].
      + destruct i as [|i]; cbn [nth_error length] in *; [congruence|]. apply (IH [] i f); [cbn; lia|exact E|lia].
      + apply (IH (p ++ [r]) i f); [rewrite app_length in *; cbn in *; lia|exact E|exact Hi]. }
  apply (X rows []). cbn. lia.
Qed.
Print Assumptions C37_full.

(** A flush ends the frame: what comes before and after it is split separately. *)
Theorem C37_flush : forall N a b, (0 < N)%nat ->
  split_frames N [] (a ++ Flush :: b) = split_frames N [] a ++ split_frames N [] b.
Proof.
  intros N a b HN. generalize (@nil (list (list Z))) at 1 2 as p. induction a as [|[cells|] a IH]; intros p; cbn [split_frames app].
  - reflexivity.
  - destruct (length (p ++ [cells]) =? N)%nat; rewrite IH; reflexivity.
  - rewrite IH. now rewrite app_assoc.
Qed.
Print Assumptions C37_flush.

(** ** C36 *)

(** Rows written one by one, with flushes anywhere, are read back one by one: the same
    rows in the same order, for every buffer size [N]. *)
Theorem C36_roundtrip : forall md5 st st' N pr cols acts, digest md5 -> (0 < N)%nat ->
  writable_columns cols pr -> Forall (writable st cols pr) (split_frames N [] acts) ->
  exists file, write_file md5 st N pr cols [] (map call acts) = Ok file /\
    forall junk, exists rows', Forall2 (same_row st st' cols) (rows_of_actions acts) rows' /\
      forall fuel, (length (rows_of_actions acts) < fuel)%nat -> read_rows md5 st' junk fuel file = (rows', Clean).
Proof.
  intros md5 st st' N pr cols acts Hd HN WC HW.
  destruct (set_columns_ok st cols []) as (base & E & Hb); [apply WC..|].
  destruct (open_writer st cols []) as [w| |] eqn:Ew.
  2,3: unfold open_writer in Ew; rewrite E in Ew; discriminate.
  pose proof (open_ok st st' cols pr WC base Hb md5 Hd N w E Ew) as P.
  destruct (run_ok st st' cols pr WC base Hb md5 Hd N HN acts [] w [] P HN HW) as (w1 & p1 & fs & bs & R1 & R2 & R3 & R4 & R5 & R6).
  cbn [app] in R2, R5.
  destruct p1 as [|r p1].
  - exists (concat bs). split.
    + unfold write_file. rewrite Ew. cbn [bind]. rewrite R1. cbn [bind]. unfold Writer.close, flush. destruct R2 as [Q1 _ Q2 Q3 _ _ _]. rewrite Q1, Q2. cbn [assert bind]. now rewrite Q3.
    + intros junk. destruct (read_plain st st' pr md5 Hd junk cols fs bs R6) as (rows' & S1 & S2).
      exists rows'. rewrite R5, app_nil_r. auto.
  - destruct (flush_ok st st' cols pr WC base Hb md5 Hd N w1 (r :: p1) (concat bs) R2) as (w2 & b & F1 & F2 & F3); [discriminate|lia| |].
    { rewrite R4 in HW. apply Forall_app in HW as (_ & HW). now apply Forall_inv in HW. }
    exists (concat bs ++ b). split.
    + unfold write_file. rewrite Ew. cbn [bind]. rewrite R1. cbn [bind]. unfold Writer.close. destruct R2 as [-> _ _ _ _ _ _]. rewrite F1. cbn [bind].
      destruct F2 as [_ _ _ -> _ _ _]. reflexivity.
    + intros junk. assert (F : Forall2 (holds_rows st st' cols pr md5) (fs ++ [r :: p1]) (bs ++ [b])) by (apply Forall2_app; auto).
      destruct (read_plain st st' pr md5 Hd junk cols _ _ F) as (rows' & S1 & S2).
      rewrite !concat_app in *. cbn [concat] in *. rewrite !app_nil_r in *. exists rows'. rewrite R5. auto.
Qed.
Print Assumptions C36_roundtrip.

Lemma written_frames md5 st st' N pr cols acts : digest md5 -> (0 < N)%nat ->
  writable_columns cols pr -> Forall (writable st cols pr) (split_frames N [] acts) ->
  exists fs bs, write_file md5 st N pr cols [] (map call acts) = Ok (concat bs) /\
    Forall2 (holds_rows st st' cols pr md5) fs bs /\ rows_of_actions acts = concat fs.
Proof.
  intros Hd HN WC HW. destruct (set_columns_ok st cols []) as (base & E & Hb); [apply WC..|].
  destruct (open_writer st cols []) as [w| |] eqn:Ew.
  2,3: unfold open_writer in Ew; rewrite E in Ew; discriminate.
  pose proof (open_ok st st' cols pr WC base Hb md5 Hd N w E Ew) as P.
  destruct (run_ok st st' cols pr WC base Hb md5 Hd N HN acts [] w [] P HN HW) as (w1 & p1 & fs & bs & R1 & R2 & R3 & R4 & R5 & R6).
  cbn [app] in R2, R5. destruct p1 as [|r p1].
  - exists fs, bs. split.
    + unfold write_file. rewrite Ew. cbn [bind]. rewrite R1. cbn [bind]. unfold Writer.close, flush. destruct R2 as [Q1 _ Q2 Q3 _ _ _]. rewrite Q1, Q2. cbn [assert bind]. now rewrite Q3.
    + split; [exact R6|]. now rewrite R5, app_nil_r.
  - destruct (flush_ok st st' cols pr WC base Hb md5 Hd N w1 (r :: p1) (concat bs) R2) as (w2 & b & F1 & F2 & F3); [discriminate|lia| |].
    { rewrite R4 in HW. apply Forall_app in HW as (_ & HW). now apply Forall_inv in HW. }
    exists (fs ++ [r :: p1]), (bs ++ [b]). rewrite !concat_app. cbn [concat]. rewrite !app_nil_r. split.
    + unfold write_file. rewrite Ew. cbn [bind]. rewrite R1. cbn [bind]. unfold Writer.close. destruct R2 as [-> _ _ _ _ _ _]. rewrite F1. cbn [bind].
      destruct F2 as [_ _ _ -> _ _ _]. reflexivity.
    + split; [apply Forall2_app; auto|exact R5].
Qed.

(** ... and in the file every row has the columns that were described to the writer (name,
    type, bitfield members), none of them wider than it was written. *)
Theorem C36_columns : forall md5 st st' N pr cols acts, digest md5 -> (0 < N)%nat ->
  writable_columns cols pr -> Forall (writable st cols pr) (split_frames N [] acts) ->
  exists file, write_file md5 st N pr cols [] (map call acts) = Ok file /\
    forall junk, exists rows', Forall2 (comes_back st st') (map (pair cols) (rows_of_actions acts)) rows' /\
      Forall2 snug (map (pair cols) (rows_of_actions acts)) rows' /\
      forall fuel, (length (rows_of_actions acts) < fuel)%nat -> file_rows md5 st' junk fuel file = (rows', Clean).
Proof.
  intros md5 st st' N pr cols acts Hd HN WC HW. destruct (written_frames md5 st st' N pr cols acts Hd HN WC HW) as (fs & bs & W & F & R).
  exists (concat bs). split; [exact W|]. intros junk. rewrite R.
  assert (F2 : Forall2 (frame_holds st st' pr md5) (map (pair cols) fs) bs) by (clear -F; induction F; constructor; assumption).
  destruct (read_file_snug st st' pr md5 Hd junk _ _ F2) as (rows' & A & B & C). rewrite flat_one in *. exists rows'. split; [exact A|]. split; [exact B|].
  intros fuel Hf. apply C. now rewrite map_length.
Qed.
Print Assumptions C36_columns.

(** ** C37 *)

(** The finished file is one frame after the other, as [split_frames] says: the tables
    found in it have exactly these numbers of rows. *)
Theorem C37_frames : forall md5 st st' N pr cols acts, digest md5 -> (0 < N)%nat ->
  writable_columns cols pr -> Forall (writable st cols pr) (split_frames N [] acts) ->
  exists bs tables, write_file md5 st N pr cols [] (map call acts) = Ok (concat bs) /\
    frames md5 st' bs /\ tables_of md5 st' bs tables /\
    map t_rows tables = map len (split_frames N [] acts) /\
    Forall (fun t => t_props t = pr /\
      Forall2 (fun ci c => col_name c = ci_name ci /\ col_type c = ci_type ci) cols (t_cols t)) tables /\
    forall est fuel, estimate est (concat bs) -> (length bs < fuel)%nat -> read_tables md5 st' est (concat bs) fuel [] = (tables, Clean).
Proof.
  intros md5 st st' N pr cols acts Hd HN WC HW.
  destruct (set_columns_ok st cols []) as (base & E & Hb); [apply WC..|].
  destruct (open_writer st cols []) as [w| |] eqn:Ew.
  2,3: unfold open_writer in Ew; rewrite E in Ew; discriminate.
  pose proof (open_ok st st' cols pr WC base Hb md5 Hd N w E Ew) as P.
  destruct (run_ok st st' cols pr WC base Hb md5 Hd N HN acts [] w [] P HN HW) as (w1 & p1 & fs & bs & R1 & R2 & R3 & R4 & R5 & R6).
  cbn [app] in R2, R5.
  assert (X : exists bs', write_file md5 st N pr cols [] (map call acts) = Ok (concat bs') /\
    Forall2 (holds_rows st st' cols pr md5) (split_frames N [] acts) bs').
  { destruct p1 as [|r p1].
    - exists bs. cbn [one_frame] in R4. rewrite app_nil_r in R4. rewrite R4. split; [|exact R6].
      unfold write_file. rewrite Ew. cbn [bind]. rewrite R1. cbn [bind]. unfold Writer.close, flush. destruct R2 as [Q1 _ Q2 Q3 _ _ _]. rewrite Q1, Q2. cbn [assert bind]. now rewrite Q3.
    - destruct (flush_ok st st' cols pr WC base Hb md5 Hd N w1 (r :: p1) (concat bs) R2) as (w2 & b & F1 & F2 & F3); [discriminate|lia| |].
      { rewrite R4 in HW. apply Forall_app in HW as (_ & HW). now apply Forall_inv in HW. }
      exists (bs ++ [b]). rewrite R4. cbn [one_frame]. split; [|apply Forall2_app; auto].
      unfold write_file. rewrite Ew. cbn [bind]. rewrite R1. cbn [bind]. unfold Writer.close. destruct R2 as [-> _ _ _ _ _ _]. rewrite F1. cbn [bind].
      destruct F2 as [_ _ _ -> _ _ _]. rewrite concat_app. cbn [concat]. now rewrite app_nil_r. }
  clear w1 p1 fs bs R1 R2 R3 R4 R5 R6. destruct X as (bs & W & F). exists bs.
  assert (FR : frames md5 st' bs).
  { clear W. induction F as [|f b fs bs H F IH]; constructor; [|apply IH].
    - destruct (frame_table st st' pr md5 Hd cols f b H) as (t & T & _). eauto.
    - now apply Forall_inv_tail in HW. }
  destruct (C27_concat md5 st' bs 0 FR (or_introl eq_refl)) as (tables & T & _). exists tables.
  split; [exact W|]. split; [exact FR|]. split; [exact T|].
  assert (G : forall i t, nth_error tables i = Some t -> exists f, nth_error (split_frames N [] acts) i = Some f /\ t_rows t = len f /\
     t_props t = pr /\ Forall2 (fun ci c => col_name c = ci_name ci /\ col_type c = ci_type ci) cols (t_cols t)).
  { intros i t Ht. destruct T as [T1 T2]. assert (Hl : (i < length bs)%nat) by (rewrite <- T1; apply nth_error_Some; congruence).
    destruct (nth_error bs i) as [b|] eqn:Eb; [|apply nth_error_None in Eb; lia].
    destruct (nth_error (split_frames N [] acts) i) as [f|] eqn:Ef.
    2: { apply nth_error_None in Ef. rewrite (TableProofs.Forall2_length _ _ _ F) in Ef. lia. }
    exists f. split; [reflexivity|].
    assert (H : holds_rows st st' cols pr md5 f b).
    { clear -F Eb Ef. revert i Ef Eb. induction F; intros [|i] E1 E2; cbn in *; try discriminate; [congruence|eauto]. }
    destruct (frame_table st st' pr md5 Hd cols f b H) as (t1 & (A1 & _) & B1 & B2 & B3).
    destruct (T2 i b Eb) as (t2 & (A2 & _) & C2). assert (t2 = t1) by congruence. subst t2.
    rewrite Ht in C2. assert (Q : t = moved (Z.of_nat (length (concat (firstn i bs)))) t1) by congruence. rewrite Q. cbn [moved t_rows t_props t_cols]. auto. }
  split.
  { apply ReaderProofs.nth_ext_error. intros i. rewrite !nth_error_map. destruct (nth_error tables i) as [t|] eqn:Et.
    - destruct (G i t Et) as (f & Ef & Er & _). rewrite Ef. cbn [option_map]. now rewrite Er.
    - apply nth_error_None in Et. destruct T as [T1 _]. rewrite T1, <- (TableProofs.Forall2_length _ _ _ F) in Et.
      rewrite (proj2 (nth_error_None _ _)) by exact Et. reflexivity. }
  split.
  { apply Forall_forall. intros t Hin. apply In_nth_error in Hin as (i & Ht). destruct (G i t Ht) as (f & _ & _ & A). exact A. }
  intros est fuel He Hf. destruct (C27_concat md5 st' bs est FR He) as (tables' & T' & RT). rewrite RT by exact Hf. f_equal.
  destruct T as [T1 T2], T' as [T1' T2']. apply ReaderProofs.nth_ext_error. intros j.
  destruct (nth_error bs j) as [f|] eqn:Ef.
  - destruct (T2 j f Ef) as (t1 & (A1 & _) & B1). destruct (T2' j f Ef) as (t2 & (A2 & _) & B2). congruence.
  - apply nth_error_None in Ef. rewrite !(proj2 (nth_error_None _ _)) by lia. reflexivity.
Qed.
Print Assumptions C37_frames.

(** At any moment before the writer is closed, what is written is whole frames, and
    reading it gives all rows but the last fewer than [N]. *)
Theorem C37_interrupted : forall md5 st st' N pr cols acts, digest md5 -> (0 < N)%nat ->
  writable_columns cols pr -> Forall (writable st cols pr) (split_frames N [] acts) ->
  exists w w1 done kept, open_writer st cols [] = Ok w /\ write_ops md5 st N pr w (map call acts) = Ok w1 /\
    rows_of_actions acts = done ++ kept /\ (length kept < N)%nat /\
    forall junk, exists rows', Forall2 (same_row st st' cols) done rows' /\
      forall fuel, (length done < fuel)%nat -> read_rows md5 st' junk fuel (w_out w1) = (rows', Clean).
Proof.
  intros md5 st st' N pr cols acts Hd HN WC HW.
  destruct (set_columns_ok st cols []) as (base & E & Hb); [apply WC..|].
  destruct (open_writer st cols []) as [w| |] eqn:Ew.
  2,3: unfold open_writer in Ew; rewrite E in Ew; discriminate.
  pose proof (open_ok st st' cols pr WC base Hb md5 Hd N w E Ew) as P.
  destruct (run_ok st st' cols pr WC base Hb md5 Hd N HN acts [] w [] P HN HW) as (w1 & p1 & fs & bs & R1 & R2 & R3 & R4 & R5 & R6).
  cbn [app] in R2, R5. exists w, w1, (concat fs), p1. split; [reflexivity|]. split; [exact R1|]. split; [exact R5|]. split; [exact R3|].
  intros junk. destruct R2 as [_ _ _ -> _ _ _]. apply read_plain with (pr := pr); assumption.
Qed.
Print Assumptions C37_interrupted.
