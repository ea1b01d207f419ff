(** C58: tables written row by row, decoded. *)
From Coq Require Import String.
From Verif Require Import Base Fp Stream StreamProofs StreamLocal Codec Meta Header HeaderProofs Encoder Table TableProofs FrameProofs FrameDecode Reader ReadSpec Writer RowReader RowList
  Spec Roundtrip Through P_Reader WriterSpec WriterProofs WriterRun WriterRead OrdinaryProofs CopyProofs CsvRows P_Decode P_MdSet P_Writer AgreeProofs P_Agree OdaOut OdaSpec P_Oda.
From Verif Require Import RowSpec AgreeSpec.
Open Scope Z_scope.
Local Notation length := List.length.

Section Frame.
Variables st st' : settings.

Lemma stream_cells : forall its row, Forall2 (good st st') its row -> forall b, encode_cells (map i_k its) row = Ok b ->
  forall rest, exists cells, cells_stream (map i_k' its) cells (b ++ rest) rest.
Proof.
  induction 1 as [|it x its row (_ & out & (b1 & E1 & _ & D1) & _) _ IH]; intros b E rest; cbn [map encode_cells] in E.
  - assert (b = []) by congruence. subst. exists []. constructor.
  - rewrite E1 in E. cbn [bind] in E. apply bind_ok in E as (b2 & E2 & E). assert (b = b1 ++ b2) by congruence. subst b.
    destruct (IH b2 E2 rest) as (cells & C). exists (out :: cells). cbn [map]. rewrite <- app_assoc. econstructor; [apply D1|exact C].
Qed.

Lemma good_skipn its row n : Forall2 (good st st') its row -> Forall2 (good st st') (skipn n its) (skipn n row).
Proof. intros F. revert n. induction F; intros [|n]; cbn [skipn]; auto. Qed.

Lemma body_streams its : (length its < Z.to_nat 65536)%nat -> forall rows prev body, Forall (Forall2 (good st st') its) rows -> length prev = length its ->
  encode_rows (map i_k its) (Some prev) rows = Ok body ->
  exists srows, length srows = length rows /\ row_stream (map i_k' its) srows body [].
Proof.
  intros Hl. induction rows as [|row rows IH]; intros prev body G Lp E; cbn [encode_rows] in E.
  - assert (body = []) by congruence. subst. exists []. split; [reflexivity|constructor].
  - inversion G as [|? ? G1 G2]; subst. apply bind_ok in E as (b & E1 & E). apply bind_ok in E as (b2 & E2 & E). assert (body = b ++ b2) by congruence. subst body.
    pose proof (Forall2_length _ _ _ G1) as Lr. destruct (IH row b2 G2 (eq_sym Lr) E2) as (srows & L & RS). unfold encode_row in E1. cbv beta iota zeta in E1. apply bind_ok in E1 as (b1 & E1 & E3).
    assert (b = marker (start_col prev row) ++ b1) by congruence. subst b.
    pose proof (start_col_le prev row) as Hs.
    rewrite skipn_map in E1. destruct (stream_cells _ _ (good_skipn its row (start_col prev row) G1) b1 E1 b2) as (cells & C).
    exists ((start_col prev row, cells) :: srows). split; [cbn [length]; congruence|]. rewrite <- app_assoc. econstructor.
    + reflexivity.
    + apply marker_val_marker. lia.
    + rewrite map_length. lia.
    + rewrite skipn_map. exact C.
    + exact RS.
Qed.

Lemma body_runs its : Forall (item_ok st st' LE) its -> Forall (fun it => 0 <= ci_size (i_ci it)) its -> (length its < Z.to_nat 65536)%nat ->
  forall rows prev last body, Forall (Forall2 (good st st') its) rows -> length prev = length its ->
  (forall row rest, rows = row :: rest -> close st st' its row prev last) ->
  encode_rows (map i_k its) (Some prev) rows = Ok body ->
  exists rows', rows_run (map read_column its) (length rows) last body = Ok (rows', []) /\ Forall2 (agree st st' its) rows rows'.
Proof.
  intros Hok Hz Hl. induction rows as [|row rows IH]; intros prev last body G Lp Cl E; cbn [encode_rows] in E.
  - assert (body = []) by congruence. subst. exists []. split; [reflexivity|constructor].
  - inversion G as [|? ? G1 G2]; subst. apply bind_ok in E as (b & E1 & E). apply bind_ok in E as (b2 & E2 & E). assert (body = b ++ b2) by congruence. subst body.
    unfold encode_row in E1. cbv beta iota zeta in E1. apply bind_ok in E1 as (b1 & E1 & E3). assert (b = marker (start_col prev row) ++ b1) by congruence. subst b.
    destruct (encode_row_ok st st' its row prev Hok Hz G1 Lp) as (b1' & Eb & _ & D). assert (b1' = b1) by congruence. subst b1'.
    destruct (D last (Cl row rows eq_refl) b2) as (row' & N & A). pose proof (Forall2_length _ _ _ G1) as Lr.
    destruct (IH row row' b2 G2) as (rows' & R & F); auto.
    { intros row2 rest ->. apply agree_close; [exact A|]. apply Forall_inv in G2. symmetry. apply (Forall2_length _ _ _ G2). }
    exists (row' :: rows'). split; [|constructor; assumption]. cbn [length rows_run]. rewrite <- app_assoc, read_raw_app by reflexivity. cbn [bind].
    rewrite marker_val_marker by (pose proof (start_col_le prev row); lia). rewrite N. cbn [bind]. rewrite R. reflexivity.
Qed.

Variables (pr : props) (md5 : list Z -> list Z).
Hypothesis Hd : digest md5.

(** What a frame written row by row is. *)
Lemma frame_facts cols rows b : NoDup (map ci_name cols) -> holds_rows st st' cols pr md5 rows b ->
  exists t its body rows' srows, frame md5 st' b t /\ t_rows t = Z.of_nat (length rows) /\ t_props t = pr /\ map i_ci its = cols /\ t_cols t = map read_column its /\
    Forall (item_ok st st' LE) its /\ Forall (fun it => cell_type (i_ci it)) its /\ body_of b t = body /\ row_stream (map i_k' its) srows body [] /\ length srows = length rows /\
    rows_run (map read_column its) (length rows) (init_row (fun _ _ => []) 0 0 (map read_column its)) body = Ok (rows', []) /\ Forall2 (agree st st' its) rows rows'.
Proof.
  intros ND (its & body & h & E1 & _ & WF & -> & (prev & Pv & B1) & B2).
  destruct (wframe_ok st st' md5 (fun _ _ => []) Hd its pr rows prev WF ltac:(now rewrite E1)) as (body' & h' & C1 & Lb & C2 & C4 & _).
  rewrite B1 in C1. assert (body' = body) by congruence. subst body'. rewrite B2 in C2.
  assert (h' = h) by congruence. subst h'.
  destruct (C4 []) as (s & M1 & M2). rewrite app_nil_r in M1, M2.
  assert (Hz : Forall (fun it => 0 <= ci_size (i_ci it)) its).
  { pose proof (wf_items _ _ _ _ _ WF) as W1. clear -W1. induction W1 as [|it its H _ IH]; constructor; [|exact IH]. exact (item_size _ _ _ H). }
  assert (Hr : Z.of_nat (length rows) < 2 ^ 63).
  { pose proof (wf_body _ _ _ _ _ WF). pose proof (sizes_nonneg its Hz). nia. }
  assert (Lp : length prev = length its) by (rewrite <- (Forall2_length _ _ _ Pv), <- E1, map_length; reflexivity).
  destruct (body_streams its (wf_ncols _ _ _ _ _ WF) rows prev body (wf_good _ _ _ _ _ WF) Lp B1) as (srows & Ls & RS).
  destruct (body_runs its (wf_items _ _ _ _ _ WF) Hz (wf_ncols _ _ _ _ _ WF) rows prev (init_row (fun _ _ => []) 0 0 (map read_column its)) body (wf_good _ _ _ _ _ WF) Lp) as (rows' & R & A).
  { intros row rest Er. apply (initial_close st st' md5); [exact (wf_items _ _ _ _ _ WF)|exact (wf_types _ _ _ _ _ WF)|exact (wf_stored _ _ _ _ _ WF)| |now rewrite E1]. pose proof (wf_good _ _ _ _ _ WF) as G. rewrite Er in G. exact (Forall_inv G). }
  { exact B1. }
  set (t := {| t_start := 0; t_data := Z.of_nat (length (h ++ body)) - Z.of_nat (length body); t_next := Z.of_nat (length (h ++ body)) - Z.of_nat (length body) + Z.of_nat (length body);
               t_size := Z.of_nat (length body); t_order := LE; t_props := pr; t_cols := map read_column its; t_rows := Z.of_nat (length rows) mod 2 ^ 64 |}).
  assert (F : frame md5 st' (h ++ body) t).
  { split.
    - unfold read_table. change (from (h ++ body) 0) with (h ++ body). rewrite M1. cbn [bind]. rewrite M2. cbn [bind h_dataSize h_rows h_cols h_order h_props].
      cbn [Z.eqb negb]. rewrite Bool.andb_false_r. reflexivity.
    - cbn [t t_next]. lia. }
  exists t, its, body, rows', srows. split; [exact F|]. cbn [t t_rows t_props t_cols]. rewrite Z.mod_small by lia.
  do 6 (split; [try reflexivity; try apply (wf_items _ _ _ _ _ WF); try apply (wf_types _ _ _ _ _ WF); try assumption|]). split.
  { unfold body_of. cbn [t t_data]. rewrite app_length. replace (Z.to_nat (Z.of_nat (length h + length body) - Z.of_nat (length body))) with (length h) by lia.
    rewrite skipn_app, skipn_all, Nat.sub_diag. reflexivity. }
  auto.
Qed.

Lemma until_nul_start : until_nul (firstn 8 (le_bytes 8 realMDI)) = [].
Proof. vm_compute. reflexivity. Qed.

Lemma firstn8_nul (a : list Z) : firstn 8 a = le_bytes 8 realMDI -> until_nul a = [].
Proof. intros E. destruct a as [|x a]; [reflexivity|]. cbn [firstn] in E. change (le_bytes 8 realMDI) with (0 :: tl (le_bytes 8 realMDI)) in E. assert (x = 0) by congruence. subst x. reflexivity. Qed.

Lemma frame_decodes cols rows b pre post : NoDup (map ci_name cols) -> holds_rows st st' cols pr md5 rows b ->
  exists t, frame md5 st' b t /\ table_holds st st' (pre ++ b ++ post) pr cols rows (moved (Z.of_nat (length pre)) t).
Proof.
  intros ND HR. destruct (frame_facts cols rows b ND HR) as (t & its & body & rows' & srows & F & T1 & T2 & E1 & T3 & Hok & Hty & Eb & RS & Ls & R & A).
  exists t. split; [exact F|]. set (file := pre ++ b ++ post). set (t1 := moved (Z.of_nat (length pre)) t).
  destruct (frame_body md5 st' b t pre post F) as (RE & _). rewrite Eb in RE. fold file t1 in RE.
  assert (Sd : Forall sound (map read_column its)).
  { clear -Hok. induction Hok as [|it its (_ & _ & _ & I1 & I2) _ IH]; constructor; [|exact IH]. unfold sound. change (col_coder (read_column it)) with (i_k' it). lia. }
  assert (Ln : map col_name (t_cols t1) = map ci_name cols).
  { unfold t1. cbn [moved t_cols]. rewrite T3, <- E1, !map_map. reflexivity. }
  assert (Mk : map col_coder (t_cols t1) = map i_k' its) by (unfold t1; cbn [moved t_cols]; rewrite T3, map_map; reflexivity).
  destruct (part_decodes (fun _ _ => []) file t1 (map (pair (t_cols t1)) rows')) as (_ & Dec).
  { exists rows'. split; [reflexivity|]. right. exists 0%nat, body, []. split; [unfold t1; cbn [moved t_rows]; lia|]. split; [exact RE|].
    unfold t1. cbn [moved t_rows t_cols]. rewrite T1, T3, Nat2Z.id. exact R. }
  assert (Lr : length rows' = length rows) by (symmetry; apply (Forall2_length _ _ _ A)).
  constructor.
  - exact T2.
  - exact T1.
  - unfold t1. cbn [moved t_cols]. rewrite T3, <- E1. clear -Hok. induction Hok as [|it its (_ & _ & _ & I1 & I2) _ IH]; constructor; [|exact IH]. split.
    + unfold read_column, reload_column, described. cbn [final_column col_name col_type col_bfnames col_bfsizes].
      split; [reflexivity|]. split; [reflexivity|]. intros ->. split; reflexivity.
    + unfold width. change (col_coder (read_column it)) with (i_k' it). lia.
  - intros names ps facs Sel NDp Room.
    destruct (Dec srows names ps facs) as (outs & D & V).
    + split; [unfold t1; cbn [moved t_rows]; lia|]. exists body, []. split; [exact RE|]. now rewrite Mk.
    + now rewrite Ln.
    + unfold t1. cbn [moved t_cols]. now rewrite T3.
    + now rewrite Ln.
    + exact NDp.
    + apply Forall2_weaken with (2 := Room). intros p f (ci & Ec & R1 & R2 & R3). unfold t1. cbn [moved t_cols]. rewrite T3.
      rewrite <- E1, nth_error_map in Ec. destruct (nth_error its p) as [it|] eqn:Ei; [|discriminate]. cbn [option_map] in Ec. assert (ci = i_ci it) by congruence. subst ci.
      exists (read_column it). rewrite nth_error_map, Ei. split; [reflexivity|]. rewrite map_length, Lr. split; [|split; assumption].
      change (col_coder (read_column it)) with (i_k' it). rewrite Forall_forall in Hok. destruct (Hok it (nth_error_In _ _ Ei)) as (_ & _ & _ & I1 & I2). lia.
    + exists outs. split; [exact D|]. apply Forall2_weaken with (2 := V). intros p out SV r row x ci c Er Ex Ec Et.
      destruct (nth_error rows' r) as [row'|] eqn:Er'; [|apply nth_error_None in Er'; assert (r < length rows)%nat by (apply nth_error_Some; congruence); lia].
      destruct (SV r (t_cols t1, row')) as (elem & cell & Ee & Ece & V1 & V2 & V3); [now rewrite nth_error_map, Er'|]. cbn [fst snd] in *.
      exists elem. split; [exact Ee|].
      pose proof (Forall2_at _ _ _ r row row' A Er Er') as Ag.
      unfold t1 in Et. cbn [moved t_cols] in Et. rewrite T3, nth_error_map in Et. destruct (nth_error its p) as [it|] eqn:Ei; [|discriminate]. cbn [option_map] in Et.
      assert (c = read_column it) by congruence. subst c. rewrite <- E1, nth_error_map, Ei in Ec. cbn [option_map] in Ec. assert (ci = i_ci it) by congruence. subst ci.
      assert (SW : same_value st st' (ci_type (i_ci it)) x cell /\ Z.of_nat (length cell) = 8 * data_size_doubles (i_k' it)).
      { clear -Ag Ex Ece Ei. revert p Ex Ece Ei. induction Ag as [|it0 its x0 xs y ys S1 W1 _ IH]; intros [|p] Ex Ece Ei; cbn [nth_error] in *; try discriminate; [|eauto].
        assert (it = it0) by congruence. assert (x = x0) by congruence. assert (cell = y) by congruence. subst. auto. }
      destruct SW as (SW & W). unfold width. change (col_coder (read_column it)) with (i_k' it). replace (Z.to_nat (8 * data_size_doubles (i_k' it))) with (length cell) by lia.
      assert (It : item_ok st st' LE it) by (rewrite Forall_forall in Hok; apply Hok; eapply nth_error_In; exact Ei).
      destruct It as (I0 & I0' & I0'' & I1 & I2). assert (It : item_ok st st' LE it) by (split; auto).
      pose proof (latest_shows srows p r) as LS. destruct (latest srows p r) as [[q y]|].
      * rewrite V2; [exact SW|]. intros U. exact (shows_unset _ _ _ _ _ LS U).
      * assert (Hm : firstn 8 cell = le_bytes 8 (missing_value (i_k' it))).
        { apply (V3 LS (read_column it)). unfold t1. cbn [moved t_cols]. now rewrite T3, nth_error_map, Ei. }
        destruct (Z.eq_dec (data_size_doubles (i_k' it)) 1) as [D1|D1].
        { rewrite D1 in W. replace (length cell) with 8%nat by lia. rewrite V1. rewrite firstn_all2 by lia. exact SW. }
        assert (ci_type (i_ci it) = ty_STRING \/ data_size_doubles (i_k' it) = 1) as [Ty|Q]; [|right|contradiction].
        { rewrite Forall_forall in Hty. destruct (Hty it (nth_error_In _ _ Ei)) as [(_ & S8)|Ty]; [right; lia|now left]. }
        assert (NI : ~ int_type (ci_type (i_ci it))) by (intros [Q|Q]; rewrite Q in Ty; discriminate Ty).
        destruct (missing_real st st' it It NI) as (Mr & _). rewrite Mr in Hm.
        assert (Sx : until_nul cell = until_nul x).
        { destruct SW as [([Q|Q] & _)|[(Q & _)|[(Q & _)|(_ & Q)]]]; try (rewrite Ty in Q; discriminate Q). exact Q. }
        right. right. split; [exact Ty|]. rewrite <- Sx, (firstn8_nul cell Hm). apply firstn8_nul.
        rewrite firstn_firstn, Nat.min_l by lia. now rewrite V1.
Qed.

(** A file made of such frames, read table by table. *)
Lemma written_tables fs bs est : Forall2 (frame_holds st st' pr md5) fs bs -> Forall (fun f => NoDup (map ci_name (fst f))) fs -> estimate est (concat bs) ->
  exists tables, Forall2 (fun f t => table_holds st st' (concat bs) pr (fst f) (snd f) t) fs tables /\
    forall fuel, (length tables < fuel)%nat -> read_tables md5 st' est (concat bs) fuel [] = (tables, Clean).
Proof.
  intros F ND He.
  assert (Fr : frames md5 st' bs).
  { clear He. induction F as [|[cols rows] b fs bs H _ IH]; constructor; [|apply IH; now apply Forall_inv_tail in ND].
    destruct (frame_decodes cols rows b [] [] (Forall_inv ND) H) as (t & Ft & _). eauto. }
  destruct (C27_concat md5 st' bs est Fr He) as (tables & (Lt & T) & R). pose proof (Forall2_length _ _ _ F) as Lf.
  exists tables. split.
  - apply Forall2_by_nth; [lia|]. intros i [cols rows] t1 Ef Et. cbn [fst snd].
    destruct (nth_error bs i) as [b|] eqn:Eb; [|apply nth_error_None in Eb; assert (i < length fs)%nat by (apply nth_error_Some; congruence); lia].
    destruct (T i b Eb) as (t & Ft & Et'). assert (t1 = moved (Z.of_nat (length (concat (firstn i bs)))) t) by congruence. subst t1.
    pose proof (Forall2_at _ _ _ i _ _ F Ef Eb) as H. assert (Nd : NoDup (map ci_name cols)) by (rewrite Forall_forall in ND; exact (ND _ (nth_error_In _ _ Ef))).
    destruct (frame_decodes cols rows b (concat (firstn i bs)) (concat (skipn (S i) bs)) Nd H) as (t' & Ft' & TH).
    assert (t' = t) by (destruct Ft as (Q1 & _), Ft' as (Q2 & _); congruence). subst t'.
    assert (E : concat bs = concat (firstn i bs) ++ b ++ concat (skipn (S i) bs)); [|now rewrite E].
    clear -Eb. revert bs Eb. induction i as [|i IH]; intros [|a bs] Eb; cbn [nth_error] in Eb; try discriminate; cbn [firstn skipn concat app].
    + congruence.
    + rewrite <- app_assoc. f_equal. now apply IH.
  - intros fuel Hf. apply R. lia.
Qed.
End Frame.

(** A file written row by row, read back table by table: the frames are its tables, with
    their properties, columns and rows, and decoding any choice of columns gives the values
    written. *)
Theorem C58_written : forall md5 st st' N pr cols acts est, digest md5 -> (0 < N)%nat ->
  writable_columns cols pr -> Forall (writable st cols pr) (split_frames N [] acts) ->
  exists file, write_file md5 st N pr cols [] (map call acts) = Ok file /\
    (estimate est file -> exists tables, 
      (forall fuel, (length tables < fuel)%nat -> read_tables md5 st' est file fuel [] = (tables, Clean)) /\
      Forall2 (table_holds st st' file pr cols) (split_frames N [] acts) tables).
Proof.
  intros md5 st st' N pr cols acts est Hd HN WC HW.
  destruct (set_columns_ok st cols []) as (base & E & Hb); [apply WC..|].
  destruct (open_writer st cols []) as [w| |] eqn:Ew.
  2,3: unfold open_writer in Ew; rewrite E in Ew; discriminate.
  pose proof (open_ok st st' cols pr WC base Hb md5 Hd N w E Ew) as P.
  destruct (run_ok st st' cols pr WC base Hb md5 Hd N HN acts [] w [] P HN HW) as (w1 & p1 & fs & bs & R1 & R2 & R3 & R4 & R5 & R6).
  cbn [app] in R2, R5.
  assert (K : forall fs bs, Forall2 (holds_rows st st' cols pr md5) fs bs -> estimate est (concat bs) -> exists tables,
    (forall fuel, (length tables < fuel)%nat -> read_tables md5 st' est (concat bs) fuel [] = (tables, Clean)) /\ Forall2 (table_holds st st' (concat bs) pr cols) fs tables).
  { intros gs cs F He. destruct (written_tables st st' pr md5 Hd (map (pair cols) gs) cs est) as (tables & T1 & T2); auto.
    - clear -F. induction F; constructor; assumption.
    - apply Forall_forall. intros f I. apply in_map_iff in I as (g & <- & _). cbn [fst]. apply WC.
    - exists tables. split; [exact T2|]. clear -T1. remember (map (pair cols) gs) as l eqn:E. revert gs E. induction T1 as [|a t l l' H _ IH]; intros [|g gs] E; cbn [map] in E; try discriminate; constructor.
      + assert (a = (cols, g)) by congruence. now subst a.
      + apply IH. congruence. }
  destruct p1 as [|r p1].
  - exists (concat bs). split.
    + unfold write_file. rewrite Ew. cbn [bind]. rewrite R1. cbn [bind]. unfold Writer.close, flush. destruct R2 as [Q1 _ Q2 Q3 _ _ _]. rewrite Q1, Q2. cbn [assert bind]. now rewrite Q3.
    + intros He. rewrite R4. cbn [one_frame]. rewrite app_nil_r. now apply K.
  - destruct (flush_ok st st' cols pr WC base Hb md5 Hd N w1 (r :: p1) (concat bs) R2) as (w2 & b & F1 & F2 & F3); [discriminate|lia| |].
    { rewrite R4 in HW. apply Forall_app in HW as (_ & HW). now apply Forall_inv in HW. }
    exists (concat bs ++ b). split.
    + unfold write_file. rewrite Ew. cbn [bind]. rewrite R1. cbn [bind]. unfold Writer.close. destruct R2 as [-> _ _ _ _ _ _]. rewrite F1. cbn [bind].
      destruct F2 as [_ _ _ -> _ _ _]. reflexivity.
    + assert (F : Forall2 (holds_rows st st' cols pr md5) (fs ++ [r :: p1]) (bs ++ [b])) by (apply Forall2_app; auto).
      rewrite R4. cbn [one_frame]. intros He. destruct (K _ _ F) as (tables & T1 & T2); rewrite concat_app in *; cbn [concat] in *; rewrite app_nil_r in *; eauto.
Qed.
Print Assumptions C58_written.

(** The same for a query's results in an ODB file: a table for each frame. *)
Theorem C58_results : forall md5 st st' N pr cols es est, digest md5 -> (0 < N)%nat ->
  writable_columns (map announced cols) pr -> text_titles (map announced cols) -> proper (map announced cols) es ->
  rows_storable st N pr (map (fun r => (fst r, row_of st r)) (answers (map announced cols) es)) ->
  exists file, oda_file md5 st N pr cols es = Ok file /\
    (estimate est file -> exists fs tables,
      concat (map (fun f => map (pair (fst f)) (snd f)) fs) = map (fun r => (fst r, row_of st r)) (answers (map announced cols) es) /\
      (forall fuel, (length tables < fuel)%nat -> read_tables md5 st' est file fuel [] = (tables, Clean)) /\
      Forall2 (fun f t => table_holds st st' file pr (fst f) (snd f) t) fs tables).
Proof.
  change announced with osized. intros md5 st st' N pr cols es est Hd HN W T P HS.
  destruct (file_core st st' pr md5 Hd N HN _ HS cols es W T P) as (file & E & (fs & bs & -> & F & Ef)).
  { intros r Hr. apply (in_map (as_cells st)) in Hr. exact Hr. }
  exists (concat bs). split; [exact E|]. intros He.
  destruct (written_tables st st' pr md5 Hd fs bs est F) as (tables & T1 & T2); [|exact He|].
  - assert (An : forall es l r, In r (answers l es) -> map ci_name (fst r) = map ci_name l).
    { clear. induction es as [|[news|vals] es IH]; intros l r I; cbn [answers] in I; [destruct I| |].
      - rewrite (IH _ _ I). apply widen_names.
      - destruct I as [<-|I]; [reflexivity|now apply IH]. }
    apply Forall_forall. intros [cs rows] I. cbn [fst].
    assert (Q : exists row, In (cs, row) (flat fs)).
    { assert (Hne : rows <> []).
      { clear -F I. induction F as [|f b fs bs (its & body & h & _ & _ & WF & _) _ IH]; [destruct I|]. destruct I as [-> |I]; [exact (wf_rows _ _ _ _ _ WF)|now apply IH]. }
      destruct rows as [|row rows]; [congruence|]. exists row. unfold flat. apply in_concat. exists (map (pair cs) (row :: rows)). split; [|now left].
      apply in_map_iff. exists (cs, row :: rows). auto. }
    destruct Q as (row & Q). rewrite Ef in Q. apply in_map_iff in Q as (r & Er & Ir). unfold as_cells in Er. assert (fst r = cs) as <- by congruence.
    rewrite (An _ _ _ Ir). apply W.
  - exists fs, tables. split; [exact Ef|]. split; [exact T2|exact T1].
Qed.
Print Assumptions C58_results.
