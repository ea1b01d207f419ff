(** C63: the verification of a split finds nothing. *)
From Coq Require Import String.
From Verif Require Import CsvRows Api.
From Verif Require MdDecode.
From Verif Require Import IntProofs Spec Base Fp FpProofs FpNearest RealProofs RealColumn Stream StreamProofs StreamLocal Codec Meta Header HeaderProofs Encoder Table Reader ReadSpec
  ColumnProofs TableProofs FrameProofs Through P_Reader P_Reals Writer RowReader RowList WriterSpec WriterProofs WriterRun WriterRead Comparator ComparatorSpec P_Compare
  Copy CopySpec CopyProofs P_Copy P_Tables Dispatcher DispatchSpec DispatchNames DispatchProofs DispatchRun P_Dispatch P_AgreeWritten
  Verify VerifySpec P_Verify.
Open Scope Z_scope.
Local Notation length := List.length.

(** ** What is read of frames, with the codecs it is read by *)
Section Read.
Variables (st st' : settings).
Variables (pr : props) (md5 : list Z -> list Z).
Hypothesis Hd : digest md5.

Definition faithful (f : list colinfo * list (list Z)) (out : arow) : Prop :=
  exists its, map i_ci its = fst f /\ Forall (item_ok st st' LE) its /\ fst out = map read_column its /\ agree st st' its (snd f) (snd out).

Variable junk : nat -> nat -> list Z.

Lemma frames_faithful : forall fs bs, Forall2 (frame_holds st st' pr md5) fs bs -> forall count,
  exists rows', Forall2 faithful (flat fs) rows' /\
    forall f, (0 < f)%nat -> list_rows md5 st' junk (length (flat fs) + f) (between (concat bs) count) = (rows', Clean).
Proof using Hd.
  induction 1 as [|[cols rows] b fs bs (its & body & h & E1 & _ & WF & Eb & (prev & Pv & B1) & B2) F IH]; intros count.
  - exists []. split; [constructor|]. intros [|f] Hf; [lia|]. reflexivity.
  - destruct (IH (S count)) as (rows' & S' & R'). cbn [fst snd] in *.
    destruct (wframe_ok st st' md5 junk Hd its pr rows prev WF ltac:(now rewrite E1)) as (body' & h' & C1 & _ & C2 & _ & C3).
    rewrite B1 in C1. assert (body' = body) by congruence. subst body'. rewrite B2 in C2.
    assert (h' = h) by congruence. subst h'.
    destruct (C3 count (concat bs)) as (rows1 & A & R & _).
    exists (map (pair (map read_column its)) rows1 ++ rows'). unfold flat. cbn [map concat fst snd]. fold (flat fs). split.
    { apply Forall2_app; [|exact S']. pose proof (wf_items _ _ _ _ _ WF) as W1. clear -A E1 W1. induction A as [|x y l l' A1 A IH]; cbn [map]; constructor; [|exact IH].
      exists its. auto. }
    intros f Hf. rewrite app_length, map_length, <- Nat.add_assoc, Eb, <- app_assoc, R, R' by exact Hf. reflexivity.
Qed.

Lemma file_faithful fs bs : Forall2 (frame_holds st st' pr md5) fs bs ->
  exists rows', Forall2 faithful (flat fs) rows' /\
    forall f, (length (flat fs) < f)%nat -> file_rows md5 st' junk f (concat bs) = (rows', Clean).
Proof using Hd.
  intros F. destruct (frames_faithful fs bs F 0) as (rows' & S' & R). exists rows'. split; [exact S'|].
  intros f Hf. destruct (read_file st st' pr md5 Hd junk fs bs F) as (rows2 & _ & R2). rewrite (R2 f Hf). f_equal.
  replace f with (length (flat fs) + (f - length (flat fs)))%nat in R2 by lia.
  specialize (R (f - length (flat fs))%nat ltac:(lia)). specialize (R2 (length (flat fs) + (f - length (flat fs)))%nat ltac:(lia)).
  revert R2 R. generalize (length (flat fs) + (f - length (flat fs)))%nat as k. intros k.
  unfold file_rows, open_rows. destruct F as [|[cols rows] b fs bs (its & body & h & E1 & _ & WF & Eb & (prev & Pv & B1) & B2) F].
  - cbn [concat length load_table]. cbn. destruct k; cbn; congruence.
  - cbn [fst snd] in *. destruct (wframe_ok st st' md5 junk Hd its pr rows prev WF ltac:(now rewrite E1)) as (body' & h' & C1 & _ & C2 & _ & C3).
    rewrite B1 in C1. assert (body' = body) by congruence. subst body'. rewrite B2 in C2.
    assert (h' = h) by congruence. subst h'.
    destruct (C3 0%nat (concat bs)) as (_ & _ & _ & it & LT & _ & AR). cbn [concat]. rewrite Eb, <- app_assoc, LT. rewrite AR. congruence.
Qed.
End Read.

(** ** Cells *)
Lemma bits_le v : is64 v -> bits (le_bytes 8 v) = v.
Proof.
  intros H. unfold bits. rewrite firstn_all2 by (rewrite le_bytes_length; lia). rewrite le_val_small; [now apply Z.mod_small|].
  unfold is64 in H. change (256 ^ Z.of_nat 8) with (2 ^ 64). exact H.
Qed.

Lemma as_single_twice v : is64 v -> is_fin f64 (as_single v) = true -> as_single (as_single v) = as_single v.
Proof.
  intros V F. destruct (is_nan f64 v) eqn:Nv; [destruct (nan_single v V Nv); congruence|]. unfold as_single at 1.
  unfold as_single at 1. rewrite d2f_f2d; [reflexivity|now apply d2f_32|now apply d2f_not_nan].
Qed.

Lemma deq_single v w : is64 v -> is64 w -> deq w v = true -> is_fin f64 (as_single v) = true ->
  is_fin f64 (as_single w) = true /\ val f64 (as_single w) = val f64 (as_single v).
Proof.
  intros V W D F. destruct (Z.eq_dec w v) as [->|Ne]; [auto|].
  assert (Z0 : forall a b, is64 a -> is64 b -> a <> b -> deq a b = true -> b = negzero -> a = 0).
  { intros a b A B Nab Dab ->. assert (N0 : 0 <> negzero) by (vm_compute; discriminate). assert (I0 : is64 0) by (unfold is64; lia). apply deq_eq; auto. }
  destruct (Z.eq_dec v negzero) as [Ev|Ev].
  - rewrite (Z0 w v W V Ne D Ev), Ev. vm_compute. auto.
  - destruct (Z.eq_dec w negzero) as [Ew|Ew]; [|exfalso; apply Ne; now apply deq_eq].
    rewrite deq_sym in D. rewrite (Z0 v w V W (not_eq_sym Ne) D Ew), Ew. vm_compute. auto.
Qed.

Lemma missing_plain c x : c_int64 (col_coder c) = false -> (missing true c x <-> bits x = c_missing (col_coder c)).
Proof. intros H. unfold missing, missing_value. rewrite H, andb_false_r. tauto. Qed.

Lemma text_not_missing b z : b <> 0 -> 0 <= b < 256 -> bits (b :: z) <> realMDI.
Proof.
  intros H B E. unfold bits in E. cbn [firstn le_val] in E. set (r := le_val _) in E. clearbody r.
  assert (X : exists q, b + 256 * r = realMDI + 2 ^ 64 * q) by (exists ((b + 256 * r) / 2 ^ 64); pose proof (Z.div_mod (b + 256 * r) (2 ^ 64)); lia).
  destruct X as (q & X). assert (Q : exists m, realMDI = 256 * m) by (exists (realMDI / 256); vm_compute; reflexivity).
  destruct Q as (m & Q). rewrite Q in X. lia.
Qed.

Lemma cell_ok st nans it c x y : iad st = true -> item_ok st st LE it -> col_type c = ci_type (i_ci it) -> marked c -> checkable c x ->
  len x = width c -> (ci_type (i_ci it) = ty_STRING -> bytes_ok x) -> same_value st st (ci_type (i_ci it)) x y -> len y = 8 * data_size_doubles (i_k' it) ->
  cells_agree near true nans c (read_column it) x y.
Proof.
  intros Hi It Ty (M1 & M2) Ck Lx Bx Sv Ly. destruct (reload_int64 st st it It) as (R1 & _ & R3). rewrite Hi, andb_false_r in R3.
  assert (Mx : missing true c x <-> bits x = default_missing (ci_type (i_ci it))).
  { rewrite (missing_plain c x M2), M1, Ty. reflexivity. }
  assert (My : missing true (read_column it) y <-> bits y = default_missing (ci_type (i_ci it))).
  { rewrite (missing_plain (read_column it) y R3). cbn [read_column reload_column col_coder]. rewrite R1. reflexivity. }
  assert (Same : x = y -> (ci_type (i_ci it) = ty_INTEGER \/ ci_type (i_ci it) = ty_BITFIELD \/ ci_type (i_ci it) = ty_DOUBLE) -> cells_agree near true nans c (read_column it) x y).
  { intros <- T. destruct (Z.eq_dec (bits x) (default_missing (ci_type (i_ci it)))) as [E|E]; [left; tauto|right]. split; [tauto|]. split; [tauto|].
    right. left. rewrite Ty. split; [exact T|]. left. destruct Ck as [(C1 & _)|[(_ & C)|(C1 & _)]]; try (rewrite Ty in C1; destruct T as [T|[T|T]]; rewrite T in C1; discriminate).
    split; [exact C|]. split; [exact C|apply near_refl]. }
  destruct Sv as [(T & n & _ & -> & ->)|[(T & v & w & V & W & -> & -> & RR)|[(T & ->)|(T & U)]]].
  - apply Same; [reflexivity|]. destruct T; auto.
  - assert (D0 : default_missing (ci_type (i_ci it)) = realMDI) by (rewrite T; reflexivity). rewrite D0 in Mx, My.
    rewrite (bits_le v V) in Mx. rewrite (bits_le w W) in My. destruct realMDI_facts as (Q1 & Q2 & Q3 & Q4).
    assert (Fv : is_fin f64 (as_single v) = true).
    { destruct Ck as [(C1 & _)|[(C1 & _)|(_ & C)]]; [rewrite Ty, T in C1; discriminate|rewrite Ty, T in C1; destruct C1 as [C1|[C1|C1]]; discriminate|]. now rewrite (bits_le v V) in C. }
    assert (Nv : num v). { split; [exact V|]. destruct (is_nan f64 v) eqn:Nv; [destruct (nan_single v V Nv); congruence|reflexivity]. }
    unfold real_result in RR. destruct (deq v realMDI) eqn:Dv.
    + left. split; [apply Mx|apply My; exact RR]. apply deq_eq; auto. intros ->. vm_compute in Dv. discriminate.
    + assert (R0 : deq realMDI realMDI = true) by exact (deq_refl realMDI Q2).
      assert (Hv : v <> realMDI) by (intros E; rewrite E, R0 in Dv; discriminate Dv).
      right. split; [tauto|]. split.
      { rewrite My. intros E. destruct RR as [RR|RR]; [rewrite E, deq_sym, Dv in RR; discriminate RR|]. pose proof (as_single_not_missing v Nv) as X. rewrite <- RR, E, R0 in X. discriminate X. }
      right. right. split; [now rewrite Ty|]. left. rewrite (bits_le v V), (bits_le w W). split; [exact Fv|].
      destruct RR as [RR|RR].
      * destruct (deq_single v w V W RR Fv) as (F1 & F2). split; [exact F1|]. rewrite F2. apply near_refl.
      * rewrite RR, (as_single_twice v V Fv). split; [exact Fv|apply near_refl].
  - apply Same; auto.
  - assert (D0 : default_missing (ci_type (i_ci it)) = realMDI) by (rewrite T; reflexivity). rewrite D0 in Mx, My.
    destruct Ck as [(_ & C)|[(C1 & _)|(C1 & _)]]; [|rewrite Ty, T in C1; destruct C1 as [C1|[C1|C1]]; discriminate|rewrite Ty, T in C1; discriminate].
    specialize (Bx T). destruct x as [|b x]; [elim C; reflexivity|]. cbn [until_nul] in C, U. destruct (Z.eqb_spec b 0) as [Eb|Eb]; [elim C; reflexivity|].
    destruct y as [|b' y]; [discriminate|]. cbn [until_nul] in U. destruct (b' =? 0) eqn:Eb'; [discriminate|]. injection U as -> U.
    pose proof (Forall_inv Bx) as Hb. cbn beta in Hb.
    right. split; [rewrite Mx; now apply text_not_missing|]. split; [rewrite My; now apply text_not_missing|]. left. split; [now rewrite Ty|].
    rewrite !firstn_all2; [cbn [until_nul]; rewrite Eb'; destruct (Z.eqb_spec b 0); congruence| |].
    + change (width (read_column it)) with (8 * data_size_doubles (i_k' it)). rewrite <- Ly. unfold len. lia.
    + rewrite <- Lx. unfold len. lia.
Qed.

(** ** Rows *)
Lemma agree_nth st st' its xs ys : agree st st' its xs ys -> forall i it x y, nth_error its i = Some it -> nth_error xs i = Some x -> nth_error ys i = Some y ->
  same_value st st' (ci_type (i_ci it)) x y /\ len y = 8 * data_size_doubles (i_k' it).
Proof.
  induction 1 as [|it its x xs y ys S1 L1 A IH]; intros [|i] a b c; cbn [nth_error]; try discriminate.
  - intros E1 E2 E3. assert (a = it) by congruence. assert (b = x) by congruence. assert (c = y) by congruence. subst. auto.
  - apply IH.
Qed.

Lemma shape_nth cs cs' : map shape cs' = map shape cs -> forall i c, nth_error cs i = Some c -> exists c', nth_error cs' i = Some c' /\ shape c' = shape c.
Proof.
  intros E i c H. assert (Q : nth_error (map shape cs') i = Some (shape c)) by (rewrite E, nth_error_map, H; reflexivity).
  rewrite nth_error_map in Q. destruct (nth_error cs' i) as [c'|]; [|discriminate]. exists c'. split; [reflexivity|]. cbn in Q. congruence.
Qed.

Lemma storable_bytes st ci cells : storable st ci cells -> ci_type ci = ty_STRING -> Forall bytes_ok cells.
Proof. intros H T. destruct H as [ns I _ _|bs I _ _ _|bs I _ _ _ _|dsd cells I _ _ _ _ B _ _]; auto; exfalso; rewrite T in I; [destruct I; discriminate|discriminate..]. Qed.

Lemma row_clean st N rows nans r f out : iad st = true -> (0 < N)%nat -> rows_copyable st N [] rows -> In r rows ->
  (forall c, In c (fst r) -> marked c) ->
  (forall i c x, nth_error (fst r) i = Some c -> nth_error (snd r) i = Some x -> checkable c x) ->
  matched rows r f -> faithful st st f out -> row_ok near nans r out.
Proof.
  intros Hi HN HC Hr Hm Hk (M1 & cs' & M2 & M3 & _) (its & F1 & F2 & F3 & F4). destruct r as [cs row]. destruct f as [fc frow]. destruct out as [oc orow].
  cbn [fst snd] in *. subst fc frow oc. destruct (agree_len _ _ _ _ _ F4) as (L1 & L2).
  assert (Lc : length its = length cs). { rewrite <- (map_length i_ci its), F1, map_length, <- (map_length shape cs'), M3. apply map_length. }
  assert (It : forall i c, nth_error cs i = Some c -> exists it, nth_error its i = Some it /\ ci_name (i_ci it) = col_name c /\ ci_type (i_ci it) = col_type c).
  { intros i c E. destruct (shape_nth cs cs' M3 i c E) as (c' & E' & Sc).
    assert (Q : nth_error (map i_ci its) i = Some (info c')) by (rewrite F1, nth_error_map, E'; reflexivity).
    rewrite nth_error_map in Q. destruct (nth_error its i) as [it|]; [|discriminate]. exists it. split; [reflexivity|].
    cbn in Q. assert (i_ci it = info c') as -> by congruence. unfold shape in Sc. cbn [info ci_name ci_type]. split; congruence. }
  pose proof (rc_rows _ _ _ _ HC cs [row] (in_map fst _ _ Hr) ltac:(discriminate) ltac:(cbn; lia)) as W.
  destruct W as [W1 W2 _ _]. { intros row' [<-|[]]. exists cs. auto. }
  apply Forall_inv in W1. split; [|split; [|split]]; cbn [fst snd].
  - apply Forall2_nth. { now rewrite map_length. } intros i c d Ec Ed. destruct (It i c Ec) as (it & Ei & T1 & T2).
    rewrite nth_error_map, Ei in Ed. cbn in Ed. injection Ed as <-. cbn [read_column reload_column final_column col_name col_type]. auto.
  - congruence.
  - rewrite map_length. congruence.
  - intros i c d x y Ec Ed Ex Ey. destruct (It i c Ec) as (it & Ei & T1 & T2). rewrite nth_error_map, Ei in Ed. cbn in Ed. injection Ed as <-.
    destruct (agree_nth _ _ _ _ _ F4 i it x y Ei Ex Ey) as (A1 & A2).
    apply cell_ok with (st := st); auto.
    + rewrite Forall_forall in F2. apply F2. now apply nth_error_In in Ei.
    + apply Hm. now apply nth_error_In in Ec.
    + apply (Hk i); assumption.
    + assert (Ecc : nth_error (map info cs) i = Some (info c)) by (rewrite nth_error_map, Ec; reflexivity).
      rewrite (Forall2_at _ _ _ i (info c) x W1 Ecc Ex). reflexivity.
    + assert (Ecc : nth_error (map info cs) i = Some (info c)) by (rewrite nth_error_map, Ec; reflexivity).
      intros T. pose proof (W2 i (info c) Ecc) as S0. unfold column_cells in S0. cbn [map] in S0.
      apply storable_bytes in S0; [|cbn [info ci_type]; congruence]. apply Forall_inv in S0. now rewrite (nth_error_nth _ _ _ Ex) in S0.
Qed.

Lemma split_is md5 st N template max junk fuel append k file :
  split_file md5 st N template max junk fuel append k file =
  do d <- pass1_file md5 st N template max junk fuel append k file; close_all md5 st N (d_disk d) (d_open d).
Proof.
  unfold split_file, pass1_file. destruct (begin_rows md5 st junk file) as [it| |]; cbn [bind]; try reflexivity.
  destruct (r_end it); [reflexivity|]. destruct (map_out (copy_column st) (r_cols it)) as [cols| |]; cbn [bind]; try reflexivity.
  destruct (parse_params _ _) as [d| |]; cbn [bind]; try reflexivity.
  destruct (assert _) as [[]| |]; reflexivity.
Qed.

(** The split tool with verification, of a file whose rows have values that can be checked,
    into no more files than may be open: all rows are verified, and there are no
    differences. *)
Theorem C63_clean : forall md5 st N max nans junk0 junk junks file rows template route k,
  digest md5 -> (0 < N)%nat -> (0 < max)%nat -> rows <> [] ->
  (forall f, (length rows < f)%nat -> file_rows md5 st junk0 f file = (rows, Clean)) ->
  (forall f, (length rows < f)%nat -> file_rows md5 st junk f file = (rows, Clean)) ->
  rows_copyable st N [] rows -> routed template rows route -> few max (map route rows) ->
  iad st = true -> (forall r c, In r rows -> In c (fst r) -> marked c) ->
  (forall r r', In r rows -> In r' rows -> map col_name (fst r) = map col_name (fst r')) ->
  (forall r i c x, In r rows -> nth_error (fst r) i = Some c -> nth_error (snd r) i = Some x -> checkable c x) ->
  forall fuel, (length rows < fuel)%nat ->
  exists k', split_file md5 st N template max junk0 fuel false k file = Ok k' /\
    split_tool md5 st N template max nans junk0 junk junks fuel k file = Ok (k', length rows, O).
Proof.
  intros md5 st N max nans junk0 junk junks file rows template route k Hd HN Hmax Hne R0 R HC HR Hfew Hi Hm Hn Hk fuel Hf.
  destruct (split_core st st md5 Hd N HN rows HC template route HR false k max Hmax (or_intror (or_intror Hfew)) (or_introl (conj eq_refl Hfew)) junk0 file fuel Hne R0 Hf)
    as (k' & K1 & _ & K3).
  exists k'. split; [exact K1|].
  destruct (C63_counts md5 st N max nans junk0 junk junks file rows template route k Hd HN Hmax Hne R0 R HC HR Hfew Hi Hm Hn fuel Hf) as (d & reader_of & P1 & V).
  rewrite split_is, P1 in K1. cbn [bind] in K1. unfold split_tool. rewrite P1. cbn [bind]. rewrite K1. cbn [bind].
  set (outs := fun (j : nat) (n : list Z) => fst (file_rows md5 st (junks j) (S (length rows)) (content k' n))).
  assert (Ho : forall n j, In n (map route rows) ->
    Forall2 (row_ok near nans) (DispatchRun.rows_for route n rows) (outs j n) /\
    forall f, (length (outs j n) < f)%nat -> file_rows md5 st (junks j) f (content k' n) = (outs j n, Clean)).
  { intros n j In1. destruct (K3 n In1) as (D & r1 & A1 & (fs & bs & -> & F & <-) & M).
    assert (Ec : content k' n = concat bs) by (unfold content; rewrite A1; reflexivity).
    destruct (file_faithful st st [] md5 Hd (junks j) fs bs F) as (rows' & Fa & RR).
    assert (L : length (flat fs) = length (DispatchRun.rows_for route n rows)) by (symmetry; apply (TableProofs.Forall2_length _ _ _ M)).
    assert (Ll : (length (DispatchRun.rows_for route n rows) <= length rows)%nat) by (unfold DispatchRun.rows_for; clear; induction rows as [|x l IH]; cbn [filter length]; [lia|]; destruct (bytes_eqb _ _); cbn [length]; lia).
    assert (Eo : outs j n = rows') by (unfold outs; rewrite Ec, RR by lia; reflexivity).
    pose proof (TableProofs.Forall2_length _ _ _ Fa) as L2. rewrite Eo, Ec. split; [|intros f Hf2; apply RR; lia].
    assert (Sub : forall r, In r (DispatchRun.rows_for route n rows) -> In r rows) by (intros r Q; now apply filter_In in Q).
    clear -M Fa Sub Hi HN HC Hm Hk. revert Fa Sub. generalize rows' as out. induction M as [|r f rs l M1 M IH]; intros out Fa Sub; inversion Fa as [|? o ? os Fa1 Fa2]; subst; constructor.
    - apply (row_clean st N rows nans r f o); auto; [apply Sub; now left|intros c; apply Hm, Sub; now left|intros i c x; apply Hk, Sub; now left].
    - apply IH; [exact Fa2|]. intros r' Q. apply Sub. now right. }
  destruct (V k' outs) as (wrong & W1 & _ & W3 & W4); [intros n j Q; apply Ho; exact Q|].
  rewrite W1. destruct wrong as [|i wrong]; [reflexivity|exfalso].
  pose proof (W3 i (or_introl eq_refl)) as Li. destruct (nth_error rows i) as [r|] eqn:Er; [|apply nth_error_None in Er; lia].
  destruct (W4 i r Er) as (_ & W5). apply (W5 (or_introl eq_refl)). clear -Er Ho. unfold counterpart. rewrite Er.
  assert (Hr : In r rows) by (now apply nth_error_In in Er).
  destruct (Ho (route r) (reader_of (route r)) (in_map route _ _ Hr)) as (F & _).
  assert (Ef : forall l, filter (fun r' => if list_eq_dec Z.eq_dec (route r') (route r) then true else false) l = DispatchRun.rows_for route (route r) l).
  { intros l. unfold DispatchRun.rows_for. apply filter_ext. intros r'. destruct (list_eq_dec Z.eq_dec (route r') (route r)) as [->|Q]; [now rewrite bytes_eqb_refl|].
    destruct (bytes_eqb (route r') (route r)) eqn:E; [apply bytes_eqb_eq in E; congruence|reflexivity]. }
  rewrite Ef. set (m := length (DispatchRun.rows_for route (route r) (firstn i rows))).
  assert (En : nth_error (DispatchRun.rows_for route (route r) rows) m = Some r).
  { unfold m. rewrite <- (firstn_skipn i rows) at 1. unfold DispatchRun.rows_for. rewrite filter_app, nth_error_app2, Nat.sub_diag by lia.
    destruct (skipn i rows) as [|r2 rest] eqn:Es.
    - pose proof (hd_skipn rows i) as Q. rewrite Es, Er in Q. discriminate.
    - pose proof (hd_skipn rows i) as Q. rewrite Es, Er in Q. cbn in Q. injection Q as <-. cbn [filter]. rewrite bytes_eqb_refl. reflexivity. }
  destruct (MdDecode.Forall2_get _ _ _ m r F En) as (out & O1 & O2). exists out. auto.
Qed.
Print Assumptions C63_clean.
