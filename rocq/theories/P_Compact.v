(** C65: rewriting a file and checking the copy. *)
From Coq Require Import String.
From Verif Require Import CsvRows Api.
From Verif Require MdDecode.
From Verif Require Import IntProofs Spec Base Fp FpProofs FpNearest RealProofs RealColumn Stream StreamProofs StreamLocal Codec Meta Header HeaderProofs Encoder Table Reader ReadSpec
  ColumnProofs TableProofs FrameProofs Through Writer RowReader RowList WriterSpec WriterProofs WriterRun WriterRead Comparator ComparatorSpec P_Compare
  Copy CopySpec CopyProofs P_Copy VerifySpec P_VerifyClean FlagProofs ScanSpec Compact CompactSpec.
Open Scope Z_scope.
Local Notation length := List.length.

(** ** Frames of [N] rows *)

(** frames of [N] rows each, the last perhaps shorter *)
Inductive full {A} (N : nat) : list (list A) -> Prop :=
| full_nil : full N []
| full_last f : f <> [] -> (length f <= N)%nat -> full N [f]
| full_more f fs : length f = N -> full N fs -> full N (f :: fs).

Lemma full_snoc {A} N (fs : list (list A)) f : Forall (fun g => length g = N) fs -> f <> [] -> (length f <= N)%nat -> full N (fs ++ [f]).
Proof. induction 1 as [|g fs L F IH]; intros H1 H2; cbn [app]; [now constructor|]. apply full_more; auto. Qed.

Lemma full_all {A} N (fs : list (list A)) : Forall (fun g => length g = N) fs -> full N fs.
Proof. induction 1 as [|g fs L F IH]; constructor; auto. Qed.

(** the rows, each with its frame *)
Definition placed {A} (fs : list (list A)) : list (list A * A) := concat (map (fun f => map (pair f) f) fs).

Lemma placed_nth {A} N (fs : list (list A)) : (0 < N)%nat -> full N fs -> forall j f r, nth_error (placed fs) j = Some (f, r) ->
  f = frame_of N (concat fs) j /\ nth_error (concat fs) j = Some r.
Proof.
  intros HN. unfold placed, frame_of. induction 1 as [|g Hg Lg|g fs Lg F IH]; intros j f r E; cbn [map concat] in *.
  - destruct j; discriminate.
  - rewrite app_nil_r in *. rewrite nth_error_map in E. destruct (nth_error g j) as [x|] eqn:Ex; [|discriminate]. cbn [option_map] in E. injection E as -> ->.
    assert (Lj : (j < length f)%nat) by (apply nth_error_Some; congruence). split; [|reflexivity].
    rewrite Nat.div_small by lia. cbn [Nat.mul skipn]. symmetry. apply firstn_all2. lia.
  - destruct (Nat.lt_ge_cases j N) as [Hj|Hj].
    + rewrite nth_error_app1 in E by (rewrite map_length; lia). rewrite nth_error_map in E. destruct (nth_error g j) as [x|] eqn:Ex; [|discriminate].
      cbn [option_map] in E. injection E as -> ->. rewrite nth_error_app1 by lia. split; [|exact Ex].
      rewrite Nat.div_small by lia. cbn [Nat.mul skipn]. rewrite firstn_app, <- Lg, Nat.sub_diag. cbn [firstn]. rewrite app_nil_r. symmetry. apply firstn_all2. lia.
    + rewrite nth_error_app2 in E by (rewrite map_length; lia). rewrite map_length in E. rewrite nth_error_app2 by lia. rewrite Lg in *.
      destruct (IH (j - N)%nat f r E) as (A1 & A2). split; [|exact A2]. rewrite A1. f_equal.
      assert (Ej : (j / N = S ((j - N) / N))%nat).
      { pose proof (Nat.div_add (j - N) 1 N ltac:(lia)) as Q. replace (j - N + 1 * N)%nat with j in Q by lia. lia. }
      rewrite Ej. cbn [Nat.mul]. rewrite skipn_app, Lg. generalize ((j - N) / N * N)%nat as q. intros q.
      replace (N + q - N)%nat with q by lia. rewrite (skipn_all2 g) by lia. reflexivity.
Qed.

Lemma placed_length {A} (fs : list (list A)) : length (placed fs) = length (concat fs).
Proof. unfold placed. induction fs as [|f fs IH]; cbn [map concat]; [reflexivity|]. rewrite !app_length, map_length. now rewrite IH. Qed.

(** ** The copy of rows of the same columns *)
Lemma info_shape cs cs' : map info cs = map info cs' -> map shape cs = map shape cs'.
Proof.
  intros E. revert cs' E. induction cs as [|c cs IH]; intros [|c' cs'] E; try discriminate; [reflexivity|]. cbn [map] in *.
  assert (E1 : info c = info c') by congruence. assert (E2 : map info cs = map info cs') by congruence. rewrite (IH cs' E2). f_equal.
  assert (A1 := f_equal Encoder.ci_name E1). assert (A2 := f_equal Encoder.ci_type E1). assert (A3 := f_equal Encoder.ci_size E1).
  cbn [info Encoder.ci_name Encoder.ci_type Encoder.ci_size] in A1, A2, A3. unfold shape. rewrite A1, A2. f_equal. lia.
Qed.

Lemma shape_equal cs cs' : map shape cs = map shape cs' -> equal_columns cs cs' = true.
Proof.
  revert cs'. induction cs as [|c cs IH]; intros [|c' cs'] E; try discriminate; [reflexivity|]. cbn [map equal_columns] in *.
  assert (E1 : shape c = shape c') by congruence. assert (E2 : map shape cs = map shape cs') by congruence. rewrite (IH cs' E2), andb_true_r.
  unfold shape in E1. unfold equal_column. assert (A1 : col_name c = col_name c') by congruence. assert (A2 : col_type c = col_type c') by congruence.
  assert (A3 : data_size_doubles (col_coder c) = data_size_doubles (col_coder c')) by congruence. rewrite A1, A2, A3, bytes_eqb_refl, !Z.eqb_refl. reflexivity.
Qed.

Section Uniform.
Variables st st' : settings.
Variables (pr : props) (md5 : list Z -> list Z).
Hypothesis Hd : digest md5.
Variable N : nat.
Hypothesis HN : (0 < N)%nat.
Variable junk : nat -> nat -> list Z.
Variable rows : list arow.
Hypothesis HC : rows_copyable st N pr rows.
Variable cs0 : list column.
Hypothesis Hin0 : In cs0 (map fst rows).
Hypothesis Hu : forall r, In r rows -> map info (fst r) = map info cs0.

Notation cols := (map info cs0).

Record half (w : writer) (base : list column) (p : list (list (list Z))) (fs : list (list (list (list Z)))) (done : list arow) : Prop := {
  ha_base : Forall2 (fun ci c => make_column st ci = Ok c) cols base;
  ha_shape : map shape base = map shape cs0;
  ha_pending : pending st cols base w p (w_out w);
  ha_short : (length p < N)%nat;
  ha_full : Forall (fun f => length f = N) fs;
  ha_out : exists bs, w_out w = concat bs /\ Forall2 (holds_rows st st' cols pr md5) fs bs;
  ha_rows : map snd done = concat fs ++ p
}.

Lemma part_in p : p <> [] -> (length p <= N)%nat -> (forall row, In row p -> In row (map snd rows)) -> writable st cols pr p.
Proof using All.
  intros A B C. apply (rc_rows _ _ _ _ HC); auto. intros row H. apply C in H. apply in_map_iff in H as ([cs row'] & <- & H).
  exists cs. split; [exact H|]. apply info_shape. exact (Hu _ H).
Qed.

Lemma half_row w base p fs done fresh r : half w base p fs done -> In r rows -> (forall d, In d done -> In d rows) ->
  exists w' p' fs', pass1_row md5 st N pr w fresh (fst r) (snd r) = Ok w' /\ half w' base p' fs' (done ++ [r]).
Proof using All.
  intros [B1 B2 B3 B4 B5 (bs & O1 & O2) B6] Hr Hdn. destruct r as [cs row]. cbn [fst snd].
  assert (Sw : map shape (w_cols w) = map shape cs0) by (rewrite (pending_shape st _ base B1 w p _ B3); exact B2).
  assert (Sc : map shape cs = map shape cs0) by (apply info_shape; exact (Hu _ Hr)).
  unfold pass1_row. rewrite (shape_equal cs (w_cols w)) by congruence. cbn [negb]. rewrite andb_false_r. cbn [bind].
  assert (Lc : length cs = length (w_cols w)) by (rewrite <- (map_length shape cs), Sc, <- Sw; apply map_length). rewrite Lc, Nat.eqb_refl. cbn [assert bind].
  destruct (known st pr N rows HC cs0 Hin0) as (_ & _ & W).
  assert (Ip : forall x, In x (p ++ [row]) -> In x (map snd rows)).
  { intros x H. apply in_app_or in H as [H|[<-|[]]].
    - assert (Q : In x (map snd done)) by (rewrite B6; apply in_or_app; now right). apply in_map_iff in Q as (d & <- & Q). now apply in_map, Hdn.
    - change row with (snd (cs, row)). now apply in_map. }
  assert (Lp : length (p ++ [row]) = S (length p)) by (rewrite app_length; cbn; lia).
  assert (Wp : writable st cols pr (p ++ [row])) by (apply part_in; [destruct p; discriminate|lia|exact Ip]).
  destruct (WriterRun.row_ok st st' cols pr W base B1 md5 Hd N w p (w_out w) row []) as (w1 & P1 & R); [exact B3|exact B4|now rewrite app_nil_r|].
  rewrite R. destruct (Nat.eqb_spec (length (p ++ [row])) N) as [E|E].
  - destruct (flush_ok st st' cols pr W base B1 md5 Hd N w1 (p ++ [row]) (w_out w) P1) as (w2 & b & F1 & F2 & F3); [destruct p; discriminate|lia|exact Wp|].
    assert (Eo : w_out w2 = w_out w ++ b) by (destruct F2 as [_ _ _ Q _ _ _]; exact Q).
    exists w2, [], (fs ++ [p ++ [row]]). split; [exact F1|]. split; auto.
    + rewrite Eo. exact F2.
    + apply Forall_app. split; [exact B5|]. now constructor.
    + exists (bs ++ [b]). rewrite Eo, O1, concat_app. cbn [concat]. rewrite app_nil_r. split; [reflexivity|]. apply Forall2_app; [exact O2|]. now constructor.
    + rewrite map_app, B6, concat_app. cbn [concat map snd]. now rewrite !app_nil_r, app_assoc.
  - exists w1, (p ++ [row]), fs. split; [reflexivity|].
    assert (Eo : w_out w1 = w_out w) by (destruct P1 as [_ _ _ Q _ _ _]; exact Q). split; auto.
    + rewrite Eo. exact P1.
    + lia.
    + exists bs. rewrite Eo. auto.
    + rewrite map_app, B6. cbn [map snd]. now rewrite app_assoc.
Qed.

Lemma half_loop : forall rest it w base p fs done, rows = done ++ rest -> shaped it -> ahead md5 st junk it rest -> half w base p fs done ->
  forall fuel, (length rest < fuel)%nat -> exists w' p' fs', pass1_loop md5 st N pr junk fuel w it = Ok w' /\ half w' base p' fs' rows.
Proof using All.
  induction rest as [|[cs row] rest IH]; intros it w base p fs done E Sh A Ha fuel Hf.
  - destruct fuel as [|fuel]; [cbn in Hf; lia|]. destruct A as [(A & _)|(_ & ? & A & _)]; [|discriminate].
    cbn [pass1_loop]. rewrite A. exists w, p, fs. rewrite app_nil_r in E. rewrite E at 1. auto.
  - destruct fuel as [|fuel]; [cbn in Hf; lia|]. cbn [length] in Hf.
    destruct (r_end it) eqn:Ee; [destruct A as [(_ & A)|(A & _)]; [discriminate|congruence]|].
    destruct (ahead_step md5 st junk it _ Sh Ee A) as (it1 & o & rest1 & Q1 & Q2 & Q3).
    assert (r_cols it = cs) by congruence. assert (r_last it = row) by congruence. assert (rest1 = rest) by congruence. subst rest1 cs row.
    assert (Hin : In (r_cols it, r_last it) rows) by (rewrite E; apply in_or_app; right; now left).
    cbn [pass1_loop]. rewrite Ee.
    destruct (half_row w base p fs done (r_new it) (r_cols it, r_last it) Ha Hin) as (w1 & p1 & fs1 & R1 & R2).
    { intros d Q. rewrite E. apply in_or_app. now left. }
    cbn [fst snd] in R1. rewrite R1. cbn [bind]. rewrite Q2. cbn [bind].
    destruct (next_step md5 st junk it it1 o Sh Q2) as (Sh1 & C).
    apply (IH it1 w1 base p1 fs1 (done ++ [(r_cols it, r_last it)])); auto.
    + now rewrite <- app_assoc.
    + lia.
Qed.

Lemma uniform_copy file fuel : rows <> [] -> (forall f, (length rows < f)%nat -> file_rows md5 st junk f file = (rows, Clean)) ->
  (length rows < fuel)%nat ->
  exists fs bs, copy_file md5 st N pr junk fuel file = Ok (concat bs) /\ Forall2 (holds_rows st st' cols pr md5) fs bs /\
    full N fs /\ concat fs = map snd rows.
Proof using All.
  intros Hne R Hf. unfold copy_file.
  assert (exists it, begin_rows md5 st junk file = Ok it) as (it & B).
  { pose proof (R (S (length rows)) ltac:(lia)) as Q. unfold file_rows in Q. unfold begin_rows.
    destruct (open_rows md5 st junk file) as [it0| |]; cbn [bind]; try discriminate. cbn [list_rows] in Q.
    destruct (next_row md5 st junk it0) as [[it1 o]| |]; cbn [bind]; try discriminate. eauto. }
  rewrite B. cbn [bind]. destruct (begin_ahead md5 st junk file it rows B) as (Sh & AH). apply AH in R. clear AH.
  destruct R as [(_ & R)|(Ee & rest & R & Rr)]; [congruence|].
  assert (Hin : In (r_cols it) (map fst rows)) by (rewrite R; now left).
  destruct (start_ok st pr N rows HC (new_writer []) (r_cols it) Hin eq_refl) as (w & G1 & G2 & base & G3 & G4 & G5).
  rewrite G1. cbn [bind]. cbn [new_writer w_out] in G2, G5.
  assert (Ei : map info (r_cols it) = cols). { apply in_map_iff in Hin as (r & Q1 & Q2). rewrite <- Q1. now apply Hu. }
  rewrite Ei in G3, G5. assert (Es : map shape (r_cols it) = map shape cs0) by (now apply info_shape).
  assert (Ha : half (write_header w) base [] [] []).
  { split; auto.
    - congruence.
    - rewrite G2. exact G5.
    - exists []. rewrite G2. split; [reflexivity|constructor]. }
  destruct (half_loop rows it (write_header w) base [] [] [] eq_refl Sh) with (fuel := fuel) as (w1 & p1 & fs1 & L1 & [B1 B2 B3 B4 B5 (bs & O1 & O2) B6]); auto.
  { right. split; [exact Ee|]. exists rest. auto. }
  rewrite L1. cbn [bind]. destruct (known st pr N rows HC cs0 Hin0) as (_ & _ & W).
  destruct p1 as [|r1 p1].
  - assert (Fl : flush md5 st N pr w1 = Ok w1). { unfold flush. destruct B3 as [-> _ -> _ _ _ _]. reflexivity. }
    rewrite Fl. cbn [bind]. unfold Writer.close. pose proof (pe_init _ _ _ _ _ _ B3) as Q. rewrite Q, Fl. cbn [bind].
    exists fs1, bs. rewrite O1. split; [reflexivity|]. split; [exact O2|]. split; [now apply full_all|]. rewrite B6. now rewrite app_nil_r.
  - destruct (flush_ok st st' cols pr W base B1 md5 Hd N w1 (r1 :: p1) (w_out w1) B3) as (w2 & b & F1 & F2 & F3); [discriminate|lia| |].
    { apply part_in; [discriminate|lia|]. intros row Q. rewrite B6. apply in_or_app. now right. }
    rewrite F1. cbn [bind]. unfold Writer.close. destruct F2 as [Q1 _ Q3 Q4 _ _ _]. rewrite Q1. unfold flush. rewrite Q1, Q3. cbn [assert bind].
    exists (fs1 ++ [r1 :: p1]), (bs ++ [b]). rewrite Q4, O1, !concat_app. cbn [concat]. rewrite !app_nil_r. split; [reflexivity|].
    split; [apply Forall2_app; [exact O2|now constructor]|]. split; [|congruence].
    apply full_snoc; [exact B5|discriminate|lia].
Qed.
End Uniform.

(** ** Reading the copy *)
Section Read.
Variables (st st' : settings).
Variables (pr : props) (md5 : list Z -> list Z).
Hypothesis Hd : digest md5.
Variable cols : list colinfo.

(** [out] is what is read of the row [row] in the frame [f] *)
Definition read_in (fr : list (list (list Z)) * list (list Z)) (out : arow) : Prop :=
  exists its, map i_ci its = cols /\ Forall (item_ok st st' LE) its /\
    (forall i it, nth_error its i = Some it -> i_cells it = column_cells i (fst fr)) /\
    fst out = map read_column its /\ agree st st' its (snd fr) (snd out).

Variable junk : nat -> nat -> list Z.

Lemma placed_read : forall fs bs, Forall2 (holds_rows st st' cols pr md5) fs bs -> forall count,
  exists rows', Forall2 read_in (placed fs) rows' /\
    forall f, (0 < f)%nat -> list_rows md5 st' junk (length (concat fs) + f) (between (concat bs) count) = (rows', Clean).
Proof using Hd.
  induction 1 as [|rows b fs bs (its & body & h & E1 & Ec & WF & Eb & (prev & Pv & B1) & B2) F IH]; intros count.
  - exists []. split; [constructor|]. intros [|f] Hf; [lia|]. reflexivity.
  - destruct (IH (S count)) as (rows' & S' & R').
    destruct (wframe_ok st st' md5 junk Hd its pr rows prev WF ltac:(now rewrite E1)) as (body' & h' & C1 & _ & C2 & _ & C3).
    rewrite B1 in C1. assert (body' = body) by congruence. subst body'. rewrite B2 in C2.
    assert (h' = h) by congruence. subst h'.
    destruct (C3 count (concat bs)) as (rows1 & A & R & _).
    exists (map (pair (map read_column its)) rows1 ++ rows'). unfold placed. cbn [map concat]. fold (placed fs). split.
    { apply Forall2_app; [|exact S']. pose proof (wf_items _ _ _ _ _ WF) as W1.
      assert (X : forall l l', Forall2 (agree st st' its) l l' -> Forall2 read_in (map (pair rows) l) (map (pair (map read_column its)) l')).
      { induction 1 as [|x y l l' A1 A0 IHA]; cbn [map]; constructor; [|exact IHA]. exists its. cbn [fst snd]. auto. }
      now apply X. }
    intros f Hf. rewrite app_length, <- Nat.add_assoc, Eb. cbn [concat]. rewrite <- app_assoc, R, R' by exact Hf. reflexivity.
Qed.

Lemma copy_read fs bs : Forall2 (holds_rows st st' cols pr md5) fs bs ->
  exists rows', Forall2 read_in (placed fs) rows' /\
    forall f, (length (concat fs) < f)%nat -> file_rows md5 st' junk f (concat bs) = (rows', Clean).
Proof using Hd.
  intros F. destruct (placed_read fs bs F 0) as (rows' & S' & R). exists rows'. split; [exact S'|].
  assert (F2 : Forall2 (frame_holds st st' pr md5) (map (pair cols) fs) bs) by (clear -F; induction F; constructor; assumption).
  destruct (read_file st st' pr md5 Hd junk _ _ F2) as (rows2 & _ & R2). rewrite flat_one, map_length in R2.
  intros f Hf. rewrite (R2 f Hf). f_equal.
  replace f with (length (concat fs) + (f - length (concat fs)))%nat in R2 by lia.
  specialize (R (f - length (concat fs))%nat ltac:(lia)). specialize (R2 (length (concat fs) + (f - length (concat fs)))%nat ltac:(lia)).
  revert R2 R. generalize (length (concat fs) + (f - length (concat fs)))%nat as k. intros k.
  unfold file_rows, open_rows. clear F2. destruct F as [|rows b fs bs (its & body & h & E1 & _ & WF & Eb & (prev & Pv & B1) & B2) F].
  - cbn [concat length load_table]. cbn. destruct k; cbn; congruence.
  - destruct (wframe_ok st st' md5 junk Hd its pr rows prev WF ltac:(now rewrite E1)) as (body' & h' & C1 & _ & C2 & _ & C3).
    rewrite B1 in C1. assert (body' = body) by congruence. subst body'. rewrite B2 in C2.
    assert (h' = h) by congruence. subst h'.
    destruct (C3 0%nat (concat bs)) as (_ & _ & _ & it & LT & _ & AR). cbn [concat]. rewrite Eb, <- app_assoc, LT. rewrite AR. congruence.
Qed.
End Read.

(** ** Missing values *)
Lemma storable_all_bytes st ci cells : storable st ci cells -> Forall bytes_ok cells.
Proof.
  intros H. destruct H as [ns _ _ _|bs _ _ _ _|bs _ _ _ _ _|dsd cells _ _ _ _ _ B _ _]; auto; apply Forall_map, Forall_forall; intros v _.
  - unfold int_cell. destruct (negb (iad st)); apply le_bytes_ok.
  - apply le_bytes_ok.
  - apply le_bytes_ok.
Qed.

Lemma bits_small x : bytes_ok x -> le_val (firstn 8 x) = bits x /\ is64 (bits x).
Proof.
  intros B. unfold bits. assert (Q : 0 <= le_val (firstn 8 x) < 2 ^ 64).
  { assert (B8 : bytes_ok (firstn 8 x)). { unfold bytes_ok in *. rewrite <- (firstn_skipn 8 x) in B. now apply Forall_app in B. }
    pose proof (le_val_bound (firstn 8 x) B8) as Q. assert (L : (length (firstn 8 x) <= 8)%nat) by (rewrite firstn_length; lia).
    assert (256 ^ Z.of_nat (length (firstn 8 x)) <= 256 ^ 8) by (apply Z.pow_le_mono_r; lia). change (256 ^ 8) with (2 ^ 64) in *. lia. }
  rewrite Z.mod_small by exact Q. split; [reflexivity|exact Q].
Qed.

Lemma default_mark ty : default_missing ty = mark ty.
Proof. reflexivity. Qed.

Lemma absent_bits ty x : bytes_ok x -> absent (mark ty) x = true <-> bits x = mark ty.
Proof.
  intros B. destruct (bits_small x B) as (E & V). unfold absent. rewrite E.
  assert (M : is64 (mark ty) /\ mark ty <> negzero /\ deq (mark ty) (mark ty) = true /\ deq negzero (mark ty) = false).
  { unfold mark. destruct (_ || _); (split; [split; [discriminate|reflexivity]|]); (split; [intros Q; vm_compute in Q; discriminate Q|split; vm_compute; reflexivity]). }
  destruct M as (M1 & M2 & M3 & M4). split.
  - intros D. apply deq_eq; auto. intros Q. rewrite Q, M4 in D. discriminate D.
  - intros Q. rewrite Q. exact M3.
Qed.

(** the flag of column [i] of the frame that holds [part] *)
Lemma flag_gap st it i cs0 c part : iad st = true -> item_ok st st LE it -> nth_error cs0 i = Some c -> i_ci it = info c ->
  i_cells it = column_cells i (map snd part) -> (forall r, In r part -> map info (fst r) = map info cs0 /\ length (snd r) = length (fst r)) ->
  storable st (info c) (column_cells i (map snd part)) ->
  c_hasMissing (i_k' it) = 1 /\ gap i part \/ c_hasMissing (i_k' it) = 0 /\ ~ gap i part.
Proof.
  intros Hi It Ec Ei Ecl Hp Hs. pose proof (flag_read st st LE it Hi It) as E. rewrite Ei, Ecl in E. cbn [info Encoder.ci_type] in E. rewrite E, default_mark.
  assert (Hc : forall r, In r part -> exists c', nth_error (fst r) i = Some c' /\ col_type c' = col_type c).
  { intros r Hr. destruct (Hp r Hr) as (Q & _). assert (Q2 : nth_error (map info (fst r)) i = Some (info c)) by (rewrite Q, nth_error_map, Ec; reflexivity).
    rewrite nth_error_map in Q2. destruct (nth_error (fst r) i) as [c'|]; [|discriminate]. exists c'. split; [reflexivity|]. cbn [option_map] in Q2.
    assert (Q3 : info c' = info c) by congruence. apply (f_equal Encoder.ci_type) in Q3. exact Q3. }
  destruct (Z.eqb_spec (col_type c) ty_STRING) as [T|T].
  { right. split; [reflexivity|]. intros (r & c' & x & G1 & G2 & _ & G3 & _). destruct (Hc r G1) as (c'' & Q1 & Q2). congruence. }
  pose proof (storable_all_bytes _ _ _ Hs) as B. rewrite Forall_forall in B.
  destruct (existsb (absent (mark (col_type c))) (column_cells i (map snd part))) eqn:Ex.
  - left. split; [reflexivity|]. apply existsb_exists in Ex as (x & Ix & Ax). apply absent_bits in Ax; [|now apply B].
    unfold column_cells in Ix. rewrite map_map in Ix. apply in_map_iff in Ix as (r & <- & Hr). destruct (Hc r Hr) as (c' & Q1 & Q2). destruct (Hp r Hr) as (_ & Ln).
    assert (Li : (i < length (snd r))%nat) by (rewrite Ln; apply nth_error_Some; congruence).
    exists r, c', (nth i (snd r) []). split; [exact Hr|]. split; [exact Q1|]. split; [now apply nth_error_nth'|]. rewrite Q2. auto.
  - right. split; [reflexivity|]. intros (r & c' & x & G1 & G2 & G3 & G4 & G5). destruct (Hc r G1) as (c'' & Q1 & Q2). assert (c'' = c') by congruence. subst c''.
    assert (Ix : In x (column_cells i (map snd part))).
    { unfold column_cells. rewrite map_map. apply in_map_iff. exists r. split; [|exact G1]. now apply nth_error_nth. }
    rewrite Q2 in G5. apply absent_bits in G5; [|now apply B].
    assert (existsb (absent (mark (col_type c))) (column_cells i (map snd part)) = true) by (apply existsb_exists; eauto). congruence.
Qed.

(** ** Cells and rows *)
Lemma cell_false st nans it c x y : iad st = true -> item_ok st st LE it -> col_type c = Encoder.ci_type (i_ci it) -> marked c -> countable c x ->
  len x = width c -> (Encoder.ci_type (i_ci it) = ty_STRING -> bytes_ok x) -> same_value st st (Encoder.ci_type (i_ci it)) x y -> len y = 8 * data_size_doubles (i_k' it) ->
  c_hasMissing (i_k' it) = c_hasMissing (col_coder c) -> (col_type c = ty_STRING -> c_hasMissing (col_coder c) = 0) ->
  cells_agree near false nans c (read_column it) x y.
Proof.
  intros Hi It Ty Mk Ck Lx Bx Sv Ly Fl Fs.
  assert (Fr : c_hasMissing (col_coder (read_column it)) = c_hasMissing (col_coder c)) by exact Fl.
  assert (Nm : c_hasMissing (col_coder c) = 0 -> ~ missing false c x /\ ~ missing false (read_column it) y).
  { intros Q. split; intros ([M|M] & _); try discriminate M; congruence. }
  destruct (Z.eq_dec (col_type c) ty_STRING) as [T|T].
  - destruct (Nm (Fs T)) as (N1 & N2). right. split; [exact N1|]. split; [exact N2|]. left. split; [exact T|]. rewrite <- Ty, T in Sv.
    destruct Sv as [([S|S] & _)|[(S & _)|[(S & _)|(_ & U)]]]; try discriminate S.
    rewrite !firstn_all2; [exact (eq_sym U) || exact U| |].
    + change (width (read_column it)) with (8 * data_size_doubles (i_k' it)). rewrite <- Ly. unfold len. lia.
    + rewrite <- Lx. unfold len. lia.
  - assert (Ck2 : checkable c x) by (destruct Ck as [C|[C|C]]; [contradiction|right; left; exact C|right; right; exact C]).
    pose proof (cell_ok st nans it c x y Hi It Ty Mk Ck2 Lx Bx Sv Ly) as [(M1 & M2)|(M1 & M2 & M3)].
    + destruct (Z.eq_dec (c_hasMissing (col_coder c)) 0) as [Z0|Z0].
      * destruct (Nm Z0) as (N1 & N2). right. split; [exact N1|]. split; [exact N2|]. right.
        assert (Exy : bits y = bits x).
        { destruct M1 as (_ & M1). destruct M2 as (_ & M2). rewrite M1, M2. destruct Mk as (K1 & K2). destruct (reload_int64 st st it It) as (R1 & _ & R3). rewrite Hi, andb_false_r in R3.
          unfold missing_value. rewrite K2, andb_false_r. cbn [read_column reload_column col_coder]. rewrite R3, andb_false_r, R1, K1, <- Ty. reflexivity. }
        destruct Ck as [C|[(C1 & C2)|(C1 & C2)]]; [contradiction| |].
        -- left. split; [exact C1|]. left. rewrite Exy. split; [exact C2|]. split; [exact C2|apply near_refl].
        -- right. split; [exact C1|]. left. rewrite Exy. split; [exact C2|]. split; [exact C2|apply near_refl].
      * left. destruct M1 as (_ & M1). destruct M2 as (_ & M2). split; split; auto. left. congruence.
    + right. split; [intros (_ & Q); apply M1; split; auto|]. split; [intros (_ & Q); apply M2; split; auto|exact M3].
Qed.

Lemma info_nth cs cs' i c : map info cs' = map info cs -> nth_error cs i = Some c -> exists c', nth_error cs' i = Some c' /\ info c' = info c.
Proof.
  intros E H. assert (Q : nth_error (map info cs') i = Some (info c)) by (rewrite E, nth_error_map, H; reflexivity).
  rewrite nth_error_map in Q. destruct (nth_error cs' i) as [c'|]; [|discriminate]. exists c'. split; [reflexivity|]. cbn in Q. congruence.
Qed.

(** the row [r] and what is read of its copy in the frame of [part] *)
Lemma row_same st N pr rows nans cs0 r part out : iad st = true -> (0 < N)%nat -> rows_copyable st N pr rows -> In r rows -> In cs0 (map fst rows) ->
  (forall s, In s rows -> map info (fst s) = map info cs0) -> (forall s, In s part -> In s rows) -> part <> [] -> (length part <= N)%nat ->
  (forall c, In c (fst r) -> marked c) ->
  (forall i c x, nth_error (fst r) i = Some c -> nth_error (snd r) i = Some x -> countable c x) ->
  read_in st st (map info cs0) (map snd part, snd r) out ->
  let fit := forall i c, nth_error (fst r) i = Some c ->
    c_hasMissing (col_coder c) = 1 /\ gap i part \/ c_hasMissing (col_coder c) = 0 /\ ~ gap i part in
  (fit -> rows_agree near false nans [] [] r out) /\
  (Forall2 (alike false [] []) (fst r) (fst out) -> fit).
Proof.
  intros Hi HN HC Hr H0 Hu Hpart Hpne Hpl Hm Hk (its & F1 & F2 & F2' & F3 & F4) fit. destruct r as [cs row]. destruct out as [oc orow]. cbn [fst snd] in *. subst oc.
  destruct (agree_len _ _ _ _ _ F4) as (L1 & L2).
  pose proof (Hu _ Hr) as Ecs. cbn [fst] in Ecs.
  assert (Lc : length its = length cs). { rewrite <- (map_length i_ci its), F1, map_length, <- (map_length info cs), Ecs. symmetry. apply map_length. }
  assert (It : forall i c, nth_error cs i = Some c -> exists it, nth_error its i = Some it /\ i_ci it = info c).
  { intros i c E. assert (Q : nth_error (map i_ci its) i = Some (info c)) by (rewrite F1, <- Ecs, nth_error_map, E; reflexivity).
    rewrite nth_error_map in Q. destruct (nth_error its i) as [it|]; [|discriminate]. exists it. split; [reflexivity|]. cbn in Q. congruence. }
  assert (Wp : writable st (map info cs0) pr (map snd part)).
  { apply (rc_rows _ _ _ _ HC); auto; [destruct part; [contradiction|discriminate]|now rewrite map_length|].
    intros w Q. apply in_map_iff in Q as ([cs' w'] & <- & Q). exists cs'. split; [now apply Hpart|]. apply info_shape. exact (Hu _ (Hpart _ Q)). }
  assert (Wr : forall s, In s rows -> Forall2 (fun ci cell => len cell = Encoder.ci_size ci) (map info cs0) (snd s)).
  { intros [cs' w] Q. destruct (rc_rows _ _ _ _ HC cs0 [w] H0 ltac:(discriminate) ltac:(cbn; lia)) as [W1 _ _ _].
    - intros w' [<-|[]]. exists cs'. split; [exact Q|]. apply info_shape. exact (Hu _ Q).
    - now apply Forall_inv in W1. }
  assert (Fl : forall i it c, nth_error its i = Some it -> nth_error cs i = Some c -> i_ci it = info c ->
     c_hasMissing (i_k' it) = 1 /\ gap i part \/ c_hasMissing (i_k' it) = 0 /\ ~ gap i part).
  { intros i it c Ei Ec Eii. destruct (info_nth cs cs0 i c (eq_sym Ecs) Ec) as (c0 & Ec0 & Ei0).
    apply (flag_gap st it i cs0 c0 part); auto.
    - rewrite Forall_forall in F2. apply F2. now apply nth_error_In in Ei.
    - congruence.
    - intros s Q. specialize (Hpart s Q). split; [now apply Hu|]. pose proof (Forall2_length _ _ _ (Wr s Hpart)) as Ls.
      rewrite map_length in Ls. rewrite <- Ls, <- (map_length info cs0), <- (Hu s Hpart). apply map_length.
    - apply (wr_cells _ _ _ _ Wp). rewrite nth_error_map, Ec0. reflexivity. }
  split.
  - intros Hfit. assert (Fe : forall i it c, nth_error its i = Some it -> nth_error cs i = Some c -> i_ci it = info c -> c_hasMissing (i_k' it) = c_hasMissing (col_coder c)).
    { intros i it c Ei Ec Eii. destruct (Hfit i c Ec) as [(A & B)|(A & B)], (Fl i it c Ei Ec Eii) as [(A' & B')|(A' & B')]; try contradiction; congruence. }
    split; [|split; [|split]]; cbn [fst snd].
    + apply Forall2_nth. { now rewrite map_length. } intros i c d Ec Ed. destruct (It i c Ec) as (it & Ei & Eii). rewrite nth_error_map, Ei in Ed. cbn in Ed. injection Ed as <-.
      assert (D : described (info c) (read_column it)).
      { rewrite <- Eii. unfold read_column, reload_column, described. cbn [final_column col_name col_type col_bfnames col_bfsizes]. split; [reflexivity|]. split; [reflexivity|]. intros ->. split; reflexivity. }
      destruct D as (D1 & D2 & D3). cbn [info Encoder.ci_name Encoder.ci_type Encoder.ci_bits] in D1, D2, D3. split; [congruence|]. right. split.
      * right. split; [congruence|]. intros T. rewrite T in D3. cbn [Z.eqb] in D3. destruct (D3 eq_refl) as (D4 & D5).
        destruct (rc_columns _ _ _ _ HC cs) as (_ & Cp). { change cs with (fst (cs, row)). now apply in_map. }
        rewrite Forall_forall in Cp. destruct (Cp c) as (C1 & _); [now apply nth_error_In in Ec|]. specialize (C1 T).
        change (ty_BITFIELD =? ty_BITFIELD) with true in D4, D5. cbv iota in D4, D5. rewrite D4, D5. clear -C1. revert C1. generalize (col_bfsizes c) as b. induction (col_bfnames c) as [|x a IH]; intros [|y b] L; try discriminate; [auto|].
        cbn [combine map fst snd]. destruct (IH b) as (Q1 & Q2); [cbn in L; lia|]. rewrite <- Q1, <- Q2. auto.
      * right. symmetry. exact (Fe i it c Ei Ec Eii).
    + congruence.
    + rewrite map_length. congruence.
    + intros i c d x y Ec Ed Ex Ey. right. destruct (It i c Ec) as (it & Ei & Eii). rewrite nth_error_map, Ei in Ed. cbn in Ed. injection Ed as <-.
      destruct (agree_nth _ _ _ _ _ F4 i it x y Ei Ex Ey) as (A1 & A2).
      assert (Ecc : nth_error (map info cs0) i = Some (info c)) by (rewrite <- Ecs, nth_error_map, Ec; reflexivity).
      apply cell_false with (st := st); auto.
      * rewrite Forall_forall in F2. apply F2. now apply nth_error_In in Ei.
      * rewrite Eii. reflexivity.
      * apply Hm. now apply nth_error_In in Ec.
      * apply (Hk i); assumption.
      * rewrite (Forall2_at _ _ _ i (info c) x (Wr _ Hr) Ecc Ex). reflexivity.
      * intros T. destruct (rc_rows _ _ _ _ HC cs0 [row] H0 ltac:(discriminate) ltac:(cbn; lia)) as [_ W2 _ _].
        { intros w' [<-|[]]. exists cs. split; [exact Hr|]. now apply info_shape. }
        specialize (W2 i (info c) Ecc). apply storable_all_bytes in W2. unfold column_cells in W2. cbn [map] in W2. apply Forall_inv in W2. now rewrite (nth_error_nth _ _ _ Ex) in W2.
      * exact (Fe i it c Ei Ec Eii).
      * intros T. destruct (Hfit i c Ec) as [(_ & (s & c' & x' & G1 & G2 & G3 & G4 & _))|(Q & _)]; [|exact Q]. exfalso. apply G4.
        destruct (info_nth cs (fst s) i c) as (c'' & Q1 & Q2); [rewrite Ecs; apply Hu, Hpart, G1|exact Ec|].
        assert (c'' = c') by congruence. subst c''. apply (f_equal Encoder.ci_type) in Q2. cbn [info Encoder.ci_type] in Q2. congruence.
  - intros Al i c Ec. destruct (It i c Ec) as (it & Ei & Eii).
    assert (Ed : nth_error (map read_column its) i = Some (read_column it)) by (rewrite nth_error_map, Ei; reflexivity).
    pose proof (Forall2_at _ _ _ i c (read_column it) Al Ec Ed) as (_ & [[]|(_ & [Q|Q])]); [discriminate Q|].
    rewrite Q. exact (Fl i it c Ei Ec Eii).
Qed.

(** ** C65 *)

Lemma in_skip_first {A} n m (l : list A) x : In x (firstn n (skipn m l)) -> In x l.
Proof. intros H. rewrite <- (firstn_skipn m l), <- (firstn_skipn n (skipn m l)). apply in_or_app. right. apply in_or_app. now left. Qed.

Section Whole.
Variables (md5 : list Z -> list Z) (st : settings) (N : nat) (pr : props).
Hypothesis Hd : digest md5.
Hypothesis HN : (0 < N)%nat.
Variable rows : list arow.
Hypothesis HC : rows_copyable st N pr rows.
Hypothesis Hu : forall r r', In r rows -> In r' rows -> map info (fst r) = map info (fst r').

Lemma compact_core st' junk junk' file : rows <> [] -> (forall f, (length rows < f)%nat -> file_rows md5 st junk f file = (rows, Clean)) ->
  exists copy, (forall fuel, (length rows < fuel)%nat -> copy_file md5 st N pr junk fuel file = Ok copy) /\
  exists cs0 fs bs rows', In cs0 (map fst rows) /\ (forall r, In r rows -> map info (fst r) = map info cs0) /\
    copy = concat bs /\ Forall2 (holds_rows st st' (map info cs0) pr md5) fs bs /\ full N fs /\ concat fs = map snd rows /\
    length rows' = length rows /\
    (forall f, (length rows < f)%nat -> file_rows md5 st' junk' f copy = (rows', Clean)) /\
    forall j r out, nth_error rows j = Some r -> nth_error rows' j = Some out ->
      read_in st st' (map info cs0) (map snd (frame_of N rows j), snd r) out.
Proof using All.
  intros Hne R. destruct rows as [|r0 rest] eqn:Er; [contradiction|]. rewrite <- Er in *.
  assert (H0 : In r0 rows) by (rewrite Er; now left).
  assert (Hin0 : In (fst r0) (map fst rows)) by (now apply in_map).
  assert (Hu0 : forall r, In r rows -> map info (fst r) = map info (fst r0)) by (intros r Q; now apply Hu).
  destruct (uniform_copy st st' pr md5 Hd N HN junk rows HC (fst r0) Hin0 Hu0 file (S (length rows)) Hne R (Nat.lt_succ_diag_r _)) as (fs & bs & K & F & Fu & Ec).
  exists (concat bs). split.
  { intros fuel Hf. destruct (C49_copy md5 st st' N pr junk file rows Hd HN Hne R HC) as (copy & K2 & _).
    rewrite (K2 fuel Hf). rewrite (K2 (S (length rows))) in K by lia. exact K. }
  destruct (copy_read st st' pr md5 Hd (map info (fst r0)) junk' fs bs F) as (rows' & A & B). rewrite Ec, map_length in B.
  pose proof (TableProofs.Forall2_length _ _ _ A) as L. rewrite placed_length, Ec, map_length in L.
  exists (fst r0), fs, bs, rows'. split; [exact Hin0|]. split; [exact Hu0|]. split; [reflexivity|]. split; [exact F|]. split; [exact Fu|]. split; [exact Ec|]. split; [now symmetry|]. split; [exact B|].
  intros j r out Ej Eo. assert (Lj : (j < length (placed fs))%nat). { rewrite placed_length, Ec, map_length. apply nth_error_Some. congruence. }
  destruct (nth_error (placed fs) j) as [[f w]|] eqn:Ep; [|apply nth_error_None in Ep; lia].
  destruct (placed_nth N fs HN Fu j f w Ep) as (P1 & P2). rewrite Ec in P1, P2. rewrite nth_error_map, Ej in P2. cbn [option_map] in P2. injection P2 as <-.
  unfold frame_of in *. rewrite skipn_map, firstn_map in P1. rewrite <- P1. exact (Forall2_at _ _ _ j _ _ A Ep Eo).
Qed.
End Whole.

(** Rewriting a file whose tables all have the same columns: the copy has all the rows, and
    its verification succeeds if and only if the flags of the columns of the file say exactly
    which frames of the copy have missing values. *)
Theorem C65_compact : forall md5 st N pr nans junk junk1 junk2 file rows, digest md5 -> (0 < N)%nat -> rows <> [] ->
  (forall f, (length rows < f)%nat -> file_rows md5 st junk f file = (rows, Clean)) ->
  (forall f, (length rows < f)%nat -> file_rows md5 st junk1 f file = (rows, Clean)) ->
  rows_copyable st N pr rows ->
  (forall r r', In r rows -> In r' rows -> map info (fst r) = map info (fst r')) ->
  iad st = true -> (forall r c, In r rows -> In c (fst r) -> marked c) ->
  (forall r i c x, In r rows -> nth_error (fst r) i = Some c -> nth_error (snd r) i = Some x -> countable c x) ->
  forall fuel, (length rows < fuel)%nat ->
  exists copy verdict, compact_file md5 st N pr nans junk junk1 junk2 fuel file = Ok (copy, verdict) /\
    (verdict = Ok tt <-> flags_fit N rows) /\
    forall st' junk', exists rows', Forall2 (copied st st') rows rows' /\
      forall f, (length rows < f)%nat -> file_rows md5 st' junk' f copy = (rows', Clean).
Proof.
  intros md5 st N pr nans junk junk1 junk2 file rows Hd HN Hne R R1 HC Hu Hi Hm Hk fuel Hf.
  destruct (compact_core md5 st N pr Hd HN rows HC Hu st junk junk2 file Hne R) as (copy & K & cs0 & fs & bs & rows' & H0 & Hu0 & _ & _ & _ & _ & L & Rd & A).
  exists copy. eexists. split; [unfold compact_file; rewrite (K fuel Hf); reflexivity|]. split.
  2:{ intros st' junk'. destruct (C49_copy md5 st st' N pr junk file rows Hd HN Hne R HC) as (copy2 & K2 & C2).
      assert (copy2 = copy) as -> by (specialize (K2 fuel Hf); rewrite (K fuel Hf) in K2; congruence). apply C2. }
  assert (RS : forall j r out, nth_error rows j = Some r -> nth_error rows' j = Some out ->
    let fit := forall i c, nth_error (fst r) i = Some c ->
      c_hasMissing (col_coder c) = 1 /\ gap i (frame_of N rows j) \/ c_hasMissing (col_coder c) = 0 /\ ~ gap i (frame_of N rows j) in
    (fit -> rows_agree near false nans [] [] r out) /\ (Forall2 (alike false [] []) (fst r) (fst out) -> fit)).
  { intros j r out Ej Eo. assert (Hr : In r rows) by (now apply nth_error_In in Ej).
    assert (Lj : (j < length rows)%nat) by (apply nth_error_Some; congruence).
    assert (Dj : (j / N * N <= j)%nat) by (rewrite Nat.mul_comm; apply Nat.mul_div_le; lia).
    apply (row_same st N pr rows nans cs0 r (frame_of N rows j) out); auto.
    - intros s Q. unfold frame_of in Q. apply (in_skip_first N (j / N * N)%nat). exact Q.
    - unfold frame_of. intros Q. apply (f_equal (@length arow)) in Q. rewrite firstn_length, skipn_length in Q. cbn [length] in Q. lia.
    - unfold frame_of. apply firstn_le_length.
    - intros c Q. now apply (Hm r).
    - intros i c x Q1 Q2. now apply (Hk r i). }
  split.
  - intros V. destruct (C43_sound _ _ _ _ _ _ _ _ _ _ _ _ V) as (rs1 & rs2 & S1 & S2 & Ag).
    assert (E1 : rs1 = rows). { specialize (R1 (S (length rs1 + length rows)) ltac:(lia)). specialize (S1 (S (length rs1 + length rows)) ltac:(lia)). congruence. }
    assert (E2 : rs2 = rows'). { specialize (Rd (S (length rs2 + length rows)) ltac:(lia)). specialize (S2 (S (length rs2 + length rows)) ltac:(lia)). congruence. }
    subst rs1 rs2. intros j r i c Ej Ec. destruct (MdDecode.Forall2_get _ _ _ j r Ag Ej) as (out & Eo & RA).
    apply (proj2 (RS j r out Ej Eo)); [apply RA|exact Ec].
  - intros Fi. apply (C43_complete false nans [] [] md5 st st junk1 junk2 fuel file copy rows rows'); auto.
    + intros n Ln. apply Rd. lia.
    + apply Forall2_nth; [now symmetry|]. intros j r out Ej Eo. apply (proj1 (RS j r out Ej Eo)). intros i c Ec. now apply (Fi j r i c).
Qed.
Print Assumptions C65_compact.

(** Every frame of the copy but the last holds [N] rows: whatever the tables of the file. *)
Theorem C65_frames : forall md5 st st' N pr junk file rows, digest md5 -> (0 < N)%nat -> rows <> [] ->
  (forall f, (length rows < f)%nat -> file_rows md5 st junk f file = (rows, Clean)) ->
  rows_copyable st N pr rows ->
  (forall r r', In r rows -> In r' rows -> map info (fst r) = map info (fst r')) ->
  exists l, (forall fuel, (length rows < fuel)%nat -> copy_file md5 st N pr junk fuel file = Ok (bytes_of l)) /\ made_of md5 st' l /\
    (forall k p, nth_error l k = Some p -> t_rows (snd p) = Z.of_nat (Nat.min N (length rows - k * N)) /\ 0 < t_rows (snd p)) /\
    length l = ((length rows + N - 1) / N)%nat.
Proof.
  intros md5 st st' N pr junk file rows Hd HN Hne R HC Hu.
  destruct (compact_core md5 st N pr Hd HN rows HC Hu st' junk junk file Hne R) as (copy & K & cs0 & fs & bs & rows' & _ & _ & -> & F & Fu & Ec & _).
  assert (X : exists l, map fst l = bs /\ made_of md5 st' l /\ Forall2 (fun f p => t_rows (snd p) = Z.of_nat (length f)) fs l).
  { clear -F Hd. induction F as [|f b fs bs H F (l & A1 & A2 & A3)]; [exists []; split; [reflexivity|]; split; constructor|].
    destruct (WriterRead.frame_table st st' pr md5 Hd (map info cs0) f b H) as (t & T1 & T2 & _). exists ((b, t) :: l). split; [cbn; congruence|]. split; constructor; auto. }
  destruct X as (l & X1 & X2 & X3). exists l. unfold bytes_of. rewrite X1. split; [exact K|]. split; [exact X2|].
  assert (E : length rows = length (concat fs)) by (rewrite Ec; symmetry; apply map_length). rewrite E. clear -HN Fu X3.
  revert l X3. induction Fu as [|f Hf Lf|f fs Lf Fu IH]; intros l X3.
  - inversion X3; subst. split; [intros [|k]; discriminate|]. cbn [concat length]. symmetry. apply Nat.div_small. lia.
  - inversion X3 as [|? p ? l' Hp X4]; subst. inversion X4; subst. cbn [concat]. rewrite app_nil_r. assert (0 < length f)%nat by (destruct f; [contradiction|cbn; lia]). split.
    + intros [|k] q E; [|destruct k; discriminate]. cbn in E. injection E as <-. rewrite Hp. cbn [Nat.mul]. split; [f_equal; lia|lia].
    + cbn [length]. apply (Nat.div_unique _ _ _ (length f - 1)); lia.
  - inversion X3 as [|? p ? l' Hp X4]; subst. destruct (IH l' X4) as (A & B). cbn [concat]. rewrite app_length. split.
    + intros [|k] q E.
      * cbn in E. injection E as <-. rewrite Hp. cbn [Nat.mul]. split; [f_equal; lia|lia].
      * destruct (A k q E) as (A1 & A2). split; [|exact A2]. rewrite A1. f_equal. cbn [Nat.mul]. generalize (k * length f)%nat. intros m. lia.
    + cbn [length]. rewrite B. replace (length f + length (concat fs) + length f - 1)%nat with ((length (concat fs) + length f - 1) + 1 * length f)%nat by lia.
      rewrite Nat.div_add by lia. lia.
Qed.
Print Assumptions C65_frames.

(** Whatever the file: if the verification succeeds, the copy has the rows of the file, each
    number within 1e-9 of the one it should be. *)
Theorem C65_sound : forall md5 st N pr nans junk junk1 junk2 fuel file copy,
  compact_file md5 st N pr nans junk junk1 junk2 fuel file = Ok (copy, Ok tt) ->
  exists rows rows', (forall n, (length rows < n)%nat -> file_rows md5 st junk1 n file = (rows, Clean)) /\
    (forall n, (length rows' < n)%nat -> file_rows md5 st junk2 n copy = (rows', Clean)) /\
    Forall2 (rows_agree closer false nans [] []) rows rows'.
Proof.
  intros md5 st N pr nans junk junk1 junk2 fuel file copy. unfold compact_file.
  destruct (copy_file md5 st N pr junk fuel file) as [c| |]; cbn [bind]; try discriminate. intros H.
  assert (Ec : c = copy) by congruence. subst c. assert (V : compare_files false nans [] [] md5 st st junk1 junk2 fuel file copy = Ok tt) by congruence.
  now apply C43_sound in V.
Qed.
Print Assumptions C65_sound.
