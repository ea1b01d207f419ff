(** C63: verifying a split. *)
From Verif Require Import Api CsvRows IntProofs Spec Base Fp FpProofs Stream StreamProofs StreamLocal Codec Meta Header HeaderProofs Encoder Table Reader
  TableProofs FrameProofs Through Writer RowReader RowList WriterSpec WriterProofs WriterRun WriterRead Comparator ComparatorSpec P_Compare Copy CopySpec CopyProofs P_Copy
  P_Tables Dispatcher DispatchSpec DispatchNames DispatchProofs DispatchRun P_Dispatch Verify VerifySpec.
Open Scope Z_scope.
Local Notation length := List.length.

(** ** Rows *)

Lemma equal_types_spec : forall a b, equal_types a b = true <-> Forall2 (fun d c => col_name d = col_name c /\ col_type d = col_type c) a b.
Proof.
  induction a as [|x a IH]; intros [|y b]; cbn [equal_types].
  - split; [constructor|reflexivity].
  - split; [discriminate|inversion 1].
  - split; [discriminate|inversion 1].
  - rewrite !andb_true_iff, IH, bytes_eqb_iff, Z.eqb_eq. split.
    + intros ((A & B) & C). constructor; auto.
    + intros H. inversion H as [|? ? ? ? (A & B) C]. auto.
Qed.

Lemma differences_plain any nans : forall cs1 cs2 r1 r2 i, length cs1 = length cs2 -> length r1 = length cs1 -> length r2 = length cs2 ->
  (differences any nans i [] cs1 cs2 r1 r2 = O <->
   forall j c1 c2 x y, nth_error cs1 j = Some c1 -> nth_error cs2 j = Some c2 -> nth_error r1 j = Some x -> nth_error r2 j = Some y ->
     compare_cell any nans c1 c2 x y = true).
Proof.
  induction cs1 as [|c1 cs1 IH]; intros [|c2 cs2] [|x r1] [|y r2] i L L1 L2; try discriminate.
  { split; [|reflexivity]. intros _ [|j]; discriminate. }
  cbn [length] in L, L1, L2. cbn [differences]. cbv zeta.
  assert (Step := IH cs2 r1 r2 (S i) ltac:(lia) ltac:(lia) ltac:(lia)). split.
  - intros Q [|j] a b u v; cbn [nth_error].
    + intros E1 E2 E3 E4. assert (a = c1) by congruence. assert (b = c2) by congruence. assert (u = x) by congruence.
      assert (v = y) by congruence. subst. destruct (compare_cell any nans c1 c2 x y); [reflexivity|lia].
    + apply Step. lia.
  - intros Q. rewrite (Q O c1 c2 x y eq_refl eq_refl eq_refl eq_refl). apply Step. intros j. apply (Q (S j)).
Qed.

(** The columns the dispatcher has are as good as those of the row. *)
Definition like (c c' : column) : Prop := shape c' = shape c /\ missing_value (col_coder c') = missing_value (col_coder c).

Lemma agree_like rel nans c c' d x y : like c c' -> (cells_agree rel true nans c d x y <-> cells_agree rel true nans c' d x y).
Proof.
  intros (Sh & M). unfold shape in Sh. assert (T : col_type c' = col_type c) by congruence.
  assert (W : width c' = width c) by (unfold width; congruence).
  unfold cells_agree, missing. rewrite T, W, M. assert (X : forall a b : Prop, (a \/ true = true) /\ b <-> b) by (intros; split; [tauto|auto]).
  setoid_rewrite X. reflexivity.
Qed.

Lemma correct_spec nans cs cs' row s : Forall2 like cs cs' -> length row = length cs -> shaped s ->
  (row_correct nans cs' row s = true -> r_end s = false /\ row_ok closer nans (cs, row) (r_cols s, r_last s)) /\
  (r_end s = false -> row_ok near nans (cs, row) (r_cols s, r_last s) -> row_correct nans cs' row s = true).
Proof.
  intros Lk Lr Sh.
  assert (Ln : length cs = length cs') by (apply (Forall2_length _ _ _ Lk)).
  assert (Ty : Forall2 (fun d c => col_name d = col_name c /\ col_type d = col_type c) (r_cols s) cs' <->
               Forall2 (fun c d => col_name d = col_name c /\ col_type d = col_type c) cs (r_cols s)).
  { clear - Lk. revert cs cs' Lk. induction (r_cols s) as [|d ds IH]; intros cs cs' Lk.
    - split; intros H; inversion H; subst; inversion Lk; constructor.
    - split; intros H; inversion H as [|a b la lb (A & B) C]; subst; inversion Lk as [|u v lu lv (E & _) F]; subst; constructor;
        try (apply (IH _ _ F); assumption); unfold shape in E; split; congruence. }
  assert (Nx : forall j c, nth_error cs j = Some c -> exists c', nth_error cs' j = Some c' /\ like c c').
  { intros j c E. destruct (nth_error cs' j) as [c'|] eqn:E'.
    - exists c'. split; [reflexivity|]. eapply CsvRows.Forall2_at; eauto.
    - apply nth_error_None in E'. assert (j < length cs)%nat by (apply nth_error_Some; congruence). lia. }
  assert (Nx' : forall j c', nth_error cs' j = Some c' -> exists c, nth_error cs j = Some c /\ like c c').
  { intros j c' E. destruct (nth_error cs j) as [c|] eqn:E'.
    - exists c. split; [reflexivity|]. eapply CsvRows.Forall2_at; eauto.
    - apply nth_error_None in E'. assert (j < length cs')%nat by (apply nth_error_Some; congruence). lia. }
  unfold row_correct. split.
  - rewrite !andb_true_iff, negb_true_iff, equal_types_spec, Nat.eqb_eq. intros ((A & B) & C). split; [exact A|].
    pose proof (Forall2_length _ _ _ B) as Lb. specialize (Sh A).
    split; [now apply Ty|]. split; [exact Lr|]. split; [exact Sh|]. cbn [fst snd]. intros i c1 c2 x y E1 E2 E3 E4.
    destruct (Nx i c1 E1) as (c1' & E1' & K). apply (agree_like closer nans c1 c1' c2 x y K). apply cell_sound.
    rewrite (differences_plain true nans cs' (r_cols s) row (r_last s) 0) in C by lia. eapply C; eauto.
  - intros A (B & _ & C & D). cbn [fst snd] in *. rewrite A. cbn [negb andb]. apply Ty in B. pose proof (Forall2_length _ _ _ B) as Lb.
    apply equal_types_spec in B. rewrite B. cbn [andb]. apply Nat.eqb_eq.
    apply (differences_plain true nans cs' (r_cols s) row (r_last s) 0); try lia. intros j c1' c2 x y E1 E2 E3 E4.
    destruct (Nx' j c1' E1) as (c1 & E1' & K). apply cell_complete. apply (agree_like near nans c1 c1' c2 x y K). eapply D; eauto.
Qed.

(** copies of columns with the usual missing values *)
Lemma copy_like st c c' : copy_column st c = Ok c' -> marked c -> iad st = true -> shape c' = shape c ->
  missing_value (col_coder c') = mark (col_type c') /\ missing_value (col_coder c) = mark (col_type c).
Proof.
  intros E (M1 & M2) I Sh. assert (T : col_type c' = col_type c) by (unfold shape in Sh; congruence). rewrite T.
  unfold missing_value at 2. rewrite M2, andb_false_r. split; [|exact M1].
  unfold copy_column in E. destruct (clone_codec st (col_type c) (col_coder c)) as [k| |] eqn:K; cbn [bind] in E; try discriminate.
  injection E as <-. cbn [col_coder]. unfold clone_codec in K.
  assert (X : c_int64 k = false /\ c_missing k = c_missing (col_coder c)).
  { destruct (chars_based _).
    - unfold assert in K. repeat (destruct (deq _ _) in K; cbn [bind] in K; try discriminate). injection K as <-. cbn. rewrite I. cbn. now rewrite !andb_false_r.
    - injection K as <-. cbn. rewrite I. cbn. now rewrite !andb_false_r. }
  destruct X as (X1 & X2). unfold missing_value. now rewrite X1, andb_false_r, X2.
Qed.

Section Verified.
Variable st : settings.
Variable md5 : list Z -> list Z.
Variable N : nat.
Variable rows : list arow.
Hypothesis HC : rows_copyable st N [] rows.
Variables (template : list Z) (route : arow -> list Z).
Hypothesis HR : routed template rows route.
Variable max : nat.
Hypothesis Hiad : iad st = true.
Hypothesis Hmark : forall r c, In r rows -> In c (fst r) -> marked c.
Hypothesis Hnames : forall r r', In r rows -> In r' rows -> map col_name (fst r) = map col_name (fst r').

Local Notation rows_for := (rows_for route).
Local Notation rkey := (rkey template).

(** The dispatcher during the verification; [F] are the names of the files. *)
Record vstate (F : list (list Z)) (d : dispatcher) : Prop := {
  v_cols : exists cs, In cs (map fst rows) /\ map_out (copy_column st) cs = Ok (d_cols d);
  v_parse : parse_template template (d_cols d) = Ok (d_params d);
  v_stamp : length (d_stamp d) = max;
  v_few : (length F <= max)%nat;
  v_once : NoDup F;
  v_map : forall k i, In (k, i) (d_map d) -> exists r, In r rows /\ k = rkey r /\ nth_error F i = Some (route r);
  v_all : forall r, In r rows -> exists r' i, In r' rows /\ In (rkey r', i) (d_map d) /\ route r' = route r;
  v_last : d_lastkey d = [] \/ exists r, In r rows /\ d_lastkey d = rkey r /\ nth_error F (d_lastidx d) = Some (route r)
}.

Lemma vindex F d cs row : vstate F d -> In (cs, row) rows -> map shape cs = map shape (d_cols d) ->
  exists d' i, dispatch_index md5 st N template max d row = Ok (d', i) /\ vstate F d' /\ nth_error F i = Some (route (cs, row)) /\
    d_cols d' = d_cols d /\ d_disk d' = d_disk d.
Proof using All.
  intros V Hr Hs. pose proof V as [V1 V2 V3 V4 V0 V5 V6 V7].
  destruct (route_facts template rows route HR (cs, row) (d_cols d) Hr) as (params & P1 & P2 & P3 & P4 & P5); [cbn [fst]; congruence|].
  assert (params = d_params d) by congruence. subst params. cbn [snd] in *. unfold dispatch_index. rewrite P3. cbn [bind].
  destruct (key_eq (rkey (cs, row)) (d_lastkey d)) eqn:El.
  - destruct V7 as [L|(r' & L1 & L2 & L3)].
    + rewrite L in El. destruct (rkey (cs, row)); [congruence|discriminate].
    + rewrite L2 in El. apply (key_route template rows route HR (cs, row) r' Hr L1) in El. exists d, (d_lastidx d).
      split; [reflexivity|]. split; [exact V|]. split; [congruence|auto].
  - rewrite (key_nan template rows route HR (cs, row) Hr).
    destruct (find_key (rkey (cs, row)) (d_map d)) as [i|] eqn:Ef.
    + apply find_key_some in Ef as (k & K1 & K2). destruct (V5 k i K1) as (r' & A & -> & B).
      apply (key_route template rows route HR (cs, row) r' Hr A) in K2. cbn [bind].
      assert (i < length F)%nat by (apply nth_error_Some; congruence).
      destruct (Nat.leb_spec (length (d_stamp d)) i); [lia|]. eexists _, i. split; [reflexivity|].
      split; [|split; [congruence|auto]].
      split; cbn [d_cols d_params d_stamp d_map d_lastkey d_lastidx]; auto.
      * now rewrite list_set_length.
      * right. exists (cs, row). split; [exact Hr|]. split; [reflexivity|congruence].
    + exfalso. destruct (V6 (cs, row) Hr) as (r' & i & A & B & C). pose proof (find_key_none _ _ Ef _ _ B) as Q.
      symmetry in C. apply (key_route template rows route HR (cs, row) r' Hr A) in C. congruence.
Qed.

Variables (nans : bool) (junk : nat -> nat -> list Z) (junks : nat -> nat -> nat -> list Z).
Variable outs : list Z -> list arow.

(** The readers of the files after the rows [done]. *)
Definition readers (F : list (list Z)) (its : list riter) (done : list arow) : Prop :=
  length its = length F /\
  forall i n, nth_error F i = Some n -> exists s, nth_error its i = Some s /\ shaped s /\
    ahead md5 st (junks i) s (skipn (length (rows_for n done)) (outs n)).

Lemma copy_likes cs cols : In cs (map fst rows) -> map_out (copy_column st) cs = Ok cols ->
  forall cs', In cs' (map fst rows) -> map shape cs' = map shape cols -> Forall2 like cs' cols.
Proof using All.
  intros Hcs E cs' Hcs' Sh.
  pose proof (copies_ok st N rows HC cs cols Hcs E) as (_ & _ & Sc). apply Api.map_out_inv in E.
  assert (Sx : map shape cs' = map shape cs) by congruence.
  apply in_map_iff in Hcs as ((c0 & r0) & E0 & Hr0). apply in_map_iff in Hcs' as ((c1 & r1) & E1 & Hr1). cbn [fst] in *. subst c0 c1.
  assert (M0 : Forall marked cs) by (apply Forall_forall; intros c Hc; apply (Hmark (cs, r0) c Hr0 Hc)).
  assert (M1 : Forall marked cs') by (apply Forall_forall; intros c Hc; apply (Hmark (cs', r1) c Hr1 Hc)).
  clear Hr0 Hr1 Sh. revert cs' Sx M1. induction E as [|c c2 cs cols E0 E IH]; intros [|c' cs'] Sx M1; try discriminate; [constructor|].
  cbn [map] in Sx, Sc. injection Sc as S2 S3 S4 Sc. injection Sx as T2 T3 T4 Sx.
  assert (Hs : shape c2 = shape c) by (unfold shape; congruence). assert (Ht : shape c' = shape c) by (unfold shape; congruence).
  constructor; [|apply IH; [exact Sc|now apply Forall_inv_tail in M0|exact Sx|now apply Forall_inv_tail in M1]].
  apply Forall_inv in M0, M1. destruct (copy_like st c c2 E0 M0 Hiad Hs) as (X & _). split; [congruence|]. rewrite X.
  destruct M1 as (M1 & M2). unfold missing_value. rewrite M2, andb_false_r, M1. unfold shape in Hs, Ht. congruence.
Qed.

Lemma vcolumns F d it : vstate F d -> In (r_cols it) (map fst rows) -> r_new it = true \/ map shape (r_cols it) = map shape (d_cols d) ->
  exists d', verify_columns st template d it = Ok d' /\ vstate F d' /\ map shape (r_cols it) = map shape (d_cols d') /\ d_disk d' = d_disk d.
Proof using All.
  intros V Hin Fr. unfold verify_columns. destruct (r_new it && negb (equal_columns (d_cols d) (r_cols it))) eqn:E.
  - destruct (copies_some st N rows HC (r_cols it) Hin) as (cols & Ec). rewrite Ec. cbn [bind].
    pose proof (copies_ok st N rows HC (r_cols it) cols Hin Ec) as (_ & _ & Sh).
    pose proof Hin as Hin'. apply in_map_iff in Hin' as (r & Er & Hr).
    destruct (route_facts template rows route HR r cols Hr) as (params & P1 & P2 & _); [congruence|].
    unfold parse_params. cbn [set_cols d_cols]. rewrite P1. cbn [bind].
    destruct (Nat.eqb_spec (length params) 0) as [Q|_]; [destruct params; [congruence|discriminate]|].
    eexists. split; [reflexivity|]. split; [|split; [symmetry; exact Sh|reflexivity]].
    destruct V as [V1 V2 V3 V4 V0 V5 V6 V7]. split; cbn [d_cols d_params d_stamp d_map d_lastkey d_lastidx set_cols]; auto.
    exists (r_cols it). auto.
  - exists d. split; [reflexivity|]. split; [exact V|]. split; [|reflexivity].
    destruct Fr as [Fr|Fr]; [|exact Fr]. rewrite Fr in E. cbn [andb] in E. apply Bool.negb_false_iff, equal_columns_shape in E. congruence.
Qed.

(** A row's counterpart, when the rows [done] have been checked. *)
Definition partner (done : list arow) (r : arow) : option arow := nth_error (outs (route r)) (length (rows_for (route r) done)).

Lemma counterpart_partner i r : nth_error rows i = Some r -> counterpart route outs rows i = partner (firstn i rows) r.
Proof.
  intros E. unfold counterpart, partner. rewrite E. f_equal. f_equal. unfold DispatchRun.rows_for. apply filter_ext. intros r'.
  destruct (list_eq_dec Z.eq_dec (route r') (route r)) as [-> |Q]; [now rewrite bytes_eqb_refl|].
  destruct (bytes_eqb (route r') (route r)) eqn:X; [apply bytes_eqb_eq in X; congruence|reflexivity].
Qed.

Lemma skipn_S_tl {A} : forall n (l : list A), tl (skipn n l) = skipn (S n) l.
Proof. induction n as [|n IH]; intros [|x l]; [reflexivity..|]. exact (IH l). Qed.

Lemma hd_skipn {A} (l : list A) : forall n, nth_error l n = hd_error (skipn n l).
Proof. induction l as [|x l IH]; intros [|n]; cbn; auto. Qed.

(** [wrong] are the positions, from [base] on, of the rows of [rest] that are reported. *)
Definition verdict (done rest : list arow) (wrong : list nat) : Prop :=
  NoDup wrong /\ (forall i, In i wrong -> (length done <= i < length done + length rest)%nat) /\
  forall j r, nth_error rest j = Some r ->
    (In (length done + j)%nat wrong -> ~ exists out, partner (done ++ firstn j rest) r = Some out /\ row_ok near nans r out) /\
    (~ In (length done + j)%nat wrong -> exists out, partner (done ++ firstn j rest) r = Some out /\ row_ok closer nans r out).

Lemma vloop F : forall rest it d its done n e, rows = done ++ rest -> shaped it -> ahead md5 st junk it rest ->
  vstate F d -> readers F its done ->
  (r_end it = false -> r_new it = true \/ map shape (r_cols it) = map shape (d_cols d)) ->
  forall fuel, (length rest < fuel)%nat -> exists wrong,
    verify_loop md5 st N template max nans junk junks fuel d its it n e = Ok (d_disk d, (n + length rest)%nat, (e + length wrong)%nat) /\
    verdict done rest wrong.
Proof using All.
  induction rest as [|[cs row] rest IH]; intros it d its done n e E Sh A V J Fr fuel Hf.
  - destruct fuel as [|fuel]; [cbn in Hf; lia|]. destruct A as [(A & _)|(_ & ? & A & _)]; [|discriminate].
    cbn [verify_loop]. rewrite A. exists []. split; [cbn [length]; rewrite !Nat.add_0_r; reflexivity|].
    split; [constructor|]. split; [intros i []|]. intros [|j] r; discriminate.
  - destruct fuel as [|fuel]; [cbn in Hf; lia|]. cbn [length] in Hf.
    destruct (r_end it) eqn:Ee; [destruct A as [(_ & A)|(A & _)]; [discriminate|congruence]|].
    pose proof (Sh Ee) as Len.
    destruct (ahead_step md5 st junk it _ Sh Ee A) as (it1 & o & rest1 & Q1 & Q2 & Q3).
    assert (r_cols it = cs) by congruence. assert (r_last it = row) by congruence. assert (rest1 = rest) by congruence. subst rest1 cs row.
    set (r := (r_cols it, r_last it)) in *.
    assert (Hin : In r rows) by (rewrite E; apply in_or_app; right; now left).
    assert (Hcs : In (r_cols it) (map fst rows)) by (apply (in_map fst) in Hin; exact Hin).
    cbn [verify_loop]. rewrite Ee.
    destruct (vcolumns F d it V Hcs (Fr eq_refl)) as (d1 & R1 & V1 & S1 & K1). rewrite R1. cbn [bind].
    destruct (vindex F d1 (r_cols it) (r_last it) V1 Hin S1) as (d2 & i & R2 & V2 & Hi & C2 & K2). rewrite R2. cbn [bind]. change (nth_error F i = Some (route r)) in Hi.
    destruct J as (JL & J). destruct (J i (route r) Hi) as (s & Es & Ss & As). rewrite Es. rewrite Q2. cbn [bind].
    assert (Hli : (i < length its)%nat) by (apply nth_error_Some; congruence).
    (* the partner *)
    set (m := length (rows_for (route r) done)) in *.
    assert (Pt : partner done r = hd_error (skipn m (outs (route r)))) by (unfold partner; apply hd_skipn).
    assert (Ns : exists s1 o1, next_row md5 st (junks i) s = Ok (s1, o1) /\ shaped s1 /\ ahead md5 st (junks i) s1 (skipn (S m) (outs (route r)))).
    { destruct (r_end s) eqn:Es1.
      - exists s, None. unfold next_row. rewrite Es1. split; [reflexivity|]. split; [exact Ss|]. left. split; [exact Es1|].
        destruct As as [(_ & As)|(As & _)]; [|congruence]. rewrite <- skipn_S_tl. now rewrite As.
      - destruct (ahead_step md5 st (junks i) s _ Ss Es1 As) as (s1 & o1 & l & L1 & L2 & L3). exists s1, o1. split; [exact L2|].
        destruct (next_step md5 st (junks i) s s1 o1 Ss L2) as (Ss1 & _). split; [exact Ss1|]. rewrite <- skipn_S_tl. rewrite L1. exact L3. }
    destruct Ns as (s1 & o1 & R3 & Ss1 & As1). rewrite R3. cbn [bind].
    pose proof V2 as [(cs0 & V2a & V2b) _ _ _ V2n _ _ _].
    assert (Lk : Forall2 like (r_cols it) (d_cols d2)) by (apply (copy_likes cs0 (d_cols d2) V2a V2b); [exact Hcs|congruence]).
    destruct (correct_spec nans (r_cols it) (d_cols d2) (r_last it) s Lk Len Ss) as (Cs & Cc).
    set (ok := row_correct nans (d_cols d2) (r_last it) s) in *.
    destruct (next_step md5 st junk it it1 o Sh Q2) as (Sh1 & Ccn).
    assert (J' : readers F (list_set its i s1) (done ++ [r])).
    { split; [now rewrite list_set_length|]. intros j n' Hj. rewrite nth_error_list_set by exact Hli. destruct (Nat.eqb_spec j i) as [-> |Hne].
      - exists s1. assert (n' = route r) by congruence. subst n'. split; [reflexivity|]. split; [exact Ss1|].
        rewrite rows_for_snoc, bytes_eqb_refl, app_length. cbn [length]. rewrite Nat.add_1_r. exact As1.
      - destruct (J j n' Hj) as (s' & E' & S' & A'). exists s'. split; [exact E'|]. split; [exact S'|].
        rewrite rows_for_other; [exact A'|]. intros Q. apply Hne. apply (proj1 (NoDup_nth_error F) V2n); [apply nth_error_Some; congruence|congruence]. }
    destruct (IH it1 d2 (list_set its i s1) (done ++ [r]) (S n) (if ok then e else S e)) with (fuel := fuel) as (wrong & W1 & W2); auto.
    + now rewrite <- app_assoc.
    + intros E1. destruct Ccn as [(Ccn & _)|(_ & _ & [Ccn|(_ & Ccn)])]; [congruence|auto|]. right. rewrite Ccn. congruence.
    + lia.
    + exists (if ok then wrong else length done :: wrong).
      destruct W2 as (W2 & W3 & W4). rewrite app_length in W3, W4. cbn [length] in W3, W4. split.
      { rewrite W1, K2, K1. cbn [length]. replace (S n + length rest)%nat with (n + S (length rest))%nat by lia.
        destruct ok; cbn [length]; [reflexivity|]. now replace (S e + length wrong)%nat with (e + S (length wrong))%nat by lia. }
      assert (Hw : ~ In (length done) wrong) by (intros Q; apply W3 in Q; lia).
      split; [|split].
      * destruct ok; [exact W2|constructor; assumption].
      * intros j Hj. cbn [length]. assert (X : j = length done \/ In j wrong) by (destruct ok; [now right|destruct Hj; auto]).
        destruct X as [-> |X]; [lia|apply W3 in X; lia].
      * intros [|j] r' Hj; cbn [nth_error] in Hj.
        -- injection Hj as <-. cbn [firstn]. rewrite app_nil_r, Nat.add_0_r, Pt. split.
           ++ intros Q. assert (Eo : ok = false) by (destruct ok; [contradiction|reflexivity]). intros (out & O1 & O2).
              destruct As as [(_ & As)|(As & l & As2 & _)]; [rewrite As in O1; discriminate|].
              rewrite As2 in O1. cbn [hd_error] in O1. injection O1 as <-. specialize (Cc As O2). congruence.
           ++ intros Q. assert (Eo : ok = true) by (destruct ok; [reflexivity|exfalso; apply Q; now left]).
              destruct (Cs Eo) as (C1 & C3). destruct As as [(As & _)|(_ & l & As2 & _)]; [congruence|]. rewrite As2. cbn [hd_error]. eauto.
        -- specialize (W4 j r' Hj). cbn [firstn]. rewrite <- app_assoc in W4. cbn [app] in W4.
           replace (length done + 1 + j)%nat with (length done + S j)%nat in W4 by lia.
           assert (X : In (length done + S j)%nat (if ok then wrong else length done :: wrong) <-> In (length done + S j)%nat wrong).
           { destruct ok; [reflexivity|]. cbn [In]. split; [intros [Q|Q]; [lia|exact Q]|auto]. }
           rewrite X. exact W4.
Qed.
End Verified.

Lemma begins md5 st junk file rs : (forall f, (length rs < f)%nat -> file_rows md5 st junk f file = (rs, Clean)) ->
  exists it, begin_rows md5 st junk file = Ok it /\ shaped it /\ ahead md5 st junk it rs.
Proof.
  intros R. assert (exists it, begin_rows md5 st junk file = Ok it) as (it & B).
  { pose proof (R (S (length rs)) ltac:(lia)) as Q. unfold file_rows in Q. unfold begin_rows.
    destruct (open_rows md5 st junk file) as [it0| |]; cbn [bind]; try discriminate. cbn [list_rows] in Q.
    destruct (next_row md5 st junk it0) as [[it1 o]| |]; cbn [bind]; try discriminate. eauto. }
  exists it. split; [exact B|]. destruct (begin_ahead md5 st junk file it rs B) as (Sh & AH). split; [exact Sh|]. now apply AH.
Qed.

Lemma readers_open md5 st junks k outs : forall F i,
  (forall n j, In n F -> forall f, (length (outs j n) < f)%nat -> file_rows md5 st (junks j) f (content k n) = (outs j n, Clean)) ->
  exists its, open_readers md5 st junks k i F = Ok its /\ length its = length F /\
    forall j n, nth_error F j = Some n -> exists s, nth_error its j = Some s /\ shaped s /\ ahead md5 st (junks (i + j)%nat) s (outs (i + j)%nat n).
Proof.
  induction F as [|n F IH]; intros i H.
  - exists []. split; [reflexivity|]. split; [reflexivity|]. intros [|j]; discriminate.
  - cbn [open_readers]. destruct (begins md5 st (junks i) (content k n) (outs i n)) as (it & B & Sh & A); [intros f Hf; apply H; [now left|exact Hf]|].
    rewrite B. cbn [bind]. destruct (IH (S i)) as (its & I1 & I2 & I3); [intros n' j Hn; apply H; now right|]. rewrite I1. cbn [bind].
    exists (it :: its). split; [reflexivity|]. split; [cbn [length]; congruence|]. intros [|j] n' Hj; cbn [nth_error] in *.
    + injection Hj as <-. exists it. rewrite Nat.add_0_r. auto.
    + destruct (I3 j n' Hj) as (s & S1 & S2 & S3). exists s. rewrite Nat.add_succ_r. auto.
Qed.

Fixpoint place (F : list (list Z)) (n : list Z) : nat :=
  match F with
  | [] => O
  | m :: r => if list_eq_dec Z.eq_dec m n then O else S (place r n)
  end.
Lemma place_nth : forall F i n, NoDup F -> nth_error F i = Some n -> place F n = i.
Proof.
  induction F as [|m F IH]; intros [|i] n Nd E; try discriminate; cbn [place].
  - cbn in E. assert (m = n) by congruence. destruct (list_eq_dec Z.eq_dec m n); [reflexivity|contradiction].
  - inversion Nd as [|x l Q1 Q2]. subst. destruct (list_eq_dec Z.eq_dec m n) as [-> |_].
    + exfalso. apply Q1. cbn in E. now apply nth_error_In in E.
    + f_equal. now apply IH.
Qed.

(** ** C63 *)

(** After a split the verification counts exactly the rows that do not have a copy in their
    place in the file for them ([wrong]; whatever the files hold by then): a row not counted has
    a counterpart that agrees with it, a row counted has none that agrees closely.  (A file [n]
    is read by the reader number [reader_of n], and shows it the rows [outs (reader_of n) n]:
    what is uninitialised there may differ.) *)
Theorem C63_counts : forall md5 st N max nans junk0 junk junks file rows template route k,
  digest md5 -> (0 < N)%nat -> (0 < max)%nat -> rows <> [] ->
  (forall f, (length rows < f)%nat -> file_rows md5 st junk0 f file = (rows, Clean)) ->
  (forall f, (length rows < f)%nat -> file_rows md5 st junk f file = (rows, Clean)) ->
  rows_copyable st N [] rows -> routed template rows route -> few max (map route rows) ->
  iad st = true -> (forall r c, In r rows -> In c (fst r) -> marked c) ->
  (forall r r', In r rows -> In r' rows -> map col_name (fst r) = map col_name (fst r')) ->
  forall fuel, (length rows < fuel)%nat ->
  exists d reader_of, pass1_file md5 st N template max junk0 fuel false k file = Ok d /\
    forall k2 outs,
    (forall n j, In n (map route rows) -> forall f, (length (outs j n) < f)%nat -> file_rows md5 st (junks j) f (content k2 n) = (outs j n, Clean)) ->
    exists wrong, verify md5 st N template max nans junk junks fuel d k2 file = Ok (k2, length rows, length wrong) /\
      NoDup wrong /\ (forall i, In i wrong -> (i < length rows)%nat) /\
      forall i r, nth_error rows i = Some r ->
        (~ In i wrong -> exists out, counterpart route (fun n => outs (reader_of n) n) rows i = Some out /\ row_ok closer nans r out) /\
        (In i wrong -> ~ exists out, counterpart route (fun n => outs (reader_of n) n) rows i = Some out /\ row_ok near nans r out).
Proof.
  intros md5 st N max nans junk0 junk junks file rows template route k Hd HN Hmax Hne R0 R HC HR Hfew Hi Hm Hn fuel Hf.
  destruct (pass1_core st st md5 Hd N HN rows HC template route HR false k max Hmax (or_intror (or_intror Hfew)) (or_introl (conj eq_refl Hfew)) junk0 file fuel Hne R0 Hf)
    as (it0 & cols0 & d0 & d1 & B & Ee & Ec & Ep & Ln & D1 & C1 & L1).
  exists d1, (place (map oname (d_open d1))). split.
  { unfold pass1_file. rewrite B. cbn [bind]. rewrite Ee, Ec. cbn [bind]. rewrite Ep. cbn [bind]. rewrite Ln. exact D1. }
  intros k2 outs Ho. pose proof C1 as [_ Cp _ _ C4 C5 _ C7 (C8a & C8b) C9 C10 C11 C12 C13 _ _].
  set (F := map oname (d_open d1)) in *.
  (* all files are open at the end *)
  assert (Hall : incl (d_created d1) F).
  { destruct (Nat.lt_ge_cases (length (d_open d1)) max) as [Q|Q]; [now apply C11|].
    apply NoDup_length_incl; [exact C4| |exact C5]. destruct Hfew as (l & F1 & F2).
    assert (length (d_created d1) <= length l)%nat by (apply NoDup_incl_length; [exact C8a|]; intros x Hx; apply F1, C8b, Hx).
    unfold F. rewrite map_length. lia. }
  assert (Hin : forall r, In r rows -> In (route r) F).
  { intros r Hr. apply Hall. destruct (in_dec (list_eq_dec Z.eq_dec) (route r) (d_created d1)) as [Q|Q]; [exact Q|exfalso].
    destruct (C7 _ Q) as (_ & Z0). assert (X : In r (DispatchRun.rows_for route (route r) rows)) by (apply filter_In; split; [exact Hr|apply bytes_eqb_refl]).
    rewrite Z0 in X. destruct X. }
  assert (HF : forall n, In n F -> In n (map route rows)) by (intros n Q; apply C8b, C5, Q).
  destruct (begins md5 st junk file rows R) as (it & Bi & Sh & A).
  assert (Ee1 : r_end it = false) by (destruct A as [(_ & Q)|(Q & _)]; [congruence|exact Q]).
  destruct (ahead_step md5 st junk it rows Sh Ee1 A) as (it1 & o & rest & Q1 & _ & _).
  assert (Hr : In (r_cols it, r_last it) rows) by (rewrite Q1; now left).
  assert (Hcs : In (r_cols it) (map fst rows)) by (apply (in_map fst) in Hr; exact Hr).
  destruct (copies_some st N rows HC (r_cols it) Hcs) as (cols & Ecols).
  pose proof (copies_ok st N rows HC (r_cols it) cols Hcs Ecols) as (_ & _ & Sc).
  destruct (readers_open md5 st junks k2 outs F 0) as (its & I1 & I2 & I3); [intros n j Q; apply Ho, HF, Q|].
  unfold verify. rewrite Bi. cbn [bind]. rewrite Ecols. cbn [bind]. change (opened d1) with F. rewrite I1. cbn [bind].
  set (dv := set_cols (closed d1 k2) cols).
  assert (V : vstate st rows template route max F dv).
  { split; unfold dv, closed, set_cols, with_disk; cbn [d_cols d_params d_stamp d_map d_lastkey d_lastidx].
    - exists (r_cols it). auto.
    - pose proof C1 as [(cs1 & X1 & _ & _ & X2) _ _ _ _ _ _ _ _ _ _ _ _ _ _ _]. apply in_map_iff in X1 as (r1 & X1 & X3).
      rewrite <- Cp. apply parse_names. apply shape_names in X2, Sc. rewrite Sc, X2, <- X1. change (r_cols it) with (fst (r_cols it, r_last it)). now apply Hn.
    - exact C10.
    - unfold F. now rewrite map_length.
    - exact C4.
    - intros key i Q. destruct (C13 key i Q) as (r & hw & X1 & X2 & X3 & X4). exists r. split; [exact X1|]. split; [exact X3|].
      unfold F. rewrite nth_error_map, X2. cbn [option_map]. now rewrite X4.
    - intros r Q. pose proof (Hin r Q) as X. unfold F in X. apply in_map_iff in X as (hw & X1 & X2). apply In_nth_error in X2 as (i & X2).
      destruct (C12 i) as (key & X3); [apply nth_error_Some; congruence|]. destruct (C13 key i X3) as (r' & hw' & Y1 & Y2 & Y3 & Y4).
      exists r', i. subst key. assert (hw' = hw) by congruence. subst hw'. split; [exact Y1|]. split; [exact X3|congruence].
    - destruct L1 as [L1|(r & hw & X1 & X2 & X3 & X4)]; [now left|right]. exists r. split; [exact X1|]. split; [exact X2|].
      unfold F. rewrite nth_error_map, X3. cbn [option_map]. now rewrite X4. }
  destruct (vloop st md5 N rows HC template route HR max Hi Hm Hn nans junk junks (fun n => outs (place F n) n) F rows it dv its [] 0%nat 0%nat eq_refl Sh A V) with (fuel := fuel) as (wrong & W1 & W2 & W3 & W4); auto.
  - split; [exact I2|]. intros i n Q. destruct (I3 i n Q) as (s & S1 & S2 & S3). exists s. split; [exact S1|]. split; [exact S2|].
    rewrite (place_nth F i n C4 Q). exact S3.
  - exists wrong. split; [exact W1|]. split; [exact W2|]. split; [intros i Q; apply W3 in Q; cbn [length] in Q; lia|].
    intros i r E. rewrite (counterpart_partner rows route (fun n => outs (place F n) n) i r E). specialize (W4 i r E). cbn [length Nat.add app] in W4. tauto.
Qed.
Print Assumptions C63_counts.
