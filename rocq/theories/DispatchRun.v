(** The dispatching writer: what holds after any number of rows. *)
From Verif Require Import IntProofs Spec Base Fp FpProofs Stream StreamProofs StreamLocal Codec Meta Header HeaderProofs Encoder Table Reader
  TableProofs FrameProofs Through Writer RowReader RowList WriterSpec WriterProofs WriterRun WriterRead Comparator P_Compare Copy CopySpec CopyProofs P_Copy
  P_Tables Dispatcher DispatchSpec DispatchNames DispatchProofs.
Open Scope Z_scope.
Local Notation length := List.length.

Lemma copy_info st c c' : copy_column st c = Ok c' -> copyable c -> known_type (info c) ->
  info c' = info c /\ copyable c' /\ shape c' = shape c.
Proof.
  intros H (B & M) K. unfold copy_column in H. apply bind_ok in H as (k & Ek & H).
  assert (c' = {| col_name := col_name c; col_type := col_type c;
     col_bfnames := if col_type c =? ty_BITFIELD then col_bfnames c else []; col_bfsizes := if col_type c =? ty_BITFIELD then col_bfsizes c else [];
     col_coder := k |}) by congruence. subst c'. clear H.
  assert (D : data_size_doubles k = data_size_doubles (col_coder c) /\ (chars_based (c_kind k) = true -> deq (c_min k) (c_min k) = true /\ deq (c_max k) (c_max k) = true)).
  { unfold clone_codec in Ek. destruct (chars_based (c_kind (col_coder c))) eqn:Ch.
    - destruct (M eq_refl) as (M1 & M2). cbn [set_stats new_codec c_min c_max] in Ek. rewrite M1, M2 in Ek. cbn [assert bind] in Ek.
      match type of Ek with Ok ?x = _ => assert (k = x) by congruence end. subst k. cbn. unfold data_size_doubles. cbn. rewrite Ch. auto.
    - match type of Ek with Ok ?x = _ => assert (k = x) by congruence end. subst k. unfold data_size_doubles. cbn. rewrite Ch.
      split; [reflexivity|]. congruence. }
  destruct D as (D1 & D2). unfold info, shape, copyable. cbn [col_name col_type col_bfnames col_bfsizes col_coder]. rewrite D1.
  split; [|split; [|reflexivity]].
  - destruct (col_type c =? ty_BITFIELD); reflexivity.
  - split; [|exact D2]. intros T. rewrite T, Z.eqb_refl. auto.
Qed.

Lemma copy_infos st : forall md cols, map_out (copy_column st) md = Ok cols -> Forall copyable md -> Forall (fun c => known_type (info c)) md ->
  map info cols = map info md /\ Forall copyable cols /\ map shape cols = map shape md.
Proof.
  induction md as [|c md IH]; intros cols H C K; cbn [map_out] in H.
  - assert (cols = []) by congruence. subst. auto.
  - apply bind_ok in H as (c' & E1 & H). apply bind_ok in H as (cs' & E2 & H). assert (cols = c' :: cs') by congruence. subst.
    inversion C; inversion K; subst. destruct (copy_info st c c' E1) as (A1 & A2 & A3); auto. destruct (IH cs' E2) as (B1 & B2 & B3); auto.
    cbn [map]. rewrite A1, A3, B1, B3. auto.
Qed.

Section Run.
Variables st st' : settings.
Variable md5 : list Z -> list Z.
Hypothesis Hd : digest md5.
Variable N : nat.
Hypothesis HN : (0 < N)%nat.
Variable rows : list arow.
Hypothesis HC : rows_copyable st N [] rows.
Variables (template : list Z) (route : arow -> list Z).
Hypothesis HR : routed template rows route.
Variable append0 : bool.
Variable k0 : disk.

Local Notation flush := (flush md5 st N []).
Local Notation write_row := (write_row md5 st N []).
Local Notation frames_hold := (frames_hold st st' [] md5).
Local Notation matched := (matched rows).

(** the rows for one file *)
Definition rows_for (n : list Z) (l : list arow) : list arow := filter (fun r => bytes_eqb (route r) n) l.
(** what the new frames follow *)
Definition start_of (n : list Z) : list Z := if append0 then content k0 n else [].

Definition cols_of (cols cs0 : list column) : Prop :=
  map info cols = map info cs0 /\ Forall copyable cols /\ map shape cols = map shape cs0.

Lemma known' cs : In cs (map fst rows) -> Forall (fun c => known_type (info c)) cs /\ Forall copyable cs /\ writable_columns (map info cs) [].
Proof using HC. apply (known st [] N rows HC). Qed.

Lemma copies_ok cs cols : In cs (map fst rows) -> map_out (copy_column st) cs = Ok cols -> cols_of cols cs.
Proof using HC. intros H E. destruct (known' cs H) as (K & C & _). unfold cols_of. now apply (copy_infos st). Qed.

Lemma copies_some cs : In cs (map fst rows) -> exists cols, map_out (copy_column st) cs = Ok cols.
Proof using HC. intros H. destruct (known' cs H) as (K & C & _). destruct (columns_ok st cs K C) as (cs' & _ & E & _). eauto. Qed.

(** new columns for a writer without rows *)
Lemma begin_ok w cols cs0 : In cs0 (map fst rows) -> cols_of cols cs0 -> w_rows w = [] ->
  exists w1, writer_columns st w cols = Ok w1 /\
    (exists base, Forall2 (fun ci c => make_column st ci = Ok c) (map info cs0) base /\ map shape base = map shape cs0 /\
      pending st (map info cs0) base (write_header w1) [] (w_out w)).
Proof using HC.
  intros Hin (I & C & Sh) E. destruct (known' cs0 Hin) as (K & _ & W).
  assert (K' : Forall (fun c => known_type (info c)) cols).
  { rewrite <- (Forall_map info known_type). rewrite I, Forall_map. exact K. }
  destruct (columns_ok st cols K' C) as (cs & base & A1 & A2 & A3 & A4 & A5).
  unfold writer_columns. rewrite A1. cbn [bind]. rewrite A2. cbn [bind].
  eexists. split; [reflexivity|]. rewrite I in A4. rewrite Sh in A5. exists base. split; [exact A4|]. split; [exact A5|].
  match goal with |- pending _ _ _ (write_header ?w1) _ _ => change (w_out w) with (w_out w1) end. eapply header_ok.
  - exact A4.
  - reflexivity.
  - exact E.
Qed.

(** An open file. *)
Record good (k : disk) (cols : list column) (done : list arow) (hw : handle * writer) : Prop := {
  g_out : w_out (snd hw) = [];
  g_file : exists D, files k (h_name (fst hw)) = Some (start_of (h_name (fst hw)) ++ D) /\
    (h_append (fst hw) = false -> h_pos (fst hw) = length (start_of (h_name (fst hw)) ++ D)) /\
    exists cs1 p r1 base, In cs1 (map fst rows) /\ map shape cs1 = map shape cols /\
      Forall2 (fun ci c => make_column st ci = Ok c) (map info cs1) base /\ map shape base = map shape cs1 /\
      pending st (map info cs1) base (snd hw) p [] /\ (length p < N)%nat /\
      (forall row, In row p -> exists cs, In (cs, row) rows /\ map shape cs = map shape cs1) /\
      frames_hold D r1 /\ Forall2 matched (rows_for (h_name (fst hw)) done) (r1 ++ map (pair (map info cs1)) p)
}.

Definition settled (k : disk) (n : list Z) (done : list arow) : Prop :=
  exists D r1, files k n = Some (start_of n ++ D) /\ frames_hold D r1 /\ Forall2 matched (rows_for n done) r1.

Lemma good_ext k k' cols done hw : files k' (h_name (fst hw)) = files k (h_name (fst hw)) -> good k cols done hw -> good k' cols done hw.
Proof. intros E [G1 (D & G2 & G3)]. split; [exact G1|]. exists D. rewrite E. auto. Qed.
Lemma good_done k cols done done' hw : rows_for (h_name (fst hw)) done' = rows_for (h_name (fst hw)) done -> good k cols done hw -> good k cols done' hw.
Proof. intros E [G1 (D & G2 & G3 & G4)]. split; [exact G1|]. exists D. rewrite E. auto. Qed.

Lemma pending_out cols base w p out out' : pending st cols base w p out ->
  pending st cols base {| w_cols := w_cols w; w_last := w_last w; w_rows := w_rows w; w_size := w_size w; w_out := out'; w_init := w_init w |} p out'.
Proof. intros [P1 P2 P3 P4 P5 P6 P7]. split; auto. Qed.

(** After [w'] has written [D'], with the rows [p'] left. *)
Lemma settle_good k cols done h w' D D' cs1 p' r1 base :
  files k (h_name h) = Some (start_of (h_name h) ++ D) ->
  (h_append h = false -> h_pos h = length (start_of (h_name h) ++ D)) ->
  In cs1 (map fst rows) -> map shape cs1 = map shape cols ->
  Forall2 (fun ci c => make_column st ci = Ok c) (map info cs1) base -> map shape base = map shape cs1 ->
  pending st (map info cs1) base w' p' D' -> (length p' < N)%nat ->
  (forall row, In row p' -> exists cs, In (cs, row) rows /\ map shape cs = map shape cs1) ->
  frames_hold (D ++ D') r1 -> Forall2 matched (rows_for (h_name h) done) (r1 ++ map (pair (map info cs1)) p') ->
  exists k' hw', settle k h w' = (k', hw') /\ h_name (fst hw') = h_name h /\ good k' cols done hw' /\
    (forall n, n <> h_name h -> files k' n = files k n) /\ dirs k' = dirs k.
Proof.
  intros F P A1 A2 A3 A4 Pe A5 A6 Fh M. unfold settle.
  assert (Eo : w_out w' = D') by (destruct Pe; assumption). rewrite Eo.
  destruct (emit k h D') as [k1 h1] eqn:E. destruct (emit_ok k h D' k1 h1 _ F P E) as (E1 & E2 & E3 & E4 & E5).
  rewrite <- app_assoc in E1, E5. eexists k1, _. split; [reflexivity|]. cbn [fst]. split; [exact E4|]. split; [|auto].
  split; [reflexivity|]. cbn [fst snd]. rewrite E4. exists (D ++ D'). split; [exact E1|]. split; [exact E5|].
  exists cs1, p', r1, base. split; [exact A1|]. split; [exact A2|]. split; [exact A3|]. split; [exact A4|].
  split; [eapply pending_out; exact Pe|]. auto.
Qed.

Lemma rows_for_snoc n done r : rows_for n (done ++ [r]) = rows_for n done ++ (if bytes_eqb (route r) n then [r] else []).
Proof. unfold rows_for. rewrite filter_app. reflexivity. Qed.
Lemma rows_for_other n done r : route r <> n -> rows_for n (done ++ [r]) = rows_for n done.
Proof. intros H. rewrite rows_for_snoc. destruct (bytes_eqb (route r) n) eqn:E; [apply bytes_eqb_eq in E; congruence|apply app_nil_r]. Qed.

(** Writing a row. *)
Lemma good_row k cols done h w cs row : good k cols done (h, w) -> In (cs, row) rows -> map shape cs = map shape cols ->
  route (cs, row) = h_name h ->
  length cs = length (w_cols w) /\
  exists w1 k' hw', write_row w (concat row) = Ok w1 /\ settle k h w1 = (k', hw') /\ h_name (fst hw') = h_name h /\
    good k' cols (done ++ [(cs, row)]) hw' /\ (forall n, n <> h_name h -> files k' n = files k n) /\ dirs k' = dirs k.
Proof using All.
  intros [G1 (D & G2 & G3 & cs1 & p & r1 & base & B1 & B2 & B3 & B4 & B5 & B6 & B7 & B8 & B9)] Hin Hs Hr. cbn [fst snd] in *.
  destruct (known' cs1 B1) as (_ & _ & W).
  split.
  { rewrite <- (map_length shape cs), Hs, <- B2, <- B4, <- (pending_shape st _ base B3 w p _ B5), map_length. reflexivity. }
  assert (B7' : forall r, In r (p ++ [row]) -> exists cs, In (cs, r) rows /\ map shape cs = map shape cs1).
  { intros r H. apply in_app_or in H as [H|[<-|[]]]; [auto|]. exists cs. split; [exact Hin|congruence]. }
  destruct (session_row st st' [] md5 Hd N HN (map info cs1) base W B3 w p [] row B5 B6) as (w' & p' & D' & rD & R1 & R2 & R3 & R4 & R5 & R6).
  { apply (part_ok st [] N rows HC); auto; [destruct p; discriminate|rewrite app_length; cbn; lia]. }
  cbn [app] in R2.
  destruct (settle_good k cols (done ++ [(cs, row)]) h w' D D' cs1 p' (r1 ++ rD) base G2 G3 B1 B2 B3 B4 R2 R3) as (k' & hw' & S1 & S2 & S3 & S4 & S5).
  - destruct R6 as [-> | ->]; [exact B7'|intros ? []].
  - now apply hold_app.
  - rewrite <- app_assoc, <- R5, map_app, app_assoc, rows_for_snoc, Hr, bytes_eqb_refl. apply Forall2_app; [exact B9|]. constructor; [|constructor].
    split; [reflexivity|]. exists cs1. cbn [fst snd]. split; [reflexivity|]. split; [congruence|exact B1].
  - exists w', k', hw'. auto 10.
Qed.

(** Flushing. *)
Lemma good_flush k cols done h w : good k cols done (h, w) ->
  exists w1 D r1 D', flush w = Ok w1 /\ w_init w = true /\ w_rows w1 = [] /\ w_out w1 = D' /\
    files k (h_name h) = Some (start_of (h_name h) ++ D) /\ (h_append h = false -> h_pos h = length (start_of (h_name h) ++ D)) /\
    frames_hold (D ++ D') r1 /\ Forall2 matched (rows_for (h_name h) done) r1.
Proof using All.
  intros [G1 (D & G2 & G3 & cs1 & p & r1 & base & B1 & B2 & B3 & B4 & B5 & B6 & B7 & B8 & B9)]. cbn [fst snd] in *.
  destruct (known' cs1 B1) as (_ & _ & W).
  destruct (session_flush st st' [] md5 Hd N HN (map info cs1) base W B3 w p [] B5) as (w1 & D' & F1 & F2 & F3); [lia|intros Hp; apply (part_ok st [] N rows HC); auto; lia|].
  cbn [app] in F2. destruct F2 as [_ _ Q3 Q4 _ _ _].
  exists w1, D, (r1 ++ map (pair (map info cs1)) p), D'. split; [exact F1|]. split; [now destruct B5|]. split; [exact Q3|]. split; [exact Q4|].
  split; [exact G2|]. split; [exact G3|]. split; [now apply hold_app|exact B9].
Qed.

Lemma good_close k cols done h w : good k cols done (h, w) ->
  exists w1 k' hw', Writer.close md5 st N [] w = Ok w1 /\ settle k h w1 = (k', hw') /\ settled k' (h_name h) done /\
    (forall n, n <> h_name h -> files k' n = files k n) /\ dirs k' = dirs k.
Proof using All.
  intros G. destruct (good_flush k cols done h w G) as (w1 & D & r1 & D' & F1 & F2 & F3 & F4 & F5 & F6 & F7 & F8).
  unfold Writer.close. rewrite F2, F1. destruct (emit k h D') as [k1 h1] eqn:E.
  destruct (emit_ok k h D' k1 h1 _ F5 F6 E) as (E1 & E2 & E3 & E4 & E5). eexists w1, k1, _. split; [reflexivity|]. unfold settle. rewrite F4, E. split; [reflexivity|].
  split; [|auto]. exists (D ++ D'), r1. rewrite <- app_assoc in E1. auto.
Qed.

Lemma good_restart k cols done h w cols2 cs2 : good k cols done (h, w) -> In cs2 (map fst rows) -> cols_of cols2 cs2 ->
  exists w1 w2 k' hw', flush w = Ok w1 /\ writer_columns st w1 cols2 = Ok w2 /\ settle k h (write_header w2) = (k', hw') /\
    h_name (fst hw') = h_name h /\ good k' cols2 done hw' /\ (forall n, n <> h_name h -> files k' n = files k n) /\ dirs k' = dirs k.
Proof using All.
  intros G Hin C. destruct (good_flush k cols done h w G) as (w1 & D & r1 & D' & F1 & F2 & F3 & F4 & F5 & F6 & F7 & F8).
  destruct (begin_ok w1 cols2 cs2 Hin C F3) as (w2 & B1 & base & B2 & B3 & B4). rewrite F4 in B4.
  destruct (settle_good k cols2 done h (write_header w2) D D' cs2 [] r1 base F5 F6 Hin) as (k' & hw' & S1 & S2 & S3 & S4 & S5); auto.
  - symmetry. apply C.
  - intros ? [].
  - cbn [map]. now rewrite app_nil_r.
  - exists w1, w2, k', hw'. auto 10.
Qed.

Definition oname (hw : handle * writer) : list Z := h_name (fst hw).

Lemma goods_ext k k' cols done l : (forall n, In n (map oname l) -> files k' n = files k n) ->
  Forall (good k cols done) l -> Forall (good k' cols done) l.
Proof.
  intros H F. apply Forall_forall. intros hw Hi. rewrite Forall_forall in F. apply (good_ext k); [|auto]. apply H. now apply (in_map oname) in Hi.
Qed.

Lemma restart_ok cols done cols2 cs2 : In cs2 (map fst rows) -> cols_of cols2 cs2 ->
  forall op k, Forall (good k cols done) op -> NoDup (map oname op) ->
  exists k' op', restart_all md5 st N k cols2 op = Ok (k', op') /\ map oname op' = map oname op /\ Forall (good k' cols2 done) op' /\
    (forall n, ~ In n (map oname op) -> files k' n = files k n) /\ dirs k' = dirs k.
Proof using All.
  intros Hin C. induction op as [|[h w] op IH]; intros k F ND.
  - exists k, []. cbn. repeat split; auto.
  - inversion F as [|? ? G F']; subst. inversion ND as [|? ? Hn ND']; subst.
    destruct (good_restart k cols done h w cols2 cs2 G Hin C) as (w1 & w2 & k1 & hw1 & R1 & R2 & R3 & R4 & R5 & R6 & R7).
    destruct (IH k1) as (k' & op' & I1 & I2 & I3 & I4 & I5).
    + apply (goods_ext k); [|exact F']. intros n H. apply R6. intros ->. now apply Hn.
    + exact ND'.
    + exists k', (hw1 :: op'). cbn [restart_all]. rewrite R1. cbn [bind]. rewrite R2. cbn [bind]. rewrite R3, I1. cbn [bind].
      split; [reflexivity|]. cbn [map]. unfold oname at 1 3. cbn [fst]. rewrite R4, I2. split; [reflexivity|]. split.
      * constructor; [|exact I3]. apply (good_ext k1); [|exact R5]. apply I4. rewrite R4. exact Hn.
      * split; [|congruence]. intros n Hni. rewrite I4 by (intros Q; apply Hni; now right). apply R6. intros ->. apply Hni. now left.
Qed.

Lemma close_ok cols done : forall op k, Forall (good k cols done) op -> NoDup (map oname op) ->
  exists k', close_all md5 st N k op = Ok k' /\ (forall n, In n (map oname op) -> settled k' n done) /\
    (forall n, ~ In n (map oname op) -> files k' n = files k n).
Proof using All.
  induction op as [|[h w] op IH]; intros k F ND.
  - exists k. cbn. repeat split; auto. intros ? [].
  - inversion F as [|? ? G F']; subst. inversion ND as [|? ? Hn ND']; subst.
    destruct (good_close k cols done h w G) as (w1 & k1 & hw1 & R1 & R2 & R3 & R4 & _).
    destruct (IH k1) as (k' & I1 & I2 & I3).
    + apply (goods_ext k); [|exact F']. intros n H. apply R4. intros ->. now apply Hn.
    + exact ND'.
    + exists k'. cbn [close_all]. rewrite R1. cbn [bind]. rewrite R2. split; [exact I1|]. split.
      * intros n [<-|H]; [|auto]. destruct R3 as (D & r1 & R3 & R5). exists D, r1. unfold oname in *. cbn [fst] in *. rewrite I3 by exact Hn. auto.
      * intros n Hni. rewrite I3 by (intros Q; apply Hni; now right). apply R4. intros ->. apply Hni. now left.
Qed.

End Run.
