(** C55: the rows of a file as a query sees them. *)
From Verif Require Import Base Fp Stream StreamLocal Codec Meta Header Encoder Table TableProofs Writer WriterRun Reader RowReader RowList Comparator P_Compare
  P_Tables SetSpec Query QuerySpec.
Open Scope Z_scope.

(** ** The cells of a row lie one after the other *)

Definition sized (cols : list column) (row : list (list Z)) : Prop := Forall2 (fun c x => Z.of_nat (length x) = width c) cols row.

Lemma pad_length n l : length (pad n l) = n.
Proof. unfold pad. rewrite app_length, firstn_length, repeat_length. lia. Qed.

Lemma init_sized junk n : forall cols i, wide cols -> sized cols (init_row junk n i cols).
Proof.
  induction cols as [|c cs IH]; intros i W; cbn [init_row]; [constructor|]. inversion W as [|? ? W1 W2]; subst. constructor; [|now apply IH].
  rewrite app_length, StreamProofs.le_bytes_length, pad_length. unfold width in *. lia.
Qed.

Lemma cells_sized : forall cols last start s row s1, sized cols last -> next_cells start cols last s = Ok (row, s1) -> sized cols row.
Proof.
  induction cols as [|c cs IH]; intros last start s row s1 H E; inversion H as [|? x ? xs H0 H1]; subst; cbn [next_cells] in E.
  - assert (row = []) by congruence. subst. constructor.
  - destruct start as [|p].
    + apply bind_ok in E as ((out & s2) & D & E). apply bind_ok in E as (y & Y & E). apply bind_ok in E as ((r & s3) & N & E).
      assert (row = y :: r) by congruence. subst row. constructor; [|apply (IH _ _ _ _ _ H1 N)].
      unfold store in Y. destruct (Nat.ltb_spec (length x) (length out)) as [|L]; [discriminate|].
      assert (y = out ++ skipn (length out) x) by congruence. subst y. rewrite app_length, skipn_length. lia.
    + apply bind_ok in E as ((r & s3) & N & E). assert (row = x :: r) by congruence. subst row. constructor; [exact H0|apply (IH _ _ _ _ _ H1 N)].
Qed.

Lemma sized_at : forall cols row i c, sized cols row -> nth_error cols i = Some c -> exists cell, nth_error row i = Some cell /\
  firstn (Z.to_nat (width c)) (skipn (Z.to_nat (8 * data_offset cols i)) (concat row)) = cell.
Proof.
  induction cols as [|d cs IH]; intros row i c H E; [destruct i; discriminate|]. inversion H as [|? x ? xs H0 H1]; subst. destruct i as [|i].
  - cbn [nth_error] in E. assert (d = c) by congruence. subst d. exists x. split; [reflexivity|].
    unfold data_offset. cbn [firstn map fold_right concat]. change (Z.to_nat (8 * 0)) with 0%nat. cbn [skipn].
    rewrite <- H0, Nat2Z.id. rewrite firstn_app, Nat.sub_diag, firstn_all, firstn_O, app_nil_r. reflexivity.
  - cbn [nth_error] in E. destruct (IH xs i c H1 E) as (cell & N & V). exists cell. split; [exact N|]. rewrite <- V. f_equal.
    unfold data_offset. cbn [firstn map fold_right concat]. fold (data_offset cs i).
    assert (O : 0 <= data_offset cs i).
    { clear -H1. revert cs xs H1. unfold data_offset. induction i as [|i IHi]; intros cs xs H1; [cbn; lia|]. destruct H1 as [|a b cs xs H H1]; [cbn; lia|].
      cbn [firstn map fold_right]. specialize (IHi _ _ H1). unfold width in H. lia. }
    unfold width in H0. replace (Z.to_nat (8 * (data_size_doubles (col_coder d) + data_offset cs i))) with (length x + Z.to_nat (8 * data_offset cs i))%nat by lia.
    rewrite skipn_app. rewrite skipn_all2 by lia. cbn [app]. f_equal. lia.
Qed.

(** ** Looking up the columns *)

Definition place_for (cols : list column) (nm : list Z) (p : place_of) : Prop :=
  exists i c, designates cols nm i /\ nth_error cols i = Some c /\
    p = {| pl_offset := data_offset cols i; pl_doubles := data_size_doubles (col_coder c);
           pl_hasMissing := c_hasMissing (col_coder c); pl_missing := missing_value (col_coder c) |}.

Lemma look_up_ok cols nm i : designates cols nm i -> look_up cols nm = Ok (Z.of_nat i).
Proof.
  intros D. unfold look_up. replace (column_index cols nm) with (@Ok Z (Z.of_nat i)); [reflexivity|]. symmetry.
  apply (proj1 (C39_column_index cols nm)). split; [lia|]. intros j. rewrite (D j). lia.
Qed.

Lemma look_up_fails cols nm : (forall i, ~ designates cols nm i) -> look_up cols nm = Throw UserError.
Proof.
  intros D. unfold look_up. destruct (C39_column_index cols nm) as (A & B & C & _).
  destruct (column_index_spec nm cols 0 None) as [H _]. specialize (H eq_refl). unfold column_index in *.
  destruct (column_index_loop cols 0 nm None) as [k|e|]; [| |contradiction].
  - destruct H as (i & _ & H). now elim (D i).
  - destruct e; try contradiction; reflexivity.
Qed.

Lemma places_ok cols names : knows cols names -> exists ps, update_places names cols = Ok ps /\ Forall2 (place_for cols) names ps.
Proof.
  intros K. induction K as [|nm names (i & D) K (ps & E & F)]; [exists []; split; [reflexivity|constructor]|].
  destruct (proj2 (D i) eq_refl) as (c & Ec & _). unfold update_places in *. cbn [map_out]. rewrite (look_up_ok _ _ _ D). cbn [bind].
  rewrite Nat2Z.id, Ec, E. cbn [bind]. eexists. split; [reflexivity|]. constructor; [|exact F]. exists i, c. auto.
Qed.

Lemma places_fail cols names nm : In nm names -> (forall i, ~ designates cols nm i) -> update_places names cols = Throw UserError.
Proof.
  intros Hin D. unfold update_places. induction names as [|a names IH]; [destruct Hin|]. cbn [map_out].
  destruct (look_up cols a) as [k|e|] eqn:L.
  - destruct Hin as [->|Hin]; [rewrite (look_up_fails _ _ D) in L; discriminate|].
    assert (K : exists c, nth_error cols (Z.to_nat k) = Some c).
    { unfold look_up in L. destruct (column_index cols a) as [k'|e|] eqn:C; [|destruct e; discriminate|discriminate].
      assert (k' = k) by congruence. subst k'. apply (proj1 (C39_column_index cols a)) in C as (C1 & C2).
      destruct (proj2 (C2 (Z.to_nat k)) ltac:(lia)) as (c & Ec & _). eauto. }
    destruct K as (c & Ec). cbn [bind]. rewrite Ec. cbn [bind]. rewrite (IH Hin). reflexivity.
  - cbn [bind]. unfold look_up in L. destruct (column_index_spec a cols 0 None) as [H _]. specialize (H eq_refl). unfold column_index in L.
    destruct (column_index_loop cols 0 a None) as [k|e'|]; try discriminate; try contradiction. destruct e'; try contradiction; congruence.
  - exfalso. unfold look_up in L. destruct (column_index_spec a cols 0 None) as [H _]. specialize (H eq_refl). unfold column_index in L.
    destruct (column_index_loop cols 0 a None) as [k|e'|]; try discriminate; try contradiction. destruct e'; try contradiction; discriminate.
Qed.

Lemma row_answers cols row names ps : sized cols row -> Forall2 (place_for cols) names ps ->
  Forall2 (answers (cols, row)) names (map (fun p => (value_at (concat row) p, pl_hasMissing p, pl_missing p)) ps).
Proof.
  intros S0 F. induction F as [|nm p names ps (i & c & D & Ec & ->) F IH]; cbn [map]; constructor; [|exact IH].
  destruct (sized_at _ _ _ _ S0 Ec) as (cell & Er & V). exists i, c, cell. split; [exact D|]. split; [exact Ec|]. split; [exact Er|].
  unfold value_at. cbn [pl_doubles pl_offset pl_hasMissing pl_missing]. unfold width in V. now rewrite V.
Qed.

(** ** Iterators *)

Section Run.
Variables (md5 : list Z -> list Z) (st : settings) (junk : nat -> nat -> list Z) (names : list (list Z)).

Definition good_row (it : riter) : Prop := r_end it = false -> wide (r_cols it) -> sized (r_cols it) (r_last it).

Lemma load_good : forall fuel count cols file it, load_table md5 st junk fuel count cols file = Ok it -> good_row it.
Proof.
  induction fuel as [|f IH]; intros count cols file it; cbn [load_table]; [discriminate|].
  destruct (read_magic file) as [[s|]| |]; cbn [bind]; try discriminate.
  2: { intros E. assert (R : r_end it = true) by (injection E as <-; reflexivity). unfold good_row. congruence. }
  destruct (load_after_magic md5 st s) as [[h rest]| |]; cbn [bind]; try discriminate.
  destruct (h_dataSize h =? 0).
  { unfold assert. destruct (h_rows h =? 0); cbn [bind]; [apply IH|discriminate]. }
  unfold assert. destruct (negb (h_rows h =? 0)); cbn [bind]; [|discriminate].
  destruct (_ || _); cbn [bind]; [|discriminate]. destruct (h_dataSize h <? 0); [discriminate|].
  destruct (_ =? 0)%nat; [discriminate|]. destruct (_ <? _); [discriminate|].
  intros E. assert (R : r_last it = init_row junk count 0 (h_cols h) /\ r_cols it = h_cols h) by (injection E as <-; auto).
  destruct R as (R1 & R2). intros _ W. rewrite R1, R2 in *. now apply init_sized.
Qed.

Lemma next_good it it1 o : good_row it -> next_row md5 st junk it = Ok (it1, o) -> good_row it1.
Proof.
  intros G. unfold next_row. destruct (r_end it) eqn:E.
  { intros Q. assert (it1 = it) by congruence. now subst. }
  destruct (if r_left it =? 0 then _ else Ok it) as [i1| |] eqn:L; cbn [bind]; try discriminate.
  assert (G1 : good_row i1).
  { destruct (r_left it =? 0); [now apply (load_good _ _ _ _ _ L)|]. assert (i1 = it) by congruence. now subst. }
  destruct (r_end i1) eqn:E1.
  { intros Q. assert (it1 = i1) by congruence. now subst. }
  destruct (read_raw 2 (r_data i1)) as [[m s]| |]; cbn [bind]; try discriminate.
  destruct (next_cells (marker_val m) (r_cols i1) (r_last i1) s) as [[row s1]| |] eqn:N; cbn [bind]; try discriminate.
  intros Q. assert (Qs : r_last it1 = row /\ r_cols it1 = r_cols i1) by (injection Q as <- <-; cbn; auto).
  destruct Qs as (Q2 & Q3). intros _ W. rewrite Q2, Q3 in *. apply (cells_sized _ _ _ _ _ _ (G1 E1 W) N).
Qed.

(** the places kept are those of the columns of the current row *)
Definition fits_row (q : qiter) : Prop := Forall2 (place_for (r_cols (q_it q))) names (q_places q).

(** what the rows seen say: the rows [rows] after a row with the columns [cols] *)
Inductive seen (cols : list column) : list arow -> list (bool * list (list Z * Z * Z)) -> Prop :=
| sn_nil : seen cols [] []
| sn_cons r rows told vs rest : Forall2 (answers r) names vs -> (fst r <> cols -> told = true) ->
    seen (fst r) rows rest -> seen cols (r :: rows) ((told, vs) :: rest).

Lemma run_rows : forall fuel q rows e, q_first q = false -> shaped (q_it q) -> good_row (q_it q) -> fits_row q ->
  list_rows md5 st junk fuel (q_it q) = (rows, e) -> Forall (fun r => knows (fst r) names /\ wide (fst r)) rows ->
  exists vs, query_rows md5 st junk names fuel q = (vs, e) /\ seen (r_cols (q_it q)) rows vs.
Proof.
  induction fuel as [|f IH]; intros q rows e Fq Sh G Fi L K; cbn [list_rows query_rows] in *.
  { injection L as <- <-. exists []. split; [reflexivity|constructor]. }
  unfold query_next. rewrite Fq. destruct (next_row md5 st junk (q_it q)) as [[it1 o]| |] eqn:N.
  2, 3: injection L as <- <-; exists []; split; [reflexivity|constructor].
  destruct (next_step _ _ _ _ _ _ Sh N) as (Sh1 & [[E1 ->]|(E1 & -> & C)]).
  { injection L as <- <-. cbn [bind]. cbv beta iota zeta. rewrite E1. exists []. split; [reflexivity|constructor]. }
  destruct (list_rows md5 st junk f it1) as [rows1 e1] eqn:L1. injection L as <- <-. inversion K as [|? ? (K1 & W1) K2]; subst. cbn [fst] in *.
  pose proof (next_good _ _ _ G N) as G1. pose proof (G1 E1 W1) as S1. cbn [bind]. cbv beta iota zeta. rewrite E1.
  destruct (r_new it1) eqn:Nw.
  - destruct (places_ok _ _ K1) as (ps & Ep & Fp). rewrite Ep. cbn [bind].
    set (q1 := {| q_it := it1; q_places := ps; q_first := false |}).
    destruct (IH q1 rows1 e1 eq_refl Sh1 G1 Fp L1 K2) as (vs & R & Sn). rewrite R. eexists. split; [reflexivity|].
    constructor; [|reflexivity|exact Sn]. apply row_answers; assumption.
  - destruct C as [C|(_ & C)]; [congruence|].
    set (q1 := {| q_it := it1; q_places := q_places q; q_first := false |}).
    assert (F1 : fits_row q1) by (unfold fits_row, q1 in *; cbn [q_it q_places]; rewrite C; exact Fi).
    destruct (IH q1 rows1 e1 eq_refl Sh1 G1 F1 L1 K2) as (vs & R & Sn). rewrite R. eexists. split; [reflexivity|].
    constructor; [|cbn [fst]; congruence|exact Sn]. apply row_answers; [exact S1|exact F1].
Qed.

(** the first row *)
Lemma start_rows it o fuel q rows e : shaped it -> good_row it -> next_row md5 st junk it = Ok (q_it q, o) ->
  q_first q = true -> (r_end (q_it q) = false -> fits_row q) ->
  list_rows md5 st junk fuel it = (rows, e) -> Forall (fun r => knows (fst r) names /\ wide (fst r)) rows ->
  exists vs, query_rows md5 st junk names fuel q = (vs, e) /\ exists cols, seen cols rows vs.
Proof.
  intros Sh G N Fq Fi L K. destruct fuel as [|f]; cbn [list_rows query_rows] in *.
  { injection L as <- <-. exists []. split; [reflexivity|]. exists []. constructor. }
  rewrite N in L. unfold query_next. rewrite Fq. cbn [bind]. cbv beta iota zeta.
  destruct (next_step _ _ _ _ _ _ Sh N) as (Sh1 & [[E1 ->]|(E1 & -> & C)]); rewrite E1.
  { injection L as <- <-. exists []. split; [reflexivity|]. exists []. constructor. }
  destruct (list_rows md5 st junk f (q_it q)) as [rows1 e1] eqn:L1. injection L as <- <-. inversion K as [|? ? (K1 & W1) K2]; subst. cbn [fst] in *.
  pose proof (next_good _ _ _ G N) as G1. pose proof (G1 E1 W1) as S1. clear C.
  assert (X : exists q1 told, (if r_new (q_it q) then do ps <- update_places names (r_cols (q_it q)); Ok ({| q_it := q_it q; q_places := ps; q_first := false |}, true, true)
            else Ok ({| q_it := q_it q; q_places := q_places q; q_first := false |}, true, false)) = Ok (q1, true, told) /\
            q_first q1 = false /\ q_it q1 = q_it q /\ fits_row q1).
  { destruct (r_new (q_it q)).
    - destruct (places_ok _ _ K1) as (ps & Ep & Fp). rewrite Ep. cbn [bind]. eexists _, _. split; [reflexivity|]. auto.
    - eexists _, _. split; [reflexivity|]. split; [reflexivity|]. split; [reflexivity|]. exact (Fi E1). }
  destruct X as (q1 & told & -> & X1 & X2 & X3).
  destruct (run_rows f q1 rows1 e1 X1) as (vs & R & Sn); try (rewrite X2; assumption); [exact X3|exact K2|]. rewrite R.
  eexists. split; [reflexivity|]. exists (r_cols (q_it q)). rewrite X2 in Sn. constructor; [|cbn [fst]; congruence|exact Sn].
  unfold query_row. rewrite X2. apply row_answers; [exact S1|]. unfold fits_row in X3. now rewrite X2 in X3.
Qed.

(** a row whose table lacks a name *)
Lemma run_bad : forall fuel q good bad rest e, q_first q = false -> shaped (q_it q) -> good_row (q_it q) -> fits_row q ->
  list_rows md5 st junk fuel (q_it q) = (good ++ bad :: rest, e) -> Forall (fun r => knows (fst r) names /\ wide (fst r)) good ->
  (exists nm, In nm names /\ forall i, ~ designates (fst bad) nm i) ->
  exists vs, query_rows md5 st junk names fuel q = (vs, Failed UserError) /\ seen (r_cols (q_it q)) good vs.
Proof.
  induction fuel as [|f IH]; intros q good bad rest e Fq Sh G Fi L K (nm & Hin & D); cbn [list_rows query_rows] in *.
  { destruct good; discriminate. }
  unfold query_next. rewrite Fq. destruct (next_row md5 st junk (q_it q)) as [[it1 o]| |] eqn:N.
  2, 3: destruct good; discriminate.
  destruct (next_step _ _ _ _ _ _ Sh N) as (Sh1 & [[E1 ->]|(E1 & -> & C)]); [destruct good; discriminate|].
  destruct (list_rows md5 st junk f it1) as [rows1 e1] eqn:L1. cbn [bind]. cbv beta iota zeta. rewrite E1.
  destruct good as [|g good].
  - cbn [app] in L. assert (Eb : bad = (r_cols it1, r_last it1)) by congruence. subst bad. cbn [fst] in D.
    destruct (r_new it1) eqn:Nw.
    + rewrite (places_fail _ _ _ Hin D). exists []. split; [reflexivity|constructor].
    + exfalso. destruct C as [C|(_ & C)]; [congruence|]. rewrite C in D. unfold fits_row in Fi.
      clear -Fi Hin D. induction Fi as [|a p names ps (i & c & Da & _) _ IH]; [destruct Hin|]. destruct Hin as [->|Hin]; [now elim (D i)|auto].
  - cbn [app] in L. assert (g = (r_cols it1, r_last it1)) by congruence. assert (rows1 = good ++ bad :: rest) by congruence. subst g rows1.
    inversion K as [|? ? (K1 & W1) K2]; subst. cbn [fst] in *.
    pose proof (next_good _ _ _ G N) as G1. pose proof (G1 E1 W1) as S1.
    destruct (r_new it1) eqn:Nw.
    + destruct (places_ok _ _ K1) as (ps & Ep & Fp). rewrite Ep. cbn [bind].
      set (q1 := {| q_it := it1; q_places := ps; q_first := false |}).
      destruct (IH q1 good bad rest e1 eq_refl Sh1 G1 Fp L1 K2) as (vs & R & Sn); [eauto|]. rewrite R. eexists. split; [reflexivity|].
      constructor; [|reflexivity|exact Sn]. apply row_answers; assumption.
    + destruct C as [C|(_ & C)]; [congruence|].
      set (q1 := {| q_it := it1; q_places := q_places q; q_first := false |}).
      assert (F1 : fits_row q1) by (unfold fits_row, q1 in *; cbn [q_it q_places]; rewrite C; exact Fi).
      destruct (IH q1 good bad rest e1 eq_refl Sh1 G1 F1 L1 K2) as (vs & R & Sn); [eauto|]. rewrite R. eexists. split; [reflexivity|].
      constructor; [|cbn [fst]; congruence|exact Sn]. apply row_answers; [exact S1|exact F1].
Qed.
End Run.

(** ** The rows of a file *)

(** the rows seen, in terms of positions *)
Lemma seen_rows names rows vs : forall cols, seen names cols rows vs ->
  Forall2 (fun r v => Forall2 (answers r) names (snd v)) rows vs /\
  forall k r r' told v, nth_error rows k = Some r -> nth_error rows (S k) = Some r' -> nth_error vs (S k) = Some (told, v) -> fst r' <> fst r -> told = true.
Proof.
  intros cols H. split.
  - induction H; constructor; auto.
  - revert vs cols H. induction rows as [|a rows IH]; intros vs cols H k r r' told v E E' V Ne; [destruct k; discriminate|].
    inversion H as [|? ? told0 vs0 rest A T H1]; subst. destruct k as [|k].
    + cbn [nth_error] in E, E', V. destruct H1 as [|b rows told1 vs1 rest1 A1 T1 H2]; [discriminate|].
      cbn [nth_error] in V. assert (told1 = told) by congruence. assert (b = r') by congruence. assert (a = r) by congruence. subst told1 b a. now apply T1.
    + apply (IH rest (fst a) H1 k r r' told v E E' V Ne).
Qed.

Lemma begin_steps md5 st junk file it0 it1 o : open_rows md5 st junk file = Ok it0 -> next_row md5 st junk it0 = Ok (it1, o) ->
  begin_rows md5 st junk file = Ok it1 /\ shaped it0 /\ good_row it0.
Proof.
  intros O N. unfold begin_rows. rewrite O. cbn [bind]. rewrite N. split; [reflexivity|].
  unfold open_rows in O. split; [apply (load_shaped _ _ _ _ _ _ _ _ O)|apply (load_good _ _ _ _ _ _ _ _ O)].
Qed.

(** A query over columns that every table of the file has sees the rows of the file, one by
    one: in each the cells of those columns and their missing values.  It is told of new
    columns whenever they differ from those of the row before. *)
Theorem C55_rows : forall md5 st junk names file fuel rows e,
  file_rows md5 st junk (S fuel) file = (rows, e) -> Forall (fun r => knows (fst r) names /\ wide (fst r)) rows ->
  exists vs, query_file md5 st junk names (S fuel) file = (vs, e) /\
    Forall2 (fun r v => Forall2 (answers r) names (snd v)) rows vs /\
    forall k r r' told v, nth_error rows k = Some r -> nth_error rows (S k) = Some r' -> nth_error vs (S k) = Some (told, v) ->
      fst r' <> fst r -> told = true.
Proof.
  intros md5 st junk names file fuel rows e F K. unfold file_rows in F. unfold query_file, open_query.
  destruct (open_rows md5 st junk file) as [it0| |] eqn:O.
  2, 3: unfold begin_rows; rewrite O; cbn [bind]; injection F as <- <-; exists []; split; [reflexivity|]; split; [constructor|intros [|?]; discriminate].
  destruct (next_row md5 st junk it0) as [[it1 o]| |] eqn:N.
  2, 3: unfold begin_rows; rewrite O; cbn [bind]; rewrite N; cbn [list_rows] in F; rewrite N in F; injection F as <- <-; exists [];
        split; [reflexivity|]; split; [constructor|intros [|?]; discriminate].
  destruct (begin_steps _ _ _ _ _ _ _ O N) as (B & Sh & G). rewrite B. cbn [bind].
  assert (M : exists q, make_query names it1 = Ok q /\ q_it q = it1 /\ q_first q = true /\ (r_end (q_it q) = false -> fits_row names q)).
  { unfold make_query. destruct (r_end it1) eqn:E1; [eexists; split; [reflexivity|]; cbn [q_it q_first]; split; [reflexivity|]; split; [reflexivity|]; congruence|].
    destruct (next_step _ _ _ _ _ _ Sh N) as (_ & [[E2 _]|(_ & -> & _)]); [congruence|].
    cbn [list_rows] in F. rewrite N in F. destruct (list_rows md5 st junk fuel it1) as [rows1 e1]. injection F as <- <-. inversion K as [|? ? (K1 & _) _]; subst.
    destruct (places_ok _ _ K1) as (ps & Ep & Fp). cbn [fst] in Ep. rewrite Ep. cbn [bind]. eexists. split; [reflexivity|]. cbn [q_it q_first]. auto. }
  destruct M as (q & Mq & Qi & Qf & Fi). rewrite Mq. rewrite <- Qi in N.
  destruct (start_rows md5 st junk names it0 o (S fuel) q rows e Sh G N Qf Fi F K) as (vs & R & cols & Sn).
  exists vs. split; [exact R|]. now apply (seen_rows _ _ _ cols).
Qed.
Print Assumptions C55_rows.

(** At the first row whose table lacks one of the columns, or has several of that name, the
    query is refused; it has then seen the rows before. *)
Theorem C55_refused : forall md5 st junk names nm file fuel good bad rest e,
  file_rows md5 st junk (S fuel) file = (good ++ bad :: rest, e) -> Forall (fun r => knows (fst r) names /\ wide (fst r)) good ->
  In nm names -> (forall i, ~ designates (fst bad) nm i) ->
  exists vs, query_file md5 st junk names (S fuel) file = (vs, Failed UserError) /\
    Forall2 (fun r v => Forall2 (answers r) names (snd v)) good vs.
Proof.
  intros md5 st junk names nm file fuel good bad rest e F K Hin D. unfold file_rows in F. unfold query_file, open_query.
  destruct (open_rows md5 st junk file) as [it0| |] eqn:O.
  2, 3: destruct good; discriminate.
  cbn [list_rows] in F. destruct (next_row md5 st junk it0) as [[it1 o]| |] eqn:N.
  2, 3: destruct good; discriminate.
  destruct (begin_steps _ _ _ _ _ _ _ O N) as (B & Sh & G). rewrite B. cbn [bind].
  destruct (next_step _ _ _ _ _ _ Sh N) as (Sh1 & [[E1 ->]|(E1 & -> & C)]); [destruct good; discriminate|].
  destruct (list_rows md5 st junk fuel it1) as [rows1 e1] eqn:L1. unfold make_query. rewrite E1. destruct good as [|g good].
  { cbn [app] in F. assert (bad = (r_cols it1, r_last it1)) by congruence. subst bad. cbn [fst] in D.
    rewrite (places_fail _ _ _ Hin D). exists []. split; [reflexivity|constructor]. }
  cbn [app] in F. assert (g = (r_cols it1, r_last it1)) by congruence. assert (rows1 = good ++ bad :: rest) by congruence. subst g rows1.
  inversion K as [|? ? (K1 & W1) K2]; subst. cbn [fst] in *. pose proof (next_good _ _ _ _ _ _ G N) as G1.
  destruct (places_ok _ _ K1) as (ps & Ep & Fp). rewrite Ep. cbn [bind query_rows]. unfold query_next. cbn [q_first q_it q_places bind]. cbv beta iota zeta.
  rewrite E1.
  set (q1 := {| q_it := it1; q_places := ps; q_first := false |}).
  destruct (run_bad md5 st junk names fuel q1 good bad rest e1 eq_refl Sh1 G1 Fp L1 K2) as (vs & R & Sn); [eauto|].
  assert (V : Forall2 (fun r v => Forall2 (answers r) names (snd v)) ((r_cols it1, r_last it1) :: good)
                ((true, query_row q1) :: vs)).
  { constructor; [|apply (seen_rows _ _ _ _ Sn)]. apply row_answers; [exact (G1 E1 W1)|exact Fp]. }
  destruct (r_new it1); rewrite ?Ep; cbn [bind]; fold q1; rewrite R; eexists; (split; [reflexivity|]); [exact V|].
  inversion V; subst. constructor; assumption.
Qed.
Print Assumptions C55_refused.

(** ** Going back to the first row *)

Lemma alike_offset : forall i cols cols', map width (firstn i cols) = map width (firstn i cols') -> data_offset cols i = data_offset cols' i.
Proof.
  unfold data_offset. intros i cols cols' H. revert H. generalize (firstn i cols) (firstn i cols'). induction l as [|c l IH]; intros [|c' l'] H; try discriminate; [reflexivity|].
  cbn [map fold_right] in *. injection H as H0 H1. rewrite (IH _ H1). unfold width in H0. lia.
Qed.

Lemma alike_place cols cols' nm p : alike cols cols' nm -> place_for cols' nm p -> place_for cols nm p.
Proof.
  intros (i & c & c' & D & D' & E & E' & W & H1 & H2) (j & d & Dj & Ej & ->). assert (j = i) by (apply D'; now apply Dj). subst j.
  assert (d = c') by congruence. subst d. exists i, c. split; [exact D|]. split; [exact E|].
  assert (Wi : map width (firstn i cols) = map width (firstn i cols')).
  { apply (f_equal (firstn i)) in W. rewrite !firstn_map, !firstn_firstn in W. now rewrite !Nat.min_l in W by lia. }
  rewrite (alike_offset _ _ _ Wi), H1, H2. f_equal.
  apply (f_equal (fun l => nth_error l i)) in W. rewrite !nth_error_map in W.
  assert (N : forall (l : list column) x, nth_error l i = Some x -> nth_error (firstn (S i) l) i = Some x).
  { clear. induction i as [|i IH]; intros [|y l] x H; try discriminate; cbn [firstn nth_error] in *; [exact H|]. now apply IH. }
  rewrite (N _ _ E), (N _ _ E') in W. cbn [option_map] in W. assert (W8 : width c = width c') by congruence. unfold width in W8. lia.
Qed.

Section Rewind.
Variables (md5 : list Z -> list Z) (st : settings) (junk : nat -> nat -> list Z) (names : list (list Z)).

Lemma steps_places : forall n fuel q rows e q1 cols, q_first q = false -> shaped (q_it q) ->
  (r_end (q_it q) = false -> r_cols (q_it q) = cols) -> Forall2 (place_for cols) names (q_places q) ->
  list_rows md5 st junk fuel (q_it q) = (rows, e) -> e <> OutOfFuel -> Forall (fun r => knows (fst r) names) rows ->
  query_steps md5 st junk names n q = Ok q1 ->
  q_first q1 = false /\ exists cols', (cols' = cols \/ In cols' (map fst rows)) /\ Forall2 (place_for cols') names (q_places q1).
Proof.
  induction n as [|n IH]; intros fuel q rows e q1 cols Fq Sh Rc P L Ne K Q; cbn [query_steps] in Q.
  { assert (q1 = q) by congruence. subst q1. split; [exact Fq|]. exists cols. auto. }
  apply bind_ok in Q as (((q2 & more) & told) & Q & S1). unfold query_next in Q. rewrite Fq in Q.
  apply bind_ok in Q as (it & Qi & Q). apply bind_ok in Qi as ((it' & o) & N & Qi). assert (it' = it) by congruence. subst it'. clear Qi.
  destruct fuel as [|f]; [exfalso; cbn [list_rows] in L; congruence|].
  pose proof L as L0. cbn [list_rows] in L. rewrite N in L. destruct (next_step _ _ _ _ _ _ Sh N) as (Sh1 & [[E1 ->]|(E1 & -> & C)]).
  - cbv zeta in Q. rewrite E1 in Q. assert (Q2 : q2 = {| q_it := it; q_places := q_places q; q_first := false |}) by congruence. subst q2.
    assert (rows = []) by congruence. subst rows.
    apply (IH 1%nat _ [] Clean q1 cols) in S1; cbn [q_it q_first q_places]; auto; [congruence| |discriminate].
    cbn [list_rows]. unfold next_row. rewrite E1. reflexivity.
  - destruct (list_rows md5 st junk f it) as [rows1 e1] eqn:L1. assert (rows = (r_cols it, r_last it) :: rows1) by congruence. assert (e1 = e) by congruence. subst rows e1.
    inversion K as [|? ? K1 K2]; subst. cbn [fst] in K1. cbv zeta in Q. rewrite E1 in Q. destruct (r_new it) eqn:Nw.
    + destruct (places_ok _ _ K1) as (ps & Ep & Fp). rewrite Ep in Q. cbn [bind] in Q.
      assert (Q2 : q2 = {| q_it := it; q_places := ps; q_first := false |}) by congruence. subst q2.
      apply (IH f _ rows1 e q1 (r_cols it)) in S1; cbn [q_it q_first q_places]; auto. destruct S1 as (S0 & cols' & S1 & S2). split; [exact S0|]. exists cols'.
      split; [|exact S2]. right. cbn [map fst In]. destruct S1 as [-> |S1]; auto.
    + assert (Q2 : q2 = {| q_it := it; q_places := q_places q; q_first := false |}) by congruence. subst q2.
      destruct C as [C|(C0 & C)]; [congruence|]. specialize (Rc C0).
      apply (IH f _ rows1 e q1 cols) in S1; cbn [q_it q_first q_places]; auto; [|congruence]. destruct S1 as (S0 & cols' & S1 & S2). split; [exact S0|]. exists cols'.
      split; [|exact S2]. cbn [map fst In]. tauto.
Qed.
End Rewind.

(** Going back to the start, wherever the query is: it sees the rows of the file again,
    provided that the columns it uses are at the same place, equally wide and have the same
    missing values in all tables. *)
Theorem C55_rewind : forall md5 st junk names file fuel rows e q0 n q q',
  file_rows md5 st junk (S fuel) file = (rows, e) -> e <> OutOfFuel -> Forall (fun r => knows (fst r) names /\ wide (fst r)) rows ->
  (forall r r' nm, In r rows -> In r' rows -> In nm names -> alike (fst r) (fst r') nm) ->
  open_query md5 st junk names file = Ok q0 -> query_steps md5 st junk names n q0 = Ok q -> query_rewind md5 st junk file q = Ok q' ->
  exists vs, query_rows md5 st junk names (S fuel) q' = (vs, e) /\ Forall2 (fun r v => Forall2 (answers r) names (snd v)) rows vs.
Proof.
  intros md5 st junk names file fuel rows e q0 n q q' F Ne K A O Q W.
  pose proof F as F0. unfold file_rows in F. destruct (open_rows md5 st junk file) as [it0| |] eqn:Oi.
  2, 3: unfold open_query, begin_rows in O; rewrite Oi in O; discriminate.
  destruct (next_row md5 st junk it0) as [[it1 o]| |] eqn:N.
  2, 3: unfold open_query, begin_rows in O; rewrite Oi in O; cbn [bind] in O; rewrite N in O; discriminate.
  destruct (begin_steps _ _ _ _ _ _ _ Oi N) as (B & Sh & G). unfold open_query in O. rewrite B in O. cbn [bind] in O.
  assert (Iq0 : q_it q0 = it1 /\ q_first q0 = true /\ (r_end it1 = false -> fits_row names q0)).
  { unfold make_query in O. destruct (r_end it1) eqn:E1; [assert (Eq : q0 = {| q_it := it1; q_places := []; q_first := true |}) by congruence; subst q0; cbn; split; [reflexivity|]; split; [reflexivity|]; congruence|].
    apply bind_ok in O as (ps & Ep & O). assert (Eq : q0 = {| q_it := it1; q_places := ps; q_first := true |}) by congruence. subst q0. cbn [q_it q_first].
    split; [reflexivity|]. split; [reflexivity|]. intros _. unfold fits_row. cbn [q_it q_places].
    destruct (next_step _ _ _ _ _ _ Sh N) as (_ & [[E2 _]|(_ & Eo & _)]); [congruence|]. subst o.
    cbn [list_rows] in F. rewrite N in F. destruct (list_rows md5 st junk fuel it1) as [rows1 e1]. assert (rows = (r_cols it1, r_last it1) :: rows1) by congruence. subst rows.
    inversion K as [|? ? (K1 & _) _]; subst. destruct (places_ok _ _ K1) as (ps' & Ep' & Fp). cbn [fst] in *. congruence. }
  destruct Iq0 as (Qi & Qf & Fi).
  assert (Goal1 : forall q2, q_it q2 = it1 -> q_first q2 = true -> (r_end it1 = false -> fits_row names q2) ->
    exists vs, query_rows md5 st junk names (S fuel) q2 = (vs, e) /\ Forall2 (fun r v => Forall2 (answers r) names (snd v)) rows vs).
  { intros q2 I2 F2 Fi2. rewrite <- I2 in N, Fi2.
    destruct (start_rows md5 st junk names it0 o (S fuel) q2 rows e Sh G N F2 Fi2 F K) as (vs & R & cols & Sn).
    exists vs. split; [exact R|]. apply (seen_rows _ _ _ cols Sn). }
  destruct n as [|n].
  { cbn [query_steps] in Q. assert (q = q0) by congruence. subst q. unfold query_rewind in W. rewrite Qf in W. assert (q' = q0) by congruence. subst q'. now apply Goal1. }
  cbn [query_steps] in Q. apply bind_ok in Q as (((q1 & more) & told) & Q1 & Q). unfold query_next in Q1. rewrite Qf, Qi in Q1. cbn [bind] in Q1. cbv beta iota zeta in Q1.
  destruct (next_step _ _ _ _ _ _ Sh N) as (Sh1 & [[E1 Eo]|(E1 & Eo & _)]); subst o; rewrite E1 in Q1.
  - (* no rows *)
    assert (I1 : q1 = {| q_it := it1; q_places := q_places q0; q_first := false |}) by congruence. subst q1.
    assert (Fq : q_first q = false).
    { clear -Q E1. assert (Gen : forall n qa qb, q_first qa = false -> query_steps md5 st junk names n qa = Ok qb -> q_first qb = false).
      { induction n0 as [|n0 IH]; intros qa qb Ha Hb; cbn [query_steps] in Hb; [congruence|].
        apply bind_ok in Hb as (((qc & m) & t) & H & Hb). apply (IH qc); [|exact Hb]. unfold query_next in H. apply bind_ok in H as (i & _ & H). cbv zeta in H.
        destruct (r_end i); [injection H as <- _ _; reflexivity|]. destruct (r_new i); [apply bind_ok in H as (ps & _ & H)|]; injection H as <- _ _; reflexivity. }
      apply (Gen n _ _ (eq_refl : q_first {| q_it := it1; q_places := q_places q0; q_first := false |} = false) Q). }
    unfold query_rewind in W. rewrite Fq, B in W. cbn [bind] in W. assert (Eq' : q' = {| q_it := it1; q_places := q_places q; q_first := true |}) by congruence. subst q'.
    apply Goal1; [reflexivity|reflexivity|congruence].
  - cbn [list_rows] in F. pose proof F as F1. rewrite N in F1. destruct (list_rows md5 st junk fuel it1) as [rows1 e1] eqn:L1.
    assert (Er : rows = (r_cols it1, r_last it1) :: rows1) by congruence. assert (e1 = e) by congruence. subst e1.
    assert (X : q_first q1 = false /\ q_it q1 = it1 /\ Forall2 (place_for (r_cols it1)) names (q_places q1)).
    { pose proof (Fi E1) as Fi1. unfold fits_row in Fi1. rewrite Qi in Fi1. destruct (r_new it1).
      - apply bind_ok in Q1 as (ps & Ep & Q1). rewrite Er in K. inversion K as [|? ? (K1 & _) _]; subst. destruct (places_ok _ _ K1) as (ps' & Ep' & Fp). cbn [fst] in *.
        assert (ps' = ps) by congruence. subst ps'. injection Q1 as <- _ _. auto.
      - injection Q1 as <- _ _. auto. }
    destruct X as (X1 & X2 & X3).
    destruct (steps_places md5 st junk names n fuel q1 rows1 e q (r_cols it1) X1) as (Fq & cols' & S1 & S2);
      [now rewrite X2|now rewrite X2|exact X3|now rewrite X2|exact Ne| |exact Q|].
    { rewrite Er in K. inversion K as [|? ? _ K2]; subst. eapply Forall_impl; [|exact K2]. intros a (Ha & _). exact Ha. }
    unfold query_rewind in W. rewrite Fq, B in W. cbn [bind] in W. assert (Eq' : q' = {| q_it := it1; q_places := q_places q; q_first := true |}) by congruence. subst q'.
    apply Goal1; [reflexivity|reflexivity|]. intros _. unfold fits_row. cbn [q_it q_places].
    assert (In0 : exists r', In r' rows /\ fst r' = cols').
    { rewrite Er. destruct S1 as [-> |S1]; [eexists; split; [now left|reflexivity]|]. apply in_map_iff in S1 as (r' & <- & Hr). exists r'. split; [now right|reflexivity]. }
    destruct In0 as (r' & Hr' & <-).
    assert (Al : forall nm, In nm names -> alike (r_cols it1) (fst r') nm).
    { intros nm Hn. apply (A (r_cols it1, r_last it1) r' nm); [rewrite Er; now left|exact Hr'|exact Hn]. }
    clear -S2 Al. induction S2 as [|nm p nms ps H _ IH]; constructor; [|apply IH; intros x Hx; apply Al; now right].
    apply (alike_place _ (fst r')); [apply Al; now left|exact H].
Qed.
Print Assumptions C55_rewind.
