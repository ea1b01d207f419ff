(** C49: copying a file row by row. *)
From Coq Require Import String.
From Verif Require Import IntProofs Spec Base Fp FpProofs Stream StreamProofs StreamLocal Codec Meta Header HeaderProofs Encoder Table Reader
  FrameProofs Through Writer RowReader RowList WriterSpec WriterProofs WriterRun WriterRead OrdinaryProofs Comparator P_Compare Copy CopySpec CopyProofs.
Open Scope Z_scope.
Local Notation length := List.length.

Section Copy.
Variables st st' : settings.
Variables (pr : props) (md5 : list Z -> list Z).
Hypothesis Hd : digest md5.
Variable N : nat.
Hypothesis HN : (0 < N)%nat.
Variable junk : nat -> nat -> list Z.
Variable rows : list arow.
Hypothesis HC : rows_copyable st N pr rows.

(** A row as it is read and as it is handed to the encoder. *)
Definition matched (r : arow) (f : list colinfo * list (list Z)) : Prop :=
  snd f = snd r /\ exists cs, fst f = map info cs /\ map shape cs = map shape (fst r) /\ In cs (map fst rows).

Record session (w : writer) (cs0 : list column) (p : list (list (list Z))) (done : list arow) : Prop := {
  se_in : In cs0 (map fst rows);
  se_base : exists base, Forall2 (fun ci c => make_column st ci = Ok c) (map info cs0) base /\ map shape base = map shape cs0 /\
    pending st (map info cs0) base w p (w_out w);
  se_short : (length p < N)%nat;
  se_rows : forall row, In row p -> exists cs, In (cs, row) rows /\ map shape cs = map shape cs0;
  se_done : exists r1, frames_hold st st' pr md5 (w_out w) r1 /\ Forall2 matched done (r1 ++ map (pair (map info cs0)) p)
}.

Lemma part_ok cs0 p : In cs0 (map fst rows) -> p <> [] -> (length p <= N)%nat ->
  (forall row, In row p -> exists cs, In (cs, row) rows /\ map shape cs = map shape cs0) -> writable st (map info cs0) pr p.
Proof using HC. intros A B C D. now apply (rc_rows _ _ _ _ HC). Qed.

Lemma known cs : In cs (map fst rows) -> Forall (fun c => known_type (info c)) cs /\ Forall copyable cs /\ writable_columns (map info cs) pr.
Proof using HC.
  intros H. destruct (rc_columns _ _ _ _ HC cs H) as (W & C). split; [|auto]. pose proof (wc_types _ _ W) as K.
  rewrite Forall_map in K. exact K.
Qed.

Lemma start_ok w md : In md (map fst rows) -> w_rows w = [] ->
  exists w1, pass1_init st w md = Ok w1 /\ w_out (write_header w1) = w_out w /\
    (exists base, Forall2 (fun ci c => make_column st ci = Ok c) (map info md) base /\ map shape base = map shape md /\
      pending st (map info md) base (write_header w1) [] (w_out w)).
Proof using HC.
  intros Hin E. destruct (known md Hin) as (K & C & W). destruct (columns_ok st md K C) as (cs & base & A1 & A2 & A3 & A4 & A5).
  unfold pass1_init, writer_columns. rewrite A1. cbn [bind]. rewrite A2. cbn [bind w_cols]. rewrite A3. cbn [bind].
  assert (md <> []) as Hne by (intros ->; destruct W as [W _ _ _ _ _ _]; now apply W).
  destruct (Nat.eqb_spec (length md) 0) as [Q|_]; [destruct md; [congruence|discriminate]|]. cbn [negb assert bind w_last w_out w_init].
  eexists. split; [reflexivity|]. split; [reflexivity|]. exists base. split; [exact A4|]. split; [exact A5|].
  match goal with |- pending _ _ _ (write_header ?w1) _ _ => change (w_out w) with (w_out w1) end. eapply header_ok.
  - exact A4.
  - cbn [w_cols]. now apply (reset_base st (map info md)).
  - reflexivity.
Qed.

Lemma write_ok w cs0 p done row cs : session w cs0 p done -> In (cs, row) rows -> map shape cs = map shape cs0 ->
  exists w' p', write_row md5 st N pr w (concat row) = Ok w' /\ session w' cs0 p' (done ++ [(cs, row)]).
Proof using All.
  intros [S1 (base & B1 & B2 & B3) S3 S4 (r1 & D1 & D2)] Hin Hs. destruct (known cs0 S1) as (_ & _ & W).
  assert (S4' : forall r, In r (p ++ [row]) -> exists cs, In (cs, r) rows /\ map shape cs = map shape cs0).
  { intros r H. apply in_app_or in H as [H|[<-|[]]]; [auto|]. eauto. }
  destruct (session_row st st' pr md5 Hd N HN (map info cs0) base W B1 w p (w_out w) row B3 S3) as (w' & p' & D & rD & R1 & R2 & R3 & R4 & R5 & R6).
  { apply part_ok; auto; [destruct p; discriminate|rewrite app_length; cbn; lia]. }
  assert (w_out w' = w_out w ++ D) as Eo by (destruct R2 as [_ _ _ Q _ _ _]; exact Q).
  exists w', p'. split; [exact R1|]. split; auto.
  - exists base. rewrite Eo. auto.
  - destruct R6 as [-> | ->]; [exact S4'|intros ? []].
  - exists (r1 ++ rD). split.
    + rewrite Eo. now apply hold_app.
    + rewrite <- app_assoc, <- R5, map_app, app_assoc. apply Forall2_app; [exact D2|]. constructor; [|constructor].
      split; [reflexivity|]. exists cs0. auto.
Qed.

Lemma row_step w cs0 p done fresh cs row : session w cs0 p done -> In (cs, row) rows ->
  fresh = true \/ map shape cs = map shape cs0 ->
  exists w' cs1 p', pass1_row md5 st N pr w fresh cs row = Ok w' /\ session w' cs1 p' (done ++ [(cs, row)]) /\ map shape cs = map shape cs1.
Proof using All.
  intros Se Hin F. pose proof Se as [S1 (base & B1 & B2 & B3) S3 S4 (r1 & D1 & D2)]. unfold pass1_row.
  assert (Sw : map shape (w_cols w) = map shape cs0) by (rewrite (pending_shape st _ base B1 w p _ B3); exact B2).
  destruct (fresh && negb (equal_columns cs (w_cols w))) eqn:E.
  - (* new columns *)
    assert (Hcs : In cs (map fst rows)) by (apply (in_map fst) in Hin; exact Hin).
    destruct (known cs0 S1) as (_ & _ & W0).
    destruct (session_flush st st' pr md5 Hd N HN (map info cs0) base W0 B1 w p (w_out w) B3) as (w1 & D & F1 & F2 & F3); [lia|intros Hp; apply part_ok; auto; lia|].
    rewrite F1. cbn [bind].
    assert (Eo : w_out w1 = w_out w ++ D) by (destruct F2 as [_ _ _ Q _ _ _]; exact Q).
    assert (Er : w_rows w1 = []) by (destruct F2 as [_ _ Q _ _ _ _]; exact Q).
    destruct (start_ok w1 cs Hcs Er) as (w2 & G1 & G2 & base2 & G3 & G4 & G5). rewrite G1. cbn [bind].
    assert (Se2 : session (write_header w2) cs [] done).
    { split; auto.
      - exists base2. rewrite G2. auto.
      - intros ? [].
      - exists (r1 ++ map (pair (map info cs0)) p). cbn [map]. rewrite app_nil_r, G2, Eo. split; [now apply hold_app|exact D2]. }
    assert (Lc : length cs = length (w_cols (write_header w2))).
    { rewrite <- (map_length shape), <- G4, <- (pending_shape st _ base2 G3 (write_header w2) [] _ G5), map_length. reflexivity. }
    rewrite <- Lc, Nat.eqb_refl. cbn [assert bind].
    destruct (write_ok (write_header w2) cs [] done row cs Se2 Hin eq_refl) as (w' & p' & R1 & R2). exists w', cs, p'. auto.
  - assert (Hs : map shape cs = map shape cs0).
    { destruct F as [-> |F]; [|exact F]. cbn [andb] in E. apply Bool.negb_false_iff, equal_columns_shape in E. congruence. }
    cbn [bind]. assert (length cs = length (w_cols w)) as -> by (rewrite <- (map_length shape), Hs, <- Sw, map_length; reflexivity).
    rewrite Nat.eqb_refl. cbn [assert bind]. destruct (write_ok w cs0 p done row cs Se Hin Hs) as (w' & p' & R1 & R2). exists w', cs0, p'. auto.
Qed.

Lemma loop_ok : forall rest it w cs0 p done, rows = done ++ rest -> shaped it -> ahead md5 st junk it rest ->
  session w cs0 p done -> (r_end it = false -> r_new it = true \/ map shape (r_cols it) = map shape cs0) ->
  forall fuel, (length rest < fuel)%nat -> exists w' cs1 p', pass1_loop md5 st N pr junk fuel w it = Ok w' /\ session w' cs1 p' rows.
Proof using All.
  induction rest as [|[cs row] rest IH]; intros it w cs0 p done E Sh A Se F fuel Hf.
  - destruct fuel as [|fuel]; [cbn in Hf; lia|]. destruct A as [(A & _)|(_ & ? & A & _)]; [|discriminate].
    cbn [pass1_loop]. rewrite A. exists w, cs0, p. rewrite app_nil_r in E. rewrite E at 1. auto.
  - destruct fuel as [|fuel]; [cbn in Hf; lia|]. cbn [length] in Hf.
    destruct (r_end it) eqn:Ee; [destruct A as [(_ & A)|(A & _)]; [discriminate|congruence]|].
    destruct (ahead_step md5 st junk it _ Sh Ee A) as (it1 & o & rest1 & Q1 & Q2 & Q3).
    assert (r_cols it = cs) by congruence. assert (r_last it = row) by congruence. assert (rest1 = rest) by congruence. subst rest1 cs row.
    assert (Hin : In (r_cols it, r_last it) rows) by (rewrite E; apply in_or_app; right; now left).
    cbn [pass1_loop]. rewrite Ee.
    destruct (row_step w cs0 p done (r_new it) (r_cols it) (r_last it) Se Hin (F eq_refl)) as (w1 & cs1 & p1 & R1 & R2 & R3).
    rewrite R1. cbn [bind]. rewrite Q2. cbn [bind].
    destruct (next_step md5 st junk it it1 o Sh Q2) as (Sh1 & C).
    apply (IH it1 w1 cs1 p1 (done ++ [(r_cols it, r_last it)])); auto.
    + now rewrite <- app_assoc.
    + intros E1. destruct C as [(C & _)|(_ & _ & [C|(_ & C)])]; [congruence|auto|]. right. now rewrite C.
    + lia.
Qed.

Lemma copy_core file fuel : rows <> [] -> (forall f, (length rows < f)%nat -> file_rows md5 st junk f file = (rows, Clean)) ->
  (length rows < fuel)%nat ->
  exists copy r1, copy_file md5 st N pr junk fuel file = Ok copy /\ frames_hold st st' pr md5 copy r1 /\ Forall2 matched rows r1.
Proof using All.
  intros Hne R Hf. unfold copy_file.
  assert (exists it, begin_rows md5 st junk file = Ok it) as (it & B).
  { pose proof (R (S (length rows)) ltac:(lia)) as Q. unfold file_rows in Q. unfold begin_rows.
    destruct (open_rows md5 st junk file) as [it0| |]; cbn [bind]; try discriminate. cbn [list_rows] in Q.
    destruct (next_row md5 st junk it0) as [[it1 o]| |]; cbn [bind]; try discriminate. eauto. }
  rewrite B. cbn [bind]. destruct (begin_ahead md5 st junk file it rows B) as (Sh & AH). apply AH in R. clear AH.
  destruct R as [(_ & R)|(Ee & rest & R & Rr)]; [congruence|].
  assert (Hin : In (r_cols it) (map fst rows)) by (rewrite R; now left).
  destruct (start_ok (new_writer []) (r_cols it) Hin eq_refl) as (w & G1 & G2 & base & G3 & G4 & G5).
  rewrite G1. cbn [bind]. cbn [new_writer w_out] in G2, G5.
  assert (Se : session (write_header w) (r_cols it) [] []).
  { split; auto.
    - exists base. rewrite G2. auto.
    - intros ? [].
    - exists []. rewrite G2. split; [apply hold_nil|constructor]. }
  destruct (loop_ok rows it (write_header w) (r_cols it) [] [] eq_refl Sh) with (fuel := fuel) as (w1 & cs1 & p1 & L1 & [S1 (base1 & B1 & B2 & B3) S3 S4 (r1 & D1 & D2)]); auto.
  { right. split; [exact Ee|]. exists rest. auto. }
  rewrite L1. cbn [bind]. destruct (known cs1 S1) as (_ & _ & W1).
  destruct (session_flush st st' pr md5 Hd N HN (map info cs1) base1 W1 B1 w1 p1 (w_out w1) B3) as (w2 & D & F1 & F2 & F3); [lia|intros Hp; apply part_ok; auto; lia|].
  rewrite F1. cbn [bind]. unfold Writer.close. destruct F2 as [Q1 _ Q3 Q4 _ _ _]. rewrite Q1. unfold flush. rewrite Q1, Q3. cbn [assert bind].
  eexists (w_out w2), _. split; [reflexivity|]. split; [|exact D2]. rewrite Q4. now apply hold_app.
Qed.

End Copy.

Lemma same_row_info st st' cs1 cs2 row out : map shape cs1 = map shape cs2 ->
  same_row st st' (map info cs1) row out -> same_row st st' (map info cs2) row out.
Proof.
  intros E (A & B & C). assert (L : length cs1 = length cs2) by (rewrite <- (map_length shape), E, map_length; reflexivity).
  unfold same_row. rewrite !map_length in *. split; [congruence|]. split; [congruence|].
  intros i ci x y Ei Ex Ey. rewrite nth_error_map in Ei. destruct (nth_error cs2 i) as [c2|] eqn:E2; [|discriminate].
  assert (ci = info c2) by (cbn in Ei; congruence). subst ci.
  assert (E' : nth_error (map shape cs1) i = Some (shape c2)) by (rewrite E, nth_error_map, E2; reflexivity).
  rewrite nth_error_map in E'. destruct (nth_error cs1 i) as [c1|] eqn:E1; [|discriminate]. cbn [option_map] in E'.
  assert (Ec : col_type c1 = col_type c2) by (unfold shape in E'; congruence).
  specialize (C i (info c1) x y). rewrite nth_error_map, E1 in C. specialize (C eq_refl Ex Ey). cbn [info ci_type] in *. now rewrite <- Ec.
Qed.

(** ** C49 *)

(** Copying a file row by row gives a file with the same rows in the same order, in columns
    of the same names and types, whatever the frames of either file. *)
Theorem C49_copy : forall md5 st st' N pr junk file rows, digest md5 -> (0 < N)%nat -> rows <> [] ->
  (forall f, (length rows < f)%nat -> file_rows md5 st junk f file = (rows, Clean)) ->
  rows_copyable st N pr rows ->
  exists copy, (forall fuel, (length rows < fuel)%nat -> copy_file md5 st N pr junk fuel file = Ok copy) /\
    forall junk', exists rows', Forall2 (copied st st') rows rows' /\
      forall f, (length rows < f)%nat -> file_rows md5 st' junk' f copy = (rows', Clean).
Proof.
  intros md5 st st' N pr junk file rows Hd HN Hne R HC.
  destruct (copy_core st st' pr md5 Hd N HN junk rows HC file (S (length rows)) Hne R (Nat.lt_succ_diag_r _)) as (copy & r1 & K & (fs & bs & -> & F & <-) & M).
  exists (concat bs). split.
  - intros fuel Hf. destruct (copy_core st st' pr md5 Hd N HN junk rows HC file fuel Hne R Hf) as (copy' & _ & K' & _).
    rewrite K'. clear -K K' Hf. revert K K'. unfold copy_file. destruct (begin_rows md5 st junk file) as [it| |]; cbn [bind]; try discriminate.
    destruct (pass1_init st (new_writer []) (r_cols it)) as [w| |]; cbn [bind]; try discriminate.
    generalize (S (length rows)) as f1. intros f1.
    assert (X : forall a b w it x y, pass1_loop md5 st N pr junk a w it = Ok x -> pass1_loop md5 st N pr junk b w it = Ok y -> x = y).
    { clear. induction a as [|a IH]; intros [|b] w it x y; cbn [pass1_loop]; try discriminate.
      destruct (r_end it); [congruence|]. destruct (pass1_row md5 st N pr w (r_new it) (r_cols it) (r_last it)) as [w1| |]; cbn [bind]; try discriminate.
      destruct (next_row md5 st junk it) as [[it1 o]| |]; cbn [bind]; try discriminate. apply IH. }
    destruct (pass1_loop md5 st N pr junk f1 (write_header w) it) as [x| |] eqn:E1; cbn [bind]; try discriminate.
    destruct (pass1_loop md5 st N pr junk fuel (write_header w) it) as [y| |] eqn:E2; cbn [bind]; try discriminate.
    rewrite (X _ _ _ _ _ _ E2 E1). congruence.
  - intros junk'. destruct (read_file st st' pr md5 Hd junk' fs bs F) as (rows' & C & RR).
    assert (L : length (flat fs) = length rows) by (symmetry; apply (TableProofs.Forall2_length _ _ _ M)).
    exists rows'. split; [|now rewrite <- L]. clear -M C.
    remember (matched rows) as P eqn:EP. assert (HP : forall r f, P r f -> snd f = snd r /\ exists cs, fst f = map info cs /\ map shape cs = map shape (fst r)) by (subst P; intros r f (A & cs & B & D & _); eauto). clear EP.
    revert rows' C. induction M as [|r f rs l M0 M IH]; intros rows' C; inversion C as [|? out ? ? (C1 & C2) C']; subst; constructor; [|now apply IH]. apply HP in M0 as (M1 & cs & M2 & M3).
    rewrite M2, M1 in *. split.
    + clear -C1 M3. destruct r as [cs2 row], out as [cs3 out]. cbn [fst] in *. revert cs2 M3 cs3 C1. induction cs as [|c cs IH]; intros [|c2 cs2] M3 cs3 C1; try discriminate;
        inversion C1 as [|? d ? ds (D1 & D2 & _) C1']; subst; constructor.
      * cbn [info ci_name ci_type] in D1, D2. cbn [map] in M3. assert (shape c = shape c2) as Q by congruence. unfold shape in Q. split; congruence.
      * apply IH; [cbn [map] in M3; congruence|exact C1'].
    + now apply same_row_info with (cs1 := cs).
Qed.
Print Assumptions C49_copy.

(** If columns of the same names, types and sizes have the same bitfield members in all
    tables of the file, then the copy has these members too. *)
Theorem C49_bitfields : forall md5 st st' N pr junk file rows, digest md5 -> (0 < N)%nat -> rows <> [] ->
  (forall f, (length rows < f)%nat -> file_rows md5 st junk f file = (rows, Clean)) ->
  rows_copyable st N pr rows ->
  (forall cs1 cs2, In cs1 (map fst rows) -> In cs2 (map fst rows) -> map shape cs1 = map shape cs2 -> map info cs1 = map info cs2) ->
  forall fuel copy junk', copy_file md5 st N pr junk fuel file = Ok copy -> (length rows < fuel)%nat ->
  exists rows', (forall f, (length rows < f)%nat -> file_rows md5 st' junk' f copy = (rows', Clean)) /\
    Forall2 (fun r out => comes_back st st' (map info (fst r), snd r) out) rows rows'.
Proof.
  intros md5 st st' N pr junk file rows Hd HN Hne R HC HB fuel copy junk' K Hf.
  destruct (copy_core st st' pr md5 Hd N HN junk rows HC file fuel Hne R Hf) as (copy' & r1 & K' & (fs & bs & E & F & <-) & M).
  assert (copy = concat bs) by congruence. subst copy.
  destruct (read_file st st' pr md5 Hd junk' fs bs F) as (rows' & C & RR).
  assert (L : length (flat fs) = length rows) by (symmetry; apply (TableProofs.Forall2_length _ _ _ M)).
  exists rows'. split; [now rewrite <- L|]. clear -M C HB.
  assert (Hall : forall r, In r rows -> In (fst r) (map fst rows)) by (intros r H; now apply in_map).
  remember rows as all eqn:Ea in HB. 
  assert (Hall' : forall r, In r rows -> In (fst r) (map fst all)) by (subst; exact Hall).
  assert (M' : Forall2 (fun r f => snd f = snd r /\ fst f = map info (fst r)) rows (flat fs)).
  { clear C. subst all. clear Hall'. 
    assert (X : forall rs fl, Forall2 (matched rows) rs fl -> (forall r, In r rs -> In (fst r) (map fst rows)) -> Forall2 (fun r f => snd f = snd r /\ fst f = map info (fst r)) rs fl).
    { induction 1 as [|r f rs fl (M1 & cs & M2 & M3 & M4) M0 IH]; intros Hr; constructor.
      - split; [exact M1|]. rewrite M2. apply HB; auto. apply Hr. now left.
      - apply IH. intros r' H. apply Hr. now right. }
    now apply X. }
  clear -M' C. revert rows' C. induction M' as [|r f rows l (M1 & M2) M IH]; intros rows' C; inversion C as [|? out ? ? C1 C']; subst; constructor; [|now apply IH].
  destruct f as [a b]. cbn [fst snd] in *. subst. exact C1.
Qed.
Print Assumptions C49_bitfields.

(** Rows of ordinary values, in columns small enough, can be copied. *)
Theorem C49_ordinary : forall st N pr rows,
  (forall cs, In cs (map fst rows) -> writable_columns (map info cs) pr /\ Forall copyable cs /\ WriterSpec.small (Z.of_nat N) (map info cs) pr) ->
  (forall cs row, In (cs, row) rows -> Forall2 (ordinary st) (map info cs) row) ->
  rows_copyable st N pr rows.
Proof.
  intros st N pr rows H R. split.
  - intros cs Hc. destruct (H cs Hc) as (A & B & _). auto.
  - intros cs part Hc Hne Hl Hp. destruct (H cs Hc) as (_ & _ & S). apply (OrdinaryProofs.ordinary_writable st (map info cs) pr (Z.of_nat N)); auto; [|unfold len; lia].
    apply Forall_forall. intros row Hr. destruct (Hp row Hr) as (cs' & Hin & Hs). specialize (R cs' row Hin). clear -R Hs.
    revert cs Hs row R. induction cs' as [|c' cs' IH]; intros [|c cs] Hs row R; try discriminate; inversion R as [|? x ? xs R1 R2]; subst; constructor.
    + cbn [map] in Hs. assert (E : shape c' = shape c) by congruence. unfold shape in E.
      assert (E1 : ci_type (info c') = ci_type (info c)) by (cbn [info ci_type]; congruence).
      assert (E2 : ci_size (info c') = ci_size (info c)) by (cbn [info ci_size]; congruence).
      destruct R1 as [n T S | v T S | v T S | dsd x T S]; rewrite E1 in T; rewrite E2 in S.
      * now apply or_int.
      * now apply or_real.
      * now apply or_double.
      * now apply (or_string st (info c) dsd).
    + apply IH; [cbn [map] in Hs; congruence|exact R2].
Qed.
Print Assumptions C49_ordinary.
