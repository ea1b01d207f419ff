(** C56: the older C interface. *)
From Verif Require Import Base Fp Stream Codec Meta Header Encoder Table Spec Writer Reader RowReader RowList StreamLocal.
From Verif Require Import StreamProofs HeaderProofs LoadProofs TableProofs P_Compare QuerySpec P_Query Dispatcher OldApi OldSpec.
Open Scope Z_scope.

Lemma sized_flat cols row : sized cols row -> Z.of_nat (length (concat row)) = row_bytes cols.
Proof.
  unfold sized, row_bytes. induction 1 as [|c x cs xs H F IH]; [reflexivity|]. cbn [concat map fold_right]. rewrite app_length, Nat2Z.inj_add. lia.
Qed.

Section Reading.
Variable md5 : list Z -> list Z.
Variable st : settings.
Variable junk : nat -> nat -> list Z.

(** one call *)
Lemma old_row it it1 row count buffer : good_row it -> shaped it -> next_row md5 st junk it = Ok (it1, Some row) -> usual (r_cols it1, row) ->
  0 <= count ->
  (count <> old_columns it1 -> old_next md5 st junk it count buffer = Ok (it1, {| a_code := 2; a_new := Some (r_new it1); a_buffer := buffer |})) /\
  (count = old_columns it1 -> (length (concat row) <= length buffer)%nat ->
     old_next md5 st junk it count buffer =
       Ok (it1, {| a_code := 0; a_new := Some (r_new it1); a_buffer := concat row ++ skipn (length (concat row)) buffer |})) /\
  (count = old_columns it1 -> (length buffer < length (concat row))%nat -> old_next md5 st junk it count buffer = UB).
Proof.
  intros G Sh N (U1 & U2) Hc. cbn [fst] in U1, U2. unfold old_next. rewrite N. cbn [bind].
  destruct (next_step _ _ _ _ _ _ Sh N) as (_ & [[E1 X]|(E1 & X & _)]); [congruence|]. assert (row = r_last it1) by congruence. subst row.
  pose proof (sized_flat _ _ (next_good _ _ _ _ _ _ G N E1 U2)) as L.
  assert (M : (length (r_cols it1) =? 0)%nat = false) by (apply Nat.eqb_neq; destruct (r_cols it1); [congruence|discriminate]).
  rewrite M. cbn [negb]. unfold assert. replace (0 <=? count) with true by (symmetry; apply Z.leb_le; lia). cbn [bind].
  split; [|split].
  - intros D. replace (count =? old_columns it1) with false by (symmetry; now apply Z.eqb_neq). reflexivity.
  - intros -> B. rewrite Z.eqb_refl. cbn [negb]. unfold copy_into, old_row_bytes. rewrite <- L.
    replace (Z.of_nat (length buffer) <? Z.of_nat (length (concat (r_last it1)))) with false by (symmetry; apply Z.ltb_ge; lia).
    rewrite Z.ltb_irrefl. cbn [orb bind]. now rewrite Nat2Z.id, firstn_all.
  - intros -> B. rewrite Z.eqb_refl. cbn [negb]. unfold copy_into, old_row_bytes. rewrite <- L.
    replace (Z.of_nat (length buffer) <? Z.of_nat (length (concat (r_last it1)))) with true by (symmetry; apply Z.ltb_lt; lia). reflexivity.
Qed.

Lemma old_end it it1 count buffer : next_row md5 st junk it = Ok (it1, None) ->
  old_next md5 st junk it count buffer = Ok (it1, no_more (count, buffer)).
Proof. intros N. unfold old_next. rewrite N. reflexivity. Qed.

(** an iterator at its end stays there *)
Lemma ended it it1 : shaped it -> next_row md5 st junk it = Ok (it1, None) -> next_row md5 st junk it1 = Ok (it1, None).
Proof.
  intros Sh N. destruct (next_step _ _ _ _ _ _ Sh N) as (_ & [[E1 X]|(E1 & X & _)]); [|discriminate]. unfold next_row. now rewrite E1.
Qed.

Lemma ended_calls it it1 : shaped it -> next_row md5 st junk it = Ok (it1, None) -> forall calls,
  calls <> [] -> old_calls md5 st junk it calls = Ok (it1, map no_more calls).
Proof.
  intros Sh N. destruct calls as [|[n b] cs]; [congruence|intros _]. cbn [old_calls]. rewrite (old_end _ _ n b N). cbn [bind].
  assert (R : forall cs, old_calls md5 st junk it1 cs = Ok (it1, map no_more cs)).
  { induction cs0 as [|[n0 b0] cs0 IH]; [reflexivity|]. cbn [old_calls]. rewrite (old_end _ _ n0 b0 (ended _ _ Sh N)). cbn [bind]. rewrite IH. reflexivity. }
  rewrite R. reflexivity.
Qed.

Lemma calls_app : forall a b it it1 la, old_calls md5 st junk it a = Ok (it1, la) ->
  old_calls md5 st junk it (a ++ b) = do (it2, lb) <- old_calls md5 st junk it1 b; Ok (it2, la ++ lb).
Proof.
  induction a as [|[n bu] a IH]; intros b it it1 la E.
  - cbn [old_calls] in E. assert (it1 = it) by congruence. assert (la = []) by congruence. subst. cbn [app]. now destruct (old_calls md5 st junk it b) as [[? ?]| |].
  - cbn [old_calls app] in *. destruct (old_next md5 st junk it n bu) as [[i2 x]| |]; cbn [bind] in *; try discriminate.
    destruct (old_calls md5 st junk i2 a) as [[i3 l3]| |] eqn:E3; cbn [bind] in *; try discriminate.
    assert (it1 = i3) by congruence. assert (la = x :: l3) by congruence. subst. rewrite (IH b _ _ _ E3).
    destruct (old_calls md5 st junk i3 b) as [[? ?]| |]; reflexivity.
Qed.

Lemma run_calls : forall seen fuel it rest e calls, shaped it -> good_row it ->
  list_rows md5 st junk fuel it = (seen ++ rest, e) -> Forall usual seen -> Forall2 serves seen calls ->
  exists it1 l fuel1, old_calls md5 st junk it calls = Ok (it1, l) /\ Forall2 (fun rc a => answered (fst rc) (snd rc) a) (combine seen calls) l /\
    shaped it1 /\ good_row it1 /\ list_rows md5 st junk fuel1 it1 = (rest, e) /\
    (r_end it1 = false -> r_cols it1 = last (map fst seen) (r_cols it)) /\
    (forall k r r' a, nth_error seen k = Some r -> nth_error seen (S k) = Some r' -> nth_error l (S k) = Some a -> fst r' <> fst r -> a_new a = Some true) /\
    (forall r a, nth_error seen 0 = Some r -> nth_error l 0 = Some a -> a_new a = Some (r_left it =? 0)).
Proof.
  induction seen as [|r seen IH]; intros fuel it rest e calls Sh G L U C.
  { inversion C; subst. exists it, [], fuel. cbn [old_calls combine map last]. split; [reflexivity|]. split; [constructor|]. split; [exact Sh|]. split; [exact G|]. split; [exact L|].
    split; [reflexivity|]. split; [intros [|?]; discriminate|intros; discriminate]. }
  inversion C as [|? [n b] ? cs (C1 & C2) Cs]; subst. inversion U as [|? ? U1 Us]; subst. cbn [fst snd] in *.
  destruct fuel as [|fuel]; [discriminate|]. cbn [list_rows app] in L.
  destruct (next_row md5 st junk it) as [[it1 [row|]]| |] eqn:N; try discriminate.
  destruct (list_rows md5 st junk fuel it1) as [rs e1] eqn:L1. assert (r = (r_cols it1, row)) by congruence. assert (rs = seen ++ rest) by congruence. assert (e1 = e) by congruence. subst r rs e1.
  destruct (next_step _ _ _ _ _ _ Sh N) as (Sh1 & St). pose proof (next_good _ _ _ _ _ _ G N) as G1.
  destruct (IH fuel it1 rest e cs Sh1 G1 L1 Us Cs) as (it2 & l & f2 & R1 & R2 & R3 & R4 & R5 & R6 & R7 & R8).
  destruct (old_row it it1 row n b G Sh N U1 C1) as (O1 & O2 & _).
  assert (Nw : r_new it1 = (r_left it =? 0)).
  { revert N. unfold next_row. destruct (r_end it); [discriminate|].
    destruct (if r_left it =? 0 then _ else Ok it) as [i1| |]; cbn [bind]; try discriminate. destruct (r_end i1); [discriminate|].
    destruct (read_raw 2 (r_data i1)) as [[m s]| |]; cbn [bind]; try discriminate.
    destruct (next_cells (marker_val m) (r_cols i1) (r_last i1) s) as [[row1 s1]| |]; cbn [bind]; try discriminate.
    intros Q. match type of Q with Ok (?x, _) = _ => assert (it1 = x) by congruence end. now subst it1. }
  assert (S : exists a, old_next md5 st junk it n b = Ok (it1, a) /\ answered (r_cols it1, row) (n, b) a /\ a_new a = Some (r_new it1)).
  { unfold answered. cbn [fst snd]. destruct (Z.eq_dec n (old_columns it1)) as [E|E].
    - exists {| a_code := 0; a_new := Some (r_new it1); a_buffer := concat row ++ skipn (length (concat row)) b |}.
      split; [apply O2; [exact E|now apply C2]|]. cbn. split; [|reflexivity]. split; [now eexists|]. split; [auto|]. unfold old_columns in E. congruence.
    - exists {| a_code := 2; a_new := Some (r_new it1); a_buffer := b |}. split; [now apply O1|]. cbn. split; [|reflexivity]. split; [now eexists|]. split; [unfold old_columns in E; congruence|auto]. }
  destruct S as (a & S1 & S2 & S3). exists it2, (a :: l), f2. cbn [old_calls combine]. rewrite S1. cbn [bind]. rewrite R1. cbn [bind].
  split; [reflexivity|]. split; [constructor; [exact S2|exact R2]|]. split; [exact R3|]. split; [exact R4|]. split; [exact R5|].
  split. { intros E. rewrite (R6 E). cbn [map fst]. destruct (map fst seen) as [|z zs]; [reflexivity|]. cbn [last]. clear. revert z. induction zs as [|y zs IH]; intros z; [reflexivity|]. cbn [last]. now rewrite IH. }
  split.
  - intros [|k] r0 r' a0; cbn [nth_error]; intros E1 E2 E3 D.
    + assert (r0 = (r_cols it1, row)) by congruence. subst r0. cbn [fst] in D. rewrite (R8 _ _ E2 E3).
      destruct seen as [|q seen]; [discriminate|]. cbn [nth_error] in E2. assert (q = r') by congruence. subst q.
      destruct fuel as [|fuel]; [discriminate|]. cbn [list_rows app] in L1.
      destruct (next_row md5 st junk it1) as [[i3 [row3|]]| |] eqn:N3; try discriminate.
      destruct (list_rows md5 st junk fuel i3) as [rs3 e3]. assert (r' = (r_cols i3, row3)) by congruence. subst r'. cbn [fst] in D.
      destruct (r_left it1 =? 0) eqn:Z0; [reflexivity|]. exfalso. apply D. revert N3. unfold next_row.
      destruct (r_end it1) eqn:Q; [discriminate|]. rewrite Z0. cbn [bind]. rewrite Q.
      destruct (read_raw 2 (r_data it1)) as [[m s]| |]; cbn [bind]; try discriminate.
      destruct (next_cells (marker_val m) (r_cols it1) (r_last it1) s) as [[row1 s1]| |]; cbn [bind]; try discriminate.
      intros X. match type of X with Ok (?x, _) = _ => assert (E : i3 = x) by congruence end. now rewrite E.
    + now apply (R7 k r0 r' a0).
  - intros r0 a0. cbn [nth_error]. intros _ E. assert (a0 = a) by congruence. subst a0. now rewrite S3, Nw.
Qed.

End Reading.

Lemma opened md5 st junk file it : old_open md5 st junk file = Ok it -> shaped it /\ good_row it.
Proof. unfold old_open, open_rows. intros O. split; [apply (load_shaped _ _ _ _ _ _ _ _ O)|apply (load_good _ _ _ _ _ _ _ _ O)]. Qed.

(** Whatever the counts and buffers of the calls, the k-th call is about the k-th row: it is
    stored in the buffer if the count is the number of its columns, and otherwise refused (and
    gone).  A change of columns is reported.  After the last row every call says so. *)
Theorem C56_calls : forall md5 st junk fuel file seen rest e it calls,
  file_rows md5 st junk fuel file = (seen ++ rest, e) -> old_open md5 st junk file = Ok it ->
  Forall usual seen -> Forall2 serves seen calls ->
  exists it1 l, old_calls md5 st junk it calls = Ok (it1, l) /\
    Forall2 (fun rc a => answered (fst rc) (snd rc) a) (combine seen calls) l /\
    (forall k r r' a, nth_error seen k = Some r -> nth_error seen (S k) = Some r' -> nth_error l (S k) = Some a ->
       fst r' <> fst r -> a_new a = Some true) /\
    (rest = [] -> e = Clean -> forall more, exists it2, old_calls md5 st junk it1 more = Ok (it2, map no_more more)).
Proof.
  intros md5 st junk fuel file seen rest e it calls F O U C. destruct (opened _ _ _ _ _ O) as (Sh & G).
  unfold file_rows in F. unfold old_open in O. rewrite O in F.
  destruct (run_calls md5 st junk seen fuel it rest e calls Sh G F U C) as (it1 & l & f1 & R1 & R2 & R3 & R4 & R5 & _ & R7 & _).
  exists it1, l. split; [exact R1|]. split; [exact R2|]. split; [exact R7|]. intros -> -> more. destruct f1 as [|f1]; [discriminate|]. cbn [list_rows] in R5.
  destruct (next_row md5 st junk it1) as [[it2 [row|]]| |] eqn:N; try discriminate.
  - destruct (list_rows md5 st junk f1 it2). discriminate.
  - destruct more as [|m more]; [exists it1; reflexivity|]. exists it2. apply ended_calls; [exact R3|exact N|discriminate].
Qed.
Print Assumptions C56_calls.

(** A buffer smaller than the row is written beyond its end. *)
Theorem C56_overrun : forall md5 st junk fuel file seen r rest e it calls buffer,
  file_rows md5 st junk fuel file = (seen ++ r :: rest, e) -> old_open md5 st junk file = Ok it ->
  Forall usual seen -> usual r -> Forall2 serves seen calls -> (length buffer < length (flat_row r))%nat ->
  old_calls md5 st junk it (calls ++ [(Z.of_nat (length (fst r)), buffer)]) = UB.
Proof.
  intros md5 st junk fuel file seen r rest e it calls buffer F O U Ur C B. destruct (opened _ _ _ _ _ O) as (Sh & G).
  unfold file_rows in F. unfold old_open in O. rewrite O in F.
  destruct (run_calls md5 st junk seen fuel it (r :: rest) e calls Sh G F U C) as (it1 & l & f1 & R1 & _ & R3 & R4 & R5 & _).
  rewrite (calls_app _ _ _ _ _ _ _ _ R1). cbn [old_calls]. destruct f1 as [|f1]; [discriminate|]. cbn [list_rows] in R5.
  destruct (next_row md5 st junk it1) as [[it2 [row|]]| |] eqn:N; try discriminate.
  destruct (list_rows md5 st junk f1 it2) as [rs1 e1]. assert (r = (r_cols it2, row)) by congruence. subst r. cbn [fst] in *. unfold flat_row in B. cbn [snd] in B.
  destruct (old_row _ _ _ it1 it2 row (Z.of_nat (length (r_cols it2))) buffer R4 R3 N Ur) as (_ & _ & O3); [lia|]. rewrite O3; [reflexivity|reflexivity|exact B].
Qed.
Print Assumptions C56_overrun.

Lemma pad_length' n l : length (pad n l) = n.
Proof. apply pad_length. Qed.

Section Polling.
Variable md5 : list Z -> list Z.
Variable st : settings.
Variable junk : nat -> nat -> list Z.
Variable fill : nat -> list Z.

(** what the usual caller sees: [prev] are the columns of the row before *)
Inductive polled : list column -> list arow -> list (option (list Z)) -> Prop :=
| polled_end prev : polled prev [] []
| polled_row prev r rows l : length (fst r) = length prev -> polled (fst r) rows l -> polled prev (r :: rows) (Some (flat_row r) :: l)
| polled_lost prev r rows l : length (fst r) <> length prev -> polled (fst r) rows l -> polled prev (r :: rows) (None :: l).

Fixpoint not_wider (prev : list column) (rows : list arow) : Prop :=
  match rows with
  | [] => True
  | r :: rs => (length (fst r) = length prev -> row_bytes (fst r) <= row_bytes prev) /\ not_wider (fst r) rs
  end.

Lemma poll_run : forall fuel it rows e, shaped it -> good_row it -> list_rows md5 st junk fuel it = (rows, e) -> Forall usual rows ->
  not_wider (r_cols it) rows ->
  exists l, old_poll md5 st junk fill fuel it = (l, e) /\ polled (r_cols it) rows l.
Proof.
  induction fuel as [|fuel IH]; intros it rows e Sh G L U W.
  { cbn [list_rows old_poll] in *. assert (rows = []) by congruence. assert (e = OutOfFuel) by congruence. subst. exists []. split; [reflexivity|constructor]. }
  cbn [list_rows old_poll] in *. destruct (next_row md5 st junk it) as [[it1 [row|]]| |] eqn:N.
  - destruct (list_rows md5 st junk fuel it1) as [rs e1] eqn:L1. assert (rows = (r_cols it1, row) :: rs) by congruence. assert (e1 = e) by congruence. subst rows e1.
    inversion U as [|? ? U1 Us]; subst. cbn [not_wider fst] in W. destruct W as (W1 & W2).
    destruct (next_step _ _ _ _ _ _ Sh N) as (Sh1 & [[E1 X]|(E1 & X & _)]); [discriminate|]. pose proof (next_good _ _ _ _ _ _ G N) as G1.
    destruct (IH it1 rs e Sh1 G1 L1 Us W2) as (l & R & P). assert (row = r_last it1) by congruence. subst row.
    pose proof (sized_flat _ _ (G1 E1 (proj2 U1))) as Lr.
    set (bf := pad (Z.to_nat (old_row_bytes it)) (fill fuel)). assert (Lb : length bf = Z.to_nat (row_bytes (r_cols it))) by apply pad_length.
    destruct (old_row md5 st junk it it1 (r_last it1) (old_columns it) bf G Sh N U1) as (O1 & O2 & _); [unfold old_columns; lia|].
    destruct (Nat.eq_dec (length (r_cols it1)) (length (r_cols it))) as [E|E].
    + rewrite O2; [|unfold old_columns; congruence|]. 2: { specialize (W1 E). lia. }
      cbn [a_code a_buffer]. rewrite R. cbn [Z.eqb]. exists (Some (concat (r_last it1)) :: l). split.
      { f_equal. f_equal. f_equal. unfold old_row_bytes. rewrite <- Lr, Nat2Z.id, firstn_app, firstn_all, Nat.sub_diag. cbn [firstn]. now rewrite app_nil_r. }
      change (concat (r_last it1)) with (flat_row (r_cols it1, r_last it1)). now constructor.
    + rewrite O1; [|unfold old_columns; lia]. cbn [a_code a_buffer]. rewrite R. cbn. exists (None :: l). split; [reflexivity|]. now constructor.
  - rewrite (old_end _ _ _ _ _ _ _ N). cbn. assert (rows = []) by congruence. assert (e = Clean) by congruence. subst. exists []. split; [reflexivity|constructor].
  - assert (rows = []) by congruence. assert (e = Failed e0) by congruence. subst. unfold old_next. rewrite N. cbn. exists []. split; [reflexivity|constructor].
  - assert (rows = []) by congruence. assert (e = Undefined) by congruence. subst. unfold old_next. rewrite N. cbn. exists []. split; [reflexivity|constructor].
Qed.


End Polling.

Section Opening.
Variable md5 : list Z -> list Z.
Variable st : settings.
Variable junk : nat -> nat -> list Z.

Lemma ok_skipn n s : bytes_ok s -> bytes_ok (skipn n s).
Proof. unfold bytes_ok. rewrite <- (firstn_skipn n s) at 1. rewrite Forall_app. tauto. Qed.
Lemma ok_firstn n s : bytes_ok s -> bytes_ok (firstn n s).
Proof. unfold bytes_ok. rewrite <- (firstn_skipn n s) at 1. rewrite Forall_app. tauto. Qed.

Lemma header_inv s h rest : load_after_magic md5 st s = Ok (h, rest) -> bytes_ok s -> int64 (h_rows h) /\ bytes_ok rest.
Proof.
  unfold load_after_magic. destruct (length s <? 4)%nat; [discriminate|]. set (o := if _ =? 1 then LE else BE). intros H B. apply (ok_skipn 4) in B. revert H B.
  generalize (skipn 4 s). intros s1. unfold load_header. destruct (length s1 <? 48)%nat; [discriminate|]. intros H B.
  apply bind_ok in H as ([d n] & _ & H). cbv beta iota zeta in H. destruct (n <? 0); [discriminate|]. destruct (_ <? n); [discriminate|].
  destruct (bytes_eqb _ _); [|discriminate]. apply bind_ok in H as (h1 & E & H). assert (h = h1) by congruence. subst h1.
  match type of H with Ok (_, ?x) = _ => assert (rest = x) by congruence end. subst rest. apply (ok_skipn 48) in B.
  split; [|now apply ok_skipn]. apply (ok_firstn (Z.to_nat n)) in B. unfold load_variable in E.
  apply bind_ok in E as ([ds b1] & E1 & E). cbv beta iota zeta in E. apply i64_inv in E1 as (_ & B1); [|exact B].
  apply bind_ok in E as ([pv b2] & E2 & E). cbv beta iota zeta in E. apply i64_inv in E2 as (_ & B2); [|exact B1].
  apply bind_ok in E as (u & _ & E). apply bind_ok in E as ([nr b3] & E3 & E). cbv beta iota zeta in E. apply i64_inv in E3 as (I & B3); [|exact B2].
  apply bind_ok in E as ([fl b4] & _ & E). cbv beta iota zeta in E. apply bind_ok in E as ([pr b5] & _ & E). cbv beta iota zeta in E.
  apply bind_ok in E as ([cs b6] & _ & E). cbv beta iota zeta in E. match type of E with Ok ?x = _ => assert (h = x) by congruence end. subst h. exact I.
Qed.

Lemma load_left : forall fuel count cols file it, load_table md5 st junk fuel count cols file = Ok it -> bytes_ok file ->
  r_end it = false -> r_left it <> 0.
Proof.
  induction fuel as [|f IH]; intros count cols file it; cbn [load_table]; [discriminate|]. intros H B E.
  apply bind_ok in H as (m & M & H). destruct m as [s|].
  2: { match type of H with Ok ?x = _ => assert (it = x) by congruence end. subst it. discriminate. }
  assert (Bs : bytes_ok s).
  { revert M. unfold read_magic. destruct file as [|x file]; [discriminate|]. destruct (_ <? 5)%nat; [discriminate|].
    destruct (bytes_eqb _ _); [|discriminate]. intros Q. match type of Q with Ok (Some ?y) = _ => assert (s = y) by congruence end. subst s. now apply ok_skipn. }
  apply bind_ok in H as ([h rest] & L & H). cbv beta iota zeta in H. destruct (header_inv _ _ _ L Bs) as (I & Br).
  destruct (h_dataSize h =? 0).
  { apply bind_ok in H as (u & _ & H). now apply (IH _ _ _ _ H). }
  apply bind_ok in H as (u & A & H). apply bind_ok in H as (u2 & _ & H). destruct (_ <? 0); [discriminate|].
  destruct (_ =? 0)%nat; [discriminate|]. destruct (_ <? _); [discriminate|].
  match type of H with Ok ?x = _ => assert (Ei : it = x) by congruence end. subst it. cbn [r_left]. unfold assert in A. destruct (h_rows h =? 0) eqn:Z0; [discriminate|].
  apply Z.eqb_neq in Z0. unfold int64 in I. intros Q. apply Z.mod_divide in Q; [|lia]. destruct Q as (k & Q). assert (k = 0) by lia. subst k. lia.
Qed.

(** the columns known when the file is opened are those of the first row *)
Lemma opened_cols file it r rs e fuel : bytes_ok file -> old_open md5 st junk file = Ok it -> list_rows md5 st junk fuel it = (r :: rs, e) ->
  fst r = r_cols it.
Proof.
  intros B O L. destruct fuel as [|fuel]; [discriminate|]. cbn [list_rows] in L.
  destruct (next_row md5 st junk it) as [[it1 [row|]]| |] eqn:N; try discriminate.
  destruct (list_rows md5 st junk fuel it1) as [rs1 e1]. assert (r = (r_cols it1, row)) by congruence. subst r. cbn [fst].
  unfold next_row in N. destruct (r_end it) eqn:E; [discriminate|]. pose proof (load_left _ _ _ _ _ O B E) as Z0. apply Z.eqb_neq in Z0. rewrite Z0 in N. cbn [bind] in N.
  rewrite E in N. destruct (read_raw 2 (r_data it)) as [[m s]| |]; cbn [bind] in N; try discriminate.
  destruct (next_cells (marker_val m) (r_cols it) (r_last it) s) as [[row1 s1]| |]; cbn [bind] in N; try discriminate.
  match type of N with Ok (?x, _) = _ => assert (Ex : it1 = x) by congruence end. now rewrite Ex.
Qed.

End Opening.

Lemma listed_sized md5 st junk : forall fuel it rows e, shaped it -> good_row it -> list_rows md5 st junk fuel it = (rows, e) ->
  Forall (fun r => usual r -> Z.of_nat (length (flat_row r)) = row_bytes (fst r)) rows.
Proof.
  induction fuel as [|fuel IH]; intros it rows e Sh G L; cbn [list_rows] in L.
  { assert (rows = []) by congruence. subst. constructor. }
  destruct (next_row md5 st junk it) as [[it1 [row|]]| |] eqn:N.
  2, 3, 4: assert (rows = []) by congruence; subst; constructor.
  destruct (list_rows md5 st junk fuel it1) as [rs e1] eqn:L1. assert (rows = (r_cols it1, row) :: rs) by congruence. subst rows.
  destruct (next_step _ _ _ _ _ _ Sh N) as (Sh1 & [[E1 X]|(E1 & X & _)]); [discriminate|]. pose proof (next_good _ _ _ _ _ _ G N) as G1.
  constructor; [|now apply (IH _ _ _ Sh1 G1 L1)]. intros (_ & W). assert (row = r_last it1) by congruence. subst row. apply sized_flat. now apply G1.
Qed.

(** The usual caller, who before each call asks for the number of columns and the size of a
    row and makes room for it, is given the rows of the file one by one, except that a row
    that has not as many columns as the row before it is lost.  Rows must not become longer
    while the number of columns stays. *)
Theorem C56_poll : forall md5 st junk fill fuel file rows e it, bytes_ok file ->
  file_rows md5 st junk fuel file = (rows, e) -> old_open md5 st junk file = Ok it -> Forall usual rows ->
  (forall k r r', nth_error rows k = Some r -> nth_error rows (S k) = Some r' -> length (fst r') = length (fst r) ->
     (length (flat_row r') <= length (flat_row r))%nat) ->
  exists l, old_poll md5 st junk fill fuel it = (l, e) /\ length l = length rows /\
    (forall r, nth_error rows 0 = Some r -> nth_error l 0 = Some (Some (flat_row r))) /\
    (forall k r r', nth_error rows k = Some r -> nth_error rows (S k) = Some r' ->
       nth_error l (S k) = Some (if (length (fst r') =? length (fst r))%nat then Some (flat_row r') else None)).
Proof.
  intros md5 st junk fill fuel file rows e it B F O U W. destruct (opened _ _ _ _ _ O) as (Sh & G). pose proof O as O'.
  unfold file_rows in F. unfold old_open in O'. rewrite O' in F. pose proof (listed_sized _ _ _ _ _ _ _ Sh G F) as Z.
  assert (NW : not_wider (r_cols it) rows).
  { assert (H : forall rows prev, (forall r, nth_error rows 0 = Some r -> fst r = prev) -> Forall usual rows ->
        Forall (fun r => usual r -> Z.of_nat (length (flat_row r)) = row_bytes (fst r)) rows ->
        (forall k r r', nth_error rows k = Some r -> nth_error rows (S k) = Some r' -> length (fst r') = length (fst r) ->
          (length (flat_row r') <= length (flat_row r))%nat) -> not_wider prev rows).
    { clear. intros rows. induction rows as [|r rows IH]; intros prev P U Z W; [exact I|]. cbn [not_wider]. specialize (P r eq_refl).
      inversion U as [|? ? U1 Us]; subst. inversion Z as [|? ? Z1 Zs]; subst. split; [lia|].
      destruct rows as [|r2 rows]; [exact I|]. cbn [not_wider]. split.
      - intros E. specialize (W 0%nat r r2 eq_refl eq_refl E). pose proof (Z1 U1). pose proof (Forall_inv Zs (Forall_inv Us)). cbv beta in *. lia.
      - assert (N2 : not_wider (fst r2) (r2 :: rows)).
        { apply IH; [intros ? E; cbn in E; congruence|exact Us|exact Zs|]. intros k q q' E1 E2. apply (W (S k)); assumption. }
        apply N2. }
    apply H; [|exact U|exact Z|exact W]. intros r E. destruct rows as [|r0 rs]; [discriminate|]. cbn in E. assert (r0 = r) by congruence. subst r0.
    now apply (opened_cols md5 st junk file it r rs e fuel). }
  destruct (poll_run md5 st junk fill fuel it rows e Sh G F U NW) as (l & R & P). exists l. split; [exact R|].
  assert (P2 : length l = length rows /\ (forall r, nth_error rows 0 = Some r -> nth_error l 0 = Some (if (length (fst r) =? length (r_cols it))%nat then Some (flat_row r) else None)) /\
    (forall k r r', nth_error rows k = Some r -> nth_error rows (S k) = Some r' ->
       nth_error l (S k) = Some (if (length (fst r') =? length (fst r))%nat then Some (flat_row r') else None))).
  { clear - P. revert P. generalize (r_cols it). intros prev P. induction P as [prev|prev r rows l E P IH|prev r rows l E P IH].
    - split; [reflexivity|]. split; [discriminate|]. intros [|?]; discriminate.
    - destruct IH as (I1 & I2 & I3). split; [cbn; congruence|]. split.
      + intros r0 Q. cbn in Q. assert (r0 = r) by congruence. subst. rewrite E, Nat.eqb_refl. reflexivity.
      + intros [|k] q q' Q1 Q2; cbn [nth_error] in *; [|now apply (I3 k)]. assert (q = r) by congruence. subst q. now apply I2.
    - destruct IH as (I1 & I2 & I3). split; [cbn; congruence|]. split.
      + intros r0 Q. cbn in Q. assert (r0 = r) by congruence. subst. apply Nat.eqb_neq in E. rewrite E. reflexivity.
      + intros [|k] q q' Q1 Q2; cbn [nth_error] in *; [|now apply (I3 k)]. assert (q = r) by congruence. subst q. now apply I2. }
  destruct P2 as (P1 & P2 & P3). split; [exact P1|]. split; [|exact P3]. intros r E. rewrite (P2 r E).
  destruct rows as [|r0 rs]; [discriminate|]. cbn in E. assert (r0 = r) by congruence. subst r0. rewrite (opened_cols md5 st junk file it r rs e fuel B O F). now rewrite Nat.eqb_refl.
Qed.
Print Assumptions C56_poll.

(** Missing values: of the columns there are; one past the last is read beyond the columns. *)
Theorem C56_missing : forall it i,
  (0 <= i < Z.of_nat (length (r_cols it)) -> exists c, nth_error (r_cols it) (Z.to_nat i) = Some c /\ old_missing it i = Ok (missing_value (col_coder c))) /\
  (i < 0 \/ Z.of_nat (length (r_cols it)) < i -> old_missing it i = Throw UserError) /\
  (i = Z.of_nat (length (r_cols it)) -> old_missing it i = UB).
Proof.
  intros it i. unfold old_missing. split; [|split].
  - intros H. replace (i <? 0) with false by lia. replace (_ <? i) with false by lia. cbn [orb].
    destruct (nth_error (r_cols it) (Z.to_nat i)) as [c|] eqn:E; [eauto|]. apply nth_error_None in E. lia.
  - intros [H|H]; [replace (i <? 0) with true by lia; reflexivity|]. replace (_ <? i) with true by lia. now rewrite Bool.orb_true_r.
  - intros ->. replace (_ <? 0) with false by lia. rewrite Z.ltb_irrefl. cbn [orb]. rewrite Nat2Z.id.
    destruct (nth_error (r_cols it) (length (r_cols it))) as [c|] eqn:E; [|reflexivity]. assert (nth_error (r_cols it) (length (r_cols it)) <> None) by congruence.
    apply nth_error_Some in H. lia.
Qed.
Print Assumptions C56_missing.

(** ** Members of bitfields as texts *)

Lemma parts_word : forall w cur r, colon_free w -> colon_parts (w ++ 58 :: r) cur = (cur ++ w) :: colon_parts r [].
Proof.
  induction w as [|c w IH]; intros cur r F; cbn [app colon_parts].
  - rewrite Z.eqb_refl. now rewrite app_nil_r.
  - destruct (Z.eqb_spec c 58) as [->|N]; [exfalso; apply F; now left|]. rewrite IH by (intros ?; apply F; now right). now rewrite <- app_assoc.
Qed.

Lemma parts_rest : forall w cur, colon_free w -> colon_parts w cur = [].
Proof.
  induction w as [|c w IH]; intros cur F; [reflexivity|]. cbn [colon_parts]. destruct (Z.eqb_spec c 58) as [->|N]; [exfalso; apply F; now left|].
  apply IH. intros ?; apply F; now right.
Qed.

Lemma parts_text : forall l t, Forall colon_free l -> colon_free t -> colon_parts (colon_text l ++ t) [] = l.
Proof.
  induction l as [|w l IH]; intros t F Ft; [now apply parts_rest|]. inversion F; subst. unfold colon_text. cbn [flat_map]. fold (colon_text l).
  rewrite <- !app_assoc. cbn [app]. rewrite parts_word by assumption. cbn [app]. f_equal. now apply IH.
Qed.

Lemma decimal_colon_free n : 0 <= n -> colon_free (decimal n).
Proof.
  assert (D : forall f m, 0 <= m -> Forall (fun c => 48 <= c <= 57) (digits f m)).
  { induction f as [|f IH]; intros m Hm; cbn [digits]; [constructor|]. destruct (m <? 10) eqn:E.
    - apply Z.ltb_lt in E. constructor; [lia|constructor].
    - apply Z.ltb_ge in E. apply Forall_app. split; [apply IH; apply Z.div_pos; lia|]. constructor; [|constructor]. pose proof (Z.mod_pos_bound m 10). lia. }
  intros Hn. unfold decimal. replace (n <? 0) with false by lia. intros I. pose proof (D 20%nat n Hn) as F. rewrite Forall_forall in F. specialize (F _ I). lia.
Qed.

(** The texts that describe the members of a bitfield when it is read say the same when it
    is written; what follows the last colon is ignored. *)
Theorem C56_bitfields : forall (to_size : list Z -> Z) names sizes, (forall n, 0 <= n < 2 ^ 31 -> to_size (decimal n) = n) ->
  Forall colon_free names -> Forall (fun n => 0 <= n < 2 ^ 31) sizes -> length sizes = length names ->
  exists nt tt, bitfield_text names sizes = Ok (nt, tt) /\
    (forall w w', colon_free w -> colon_free w' -> set_bitfield_parts to_size (nt ++ w) (tt ++ w') = (names, sizes)).
Proof.
  intros to_size names sizes T Fn Fs L. unfold bitfield_text. rewrite L, Nat.ltb_irrefl. eexists _, _. split; [reflexivity|]. intros w w' Hw Hw'.
  unfold set_bitfield_parts. rewrite (parts_text names w) by assumption. f_equal. rewrite <- L, firstn_all. rewrite parts_text; [| |exact Hw'].
  - rewrite map_map. rewrite <- (map_id sizes) at 2. apply map_ext_in. intros n I. apply T. rewrite Forall_forall in Fs. now apply Fs.
  - apply Forall_map. eapply Forall_impl; [|exact Fs]. cbv beta. intros n Hn. apply decimal_colon_free. apply Hn.
Qed.
Print Assumptions C56_bitfields.
