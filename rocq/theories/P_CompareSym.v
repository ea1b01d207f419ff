(** C43: the order of the two files does not matter to a comparison that finds no difference. *)
From Coq Require Import String.
From Verif Require Import Base Fp Stream StreamProofs Codec Meta Header Table Writer Reader RowReader RowList Spec Comparator ComparatorSpec ComparatorProofs P_Compare.
Open Scope Z_scope.
Local Notation length := List.length.

Section Sym.
Variables (any nans : bool) (excluded : list (list Z)).
Notation cell := (compare_cell any nans).


Lemma both_nan_sym a b : both_nan nans a b = both_nan nans b a.
Proof. unfold both_nan. now rewrite (andb_comm (is_nan f64 a)). Qed.

Lemma cell_sym c1 c2 x y : col_type c1 = col_type c2 -> cell c1 c2 x y = cell c2 c1 y x.
Proof.
  intros T. unfold compare_cell. rewrite T.
  destruct (is_missing any c1 x), (is_missing any c2 y); cbn [Bool.eqb negb]; try reflexivity.
  pose proof (bits_64 x) as X. pose proof (bits_64 y) as Y. change (bits x) with (first_double x) in X. change (bits y) with (first_double y) in Y.
  destruct (col_type c2 =? ty_STRING); [apply bytes_eqb_sym|]. rewrite (both_nan_sym (first_double x)).
  destruct (_ || _); [now rewrite (same_sym _ _ X Y)|]. destruct (col_type c2 =? ty_REAL); [|reflexivity].
  change (f2d (d2f (first_double x))) with (as_single (first_double x)). change (f2d (d2f (first_double y))) with (as_single (first_double y)).
  now rewrite (same_sym _ _ (single_64 _ X) (single_64 _ Y)).
Qed.

Lemma list_eqb_sym {A} (e : A -> A -> bool) : (forall a b, e a b = e b a) -> forall l m, list_eqb e l m = list_eqb e m l.
Proof. intros H. induction l as [|x l IH]; intros [|y m]; cbn [list_eqb]; try reflexivity. now rewrite H, IH. Qed.

Lemma match_sym c1 c2 : columns_match any [] c1 c2 = columns_match any [] c2 c1.
Proof.
  unfold columns_match. cbn [listed existsb orb]. rewrite (Z.eqb_sym (c_hasMissing (col_coder c1))). f_equal.
  rewrite (list_eqb_sym bytes_eqb bytes_eqb_sym (col_bfnames c1)), (list_eqb_sym Z.eqb Z.eqb_sym (col_bfsizes c1)).
  rewrite (Z.eqb_sym (col_type c1) (col_type c2)). destruct (Z.eqb_spec (col_type c2) (col_type c1)) as [->|]; reflexivity.
Qed.

Lemma columns_from_sym : forall cs1 cs2 i s, compare_columns_from any [] excluded i cs1 cs2 = Ok s -> compare_columns_from any [] excluded i cs2 cs1 = Ok s.
Proof.
  induction cs1 as [|c1 cs1 IH]; intros [|c2 cs2] i s; cbn [compare_columns_from]; auto.
  rewrite (bytes_eqb_sym (col_name c2)). destruct (bytes_eqb (col_name c1) (col_name c2)) eqn:N; cbn [assert bind]; [|discriminate].
  apply bytes_eqb_eq in N. rewrite N. destruct (listed excluded (col_name c2)).
  - destruct (compare_columns_from any [] excluded (S i) cs1 cs2) as [s1| |] eqn:E; cbn [bind]; try discriminate. rewrite (IH _ _ _ E). auto.
  - rewrite (match_sym c2). destruct (columns_match any [] c1 c2); cbn [assert bind]; [apply IH|discriminate].
Qed.
Lemma columns_sym cs1 cs2 s : compare_columns any [] excluded cs1 cs2 = Ok s -> compare_columns any [] excluded cs2 cs1 = Ok s.
Proof.
  unfold compare_columns. rewrite (Nat.eqb_sym (length cs2)). destruct (length cs1 =? length cs2)%nat; cbn [assert bind]; [apply columns_from_sym|discriminate].
Qed.

(** what is not skipped has the same type *)
Lemma skip_ge : forall cs1 cs2 i s, compare_columns_from any [] excluded i cs1 cs2 = Ok s -> Forall (fun k => (i <= k)%nat) s.
Proof.
  induction cs1 as [|c1 cs1 IH]; intros [|c2 cs2] i s; cbn [compare_columns_from]; try (intros H; injection H as <-; constructor).
  destruct (bytes_eqb (col_name c1) (col_name c2)); cbn [assert bind]; [|discriminate]. destruct (listed excluded (col_name c1)).
  - destruct (compare_columns_from any [] excluded (S i) cs1 cs2) as [s1| |] eqn:E; cbn [bind]; try discriminate. intros H. injection H as <-.
    constructor; [lia|]. eapply Forall_impl; [|exact (IH _ _ _ E)]. intros a; cbn; lia.
  - destruct (columns_match any [] c1 c2); cbn [assert bind]; [|discriminate]. intros H. eapply Forall_impl; [|exact (IH _ _ _ H)]. intros a; cbn; lia.
Qed.

Lemma differences_sym : forall cs1 cs2 i s r1 r2, compare_columns_from any [] excluded i cs1 cs2 = Ok s ->
  differences any nans i s cs1 cs2 r1 r2 = differences any nans i s cs2 cs1 r2 r1.
Proof.
  induction cs1 as [|c1 cs1 IH]; intros [|c2 cs2] i s r1 r2; cbn [compare_columns_from differences]; try reflexivity.
  destruct (bytes_eqb (col_name c1) (col_name c2)) eqn:N; cbn [assert bind]; [|discriminate]. destruct (listed excluded (col_name c1)).
  - destruct (compare_columns_from any [] excluded (S i) cs1 cs2) as [s1| |] eqn:E; cbn [bind]; try discriminate. intros H. injection H as <-.
    destruct r1 as [|x r1], r2 as [|y r2]; try reflexivity. rewrite Nat.eqb_refl. now apply IH.
  - destruct (columns_match any [] c1 c2) eqn:M; cbn [assert bind]; [|discriminate]. intros H.
    assert (T : col_type c1 = col_type c2).
    { unfold columns_match in M. cbn [listed existsb orb] in M. apply andb_prop in M as (M & _). apply andb_prop in M as (M & _). now apply Z.eqb_eq. }
    destruct r1 as [|x r1], r2 as [|y r2]; try reflexivity.
    assert (G : ((if compare_cell any nans c1 c2 x y then 0 else 1) + differences any nans (S i) s cs1 cs2 r1 r2)%nat =
                ((if compare_cell any nans c2 c1 y x then 0 else 1) + differences any nans (S i) s cs2 cs1 r2 r1)%nat).
    { rewrite (cell_sym c1 c2 x y T), (IH cs2 (S i) s r1 r2 H). reflexivity. }
    destruct s as [|k s]; [exact G|]. destruct (Nat.eqb_spec k i) as [->|]; [|exact G].
    pose proof (Forall_inv (skip_ge _ _ _ _ H)) as Q. cbn beta in Q. lia.
Qed.
Lemma row_sym cs1 cs2 s r1 r2 : compare_columns any [] excluded cs1 cs2 = Ok s ->
  compare_row any nans s cs1 cs2 r1 r2 = compare_row any nans s cs2 cs1 r2 r1.
Proof.
  unfold compare_columns, compare_row. destruct (length cs1 =? length cs2)%nat; cbn [assert bind]; [|discriminate]. intros H. now rewrite (differences_sym _ _ _ _ r1 r2 H).
Qed.

Variable md5 : list Z -> list Z.
Variables (st1 st2 : settings) (junk1 junk2 : nat -> nat -> list Z).

Lemma loop_sym : forall fuel skip it1 it2, shaped it1 -> shaped it2 -> current any [] excluded skip it1 it2 ->
  compare_loop any nans [] excluded md5 st1 st2 junk1 junk2 fuel skip it1 it2 = Ok tt ->
  compare_loop any nans [] excluded md5 st2 st1 junk2 junk1 fuel skip it2 it1 = Ok tt.
Proof.
  induction fuel as [|f IH]; intros skip it1 it2 S1 S2 C; cbn [compare_loop]; [discriminate|].
  destruct (r_end it1) eqn:E1, (r_end it2) eqn:E2; cbn [negb andb assert bind]; try discriminate; [reflexivity|].
  destruct (if r_new it1 then _ else _) as [s1| |] eqn:H1; cbn [bind]; try discriminate.
  destruct (if r_new it2 then _ else _) as [s2| |] eqn:H2; cbn [bind]; try discriminate.
  pose proof (choose_skip any [] excluded _ _ _ _ _ C E1 E2 H1 H2) as CC. pose proof (columns_sym _ _ _ CC) as CC'.
  assert (K1 : (if r_new it2 then compare_columns any [] excluded (r_cols it2) (r_cols it1) else Ok skip) = Ok (if r_new it2 then s2 else skip)) by (destruct (r_new it2); [exact CC'|reflexivity]).
  rewrite K1. cbn [bind].
  assert (K2 : (if r_new it1 then compare_columns any [] excluded (r_cols it2) (r_cols it1) else Ok (if r_new it2 then s2 else skip)) = Ok s2).
  { destruct (r_new it1) eqn:W1; [exact CC'|]. destruct (r_new it2) eqn:W2; [reflexivity|]. congruence || (try rewrite W1 in H1; try rewrite W2 in H2; congruence). }
  rewrite K2. cbn [bind]. rewrite <- (row_sym _ _ _ _ _ CC).
  destruct (compare_row any nans s2 (r_cols it1) (r_cols it2) (r_last it1) (r_last it2)); cbn [bind]; try discriminate.
  destruct (next_row md5 st1 junk1 it1) as [[i1 o1]| |] eqn:N1; cbn [bind]; try discriminate.
  destruct (next_row md5 st2 junk2 it2) as [[i2 o2]| |] eqn:N2; cbn [bind]; try discriminate.
  apply IH; [apply (next_step _ _ _ _ _ _ S1 N1)|apply (next_step _ _ _ _ _ _ S2 N2)|].
  exact (keep_current _ _ _ _ _ _ _ _ _ _ _ _ _ _ _ S1 S2 CC N1 N2).
Qed.
End Sym.

(** If a comparison finds no difference, neither does the one with the files in the other order
    (when no column is excluded from the comparison of types). *)
Theorem C43_symmetric : forall any nans excluded md5 st1 st2 junk1 junk2 fuel file1 file2,
  compare_files any nans [] excluded md5 st1 st2 junk1 junk2 fuel file1 file2 = Ok tt ->
  compare_files any nans [] excluded md5 st2 st1 junk2 junk1 fuel file2 file1 = Ok tt.
Proof.
  intros any nans excluded md5 st1 st2 junk1 junk2 fuel file1 file2. unfold compare_files.
  destruct (begin_rows md5 st1 junk1 file1) as [i1| |] eqn:B1; cbn [bind]; try discriminate.
  destruct (begin_rows md5 st2 junk2 file2) as [i2| |] eqn:B2; cbn [bind]; try discriminate.
  destruct (compare_columns any [] excluded (r_cols i1) (r_cols i2)) as [skip| |] eqn:CC; cbn [bind]; try discriminate.
  rewrite (columns_sym _ _ _ _ _ CC). cbn [bind].
  destruct (begin_ahead _ _ _ _ _ [] B1) as (S1 & _). destruct (begin_ahead _ _ _ _ _ [] B2) as (S2 & _).
  apply loop_sym; auto. intros _ _. auto.
Qed.
Print Assumptions C43_symmetric.
