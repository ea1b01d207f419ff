(** C56: where the older C interface says the values of a row are. *)
From Verif Require Import Base Fp Stream Codec Meta Header Encoder Table Spec Writer Reader RowReader RowList StreamLocal.
From Verif Require Import StreamProofs HeaderProofs LoadProofs TableProofs P_Compare QuerySpec P_Query Dispatcher OldApi OldSpec P_Old.
Open Scope Z_scope.

Lemma sized_place : forall cols row i cell more, sized cols row -> nth_error row i = Some cell ->
  exists c, nth_error cols i = Some c /\
    0 <= fold_right Z.add 0 (map (fun c => data_size_doubles (col_coder c)) (firstn i cols)) /\
    firstn (Z.to_nat (8 * data_size_doubles (col_coder c)))
      (skipn (Z.to_nat (8 * fold_right Z.add 0 (map (fun c => data_size_doubles (col_coder c)) (firstn i cols)))) (concat row ++ more)) = cell.
Proof.
  intros cols row i cell more S. revert i. induction S as [|c x cs xs H S IH]; intros i E; [destruct i; discriminate E|].
  unfold width in H. destruct i as [|i]; cbn [nth_error firstn map fold_right] in *.
  - injection E as ->. exists c. split; [reflexivity|]. split; [lia|]. change (Z.to_nat (8 * 0)) with 0%nat. cbn [skipn concat].
    rewrite <- app_assoc, firstn_app. replace (Z.to_nat (8 * data_size_doubles (col_coder c))) with (length cell) by lia.
    now rewrite firstn_all, Nat.sub_diag, firstn_O, app_nil_r.
  - destruct (IH i E) as (c' & Ec & P & Q). exists c'. split; [exact Ec|]. split; [lia|].
    set (o := fold_right Z.add 0 (map (fun c0 => data_size_doubles (col_coder c0)) (firstn i cs))) in *.
    replace (Z.to_nat (8 * (data_size_doubles (col_coder c) + o))) with (length x + Z.to_nat (8 * o))%nat by lia.
    cbn [concat]. rewrite <- app_assoc, skipn_app. rewrite skipn_all2 by lia. cbn [app].
    replace (length x + Z.to_nat (8 * o) - length x)%nat with (Z.to_nat (8 * o)) by lia. exact Q.
Qed.

(** C56: after a row was delivered, the i-th value of the row is in the buffer at the offset the
    interface gives for the i-th column, and takes as many doubles as the interface says. *)
Theorem C56_places : forall md5 st junk fuel file seen r rest e it calls buffer,
  file_rows md5 st junk fuel file = (seen ++ r :: rest, e) -> old_open md5 st junk file = Ok it ->
  Forall usual (seen ++ [r]) -> Forall2 serves seen calls -> (length (flat_row r) <= length buffer)%nat ->
  exists it1 l a, old_calls md5 st junk it (calls ++ [(Z.of_nat (length (fst r)), buffer)]) = Ok (it1, l ++ [a]) /\
    forall i cell, nth_error (snd r) i = Some cell ->
      exists n, old_doubles it1 i = Ok n /\ 0 <= old_offset it1 i /\
        firstn (Z.to_nat (8 * n)) (skipn (Z.to_nat (8 * old_offset it1 i)) (a_buffer a)) = cell.
Proof.
  intros md5 st junk fuel file seen r rest e it calls buffer F O U C B. destruct (opened _ _ _ _ _ O) as (Sh & G).
  unfold file_rows in F. unfold old_open in O. rewrite O in F. apply Forall_app in U as (U1 & U2). apply Forall_inv in U2.
  destruct (run_calls md5 st junk seen fuel it (r :: rest) e calls Sh G F U1 C) as (it0 & l & f1 & R1 & _ & R3 & R4 & R5 & _).
  destruct f1 as [|f1]; [discriminate|]. cbn [list_rows] in R5.
  destruct (next_row md5 st junk it0) as [[it1 [row|]]| |] eqn:N; try discriminate.
  destruct (list_rows md5 st junk f1 it1) as [rs e1]. assert (Er : r = (r_cols it1, row)) by congruence. subst r. cbn [fst snd] in *.
  destruct (old_row md5 st junk it0 it1 row (old_columns it1) buffer R4 R3 N U2) as (_ & D & _); [unfold old_columns; lia|].
  specialize (D eq_refl B). rewrite (calls_app md5 st junk calls _ it it0 l R1). cbn [old_calls]. unfold old_columns in D. rewrite D. cbn [bind].
  exists it1, l. eexists. split; [reflexivity|]. cbn [a_buffer].
  destruct (next_step _ _ _ _ _ _ R3 N) as (_ & [[E1 X]|(E1 & X & _)]); [congruence|].
  assert (row = r_last it1) by congruence. subst row.
  intros i cell Ei. destruct U2 as (_ & W). cbn [fst] in W.
  destruct (sized_place _ _ i cell (skipn (length (concat (r_last it1))) buffer) (next_good _ _ _ _ _ _ R4 N E1 W) Ei) as (c & Ec & P & Q).
  exists (data_size_doubles (col_coder c)). unfold old_doubles. rewrite Ec. split; [reflexivity|]. split; [exact P|exact Q].
Qed.
Print Assumptions C56_places.
