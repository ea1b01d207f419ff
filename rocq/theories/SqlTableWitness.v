(** Concrete cases for C68, and what the two ways of finding a name differ in. *)
From Coq Require Import String.
From Verif Require Import Spec Base Fp Stream Codec Meta Header Encoder Table Reader
  Quick Through Writer RowReader RowList WriterSpec EncodeWitness WriterWitness
  Comparator CompareWitness CopyWitness P_Tables SetSpec Query QuerySpec SqlTable SqlTableSpec P_SqlTable.
Open Scope Z_scope.
Local Notation length := List.length.

(** A table of "a@x" and "b", and one of "b" and "a@x". *)
Definition tcols : list colinfo := [wcol "a@x" ty_DOUBLE 8; wcol "b" ty_DOUBLE 8].
Definition two_tables : list Z := Eval vm_compute in
  file_of doubles 2 tcols [Row [le_bytes 8 d_one; le_bytes 8 pi]] ++ file_of doubles 2 (rev tcols) [Row [le_bytes 8 pi; le_bytes 8 d_one]].
Definition trows : list arow := Eval vm_compute in fst (file_rows quick doubles noise 5 two_tables).
Definition trow (k : nat) : arow := nth k trows ([], []).

(** deciding the words of the specification on concrete columns *)
Lemma named_at cs nm i c : nth_error cs i = Some c -> col_name c = nm -> named cs nm i.
Proof. intros; exists c; auto. Qed.
Lemma named_only cs nm : forall i, named cs nm i -> In (i, nm) (combine (seq 0 (length cs)) (map col_name cs)).
Proof.
  enough (G : forall cs b i, named cs nm i -> In ((b + i)%nat, nm) (combine (seq b (length cs)) (map col_name cs))) by (intros i H; exact (G cs 0%nat i H)).
  clear cs. intros cs. induction cs as [|c cs IH]; intros b i (c0 & E & N); [destruct i; discriminate|]. destruct i as [|i]; cbn [nth_error] in E.
  - injection E as <-. left. cbn. f_equal; [lia|exact N].
  - right. replace (b + S i)%nat with (S b + i)%nat by lia. apply IH. exists c0. auto.
Qed.
Lemma qualified_none cs nm : forallb (fun c => negb (starts_with (nm ++ [64]) (col_name c))) cs = true -> forall j, ~ qualified cs nm j.
Proof.
  intros H j (c & r & E & N). rewrite forallb_forall in H. apply nth_error_In in E. specialize (H c E). rewrite N in H.
  rewrite (proj2 (starts_with_app (nm ++ [64]) (nm ++ 64 :: r))) in H; [discriminate|]. exists r. now rewrite <- app_assoc.
Qed.
Lemma plain_at cs nm k : named cs nm k -> NoDup (map col_name cs) -> forallb (fun c => negb (starts_with (nm ++ [64]) (col_name c))) cs = true -> plain cs nm.
Proof.
  intros N D H. exists k. split; [|now apply qualified_none]. intros j. split; [|intros ->; exact N].
  intros (c & E & C). destruct N as (c' & E' & C'). rewrite NoDup_nth_error in D. apply D.
  - rewrite map_length. apply nth_error_Some. congruence.
  - rewrite !nth_error_map, E, E'. cbn. congruence.
Qed.

Lemma names0 : map col_name (fst (trow 0)) = [str "a@x"; str "b"]. Proof. vm_compute. reflexivity. Qed.
Lemma names1 : map col_name (fst (trow 1)) = [str "b"; str "a@x"]. Proof. vm_compute. reflexivity. Qed.
Lemma distinct0 : NoDup (map col_name (fst (trow 0))).
Proof. rewrite names0. constructor; [intros [E|[]]; vm_compute in E; discriminate|constructor; [intros []|constructor]]. Qed.
Lemma distinct1 : NoDup (map col_name (fst (trow 1))).
Proof. rewrite names1. constructor; [intros [E|[]]; vm_compute in E; discriminate|constructor; [intros []|constructor]]. Qed.
Lemma wide_all (r : arow) : forallb (fun c => 1 <=? data_size_doubles (col_coder c)) (fst r) = true -> wide (fst r).
Proof. intros H. apply Forall_forall. intros c I. rewrite forallb_forall in H. specialize (H c I). lia. Qed.

(** The hypotheses of C68_rows: "b" and "a" denote the columns "b" and "a@x". *)
Theorem C68_witness : file_rows quick doubles noise 5 two_tables = (trow 0 :: [trow 1], Clean) /\
  NoDup (map col_name (fst (trow 0))) /\ sql_types (fst (trow 0)) /\
  Forall2 (denotes (fst (trow 0))) [str "b"; str "a"] [1; 0]%nat /\
  Forall2 (fun i full => named (fst (trow 0)) full i) [1; 0]%nat [str "b"; str "a@x"] /\
  Forall (fun r => Forall (plain (fst r)) [str "b"; str "a@x"] /\ wide (fst r)) (trow 0 :: [trow 1]).
Proof.
  assert (N0 : named (fst (trow 0)) (str "b") 1) by (eapply named_at; vm_compute; reflexivity).
  assert (N1 : named (fst (trow 0)) (str "a@x") 0) by (eapply named_at; vm_compute; reflexivity).
  assert (M0 : named (fst (trow 1)) (str "b") 0) by (eapply named_at; vm_compute; reflexivity).
  assert (M1 : named (fst (trow 1)) (str "a@x") 1) by (eapply named_at; vm_compute; reflexivity).
  split; [vm_compute; reflexivity|]. split; [exact distinct0|]. split.
  { apply Forall_forall. intros c I. assert (B : forallb (fun c => (1 <=? col_type c) && (col_type c <=? 5)) (fst (trow 0)) = true) by (vm_compute; reflexivity).
    rewrite forallb_forall in B. specialize (B c I). lia. }
  split.
  { constructor; [left; exact N0|]. constructor; [|constructor]. right. split.
    - intros j H. apply named_only in H. vm_compute in H. destruct H as [H|[H|[]]]; discriminate.
    - intros j. split.
      + intros (c & r & E & N). destruct j as [|[|j]]; [reflexivity| |destruct j; vm_compute in E; discriminate].
        exfalso. apply (f_equal (option_map col_name)) in E. cbn [option_map] in E. rewrite N in E. vm_compute in E. discriminate.
      + intros ->. destruct N1 as (c & E & N). exists c, [120]. split; [exact E|]. rewrite N. vm_compute. reflexivity. }
  split; [constructor; [exact N0|constructor; [exact N1|constructor]]|].
  constructor; [split; [|apply wide_all; vm_compute; reflexivity]|constructor; [split; [|apply wide_all; vm_compute; reflexivity]|constructor]].
  - constructor; [|constructor; [|constructor]]; (eapply plain_at; [eassumption|exact distinct0|vm_compute; reflexivity]).
  - constructor; [|constructor; [|constructor]]; (eapply plain_at; [eassumption|exact distinct1|vm_compute; reflexivity]).
Qed.

(** What that query sees; a name of no column, and what is no ODB file. *)
Theorem C68_computed :
  sql_query quick doubles noise [str "b"; str "a"] 5 two_tables =
    Some ([(false, [(le_bytes 8 pi, 0, realMDI); (le_bytes 8 d_one, 0, realMDI)]); (true, [(le_bytes 8 pi, 0, realMDI); (le_bytes 8 d_one, 0, realMDI)])], Clean) /\
  sql_query quick doubles noise [str "x"] 5 two_tables = Some ([], Failed SeriousBug) /\
  sql_query quick doubles noise [str "a"] 5 (str "a:INTEGER,b:REAL") = None.
Proof. split; [|split]; vm_compute; reflexivity. Qed.

(** In a table of "b" and "b@x" the name "b" is found, but the query for it is refused: the
    name that was found is looked up again, and there it is ambiguous.  So is "b@x" not. *)
Definition twins : list Z := Eval vm_compute in file_of doubles 2 [wcol "b" ty_DOUBLE 8; wcol "b@x" ty_DOUBLE 8] [Row [le_bytes 8 d_one; le_bytes 8 pi]].
Theorem C68_exact_refuted : exists file cs row ts,
  file_rows quick doubles noise 5 file = ([(cs, row)], Clean) /\ make_table cs = Ok ts /\ named cs (str "b") 0 /\
  table_has ts (str "b") = Ok true /\ sql_query quick doubles noise [str "b"] 5 file = Some ([], Failed UserError) /\
  exists vs, sql_query quick doubles noise [str "b@x"] 5 file = Some (vs, Clean) /\ length vs = 1%nat.
Proof.
  destruct (file_rows quick doubles noise 5 twins) as [rs e] eqn:F.
  assert (L : exists cs row, (rs, e) = ([(cs, row)], Clean) /\ make_table cs <> UB).
  { rewrite <- F. eexists. eexists. split; [vm_compute; reflexivity|]. vm_compute. discriminate. }
  destruct L as (cs & row & L & _). rewrite L in F.
  assert (C : cs = fst (nth 0 (fst (file_rows quick doubles noise 5 twins)) ([], []))) by (rewrite F; reflexivity).
  destruct (make_table cs) as [ts| |] eqn:M; [|exfalso; rewrite C in M; vm_compute in M; discriminate..].
  exists twins, cs, row, ts. split; [exact F|]. split; [exact M|].
  split; [rewrite C; eapply named_at; vm_compute; reflexivity|].
  split; [|split; [vm_compute; reflexivity|]].
  - apply (C68_names cs ts (str "b") M). exists 0%nat. left. rewrite C. eapply named_at; vm_compute; reflexivity.
  - eexists. split; [vm_compute; reflexivity|reflexivity].
Qed.
