(** Concrete cases for C53, and counterexamples. *)
From Coq Require Import String.
From Verif Require Import Spec Base Fp Stream Codec Meta Header Encoder Table Reader ReadSpec
  StreamLocal StreamProofs Quick Through P_Frame Writer RowReader RowList WriterSpec OrdinaryProofs EncodeWitness WriterWitness
  Comparator CompareWitness Copy CopySpec P_Copy CopyWitness P_Tables Merge MergeSpec P_Merge.
Open Scope Z_scope.
Local Notation length := List.length.

(** A file of two columns and three rows in two frames, and one of one column and two rows. *)
Definition pfile : list Z := file_of doubles 2 ccols [Row [pad 8 (str "abc"); le_bytes 8 pi]; Row [pad 8 (str ""); le_bytes 8 realMDI]; Row [pad 8 (str "x"); le_bytes 8 pi]].
Definition ecols : list colinfo := [wcol "e" ty_DOUBLE 8].
Definition qfile : list Z := file_of doubles 2 ecols [Row [le_bytes 8 d_one]; Row [le_bytes 8 pi]].
Definition prows : list arow := Eval vm_compute in fst (file_rows quick doubles noise 9 pfile).
Definition qrows : list arow := Eval vm_compute in fst (file_rows quick doubles noise 9 qfile).
Definition mrows : list arow := map (fun p : arow * arow => (concat [fst (fst p); fst (snd p)], concat [snd (fst p); snd (snd p)])) (combine prows qrows).

Lemma mcols_ok : writable_columns (ccols ++ ecols) [].
Proof.
  split.
  - discriminate.
  - cbn. lia.
  - repeat constructor; cbn; intuition discriminate.
  - repeat constructor; discriminate.
  - constructor; [right; split; [reflexivity|]; exists 1; cbn; lia|]. do 2 (constructor; [left; split; [right; now right|reflexivity]|]). constructor.
  - do 3 (constructor; [split; [unfold len31; cbn; lia|discriminate]|]). constructor.
  - split; [constructor|split; [unfold len31; cbn; lia|constructor]].
Qed.

Lemma side (a b c d e : arow) ins out : ins = [[a; b; c]; [d; e]] ->
  out = [(concat [fst a; fst d], concat [snd a; snd d]); (concat [fst b; fst e], concat [snd b; snd e])] -> side_by_side ins out.
Proof.
  intros -> ->. split.
  - intros k. split; [intros L rows [<-|[<-|[]]]; cbn in *; lia|]. intros H. apply (H [d; e]). right. now left.
  - intros [|[|k]] cs row E; cbn [nth_error] in E.
    + injection E as <- <-. exists [a; d]. split; [|split; reflexivity]. constructor; [reflexivity|constructor; [reflexivity|constructor]].
    + injection E as <- <-. exists [b; e]. split; [|split; reflexivity]. constructor; [reflexivity|constructor; [reflexivity|constructor]].
    + destruct k; discriminate.
Qed.

(** The hypotheses of C53_merge and C53_cut. *)
Theorem C53_witness :
  Forall2 (fun file rows => forall f, (length rows < f)%nat -> file_rows quick doubles noise f file = (rows, Clean)) [pfile; qfile] [prows; qrows] /\
  (forall rows cs row x, In rows [prows; qrows] -> In (cs, row) rows -> In x row -> length x = 8%nat) /\
  (forall rows, In rows [prows; qrows] -> same_columns rows) /\ ~ clash [prows; qrows] /\
  side_by_side [prows; qrows] mrows /\ rows_copyable doubles 2 [] mrows /\ length mrows = 2%nat /\ length prows = 3%nat.
Proof.
  split; [|split; [|split; [|split; [|split; [|split; [|split]]]]]].
  - constructor; [intros f L; apply (any_fuel _ _ 9); [vm_compute; reflexivity|exact L]|].
    constructor; [intros f L; apply (any_fuel _ _ 9); [vm_compute; reflexivity|exact L]|constructor].
  - assert (B : forallb (fun rows => forallb (fun r : arow => forallb (fun x => length x =? 8)%nat (snd r)) rows) [prows; qrows] = true) by (vm_compute; reflexivity).
    intros rows cs row x Hr Hc Hx. rewrite forallb_forall in B. specialize (B _ Hr). rewrite forallb_forall in B. specialize (B _ Hc). rewrite forallb_forall in B. now apply Nat.eqb_eq, (B x).
  - assert (P : Forall (fun r : arow => map shape (fst r) = [(str "s", ty_STRING, 1); (str "d", ty_DOUBLE, 1)]) prows) by (vm_compute; repeat constructor).
    assert (Q : Forall (fun r : arow => map shape (fst r) = [(str "e", ty_DOUBLE, 1)]) qrows) by (vm_compute; repeat constructor).
    rewrite Forall_forall in P, Q. intros rows [<-|[<-|[]]] r r' H H'; [rewrite (P r H), (P r' H')|rewrite (Q r H), (Q r' H')]; reflexivity.
  - assert (P : Forall (fun r : arow => map col_name (fst r) = [str "s"; str "d"]) prows) by (vm_compute; repeat constructor).
    assert (Q : Forall (fun r : arow => map col_name (fst r) = [str "e"]) qrows) by (vm_compute; repeat constructor).
    rewrite Forall_forall in P, Q. intros (i & j & rows & rows' & r & r' & c & c' & L & E1 & E2 & E3 & E4 & I1 & I2 & C).
    destruct j as [|[|j]]; [lia| |destruct j; discriminate]. destruct i; [|lia]. injection E1 as <-. injection E2 as <-.
    assert (R1 : In r prows) by (destruct prows; [discriminate|injection E3 as <-; now left]). assert (R2 : In r' qrows) by (destruct qrows; [discriminate|injection E4 as <-; now left]).
    apply (in_map col_name) in I1, I2. rewrite (P r R1) in I1. rewrite (Q r' R2) in I2. destruct I2 as [I2|[]]. rewrite <- I2 in C.
    destruct I1 as [I1|[I1|[]]]; rewrite <- I1 in C; destruct C as [C|(t & C)]; discriminate.
  - assert (exists a b c d e, prows = [a; b; c] /\ qrows = [d; e]) as (a & b & c & d & e & P & Q) by (eexists _, _, _, _, _; split; reflexivity).
    apply (side a b c d e); [now rewrite P, Q|]. unfold mrows. rewrite P, Q. reflexivity.
  - assert (H : forallb (fun r => (if list_eq_dec colinfo_dec (map info (fst r)) (ccols ++ ecols) then true else false) && forallb copyableb (fst r) && both (ordinaryb doubles) (map info (fst r)) (snd r)) mrows = true) by (vm_compute; reflexivity).
    assert (X : forall r, In r mrows -> map info (fst r) = ccols ++ ecols /\ Forall copyable (fst r) /\ Forall2 (ordinary doubles) (map info (fst r)) (snd r)).
    { intros r I. rewrite forallb_forall in H. specialize (H r I). apply andb_true_iff in H as (H & H3). apply andb_true_iff in H as (H1 & H2).
      split; [destruct (list_eq_dec _ _ _) as [E|]; [exact E|discriminate]|]. split; [|exact (both_ok _ _ (ordinaryb_ok doubles) _ _ H3)].
      rewrite forallb_forall in H2. apply Forall_forall. intros c Hc. apply copyableb_ok. now apply H2. }
    clear H. apply C49_ordinary.
    + intros cs Hc. apply in_map_iff in Hc as (r & <- & Hr). destruct (X r Hr) as (-> & C & _). split; [apply mcols_ok|]. split; [exact C|]. unfold small. vm_compute. auto.
    + intros cs row Hr. apply (X _ Hr).
  - reflexivity.
  - reflexivity.
Qed.

(** By evaluation; the third row of the first file is not written. *)
Theorem C53_computed :
  map snd (fst (file_rows quick doubles noise 9 (bytes_of (merge_files quick doubles noise 2 [] 9 [pfile; qfile])))) =
    [[pad 8 (str "abc"); le_bytes 8 pi; le_bytes 8 d_one]; [pad 8 (str ""); le_bytes 8 realMDI; le_bytes 8 pi]].
Proof. vm_compute. reflexivity. Qed.

(** A text of more than eight bytes is cut. *)
Definition lfile : list Z := file_of doubles 2 [wcol "t" ty_STRING 16] [Row [pad 16 (str "abcdefghijkl")]].
Theorem C53_long_refuted :
  map snd (fst (file_rows quick doubles noise 9 lfile)) = [[pad 16 (str "abcdefghijkl")]] /\
  map snd (fst (file_rows quick doubles noise 9 (bytes_of (merge_files quick doubles noise 2 [] 9 [qfile; lfile])))) = [[le_bytes 8 d_one; pad 8 (str "abcdefgh")]].
Proof. vm_compute. repeat split. Qed.

(** The order of the files decides whether "e" and "e@t" may be merged. *)
Definition efile : list Z := file_of doubles 2 [wcol "e@t" ty_DOUBLE 8] [Row [le_bytes 8 d_one]].
Theorem C53_order_refuted :
  merge_files quick doubles noise 2 [] 9 [efile; qfile] = Throw UserError /\
  map snd (fst (file_rows quick doubles noise 9 (bytes_of (merge_files quick doubles noise 2 [] 9 [qfile; efile])))) = [[le_bytes 8 d_one; le_bytes 8 d_one]].
Proof. vm_compute. repeat split. Qed.

(** Files whose columns change: the values of the second table are written under the names
    of the first. *)
Definition vfile : list Z := file_of doubles 2 [wcol "a" ty_DOUBLE 8; wcol "b" ty_DOUBLE 8] [Row [le_bytes 8 d_one; le_bytes 8 pi]] ++
  file_of doubles 2 [wcol "b" ty_DOUBLE 8; wcol "a" ty_DOUBLE 8] [Row [le_bytes 8 pi; le_bytes 8 d_one]].
Theorem C53_changing_refuted :
  map (fun r : arow => (map col_name (fst r), snd r)) (fst (file_rows quick doubles noise 9 (bytes_of (merge_files quick doubles noise 2 [] 9 [vfile; qfile])))) =
    [([str "a"; str "b"; str "e"], [le_bytes 8 d_one; le_bytes 8 pi; le_bytes 8 d_one]);
     ([str "a"; str "b"; str "e"], [le_bytes 8 pi; le_bytes 8 d_one; le_bytes 8 pi])].
Proof. vm_compute. reflexivity. Qed.
