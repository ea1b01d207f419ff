(** Concrete cases for C55, and a counterexample. *)
From Coq Require Import String.
From Verif Require Import Spec Base Fp Stream Codec Meta Header Encoder Table Reader
  Quick Through Writer RowReader RowList WriterSpec EncodeWitness WriterWitness
  Comparator CompareWitness CopyWitness P_Tables SetSpec Query QuerySpec P_Query.
Open Scope Z_scope.
Local Notation length := List.length.

(** Two tables, the columns "a" and "b" of the first in the other order in the second. *)
Definition qcols : list colinfo := [wcol "a" ty_DOUBLE 8; wcol "b" ty_DOUBLE 8].
Definition one_way : list Z := file_of doubles 2 qcols [Row [le_bytes 8 d_one; le_bytes 8 pi]; Row [le_bytes 8 pi; le_bytes 8 pi]].
Definition other_way : list Z := file_of doubles 2 (rev qcols) [Row [le_bytes 8 pi; le_bytes 8 d_one]].
Definition both_ways : list Z := Eval vm_compute in one_way ++ other_way.
Definition brows : list arow := Eval vm_compute in fst (file_rows quick doubles noise 9 both_ways).
Definition qnames : list (list Z) := [str "a"; str "b"; str "a"].

Lemma designated cols nm i : forallb (fun p => eqb (name_matches (col_name (snd p)) nm) (fst p =? i)%nat) (combine (seq 0 (length cols)) cols) = true ->
  (i < length cols)%nat -> designates cols nm i.
Proof.
  intros H L j. rewrite forallb_forall in H.
  assert (At : forall k c, nth_error cols k = Some c -> In (k, c) (combine (seq 0 (length cols)) cols)).
  { clear. intros k c E. assert (Lk : (k < length cols)%nat) by (apply nth_error_Some; congruence).
    assert (Es : nth_error (seq 0 (length cols)) k = Some k) by (rewrite nth_error_nth' with (d := 0%nat) by (now rewrite seq_length); now rewrite seq_nth).
    assert (Ek : nth_error (combine (seq 0 (length cols)) cols) k = Some (k, c)).
    { clear Lk. generalize dependent (seq 0 (length cols)). generalize k at 2 4. revert cols E. induction k as [|k IH]; intros [|x l1] E k0 [|y l2] Es; try discriminate; cbn in *; [congruence|]. now apply IH. }
    eapply nth_error_In. exact Ek. }
  split.
  - intros (c & E & C). specialize (H _ (At j c E)). cbn [fst snd] in H. apply name_matches_called in C. rewrite C in H. apply eqb_prop in H. symmetry in H. now apply Nat.eqb_eq.
  - intros ->. destruct (nth_error cols i) as [c|] eqn:E; [|apply nth_error_None in E; lia]. exists c. split; [exact E|].
    specialize (H _ (At i c E)). cbn [fst snd] in H. rewrite Nat.eqb_refl in H. apply eqb_prop in H. now apply name_matches_called.
Qed.

Definition first_cols : list column := fst (nth 0 brows ([], [])).
Definition other_cols : list column := fst (nth 2 brows ([], [])).
Lemma a_first : designates first_cols (str "a") 0. Proof. apply designated; [vm_compute; reflexivity|cbn; lia]. Qed.
Lemma b_first : designates first_cols (str "b") 1. Proof. apply designated; [vm_compute; reflexivity|cbn; lia]. Qed.
Lemma a_other : designates other_cols (str "a") 1. Proof. apply designated; [vm_compute; reflexivity|cbn; lia]. Qed.
Lemma b_other : designates other_cols (str "b") 0. Proof. apply designated; [vm_compute; reflexivity|cbn; lia]. Qed.

(** The hypotheses of C55_rows. *)
Theorem C55_witness : file_rows quick doubles noise 9 both_ways = (brows, Clean) /\ length brows = 3%nat /\
  Forall (fun r => knows (fst r) qnames /\ wide (fst r)) brows /\ first_cols <> other_cols.
Proof.
  split; [vm_compute; reflexivity|]. split; [reflexivity|]. split.
  - assert (K1 : knows first_cols qnames /\ wide first_cols).
    { split; [constructor; [exists 0%nat; exact a_first|constructor; [exists 1%nat; exact b_first|constructor; [exists 0%nat; exact a_first|constructor]]]|].
      apply Forall_forall. intros c Hc. assert (B : forallb (fun c => 1 <=? data_size_doubles (col_coder c)) first_cols = true) by (vm_compute; reflexivity).
      rewrite forallb_forall in B. specialize (B _ Hc). lia. }
    assert (K2 : knows other_cols qnames /\ wide other_cols).
    { split; [constructor; [exists 1%nat; exact a_other|constructor; [exists 0%nat; exact b_other|constructor; [exists 1%nat; exact a_other|constructor]]]|].
      apply Forall_forall. intros c Hc. assert (B : forallb (fun c => 1 <=? data_size_doubles (col_coder c)) other_cols = true) by (vm_compute; reflexivity).
      rewrite forallb_forall in B. specialize (B _ Hc). lia. }
    change brows with [nth 0 brows ([], []); nth 1 brows ([], []); nth 2 brows ([], [])].
    constructor; [exact K1|]. constructor; [exact K1|]. constructor; [exact K2|constructor].
  - intros E. apply (f_equal (map col_name)) in E. vm_compute in E. discriminate.
Qed.

(** What the query sees there, and of an unknown column. *)
Definition see (x y : Z) : list (list Z * Z * Z) := [(le_bytes 8 x, 0, realMDI); (le_bytes 8 y, 0, realMDI); (le_bytes 8 x, 0, realMDI)].
Theorem C55_computed :
  query_file quick doubles noise qnames 9 both_ways = ([(false, see d_one pi); (false, see pi pi); (true, see d_one pi)], Clean) /\
  query_file quick doubles noise [str "c"] 9 both_ways = ([], Failed UserError).
Proof. split; vm_compute; reflexivity. Qed.

(** After the query has gone through that file and back to the start, it is shown the values
    of "b" for "a" in the first table. *)
Theorem C55_rewind_refuted :
  exists file names rows q0 q q' vs, file_rows quick doubles noise 9 file = (rows, Clean) /\
    Forall (fun r => knows (fst r) names /\ wide (fst r)) rows /\
    open_query quick doubles noise names file = Ok q0 /\ query_steps quick doubles noise names (S (length rows)) q0 = Ok q /\
    query_rewind quick doubles noise file q = Ok q' /\ query_rows quick doubles noise names 9 q' = (vs, Clean) /\
    ~ Forall2 (fun r v => Forall2 (answers r) names (snd v)) rows vs.
Proof.
  exists both_ways, qnames, brows.
  destruct (open_query quick doubles noise qnames both_ways) as [q0| |] eqn:O; [|exfalso; vm_compute in O; discriminate..].
  destruct (query_steps quick doubles noise qnames (S (length brows)) q0) as [q| |] eqn:S0;
    [|exfalso; vm_compute in O; injection O as <-; vm_compute in S0; discriminate..].
  destruct (query_rewind quick doubles noise both_ways q) as [q'| |] eqn:W;
    [|exfalso; vm_compute in O; injection O as <-; vm_compute in S0; injection S0 as <-; vm_compute in W; discriminate..].
  assert (R : query_rows quick doubles noise qnames 9 q' = ([(false, see pi d_one); (false, see pi pi); (true, see d_one pi)], Clean)).
  { vm_compute in O. injection O as <-. vm_compute in S0. injection S0 as <-. vm_compute in W. injection W as <-. vm_compute. reflexivity. }
  exists q0, q, q', [(false, see pi d_one); (false, see pi pi); (true, see d_one pi)].
  destruct C55_witness as (F & _ & K & _). split; [exact F|]. split; [exact K|]. split; [reflexivity|]. split; [exact S0|]. split; [exact W|]. split; [exact R|].
  intros A. inversion A as [|? ? ? ? A0 _]; subst. inversion A0 as [|? ? ? ? A1 _]; subst. destruct A1 as (i & c & cell & D & Ec & Er & Ea).
  change (fst (first_cols, snd (nth 0 brows ([], [])))) with first_cols in D. cbn [fst] in D, Ec. 
  assert (i = 0%nat) by (apply a_first; now apply D). subst i. cbn [snd nth_error] in Er. injection Er as <-. unfold see in Ea. injection Ea as Ea _ _.
  vm_compute in Ea. discriminate.
Qed.
Print Assumptions C55_rewind_refuted.

(** The hypotheses of C55_rewind: a file with one table. *)
Definition straight : list Z := Eval vm_compute in one_way.
Definition srows : list arow := Eval vm_compute in fst (file_rows quick doubles noise 9 straight).
Theorem C55_rewind_witness :
  file_rows quick doubles noise 9 straight = (srows, Clean) /\ length srows = 2%nat /\
  Forall (fun r => knows (fst r) qnames /\ wide (fst r)) srows /\
  (forall r r' nm, In r srows -> In r' srows -> In nm qnames -> alike (fst r) (fst r') nm) /\
  exists q0 q q', open_query quick doubles noise qnames straight = Ok q0 /\ query_steps quick doubles noise qnames 3 q0 = Ok q /\
    query_rewind quick doubles noise straight q = Ok q' /\ q_first q' = true /\ q_first q = false.
Proof.
  split; [vm_compute; reflexivity|]. split; [reflexivity|].
  assert (Same : forall r, In r srows -> fst r = first_cols) by (intros r [<-|[<-|[]]]; reflexivity).
  destruct C55_witness as (_ & _ & K & _). change brows with [nth 0 brows ([], []); nth 1 brows ([], []); nth 2 brows ([], [])] in K.
  inversion K as [|? ? K1 _]; subst. change (fst (nth 0 brows ([], []))) with first_cols in K1.
  split; [apply Forall_forall; intros r Hr; rewrite (Same r Hr); exact K1|]. split.
  - intros r r' nm Hr Hr' Hn. rewrite (Same r Hr), (Same r' Hr'). destruct K1 as (K1 & _). unfold knows in K1. rewrite Forall_forall in K1.
    destruct (K1 nm Hn) as (i & D). destruct (proj2 (D i) eq_refl) as (c & Ec & _). exists i, c, c. auto 8.
  - destruct (open_query quick doubles noise qnames straight) as [q0| |] eqn:O; [|exfalso; vm_compute in O; discriminate..].
    destruct (query_steps quick doubles noise qnames 3 q0) as [q| |] eqn:S0; [|exfalso; vm_compute in O; injection O as <-; vm_compute in S0; discriminate..].
    destruct (query_rewind quick doubles noise straight q) as [q'| |] eqn:W;
      [|exfalso; vm_compute in O; injection O as <-; vm_compute in S0; injection S0 as <-; vm_compute in W; discriminate..].
    exists q0, q, q'. split; [reflexivity|]. split; [exact S0|]. split; [exact W|].
    vm_compute in O. injection O as <-. vm_compute in S0. injection S0 as <-. vm_compute in W. injection W as <-. auto.
Qed.
