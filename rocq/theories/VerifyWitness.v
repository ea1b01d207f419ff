(** A concrete case for C63, and counterexamples. *)
From Coq Require Import String.
From Verif Require Import Spec Base Fp Stream Codec Meta Header Encoder Table Reader ReadSpec
  StreamLocal StreamProofs Quick Through P_Frame Writer RowReader RowList WriterSpec OrdinaryProofs EncodeWitness WriterWitness
  Comparator ComparatorSpec CompareWitness Copy CopySpec P_Copy CopyWitness P_Tables Dispatcher DispatchSpec P_DispatchOne P_Dispatch DispatchWitness
  Verify VerifySpec P_Verify P_VerifyClean.
Open Scope Z_scope.
Local Notation length := List.length.

Definition noises : nat -> nat -> nat -> list Z := fun _ => noise.
Definition checked (r : outcome (disk * nat * nat)) : option (nat * nat) := match r with Ok (_, n, e) => Some (n, e) | _ => None end.
Definition left_in (r : outcome (disk * nat * nat)) (n : list Z) : option (list Z) := match r with Ok (k, _, _) => files k n | _ => None end.

(** The hypotheses of [C63_clean], so of [C63_counts], hold for the rows of [C44_witness]. *)
Definition checkableb (c : column) (x : list Z) : bool :=
  (col_type c =? ty_STRING) && negb (length (until_nul x) =? 0)%nat || (col_type c =? ty_DOUBLE) && is_fin f64 (bits x).
Definition cells_checked (r : arow) : bool :=
  forallb (fun c => (c_missing (col_coder c) =? mark (col_type c)) && negb (c_int64 (col_coder c))) (fst r) &&
  forallb (fun i => match nth_error (fst r) i, nth_error (snd r) i with Some c, Some x => checkableb c x | _, _ => true end) (seq 0 (length (fst r))) &&
  (if list_eq_dec (list_eq_dec Z.eq_dec) (map col_name (fst r)) [str "s"; str "d"] then true else false).

Theorem C63_witness :
  iad doubles = true /\ (forall r c, In r drows -> In c (fst r) -> marked c) /\
  (forall r r', In r drows -> In r' drows -> map col_name (fst r) = map col_name (fst r')) /\
  (forall r i c x, In r drows -> nth_error (fst r) i = Some c -> nth_error (snd r) i = Some x -> checkable c x) /\
  exists k', split_tool quick doubles 3 dtemplate 3 false noise noise noises 9 blank dfile = Ok (k', 4%nat, O).
Proof.
  assert (H : forallb cells_checked drows = true) by (vm_compute; reflexivity).
  assert (X : forall r, In r drows -> (forall c, In c (fst r) -> marked c) /\ (forall i c x, nth_error (fst r) i = Some c -> nth_error (snd r) i = Some x -> checkable c x) /\
    map col_name (fst r) = [str "s"; str "d"]).
  { intros r I. rewrite forallb_forall in H. specialize (H r I). apply andb_true_iff in H as (H & H3). apply andb_true_iff in H as (H1 & H2). split; [|split].
    - intros c Q. rewrite forallb_forall in H1. specialize (H1 c Q). apply andb_true_iff in H1 as (A & B). apply Z.eqb_eq in A. apply negb_true_iff in B. now split.
    - intros i c x Ec Ex. rewrite forallb_forall in H2. specialize (H2 i). rewrite Ec, Ex in H2.
      assert (Q : checkableb c x = true) by (apply H2, in_seq; split; [lia|]; apply nth_error_Some; congruence).
      unfold checkableb in Q. apply orb_true_iff in Q as [Q|Q]; apply andb_true_iff in Q as (A & B); apply Z.eqb_eq in A.
      + left. split; [exact A|]. intros E. rewrite E in B. discriminate.
      + right. left. split; [auto|exact B].
    - destruct (list_eq_dec (list_eq_dec Z.eq_dec) (map col_name (fst r)) [str "s"; str "d"]); [assumption|discriminate]. }
  destruct C44_witness as (W1 & W2 & W3 & W4 & _ & W5 & _).
  assert (Y1 : forall r c, In r drows -> In c (fst r) -> marked c) by (intros r c Q; now apply X).
  assert (Y2 : forall r r', In r drows -> In r' drows -> map col_name (fst r) = map col_name (fst r')).
  { intros r r' A B. destruct (X r A) as (_ & _ & ->). destruct (X r' B) as (_ & _ & ->). reflexivity. }
  assert (Y3 : forall r i c x, In r drows -> nth_error (fst r) i = Some c -> nth_error (snd r) i = Some x -> checkable c x).
  { intros r i c x Q. apply X. exact Q. }
  split; [reflexivity|]. split; [exact Y1|]. split; [exact Y2|]. split; [exact Y3|].
  destruct (C63_clean quick doubles 3 3 false noise noise noises dfile drows dtemplate droute blank quick_length ltac:(lia) ltac:(lia) W1 W2 W2 W3 W4 W5 eq_refl Y1 Y2 Y3) with (fuel := 9%nat) as (k' & _ & K).
  - change (length drows) with 4%nat. lia.
  - exists k'. exact K.
Qed.
Print Assumptions C63_witness.

(** ** What does not hold *)

(** With more files than may be open, the verification finds differences in all rows of
    files that are right; and the split succeeds nevertheless. *)
Theorem C63_evicted_refuted :
  checked (split_tool quick doubles 3 (str "{s}") 1 false noise noise noises 9 blank tfile) = Some (4%nat, 4%nat) /\
  map (fun n => rows_in doubles (file_in (split_file quick doubles 3 (str "{s}") 1 noise 9 false blank tfile) (str n))) ["a"; "b"; "c"]%string =
    [[[pad 8 (str "a")]; [pad 8 (str "a")]]; [[pad 8 (str "b")]]; [[pad 8 (str "c")]]].
Proof. split; vm_compute; reflexivity. Qed.

(** Rows too many, at the end of a file, are not noticed. *)
Definition sfile : list Z := file_of doubles 4 [wcol "s" ty_STRING 8] [Row [pad 8 (str "a")]].
Definition twice (k : disk) (n : list Z) : disk := put k n (content k n ++ content k n).
Theorem C63_extra_refuted :
  let r := do d <- pass1_file quick doubles 3 (str "{s}") 3 noise 9 false blank sfile;
           do k <- close_all quick doubles 3 (d_disk d) (d_open d);
           verify quick doubles 3 (str "{s}") 3 false noise noises 9 d (twice k (str "a")) sfile in
  checked r = Some (1%nat, O) /\ rows_in doubles (left_in r (str "a")) = [[pad 8 (str "a")]; [pad 8 (str "a")]].
Proof. vm_compute. split; reflexivity. Qed.

(** If a later table has its columns in another order, the verification takes the names of
    the files from the wrong column of the first; it then empties a file that the split has
    not touched. *)
Definition ofile : list Z :=
  file_of doubles 4 [wcol "x" ty_STRING 8; wcol "s" ty_STRING 8] [Row [pad 8 (str "p"); pad 8 (str "a")]] ++
  file_of doubles 4 [wcol "s" ty_STRING 8; wcol "x" ty_STRING 8] [Row [pad 8 (str "a"); pad 8 (str "p")]].
Theorem C63_other_file_refuted :
  let k := with_file (str "p") [1; 2; 3] in
  file_in (split_file quick doubles 3 (str "{s}") 3 noise 9 false k ofile) (str "p") = Some [1; 2; 3] /\
  left_in (split_tool quick doubles 3 (str "{s}") 3 false noise noise noises 9 k ofile) (str "p") = Some [].
Proof. vm_compute. split; reflexivity. Qed.
