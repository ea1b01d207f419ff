(** A concrete case for C65, and a counterexample. *)
From Coq Require Import String.
From Verif Require Import Spec Base Fp Stream Codec Meta Header Encoder Table Reader ReadSpec
  StreamLocal StreamProofs Quick Through P_Frame Writer RowReader RowList WriterSpec OrdinaryProofs EncodeWitness WriterWitness
  Comparator ComparatorSpec CompareWitness Copy CopySpec P_Copy CopyWitness VerifySpec Compact CompactSpec P_Compact.
Open Scope Z_scope.
Local Notation length := List.length.

(** Two tables of one row each, the first with an empty text and a missing number. *)
Definition kfile : list Z :=
  file_of doubles 1 ccols [Row [pad 8 (str ""); le_bytes 8 realMDI]] ++ file_of doubles 1 ccols [Row [pad 8 (str "x"); le_bytes 8 pi]].
Definition krows : list arow := Eval vm_compute in fst (file_rows quick doubles noise 4 kfile).

Definition countableb (c : column) (x : list Z) : bool := (col_type c =? ty_STRING) || (col_type c =? ty_DOUBLE) && is_fin f64 (bits x).
Definition krow_ok (r : arow) : bool :=
  (if list_eq_dec colinfo_dec (map info (fst r)) ccols then true else false) && forallb copyableb (fst r) && both (ordinaryb doubles) (map info (fst r)) (snd r) &&
  forallb (fun c => (c_missing (col_coder c) =? mark (col_type c)) && negb (c_int64 (col_coder c))) (fst r) &&
  forallb (fun i => match nth_error (fst r) i, nth_error (snd r) i with Some c, Some x => countableb c x | _, _ => true end) (seq 0 (length (fst r))).

Definition verdict_is (r : outcome (list Z * outcome unit)) : option bool :=
  match r with Ok (_, Ok _) => Some true | Ok (_, Throw _) => Some false | _ => None end.

(** The hypotheses of [C65_compact] hold for frames of one row and for frames of two; the
    flags fit in the first case only. *)
Theorem C65_witness :
  (forall f, (length krows < f)%nat -> file_rows quick doubles noise f kfile = (krows, Clean)) /\ length krows = 2%nat /\
  rows_copyable doubles 1 [] krows /\ rows_copyable doubles 2 [] krows /\
  (forall r r', In r krows -> In r' krows -> map info (fst r) = map info (fst r')) /\
  (forall r c, In r krows -> In c (fst r) -> marked c) /\
  (forall r i c x, In r krows -> nth_error (fst r) i = Some c -> nth_error (snd r) i = Some x -> countable c x) /\
  flags_fit 1 krows /\ ~ flags_fit 2 krows.
Proof.
  assert (H : forallb krow_ok krows = true) by (vm_compute; reflexivity).
  assert (X : forall r, In r krows -> map info (fst r) = ccols /\ Forall copyable (fst r) /\ Forall2 (ordinary doubles) (map info (fst r)) (snd r) /\
    (forall c, In c (fst r) -> marked c) /\ (forall i c x, nth_error (fst r) i = Some c -> nth_error (snd r) i = Some x -> countable c x)).
  { intros r I. rewrite forallb_forall in H. specialize (H r I). unfold krow_ok in H. rewrite !andb_true_iff in H. destruct H as ((((H1 & H2) & H3) & H4) & H5).
    split; [|split; [|split; [|split]]].
    - destruct (list_eq_dec colinfo_dec (map info (fst r)) ccols); [assumption|discriminate].
    - rewrite forallb_forall in H2. apply Forall_forall. intros c Hc. apply copyableb_ok. now apply H2.
    - exact (both_ok _ _ (ordinaryb_ok doubles) _ _ H3).
    - intros c Q. rewrite forallb_forall in H4. specialize (H4 c Q). apply andb_true_iff in H4 as (A & B). apply Z.eqb_eq in A. apply negb_true_iff in B. now split.
    - intros i c x Ec Ex. rewrite forallb_forall in H5. specialize (H5 i). rewrite Ec, Ex in H5.
      assert (Q : countableb c x = true) by (apply H5, in_seq; split; [lia|]; apply nth_error_Some; congruence).
      unfold countableb in Q. apply orb_true_iff in Q as [Q|Q]; [left; now apply Z.eqb_eq|]. apply andb_true_iff in Q as (A & B). apply Z.eqb_eq in A. right. left. auto. }
  clear H.
  assert (R : forall f, (length krows < f)%nat -> file_rows quick doubles noise f kfile = (krows, Clean)).
  { intros f L. apply (any_fuel _ _ 4); [|exact L]. vm_compute. reflexivity. }
  assert (RC : forall N, N = 1%nat \/ N = 2%nat -> rows_copyable doubles N [] krows).
  { intros N HN. apply C49_ordinary.
    - intros cs Hc. apply in_map_iff in Hc as (r & <- & Hr). destruct (X r Hr) as (-> & C & _). split; [apply ccols_ok|]. split; [exact C|].
      unfold small. destruct HN as [-> | ->]; vm_compute; auto.
    - intros cs row Hr. apply (X _ Hr). }
  assert (U : forall r r', In r krows -> In r' krows -> map info (fst r) = map info (fst r')).
  { intros r r' A B. destruct (X r A) as (-> & _). destruct (X r' B) as (-> & _). reflexivity. }
  assert (M : forall r c, In r krows -> In c (fst r) -> marked c) by (intros r c Q; now apply X).
  assert (K : forall r i c x, In r krows -> nth_error (fst r) i = Some c -> nth_error (snd r) i = Some x -> countable c x) by (intros r i c x Q; now apply X).
  split; [exact R|]. split; [reflexivity|]. split; [apply RC; auto|]. split; [apply RC; auto|]. split; [exact U|]. split; [exact M|]. split; [exact K|].
  assert (L : (length krows < 3)%nat) by (vm_compute; lia).
  split.
  - destruct (C65_compact quick doubles 1 [] false noise noise noise kfile krows quick_length ltac:(lia) ltac:(discriminate) R R (RC 1%nat (or_introl eq_refl)) U eq_refl M K 3 L)
      as (copy & v & E & V & _). apply V. assert (Q : verdict_is (Ok (copy, v)) = Some true) by (rewrite <- E; vm_compute; reflexivity).
    destruct v as [[]| |]; try discriminate Q. reflexivity.
  - destruct (C65_compact quick doubles 2 [] false noise noise noise kfile krows quick_length ltac:(lia) ltac:(discriminate) R R (RC 2%nat (or_intror eq_refl)) U eq_refl M K 3 L)
      as (copy & v & E & V & _). intros F. apply V in F. subst v. assert (Q : verdict_is (Ok (copy, Ok tt)) = Some false) by (rewrite <- E; vm_compute; reflexivity). discriminate Q.
Qed.
Print Assumptions C65_witness.

(** Joined in one frame, the rows are copied as they are, byte by byte, and the verification
    fails all the same. *)
Theorem C65_joined_refuted :
  verdict_is (compact_file quick doubles 2 [] false noise noise noise 3 kfile) = Some false /\
  match copy_file quick doubles 2 [] noise 3 kfile with Ok copy => map snd (fst (file_rows quick doubles noise 4 copy)) | _ => [] end = map snd krows.
Proof. split; vm_compute; reflexivity. Qed.
