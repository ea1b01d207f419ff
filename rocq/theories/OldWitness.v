(** Concrete cases for C56, and counterexamples. *)
From Coq Require Import String.
From Verif Require Import Spec Base Fp Stream Codec Meta Header Encoder Table Reader
  Quick Through Writer RowReader RowList WriterSpec EncodeWitness WriterWitness
  Comparator CompareWitness CopyWitness QueryWitness Dispatcher QuerySpec OldApi OldSpec P_Old P_OldSession.
Open Scope Z_scope.
Local Notation length := List.length.

(** The hypotheses of C56_session and C56_session_poll. *)
Definition orows : list (list (list Z)) := [[le_bytes 8 d_one; le_bytes 8 0]; [le_bytes 8 0; le_bytes 8 0]; [le_bytes 8 0; le_bytes 8 d_one]].

Lemma owritable rows as_ bs : column_cells 0 rows = map (le_bytes 8) as_ -> column_cells 1 rows = map (le_bytes 8) bs ->
  forallb (fun d => existsb (Z.eqb d) [0; d_one]) (as_ ++ bs) = true ->
  forallb (fun row => match row with [a; b] => (length a =? 8)%nat && (length b =? 8)%nat | _ => false end) rows = true ->
  (rows_room qcols rows [] <? 2 ^ 31) && (len rows <? 1000) = true -> writable doubles qcols [] rows.
Proof.
  intros E1 E2 H Sh R. apply andb_true_iff in R as (R1 & R2).
  assert (A : forall d, In d as_ \/ In d bs -> d = 0 \/ d = d_one).
  { intros d I. rewrite forallb_forall in H. specialize (H d). rewrite in_app_iff in H. specialize (H I). cbn [existsb] in H.
    apply orb_true_iff in H as [H|H]; [left; now apply Z.eqb_eq|]. apply orb_true_iff in H as [H|H]; [right; now apply Z.eqb_eq|discriminate]. }
  assert (S : forall nm l, (forall d, In d l -> d = 0 \/ d = d_one) -> storable doubles (wcol nm ty_DOUBLE 8) (map (le_bytes 8) l)).
  { intros nm l Al. apply storable_doubles.
    - apply Forall_forall. intros d I. destruct (Al d I) as [-> | ->]; vm_compute; split; try split; congruence.
    - intros I. destruct (Al _ I) as [Q|Q]; vm_compute in Q; discriminate.
    - intros ((v & I & Q) & _). destruct (Al _ I) as [-> | ->]; vm_compute in Q; discriminate. }
  split.
  - rewrite forallb_forall in Sh. apply Forall_forall. intros row I. specialize (Sh row I). destruct row as [|a [|b [|]]]; try discriminate. apply andb_true_iff in Sh as (S1 & S2).
    apply Nat.eqb_eq in S1, S2. constructor; [unfold len; rewrite S1; reflexivity|]. constructor; [unfold len; rewrite S2; reflexivity|constructor].
  - intros [|[|[|i]]] ci E; cbn [nth_error qcols] in E; try discriminate; match type of E with Some ?x = Some _ => assert (ci = x) by congruence; subst ci end.
    + rewrite E1. apply S. intros d I. apply A. now left.
    + rewrite E2. apply S. intros d I. apply A. now right.
  - lia.
  - cbn [qcols wcol map ci_size fold_right]. lia.
Qed.

Theorem C56_witness :
  writable_columns qcols [] /\ Forall (writable doubles qcols []) (split_frames 2 [] (map Row orows)) /\ Forall (fun ci => ci_size ci = 8) qcols /\
  length (split_frames 2 [] (map Row orows)) = 2%nat.
Proof.
  split; [|split; [|split]].
  - split.
    + discriminate.
    + vm_compute. reflexivity.
    + constructor; [intros [Q|[]]; vm_compute in Q; discriminate Q|]. constructor; [intros []|constructor].
    + constructor; [discriminate|]. constructor; [discriminate|constructor].
    + constructor; [left; split; [right; right; reflexivity|reflexivity]|]. constructor; [left; split; [right; right; reflexivity|reflexivity]|constructor].
    + constructor; [split; [vm_compute; reflexivity|intros Q; discriminate Q]|]. constructor; [split; [vm_compute; reflexivity|intros Q; discriminate Q]|constructor].
    + split; [constructor|]. split; [vm_compute; reflexivity|constructor].
  - constructor; [apply (owritable _ [d_one; 0] [0; 0]); vm_compute; reflexivity|]. constructor; [apply (owritable _ [0] [d_one]); vm_compute; reflexivity|constructor].
  - constructor; [reflexivity|]. constructor; [reflexivity|constructor].
  - vm_compute. reflexivity.
Qed.

(** A table of one column followed by one of two: the usual caller does not get the first row
    of the second table. *)
Definition one_then_two : list Z := Eval vm_compute in
  file_of doubles 1 [wcol "a" ty_DOUBLE 8] [Row [le_bytes 8 pi]] ++ one_way.
Definition zeros : nat -> list Z := fun _ => [].

Theorem C56_lost_refuted :
  exists file rows it, file_rows quick doubles noise 9 file = (rows, Clean) /\ length rows = 3%nat /\ Forall usual rows /\
    old_open quick doubles noise file = Ok it /\
    old_poll quick doubles noise zeros 9 it = ([Some (le_bytes 8 pi); None; Some (le_bytes 8 pi ++ le_bytes 8 pi)], Clean).
Proof.
  exists one_then_two. destruct (file_rows quick doubles noise 9 one_then_two) as [rows e] eqn:F.
  destruct (old_open quick doubles noise one_then_two) as [it| |] eqn:O; [|vm_compute in O; discriminate O..].
  exists rows, it.
  assert (E : e = Clean) by (transitivity (snd (file_rows quick doubles noise 9 one_then_two)); [now rewrite F|vm_compute; reflexivity]). subst e.
  assert (R : rows = fst (file_rows quick doubles noise 9 one_then_two)) by now rewrite F.
  split; [reflexivity|]. split; [rewrite R; vm_compute; reflexivity|]. split.
  { assert (B : forallb (fun r => negb (length (fst r) =? 0)%nat && forallb (fun c => 1 <=? data_size_doubles (col_coder c)) (fst r)) rows = true) by (rewrite R; vm_compute; reflexivity).
    rewrite forallb_forall in B. apply Forall_forall. intros r I. specialize (B r I). apply andb_true_iff in B as (B1 & B2). split.
    - destruct (fst r); [discriminate|]. discriminate.
    - rewrite forallb_forall in B2. apply Forall_forall. intros c Hc. specialize (B2 c Hc). lia. }
  split; [reflexivity|]. assert (P : match old_open quick doubles noise one_then_two with Ok i => old_poll quick doubles noise zeros 9 i | _ => ([], OutOfFuel) end =
    ([Some (le_bytes 8 pi); None; Some (le_bytes 8 pi ++ le_bytes 8 pi)], Clean)) by (vm_compute; reflexivity). now rewrite O in P.
Qed.

(** Texts that get longer in a later frame of the same file: the usual caller's buffer is
    overrun, though nothing is wrong with the file. *)
Definition getting_longer : list action := [Row [pad 16 (str "a")]; Row [pad 16 (str "abcdefghijkl")]].
Definition longer_file : list Z := Eval vm_compute in file_of doubles 1 [wcol "s" ty_STRING 16] getting_longer.

Theorem C56_overrun_refuted :
  exists file it, write_file quick doubles 1 [] [wcol "s" ty_STRING 16] [] (map call getting_longer) = Ok file /\
    read_rows quick doubles noise 9 file = ([[pad 8 (str "a")]; [pad 16 (str "abcdefghijkl")]], Clean) /\
    old_open quick doubles noise file = Ok it /\ old_poll quick doubles noise zeros 9 it = ([Some (pad 8 (str "a"))], Undefined).
Proof.
  exists longer_file. destruct (old_open quick doubles noise longer_file) as [it| |] eqn:O; [|vm_compute in O; discriminate O..].
  exists it. split; [vm_compute; reflexivity|]. split; [vm_compute; reflexivity|]. split; [reflexivity|].
  assert (P : match old_open quick doubles noise longer_file with Ok i => old_poll quick doubles noise zeros 9 i | _ => ([], OutOfFuel) end =
    ([Some (pad 8 (str "a"))], Undefined)) by (vm_compute; reflexivity). now rewrite O in P.
Qed.

(** Members as texts: what follows the last colon is lost. *)
Theorem C56_texts : bitfield_text [str "a"; str "bc"] [1; 31] = Ok (str "a:bc:", str "1:31:") /\
  set_bitfield_parts (fun t => Z.of_nat (length t)) (str "a:bc") (str "1:31") = ([str "a"], [1]).
Proof. split; vm_compute; reflexivity. Qed.
