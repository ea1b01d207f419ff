(** Concrete cases for C43, and its counterexamples. *)
From Coq Require Import String.
From Verif Require Import Spec Base Fp Stream Codec Meta Header Encoder Table Reader ReadSpec
  StreamLocal Quick Through P_Frame Writer RowReader WriterSpec EncodeWitness WriterWitness
  Comparator ComparatorSpec ComparatorProofs P_Compare.
Open Scope Z_scope.
Local Notation length := List.length.

Definition bytes_of (o : outcome (list Z)) : list Z := match o with Ok b => b | _ => [] end.
(** the file with these rows, [N] per frame *)
Definition file_of (st : settings) (N : nat) (cols : list colinfo) (acts : list action) : list Z :=
  bytes_of (write_file quick st N [] cols [] (map call acts)).
Definition other_noise : nat -> nat -> list Z := fun n i => [1; 2; 3; 4; 5; 6; 7; 8; 9].
Definition plain_compare (st : settings) : list Z -> list Z -> outcome unit :=
  compare_files false false [] [] quick st st noise other_noise 50.

(** numbers that differ in the last places *)
Definition kcols : list colinfo :=
  [wcol "n" ty_INTEGER 8; wcol "s" ty_STRING 16; wcol "d" ty_DOUBLE 8; wcol "r" ty_REAL 8].
Definition krow (n : Z) (s : string) (d r : Z) : action := Row [int_cell false n; pad 16 (str s); le_bytes 8 d; le_bytes 8 r].
Definition pi : Z := 4614256656552045848.
Definition facts (p : Z) : list action :=
  [krow 4 "abc" p pi; krow MDI "abcdefghijkl" p d_one; krow 4 "x" 0 pi; krow 5 "" realMDI (2 ^ 63 + pi)].

Definition kfile (p : Z) : list Z := file_of doubles 2 kcols (facts p).

Lemma enough_fuel st junk a b file rs : file_rows quick st junk a file = (rs, Clean) ->
  snd (file_rows quick st junk b file) = Clean -> fst (file_rows quick st junk b file) = rs.
Proof.
  unfold file_rows. destruct (open_rows quick st junk file) as [it| |]; try discriminate.
  revert b it rs. induction a as [|a IH]; intros [|b] it rs; cbn [list_rows]; try discriminate.
  destruct (next_row quick st junk it) as [[it1 [row|]]| |]; try discriminate.
  - specialize (IH b it1). destruct (list_rows quick st junk a it1) as [ra ea], (list_rows quick st junk b it1) as [rb eb].
    cbn [snd fst] in *. intros Q Ce. assert (ea = Clean) by congruence. subst ea.
    specialize (IH ra eq_refl Ce). congruence.
  - cbn [fst]. intros Q _. congruence.
Qed.

Definition apart (r1 r2 : list arow * ending) : bool :=
  Nat.eqb (length (fst r1)) 4 && match snd r1, snd r2 with Clean, Clean => true | _, _ => false end &&
  negb (if list_eq_dec (list_eq_dec (list_eq_dec Z.eq_dec)) (map snd (fst r1)) (map snd (fst r2)) then true else false).
Lemma four_apart r1 r2 : apart r1 r2 = true ->
  length (fst r1) = 4%nat /\ snd r1 = Clean /\ snd r2 = Clean /\ map snd (fst r1) <> map snd (fst r2).
Proof.
  unfold apart. rewrite !Bool.andb_true_iff, Nat.eqb_eq, Bool.negb_true_iff. intros ((A & B) & C). destruct (snd r1), (snd r2); try discriminate.
  destruct (list_eq_dec _ _ _) as [|E] in C; [discriminate|]. auto.
Qed.

(** Two files of four rows in two frames, with missing values and all types, that differ by
    one unit in the last place of two values: they meet the hypotheses of [C43_complete],
    with more than one row and one column, and are not the same files. *)
Theorem C43_witness :
  exists rs1 rs2, (forall n, (length rs1 < n)%nat -> file_rows quick doubles noise n (kfile pi) = (rs1, Clean)) /\
    (forall n, (length rs2 < n)%nat -> file_rows quick doubles other_noise n (kfile (pi + 1)) = (rs2, Clean)) /\
    rs1 <> [] /\ rs1 <> rs2 /\ length rs1 = 4%nat /\
    Forall2 (rows_agree closer false false [] []) rs1 rs2.
Proof.
  assert (H : compare_files false false [] [] quick doubles doubles noise other_noise 50 (kfile pi) (kfile (pi + 1)) = Ok tt) by (vm_compute; reflexivity).
  destruct (C43_sound false false [] [] quick doubles doubles noise other_noise 50 (kfile pi) (kfile (pi + 1)) H) as (rs1 & rs2 & H1 & H2 & F). exists rs1, rs2.
  split; [exact H1|]. split; [exact H2|].
  assert (L : length rs1 = 4%nat /\ rs1 <> rs2).
  { pose proof (H1 (S (length rs1) + 10)%nat ltac:(lia)) as Q1. pose proof (H2 (S (length rs2) + 10)%nat ltac:(lia)) as Q2.
    assert (A : (fun r1 r2 : list arow * ending => length (fst r1) = 4%nat /\ snd r1 = Clean /\ snd r2 = Clean /\ map snd (fst r1) <> map snd (fst r2))
      (file_rows quick doubles noise 20 (kfile pi)) (file_rows quick doubles other_noise 20 (kfile (pi + 1)))).
    { clear. apply four_apart. vm_compute. reflexivity. }
    cbv beta in A.
    destruct A as (A1 & A2 & A3 & A4). 
    pose proof (enough_fuel _ _ _ _ _ _ Q1 A2) as R1. pose proof (enough_fuel _ _ _ _ _ _ Q2 A3) as R2.
    split; [exact (eq_trans (f_equal (@length _) (eq_sym R1)) A1)|].
    intros Q. exact (A4 (f_equal (map snd) (eq_trans R1 (eq_trans Q (eq_sym R2))))). }
  destruct L as (L & NE). clear H H1 H2. split; [intros Q; rewrite Q in L; discriminate L|]. split; [exact NE|]. split; [exact L|exact F].
Qed.

(** The file does not differ from itself; a larger change, a changed text, a value instead
    of a missing one, a row more and another column name are found. *)
Definition scols (n : string) : list colinfo := [wcol "s" ty_STRING 8; wcol n ty_DOUBLE 8].
Definition srow (s : string) (d : Z) : action := Row [pad 8 (str s); le_bytes 8 d].
Definition sfile (n : string) (acts : list action) : list Z := file_of doubles 2 (scols n) acts.
Definition base_file : list Z := sfile "d" [srow "abc" pi; srow "x" realMDI].
Theorem C43_computed :
  plain_compare doubles base_file base_file = Ok tt /\
  plain_compare doubles base_file (sfile "d" [srow "abc" (pi + 2 ^ 24); srow "x" realMDI]) = Throw SeriousBug /\
  plain_compare doubles base_file (sfile "d" [srow "abc" pi; srow "x" realMDI; srow "" 0]) = Throw AssertFailed /\
  plain_compare doubles base_file (sfile "d" [srow "abc" pi; srow "X" realMDI]) = Throw SeriousBug /\
  plain_compare doubles base_file (sfile "d" [srow "abc" realMDI; srow "x" pi]) = Throw SeriousBug /\
  plain_compare doubles base_file (sfile "e" [srow "abc" pi; srow "x" realMDI]) = Throw AssertFailed.
Proof. vm_compute. repeat split. Qed.

(** ** What the comparison does not do *)

(** A file with an infinity, or with a NaN, differs from itself. *)
Definition inf_file : list Z := file_of doubles 2 [wcol "d" ty_DOUBLE 8] [Row [le_bytes 8 (inf_mag f64)]; Row [le_bytes 8 d_one]].
Definition nan_file : list Z := file_of doubles 2 [wcol "d" ty_DOUBLE 8] [Row [le_bytes 8 qnan]; Row [le_bytes 8 qnan]].
Theorem C43_infinity_refuted :
  plain_compare doubles inf_file inf_file = Throw SeriousBug /\
  compare_files false true [] [] quick doubles doubles noise noise 50 inf_file inf_file = Throw SeriousBug /\
  plain_compare doubles nan_file nan_file = Throw SeriousBug /\
  compare_files false true [] [] quick doubles doubles noise noise 50 nan_file nan_file = Ok tt /\
  snd (read_rows quick doubles noise 9 inf_file) = Clean /\ snd (read_rows quick doubles noise 9 nan_file) = Clean.
Proof. vm_compute. repeat split. Qed.

(** Large integers that differ are the same: 2000000000 and 2000000001.  If integers are
    kept as integers, any two of moderate size are the same. *)
Definition int_file (st : settings) (n : Z) : list Z := file_of st 2 [wcol "n" ty_INTEGER 8] [Row [int_cell (negb (iad st)) n]].
Theorem C43_integers_refuted :
  plain_compare doubles (int_file doubles 2000000000) (int_file doubles 2000000001) = Ok tt /\
  plain_compare int64s (int_file int64s 1) (int_file int64s 1000) = Ok tt /\
  fst (read_rows quick doubles noise 9 (int_file doubles 2000000000)) = [[int_cell false 2000000000]] /\
  fst (read_rows quick int64s noise 9 (int_file int64s 1000)) = [[int_cell true 1000]].
Proof. vm_compute. repeat split. Qed.

(** Kept as integers, any two integers from 0 to 2^62 are the same. *)
Lemma small_pattern n : 0 <= n < 2 ^ 52 -> val f64 n = n /\ is_fin f64 n = true /\ is64 n.
Proof.
  intros H. unfold val, is_fin, mag, negb_, mag_val, is64. rewrite FpProofs.sign64, FpProofs.inf64. change (mb f64) with 52.
  destruct (Z.leb_spec (2 ^ 63) n); [lia|]. rewrite Z.div_small, Z.mod_small by lia. cbn [Z.eqb]. split; [reflexivity|]. split; lia.
Qed.

Theorem C43_int64_refuted : forall m n, 0 <= m < 2 ^ 52 -> 0 <= n < 2 ^ 52 -> same m n = true.
Proof.
  intros m n Hm Hn. destruct (small_pattern m Hm) as (Vm & Fm & Im), (small_pattern n Hn) as (Vn & Fn & In_).
  apply near_same; try assumption. rewrite Vm, Vn. left.
  assert (2 ^ 52 < tol_below) by (vm_compute; reflexivity). assert (2 ^ 52 < tol) by (vm_compute; reflexivity). lia.
Qed.
Print Assumptions C43_int64_refuted.

(** The same rows cut into frames differently are different: the second frame of the first
    file has no missing values. *)
Theorem C43_frames_refuted :
  let acts := [Row [le_bytes 8 realMDI]; Row [le_bytes 8 d_one]] in
  let one_frame := file_of doubles 2 [wcol "d" ty_DOUBLE 8] acts in
  let two_frames := file_of doubles 1 [wcol "d" ty_DOUBLE 8] acts in
  read_rows quick doubles noise 9 one_frame = read_rows quick doubles noise 9 two_frames /\
  plain_compare doubles one_frame two_frames = Throw AssertFailed /\
  compare_files true false [] [] quick doubles doubles noise noise 50 one_frame two_frames = Ok tt.
Proof. vm_compute. repeat split. Qed.
