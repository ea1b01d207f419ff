(** Concrete cases for C69, and counterexamples. *)
From Coq Require Import String.
From Verif Require Import Spec Base Fp Stream Codec Meta Header Encoder Table Reader
  Quick Through Writer RowReader RowList WriterSpec EncodeWitness WriterWitness
  Comparator CompareWitness CopyWitness Dispatcher DispatchSpec HeaderToolSpec P_HeaderTool P_HeaderText LsTool LsSpec P_Ls P_LsText.
Open Scope Z_scope.
Local Notation length := List.length.

Definition lcols : list colinfo := [wcol "n" ty_INTEGER 8; wcol "s@t" ty_STRING 16; wcol "d" ty_DOUBLE 8].
Definition lrow (n : Z) (s : string) (d : Z) : action := Row [le_bytes 8 n; pad 16 (str s); le_bytes 8 d].
Definition listed_file : list Z := Eval vm_compute in
  file_of doubles 2 lcols [lrow (z2d (-12)) "abc" pi; lrow (z2d MDI) "a longer text" realMDI] ++
  file_of doubles 2 [wcol "d" ty_DOUBLE 8] [Row [le_bytes 8 (dneg d_one)]].
Definition listed_rows : list arow := Eval vm_compute in fst (file_rows quick doubles noise 5 listed_file).

Definition listing_text : list Z :=
  str "n" ++ [9] ++ str "s@t" ++ [9] ++ str "d" ++ [10] ++
  str "-12" ++ [9] ++ str "'abc'" ++ [9] ++ str "3.141593" ++ [10] ++
  str "." ++ [9] ++ str "'a longer text'" ++ [9] ++ str "." ++ [10] ++
  str "d" ++ [10] ++ str "-1.000000" ++ [10].
Theorem C69_computed : ls_file quick doubles noise 5 listed_file = (listing_text, 3, Clean).
Proof. vm_compute. reflexivity. Qed.

(** deciding [showable] *)
Definition showableb (c : column) (x : list Z) : bool :=
  (negb (c_hasMissing (col_coder c) =? 0) && (missing_value (col_coder c) =? bits_of x)) ||
  (((col_type c =? ty_INTEGER) || (col_type c =? ty_BITFIELD)) && match d2z_trunc (bits_of x) with Some n => (- 2 ^ 31 <=? n) && (n <? 2 ^ 31) | None => false end) ||
  (((col_type c =? ty_REAL) || (col_type c =? ty_DOUBLE)) && (is64b (bits_of x) && is_fin f64 (bits_of x))) ||
  ((col_type c =? ty_STRING) && (Z.of_nat (length x) =? 8 * data_size_doubles (col_coder c))).
Lemma showableb_ok c x : showableb c x = true -> showable c x.
Proof.
  unfold showableb. rewrite !orb_true_iff. intros [[[H|H]|H]|H]; apply andb_prop in H as (A & B).
  - left. unfold absent. lia.
  - right. left. split; [unfold whole; lia|]. destruct (d2z_trunc (bits_of x)) as [n|]; [|discriminate]. exists n. unfold int32. split; [reflexivity|lia].
  - right. right. left. split; [unfold number; lia|]. apply andb_prop in B as (B1 & B2). unfold is64b, is64 in *. split; [lia|exact B2].
  - right. right. right. lia.
Qed.
Fixpoint all2 (cs : list column) (xs : list (list Z)) : bool :=
  match cs, xs with [], [] => true | c :: cs', x :: xs' => showableb c x && all2 cs' xs' | _, _ => false end.
Lemma all2_ok : forall cs xs, all2 cs xs = true -> Forall2 showable cs xs.
Proof.
  induction cs as [|c cs IH]; intros [|x xs] H; try discriminate; [constructor|]. apply andb_prop in H as (A & B). constructor; [now apply showableb_ok|now apply IH].
Qed.

(** deciding [tidy], for texts without tabs and line breaks in the whole cell *)
Definition fieldb (s : list Z) : bool := forallb (fun c => negb (c =? 9) && negb (c =? 10)) s.
Definition tidyb (r : arow) : bool :=
  negb (length (fst r) =? 0)%nat &&
  forallb (fun c => fieldb (col_name c) && match col_name c with a :: _ => (97 <=? a) && (a <=? 122) | [] => false end) (fst r) &&
  forallb (fun p => fieldb (snd p) || negb (col_type (fst p) =? ty_STRING)) (combine (fst r) (snd r)).
Lemma fieldb_ok s : fieldb s = true -> in_field s.
Proof. unfold fieldb, in_field. rewrite forallb_forall, Forall_forall. intros H c I1. specialize (H c I1). lia. Qed.
Lemma tidyb_ok r : tidyb r = true -> tidy r.
Proof.
  unfold tidyb, tidy. rewrite !andb_true_iff, !forallb_forall, !Forall_forall. intros ((N & A) & B). split; [destruct (fst r); [discriminate|discriminate]|]. split.
  - intros c I1. specialize (A c I1). apply andb_prop in A as (A1 & A2). split; [now apply fieldb_ok|]. destruct (col_name c) as [|a n]; [discriminate|]. exists a, n. split; [reflexivity|]. unfold letter. lia.
  - intros p I1 T s (_ & [E|(rest & E)]); specialize (B p I1); rewrite T in B; change (negb (ty_STRING =? ty_STRING)) with false in B; rewrite orb_false_r in B;
      apply fieldb_ok in B; rewrite E in B; [exact B|]. now apply Forall_app in B.
Qed.

(** The hypotheses of C69_lines and C69_readable. *)
Theorem C69_witness : file_rows quick doubles noise 5 listed_file = (listed_rows, Clean) /\ length listed_rows = 3%nat /\
  Forall (fun r => Forall2 showable (fst r) (snd r)) listed_rows /\ Forall tidy listed_rows.
Proof.
  split; [vm_compute; reflexivity|]. split; [reflexivity|]. split.
  - assert (B : forallb (fun r => all2 (fst r) (snd r)) listed_rows = true) by (vm_compute; reflexivity).
    apply Forall_forall. intros r I1. rewrite forallb_forall in B. now apply all2_ok, B.
  - assert (B : forallb tidyb listed_rows = true) by (vm_compute; reflexivity).
    apply Forall_forall. intros r I1. rewrite forallb_forall in B. now apply tidyb_ok, B.
Qed.

(** A number that is not zero is listed as zero. *)
Definition tenth_of_millionth : Z := Eval vm_compute in round f64 1 (-24).   (* 2^-24 *)
Theorem C69_small_refuted : exists x, is_fin f64 x = true /\ val f64 x <> 0 /\ to_millionth x (str "0.000000") /\ to_millionth 0 (str "0.000000").
Proof.
  exists tenth_of_millionth. split; [vm_compute; reflexivity|]. split; [vm_compute; discriminate|].
  assert (E1 : fixed_text tenth_of_millionth = str "0.000000") by (vm_compute; reflexivity).
  assert (E2 : fixed_text 0 = str "0.000000") by (vm_compute; reflexivity).
  split; [rewrite <- E1|rewrite <- E2]; apply fixed_to_millionth; try (vm_compute; reflexivity); unfold is64, tenth_of_millionth; lia.
Qed.

(** A bitfield with bit 31 set cannot be listed: its value, a double, does not fit the int it is cast
    to. *)
Definition bit31_file : list Z := Eval vm_compute in
  file_of doubles 2 [{| ci_name := str "b"; ci_type := ty_BITFIELD; ci_size := 8; ci_bits := [(str "f", 32)] |}] [Row [le_bytes 8 (z2d (2 ^ 31))]].
Theorem C69_bit31_refuted : exists rows, file_rows quick doubles noise 5 bit31_file = (rows, Clean) /\
  ls_file quick doubles noise 5 bit31_file = (str "b" ++ [10], 0, Undefined).
Proof. eexists. split; [vm_compute; reflexivity|]. vm_compute. reflexivity. Qed.
