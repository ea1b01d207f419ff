(** Concrete cases for C49, and a counterexample. *)
From Coq Require Import String.
From Verif Require Import Spec Base Fp Stream Codec Meta Header Encoder Table Reader ReadSpec
  StreamLocal StreamProofs Quick Through P_Frame Writer RowReader RowList WriterSpec OrdinaryProofs EncodeWitness WriterWitness
  Comparator CompareWitness Copy CopySpec P_Copy.
Open Scope Z_scope.
Local Notation length := List.length.

(** Deciding the hypotheses, for columns of strings, doubles and bitfields. *)
Definition ordinaryb (st : settings) (ci : colinfo) (cell : list Z) : bool :=
  if ci_type ci =? ty_STRING then
    (ci_size ci =? 8) && (len cell =? 8) && bytes_okb cell && negb (long_strings st)
  else if ci_type ci =? ty_DOUBLE then
    let v := le_val cell in
    (ci_size ci =? 8) && is64b v && is_fin f64 v && negb (v =? negzero) && bytes_eqb cell (le_bytes 8 v)
  else if ci_type ci =? ty_BITFIELD then
    match d2i32 (le_val cell) with
    | Ok n => (ci_size ci =? 8) && bytes_eqb cell (int_cell (negb (iad st)) n)
    | _ => false
    end
  else false.

Lemma ordinaryb_ok st ci cell : ordinaryb st ci cell = true -> ordinary st ci cell.
Proof.
  unfold ordinaryb. destruct (Z.eqb_spec (ci_type ci) ty_STRING) as [T|_]; [|destruct (Z.eqb_spec (ci_type ci) ty_DOUBLE) as [T|_]; [|destruct (Z.eqb_spec (ci_type ci) ty_BITFIELD) as [T|_]; [|discriminate]]].
  - rewrite !andb_true_iff, Bool.negb_true_iff, !Z.eqb_eq. intros (((A & B) & C) & D). apply (or_string st ci 1); auto; try lia.
    unfold bytes_okb in C. rewrite forallb_forall in C. apply Forall_forall. intros z Hz. specialize (C z Hz). unfold is_byteb, is_byte in *. lia.
  - rewrite !andb_true_iff, Bool.negb_true_iff, Z.eqb_eq, Z.eqb_neq. intros ((((A & B) & C) & D) & E). apply bytes_eqb_eq in E. rewrite E.
    unfold is64b, is_fin in *. apply or_double; auto; [split; [unfold is64; lia|unfold is_nan; lia]|unfold is_inf; lia].
  - destruct (d2i32 (le_val cell)) as [n| |] eqn:D; try discriminate. rewrite andb_true_iff, Z.eqb_eq. intros (A & B). apply bytes_eqb_eq in B. rewrite B.
    apply or_int; auto; [now right|]. unfold d2i32, d2int in D. destruct (d2z_trunc (le_val cell)) as [m|]; [|discriminate].
    destruct ((- 2 ^ 31 <=? m) && (m <=? 2 ^ 31 - 1)) eqn:Q; [|discriminate]. assert (m = n) by congruence. subst. unfold int32. lia.
Qed.

Fixpoint both {A B} (f : A -> B -> bool) (l : list A) (m : list B) : bool :=
  match l, m with [], [] => true | x :: l', y :: m' => f x y && both f l' m' | _, _ => false end.
Lemma both_ok {A B} (f : A -> B -> bool) (P : A -> B -> Prop) : (forall x y, f x y = true -> P x y) -> forall l m, both f l m = true -> Forall2 P l m.
Proof. intros H. induction l as [|x l IH]; intros [|y m]; cbn; try discriminate; constructor; apply andb_true_iff in H0 as (A1 & A2); auto. Qed.

Definition bits_col (nm : string) (bits : list (list Z * Z)) : colinfo := {| ci_name := str nm; ci_type := ty_BITFIELD; ci_size := 8; ci_bits := bits |}.

(** the same rows whatever the number allowed *)
Lemma any_fuel st junk a b file rs : file_rows quick st junk a file = (rs, Clean) -> (length rs < b)%nat ->
  file_rows quick st junk b file = (rs, Clean).
Proof.
  unfold file_rows. destruct (open_rows quick st junk file) as [it| |]; try discriminate.
  revert b it rs. induction a as [|a IH]; intros [|b] it rs; cbn [list_rows]; try discriminate; [intros; lia|].
  destruct (next_row quick st junk it) as [[it1 [row|]]| |]; try discriminate.
  - specialize (IH b it1). destruct (list_rows quick st junk a it1) as [ra ea].
    intros Q L. assert (ea = Clean) by congruence. subst ea. assert (rs = (r_cols it1, row) :: ra) by congruence. subst rs. cbn [length] in L.
    rewrite (IH ra eq_refl) by lia. reflexivity.
  - intros Q _. exact Q.
Qed.

(** A file of three frames: two with a text and a number, the third with bits and a number. *)
Definition ccols : list colinfo := [wcol "s" ty_STRING 8; wcol "d" ty_DOUBLE 8].
Definition bcols : list colinfo := [bits_col "b" [(str "x", 3); (str "y", 2)]; wcol "d" ty_DOUBLE 8].
Definition cfile : list Z :=
  file_of doubles 2 ccols [Row [pad 8 (str "abc"); le_bytes 8 pi]; Row [pad 8 (str ""); le_bytes 8 realMDI]; Row [pad 8 (str "x"); le_bytes 8 pi]] ++
  file_of doubles 2 bcols [Row [int_cell false 5; le_bytes 8 d_one]; Row [int_cell false 2; le_bytes 8 d_one]].
Definition crows : list arow := Eval vm_compute in fst (file_rows quick doubles noise 9 cfile).

Definition pair_dec : forall a b : list Z * Z, {a = b} + {a <> b}.
Proof. decide equality; [apply Z.eq_dec|apply (list_eq_dec Z.eq_dec)]. Defined.
Definition colinfo_dec : forall a b : colinfo, {a = b} + {a <> b}.
Proof. decide equality; [apply (list_eq_dec pair_dec)|apply Z.eq_dec|apply Z.eq_dec|apply (list_eq_dec Z.eq_dec)]. Defined.
Definition infos_ok (cs : list column) : bool :=
  if list_eq_dec colinfo_dec (map info cs) ccols then true
  else if list_eq_dec colinfo_dec (map info cs) bcols then true else false.
Lemma infos_ok_or cs : infos_ok cs = true -> map info cs = ccols \/ map info cs = bcols.
Proof. unfold infos_ok. destruct (list_eq_dec _ _ _); [auto|]. destruct (list_eq_dec _ _ _); [auto|discriminate]. Qed.

Definition copyableb (c : column) : bool :=
  (negb (col_type c =? ty_BITFIELD) || (length (col_bfnames c) =? length (col_bfsizes c))%nat) &&
  (negb (chars_based (c_kind (col_coder c))) ||
     deq (c_min (col_coder c)) (c_min (col_coder c)) && deq (c_max (col_coder c)) (c_max (col_coder c))).
Lemma copyableb_ok c : copyableb c = true -> copyable c.
Proof.
  unfold copyableb, copyable. rewrite andb_true_iff, !orb_true_iff, !Bool.negb_true_iff, Z.eqb_neq, Nat.eqb_eq, andb_true_iff. intros (A & B).
  split; intros Q; [destruct A as [A|A]; [congruence|exact A]|]. destruct B as [B|B]; [congruence|exact B].
Qed.

Lemma ccols_ok : writable_columns ccols [].
Proof.
  split.
  - discriminate.
  - cbn. lia.
  - repeat constructor; cbn; intuition discriminate.
  - repeat constructor; discriminate.
  - constructor; [right; split; [reflexivity|]; exists 1; cbn; lia|]. constructor; [left; split; [right; now right|reflexivity]|constructor].
  - constructor; [|constructor; [|constructor]]; (split; [unfold len31; cbn; lia|discriminate]).
  - split; [constructor|split; [unfold len31; cbn; lia|constructor]].
Qed.
Lemma bcols_ok : writable_columns bcols [].
Proof.
  split.
  - discriminate.
  - cbn. lia.
  - repeat constructor; cbn; intuition discriminate.
  - repeat constructor; discriminate.
  - constructor; [left; split; [left; now right|reflexivity]|]. constructor; [left; split; [right; now right|reflexivity]|constructor].
  - constructor; [|constructor; [|constructor]]; (split; [unfold len31; cbn; lia|]); [intros _|discriminate].
    split; [unfold len31; cbn; lia|]. constructor; [|constructor; [|constructor]]; (split; [unfold len31; cbn; lia|cbn; lia]).
  - split; [constructor|split; [unfold len31; cbn; lia|constructor]].
Qed.

Definition allrows_ok : bool :=
  forallb (fun r => infos_ok (fst r) && forallb copyableb (fst r) && both (ordinaryb doubles) (map info (fst r)) (snd r)) crows.

(** The hypotheses of [C49_copy] and [C49_bitfields] hold of this file; the columns change
    within it. *)
Theorem C49_witness :
  (forall f, (length crows < f)%nat -> file_rows quick doubles noise f cfile = (crows, Clean)) /\
  rows_copyable doubles 3 [] crows /\ length crows = 5%nat /\
  (exists a b, nth_error crows 2 = Some a /\ nth_error crows 3 = Some b /\ map info (fst a) = ccols /\ map info (fst b) = bcols) /\
  (forall cs1 cs2, In cs1 (map fst crows) -> In cs2 (map fst crows) -> map shape cs1 = map shape cs2 -> map info cs1 = map info cs2).
Proof.
  assert (H : allrows_ok = true) by (vm_compute; reflexivity).
  assert (X : forall r, In r crows -> (map info (fst r) = ccols \/ map info (fst r) = bcols) /\ Forall copyable (fst r) /\ Forall2 (ordinary doubles) (map info (fst r)) (snd r)).
  { intros r I. unfold allrows_ok in H. rewrite forallb_forall in H. specialize (H r I). apply andb_true_iff in H as (H & H3). apply andb_true_iff in H as (H1 & H2).
    split; [now apply infos_ok_or|]. split; [|exact (both_ok _ _ (ordinaryb_ok doubles) _ _ H3)].
    rewrite forallb_forall in H2. apply Forall_forall. intros c Hc. apply copyableb_ok. now apply H2. }
  clear H. split; [|split; [|split; [reflexivity|split]]].
  - intros f L. apply (any_fuel _ _ 9); [|exact L]. vm_compute. reflexivity.
  - apply C49_ordinary.
    + intros cs Hc. apply in_map_iff in Hc as (r & <- & Hr). destruct (X r Hr) as ([-> | ->] & C & _).
      * split; [apply ccols_ok|]. split; [exact C|]. unfold small. vm_compute. auto.
      * split; [apply bcols_ok|]. split; [exact C|]. unfold small. vm_compute. auto.
    + intros cs row Hr. apply (X _ Hr).
  - eexists _, _. split; [reflexivity|]. split; [reflexivity|]. split; reflexivity.
  - intros cs1 cs2 H1 H2 E. apply in_map_iff in H1 as (r1 & <- & H1). apply in_map_iff in H2 as (r2 & <- & H2).
    destruct (X r1 H1) as ([A|A] & _), (X r2 H2) as ([B|B] & _); rewrite A, B; try reflexivity.
    all: exfalso; apply (f_equal (map (fun s : list Z * Z * Z => fst (fst s)))) in E; rewrite !map_map in E; cbn [shape fst] in E.
    all: apply (f_equal (map ci_name)) in A; apply (f_equal (map ci_name)) in B; rewrite map_map in A, B; cbn [info ci_name] in A, B.
    all: assert (Q : map ci_name ccols <> map ci_name bcols) by discriminate; apply Q; congruence.
Qed.

(** If the bitfield members change between tables, the copy has the members of the first
    for all rows. *)
Definition changing : list Z :=
  file_of doubles 2 [bits_col "b" [(str "x", 3)]] [Row [int_cell false 5]] ++
  file_of doubles 2 [bits_col "b" [(str "p", 1); (str "q", 2)]] [Row [int_cell false 2]].
Definition members (r : arow) : list (list (list Z)) := map col_bfnames (fst r).
Theorem C49_bitfields_refuted :
  map members (fst (file_rows quick doubles noise 9 changing)) = [[[str "x"]]; [[str "p"; str "q"]]] /\
  map members (fst (file_rows quick doubles noise 9 (bytes_of (copy_file quick doubles 2 [] noise 9 changing)))) = [[[str "x"]]; [[str "x"]]] /\
  map snd (fst (file_rows quick doubles noise 9 (bytes_of (copy_file quick doubles 2 [] noise 9 changing)))) =
    map snd (fst (file_rows quick doubles noise 9 changing)).
Proof. vm_compute. repeat split. Qed.
