(** Concrete cases for C52, and a counterexample. *)
From Coq Require Import String.
From Verif Require Import Spec Base Fp Stream Codec Meta Header Encoder Table Reader ReadSpec
  StreamLocal StreamProofs Quick Through P_Frame Writer RowReader RowList WriterSpec OrdinaryProofs EncodeWitness WriterWitness
  Comparator CompareWitness Copy CopySpec P_Copy CopyWitness CsvSpec P_Tables Setter SetSpec P_Set.
Open Scope Z_scope.
Local Notation length := List.length.

(** "d=3.14,d=0x000000000000f03f": the second assignment, of 1.0, counts. *)
Definition to_pi (t : list Z) : outcome Z := if bytes_eqb t (str "3.14") then Ok pi else Throw UserError.
Definition arg : list Z := str "d=3.14,d=0x000000000000f03f".
Definition dsets : list (list Z * Z) := [(str "d", pi); (str "d", d_one)].
Definition drows : list arow := map (fun r => (fst r, [nth 0 (snd r) []; le_bytes 8 d_one])) crows.

Theorem C52_text : assignments to_pi arg dsets.
Proof.
  exists [str "d=3.14"; str "d=0x000000000000f03f"]. split.
  - change arg with (str "d=3.14" ++ 44 :: str "d=0x000000000000f03f").
    assert (P : forall t, forallb (fun c => negb (c =? 10) && negb (c =? 44)) t = true -> t <> [] -> plain [44] t).
    { intros t H N. split; [exact N|]. intros c Hc. rewrite forallb_forall in H. specialize (H c Hc). split; [lia|]. intros [E|[]]. lia. }
    apply lo_more; [apply P; [reflexivity|discriminate]|now left|]. apply lo_one. apply P; [reflexivity|discriminate].
  - assert (M : forall t, forallb (fun c => negb (c =? 10) && negb (c =? 44) && negb (c =? 61)) t = true -> t <> [] -> no_assignment_mark t).
    { intros t H N. split; [exact N|]. intros c Hc. rewrite forallb_forall in H. specialize (H c Hc). lia. }
    constructor; [|constructor; [|constructor]].
    + apply (asg_number _ _ _ _ (str "3.14")); [reflexivity|apply M; [reflexivity|discriminate]|apply M; [reflexivity|discriminate]|intros r; discriminate|reflexivity].
    + apply (asg_bytes _ _ _ _ [str "00"; str "00"; str "00"; str "00"; str "00"; str "00"; str "f0"; str "3f"] [0; 0; 0; 0; 0; 0; 240; 63]).
      * reflexivity.
      * apply M; [reflexivity|discriminate].
      * assert (Z0 : hex_value 48 0) by (left; lia). assert (ZF : hex_value 102 15) by (right; left; lia). assert (Z3 : hex_value 51 3) by (left; lia).
        assert (P0 : hex_pair (str "00") 0) by (exists 48, 48, 0, 0; auto).
        do 6 (constructor; [exact P0|]). constructor; [exists 102, 48, 15, 0; auto|]. constructor; [exists 51, 102, 3, 15; auto|constructor].
      * cbn. lia.
      * vm_compute. reflexivity.
Qed.

Lemma d_second cs : map col_name cs = [str "s"; str "d"] \/ map col_name cs = [str "b"; str "d"] -> designates cs (str "d") 1.
Proof.
  intros H j. unfold positions. split.
  - intros (c & E & C). assert (Ec : nth_error (map col_name cs) j = Some (col_name c)) by (rewrite nth_error_map, E; reflexivity).
    destruct j as [|[|j]]; [|reflexivity|].
    + exfalso. destruct H as [H|H]; rewrite H in Ec; injection Ec as Ec; rewrite <- Ec in C; destruct C as [C|(r & C)]; discriminate.
    + destruct H as [H|H]; rewrite H in Ec; destruct j; discriminate.
  - intros ->. destruct cs as [|c0 [|c1 cs]]; [destruct H; discriminate..|]. exists c1. split; [reflexivity|]. left. cbn [map] in H. destruct H; congruence.
Qed.

(** The hypotheses of C52_set, C52_exists and C52_tool; the columns change within the file. *)
Theorem C52_witness :
  (forall f, (length crows < f)%nat -> file_rows quick doubles noise f cfile = (crows, Clean)) /\
  (forall cs row x, In (cs, row) crows -> In x row -> length x = 8%nat) /\
  (forall cs row nm v, In (cs, row) crows -> In (nm, v) dsets -> exists i, designates cs nm i) /\
  Forall2 (assigned dsets) crows drows /\ rows_copyable doubles 3 [] drows /\ length crows = 5%nat.
Proof.
  assert (Nm : forall cs row, In (cs, row) crows -> designates cs (str "d") 1 /\ length row = 2%nat /\ Forall (fun x => length x = 8%nat) row).
  { assert (B : forallb (fun r : arow => (if list_eq_dec (list_eq_dec Z.eq_dec) (map col_name (fst r)) [str "s"; str "d"] then true
        else if list_eq_dec (list_eq_dec Z.eq_dec) (map col_name (fst r)) [str "b"; str "d"] then true else false) && (length (snd r) =? 2)%nat && forallb (fun x => length x =? 8)%nat (snd r)) crows = true)
      by (vm_compute; reflexivity).
    intros cs row I. rewrite forallb_forall in B. specialize (B _ I). cbn [fst snd] in B. apply andb_true_iff in B as (B & B3). apply andb_true_iff in B as (B1 & B2).
    split; [apply d_second; destruct (list_eq_dec _ _ _); [auto|]; destruct (list_eq_dec _ _ _); [auto|discriminate]|].
    split; [now apply Nat.eqb_eq|]. apply Forall_forall. intros x Hx. rewrite forallb_forall in B3. specialize (B3 x Hx). now apply Nat.eqb_eq. }
  split; [exact (proj1 C49_witness)|]. split; [|split; [|split; [|split]]].
  - intros cs row x Hr Hx. destruct (Nm cs row Hr) as (_ & _ & F). rewrite Forall_forall in F. auto.
  - intros cs row nm v Hr [Q|[Q|[]]]; injection Q as <- _; exists 1%nat; apply (Nm cs row Hr).
  - unfold drows. assert (X : forall l, (forall cs row, In (cs, row) l -> In (cs, row) crows) -> Forall2 (assigned dsets) l (map (fun r => (fst r, [nth 0 (snd r) []; le_bytes 8 d_one])) l)).
    { induction l as [|[cs row] l IH]; intros H; cbn [map]; constructor; [|apply IH; intros; apply H; now right].
      destruct (Nm cs row (H _ _ (or_introl eq_refl))) as (D & L & _). destruct row as [|a [|b [|? ?]]]; try discriminate. cbn [fst snd nth].
      split; cbn [fst snd].
      - reflexivity.
      - reflexivity.
      - intros k nm v i Ek Di Last. destruct k as [|[|k]].
        + exfalso. injection Ek as <- <-. apply (Last 1%nat (str "d") d_one); [lia|reflexivity|exact Di].
        + injection Ek as <- <-. assert (i = 1)%nat as -> by (apply D; now apply Di). reflexivity.
        + destruct k; discriminate.
      - intros [|[|i]] Hi; [reflexivity| |destruct i; reflexivity]. exfalso. apply (Hi (str "d") pi); [now left|exact D]. }
    apply X. auto.
  - assert (H : forallb (fun r => infos_ok (fst r) && forallb copyableb (fst r) && both (ordinaryb doubles) (map info (fst r)) (snd r)) drows = true) by (vm_compute; reflexivity).
    assert (X : forall r, In r drows -> (map info (fst r) = ccols \/ map info (fst r) = bcols) /\ Forall copyable (fst r) /\ Forall2 (ordinary doubles) (map info (fst r)) (snd r)).
    { intros r I. rewrite forallb_forall in H. specialize (H r I). apply andb_true_iff in H as (H & H3). apply andb_true_iff in H as (H1 & H2).
      split; [now apply infos_ok_or|]. split; [|exact (both_ok _ _ (ordinaryb_ok doubles) _ _ H3)].
      rewrite forallb_forall in H2. apply Forall_forall. intros c Hc. apply copyableb_ok. now apply H2. }
    clear H. apply C49_ordinary.
    + intros cs Hc. apply in_map_iff in Hc as (r & <- & Hr). destruct (X r Hr) as ([-> | ->] & C & _).
      * split; [apply ccols_ok|]. split; [exact C|]. unfold small. vm_compute. auto.
      * split; [apply bcols_ok|]. split; [exact C|]. unfold small. vm_compute. auto.
    + intros cs row Hr. apply (X _ Hr).
  - reflexivity.
Qed.

(** By evaluation, on the last two rows' table. *)
Definition small_file : list Z := file_of doubles 2 ccols [Row [pad 8 (str "abc"); le_bytes 8 pi]].
Theorem C52_computed :
  map snd (fst (file_rows quick doubles noise 9 (bytes_of (set_tool quick doubles noise to_pi 2 [] 9 arg small_file)))) =
    [[pad 8 (str "abc"); le_bytes 8 d_one]] /\
  set_tool quick doubles noise to_pi 2 [] 9 (str "q=3.14") small_file = Throw ColumnNotFound /\
  set_tool quick doubles noise to_pi 2 [] 9 (str "d=0x123") small_file = Throw AssertFailed.
Proof. vm_compute. repeat split. Qed.

(** With a text column wider than eight bytes the copy of the row is too short: the writer
    reads beyond it. *)
Definition wide_cols : list colinfo := [wcol "s" ty_STRING 16; wcol "d" ty_DOUBLE 8].
Definition wide_file : list Z := file_of doubles 2 wide_cols [Row [pad 16 (str "abcdefghijkl"); le_bytes 8 pi]].
Theorem C52_wide_refuted :
  map snd (fst (file_rows quick doubles noise 9 wide_file)) = [[pad 16 (str "abcdefghijkl"); le_bytes 8 pi]] /\
  set_tool quick doubles noise to_pi 2 [] 9 arg wide_file = UB.
Proof. vm_compute. repeat split. Qed.
