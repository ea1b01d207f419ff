(** C52: setting columns to constants. *)
From Coq Require Import String.
From Verif Require Import IntProofs Spec Base Fp FpProofs Stream StreamProofs StreamLocal Codec Meta Header HeaderProofs Encoder Table TableProofs Reader
  FrameProofs Through Writer RowReader RowList WriterSpec WriterProofs WriterRun WriterRead Comparator P_Compare Copy CopySpec CopyProofs P_Copy
  Dispatcher Csv CsvSpec CsvText P_Tables Setter SetSpec.
Open Scope Z_scope.
Local Notation length := List.length.

(** ** Cells *)

Definition set_cells (ps : list (nat * Z)) (row : list (list Z)) : list (list Z) :=
  fold_left (fun r p => list_set r (fst p) (le_bytes 8 (snd p))) ps row.

Lemma set_cells_length ps : forall row, length (set_cells ps row) = length row.
Proof. induction ps as [|p ps IH]; intros row; cbn [set_cells fold_left]; [reflexivity|]. fold (set_cells ps (list_set row (fst p) (le_bytes 8 (snd p)))). rewrite IH. apply list_set_length. Qed.

Lemma set_cells_none : forall ps row i, (forall p, In p ps -> fst p <> i) -> nth_error (set_cells ps row) i = nth_error row i.
Proof.
  induction ps as [|[j v] ps IH]; intros row i H; cbn [set_cells fold_left fst snd]; [reflexivity|].
  fold (set_cells ps (list_set row j (le_bytes 8 v))). rewrite IH by (intros p Hp; apply H; now right).
  assert (j <> i) by (apply (H (j, v)); now left). clear -H0. revert row i H0. 
  induction j as [|j IH]; intros [|x row] [|i] N; cbn [list_set nth_error]; try reflexivity; try (now elim N). apply IH. congruence.
Qed.

Lemma set_cells_last : forall ps row k i v, nth_error ps k = Some (i, v) -> (i < length row)%nat ->
  (forall k' i' v', (k < k')%nat -> nth_error ps k' = Some (i', v') -> i' <> i) ->
  nth_error (set_cells ps row) i = Some (le_bytes 8 v).
Proof.
  induction ps as [|[j u] ps IH]; intros row [|k] i v E L H; cbn [nth_error] in E; try discriminate;
    cbn [set_cells fold_left fst snd]; fold (set_cells ps (list_set row j (le_bytes 8 u))).
  - injection E as -> ->. rewrite set_cells_none.
    + rewrite nth_error_list_set, Nat.eqb_refl by exact L. reflexivity.
    + intros [i' v'] Hp. apply In_nth_error in Hp as (k' & Ek). apply (H (S k') i' v'); [lia|exact Ek].
  - apply (IH _ k); [exact E|now rewrite list_set_length|]. intros k' i' v' Hk Ek. apply (H (S k') i' v'); [lia|exact Ek].
Qed.

Lemma set_cells_eight : forall ps row, Forall (fun x : list Z => length x = 8%nat) row -> Forall (fun x : list Z => length x = 8%nat) (set_cells ps row).
Proof.
  induction ps as [|[j u] ps IH]; intros row H; cbn [set_cells fold_left fst snd]; [exact H|].
  fold (set_cells ps (list_set row j (le_bytes 8 u))). apply IH. clear -H. revert j. induction H as [|x row H0 H IH]; intros [|j]; cbn [list_set]; constructor; auto.
Qed.

Lemma eight_length row : Forall (fun x : list Z => length x = 8%nat) row -> length (concat row) = (8 * length row)%nat.
Proof. induction 1 as [|x row H _ IH]; cbn [concat length]; [reflexivity|]. rewrite app_length. lia. Qed.

Lemma put_concat : forall row i v, Forall (fun x : list Z => length x = 8%nat) row -> (i < length row)%nat ->
  put_double (concat row) (Z.of_nat i) v = concat (list_set row i (le_bytes 8 v)).
Proof.
  intros row i v. unfold put_double. replace (Z.to_nat (8 * Z.of_nat i)) with (8 * i)%nat by lia.
  replace (Z.to_nat (8 * Z.of_nat i + 8)) with (8 * i + 8)%nat by lia. revert i.
  induction row as [|x row IH]; intros i H L; [cbn in L; lia|]. inversion H as [|? ? H0 H1]; subst. destruct i as [|i].
  - cbn [list_set concat Nat.mul Nat.add]. rewrite firstn_O. cbn [app]. f_equal. rewrite <- H0 at 1. 
    rewrite skipn_app, skipn_all, Nat.sub_diag. reflexivity.
  - cbn [list_set concat length] in *. rewrite firstn_app, skipn_app, firstn_all2, skipn_all2 by lia. rewrite <- IH by (assumption || lia).
    rewrite H0, <- app_assoc. replace (8 * S i - 8)%nat with (8 * i)%nat by lia. replace (8 * S i + 8 - 8)%nat with (8 * i + 8)%nat by lia. reflexivity.
Qed.

Section Set_.
Variable sets : list (list Z * Z).

(** positions of the assigned columns *)
Definition places (cs : list column) (is_ : list nat) : Prop := Forall2 (fun p i => designates cs (fst p) i) sets is_.

Lemma indices_ok cs is_ : places cs is_ -> update_indices sets cs = Ok (map Z.of_nat is_).
Proof.
  intros H. unfold update_indices. apply map_out_forall2. unfold places in H. clear -H. induction H as [|p i ps is_ D _ IH]; cbn [map]; constructor; [|exact IH].
  apply (proj1 (C39_column_index cs (fst p))). split; [lia|]. intros j. rewrite (D j). lia.
Qed.

Lemma places_bound cs is_ : places cs is_ -> Forall (fun i => (i < length cs)%nat) is_.
Proof.
  unfold places. intros H. induction H as [|p i ps is_ D _ IH]; constructor; [|exact IH].
  destruct (proj2 (D i) eq_refl) as (c & E & _). apply nth_error_Some. congruence.
Qed.

Lemma update_ok row : forall is_ ss, Forall (fun x : list Z => length x = 8%nat) row -> Forall (fun i => (i < length row)%nat) is_ ->
  fold_left (fun d p => put_double d (fst p) (snd (snd p))) (combine (map Z.of_nat is_) (ss : list (list Z * Z))) (concat row) =
  concat (set_cells (combine is_ (map snd ss)) row).
Proof.
  intros is_. revert row. induction is_ as [|i is_ IH]; intros row [|[nm v] ss] H B; cbn [map combine fold_left]; try reflexivity.
  inversion B; subst. cbn [fst snd]. rewrite put_concat by assumption. rewrite IH.
  - reflexivity.
  - apply (set_cells_eight [(i, v)]). exact H.
  - rewrite list_set_length. assumption.
Qed.

Lemma assigned_cells cs is_ row : places cs is_ -> length row = length cs ->
  assigned sets (cs, row) (cs, set_cells (combine is_ (map snd sets)) row).
Proof.
  intros P L. assert (Ls : length is_ = length sets) by (symmetry; apply (TableProofs.Forall2_length _ _ _ P)).
  assert (At : forall k i v, nth_error (combine is_ (map snd sets)) k = Some (i, v) -> exists nm, nth_error sets k = Some (nm, v) /\ designates cs nm i).
  { intros k i v E. unfold places in P. clear -E P. revert k E. induction P as [|[nm u] j ps is_ D _ IH]; intros [|k] E; cbn [map combine nth_error snd fst] in E; try discriminate.
    - injection E as -> ->. exists nm. split; [reflexivity|exact D].
    - apply IH. exact E. }
  split; cbn [fst snd].
  - reflexivity.
  - apply set_cells_length.
  - intros k nm v i E D H. apply (set_cells_last _ _ k).
    + destruct (nth_error is_ k) as [i0|] eqn:Ei.
      2:{ apply nth_error_None in Ei. assert (k < length sets)%nat by (apply nth_error_Some; congruence). lia. }
      assert (Ec : nth_error (combine is_ (map snd sets)) k = Some (i0, v)).
      { clear -Ei E. revert sets k E Ei. induction is_ as [|a is_ IH]; intros [|s ss] [|k] E Ei; cbn in *; try discriminate; [injection E as ->; injection Ei as ->; reflexivity|]. now apply IH. }
      destruct (At k i0 v Ec) as (nm0 & E0 & D0). assert (nm0 = nm) by congruence. subst nm0.
      assert (i0 = i) by (apply D; now apply D0). subst i0. exact Ec.
    + rewrite L. destruct (proj2 (D i) eq_refl) as (c & Ec & _). apply nth_error_Some. congruence.
    + intros k' i' v' Hk Ek. destruct (At k' i' v' Ek) as (nm' & E' & D'). intros ->. now apply (H k' nm' v' Hk E').
  - intros i H. apply set_cells_none. intros [i' v'] Hp. apply In_nth_error in Hp as (k & Ek). destruct (At k i' v' Ek) as (nm' & E' & D').
    cbn [fst]. intros ->. apply (H nm' v'); [eapply nth_error_In; exact E'|exact D'].
Qed.

Lemma assigned_cases cs is_ : places cs is_ -> forall i,
  (exists k nm v, nth_error sets k = Some (nm, v) /\ designates cs nm i /\
     forall k' nm' v', (k < k')%nat -> nth_error sets k' = Some (nm', v') -> ~ designates cs nm' i) \/
  (forall nm v, In (nm, v) sets -> ~ designates cs nm i).
Proof.
  unfold places. revert is_. induction sets as [|[nm v] ss IH]; intros is1 P1 i.
  - right. intros ? ? [].
  - inversion P1 as [|? j ? js D1 D2]; subst. cbn [fst] in D1. destruct (IH js D2 i) as [(k & nm0 & v0 & H1 & H2 & H3)|H].
    + left. exists (S k), nm0, v0. split; [exact H1|]. split; [exact H2|]. intros [|k'] nm' v' Hk Ek; [lia|]. apply (H3 k' nm' v'); [lia|exact Ek].
    + destruct (Nat.eq_dec j i) as [->|Nj].
      * left. exists 0%nat, nm, v. split; [reflexivity|]. split; [exact D1|]. intros [|k'] nm' v' Hk Ek; [lia|]. apply (H nm' v'). eapply nth_error_In. exact Ek.
      * right. intros nm' v' [Q|Q]; [|now apply (H nm' v')]. injection Q as -> ->. intros D. apply Nj. apply D. now apply D1.
Qed.

Lemma assigned_unique cs row a b is_ : places cs is_ -> length row = length cs ->
  assigned sets (cs, row) (cs, a) -> assigned sets (cs, row) (cs, b) -> a = b.
Proof.
  intros P L Q0 Q2. apply (ReaderProofs.nth_ext_error). intros i.
  destruct (assigned_cases cs is_ P i) as [(k & nm & v & H1 & H2 & H3)|H].
  + pose proof (as_set _ _ _ Q0 k nm v i H1 H2 H3) as A. pose proof (as_set _ _ _ Q2 k nm v i H1 H2 H3) as B. cbn [snd] in *. congruence.
  + pose proof (as_kept _ _ _ Q0 i H) as A. pose proof (as_kept _ _ _ Q2 i H) as B. cbn [snd] in *. congruence.
Qed.

(** ** Rows *)

Definition eight (r : arow) : Prop := Forall (fun x : list Z => length x = 8%nat) (snd r).
Definition named (r : arow) : Prop := exists is_, places (fst r) is_.

Lemma take_ok it is_ : length (r_last it) = length (r_cols it) -> eight (r_cols it, r_last it) -> places (r_cols it) is_ ->
  take_row sets it (map Z.of_nat is_) = Ok (concat (set_cells (combine is_ (map snd sets)) (r_last it))).
Proof.
  intros L E P. unfold take_row. unfold eight in E. cbn [snd] in E. rewrite (eight_length _ E), L, Nat.ltb_irrefl.
  rewrite firstn_all2 by (rewrite (eight_length _ E), L; lia). f_equal. unfold update. apply update_ok; [exact E|].
  rewrite L. now apply (places_bound _ is_).
Qed.
End Set_.

Lemma pass1_row_concat md5 st N pr w fresh md a b : concat a = concat b -> pass1_row md5 st N pr w fresh md a = pass1_row md5 st N pr w fresh md b.
Proof. intros E. unfold pass1_row. now rewrite E. Qed.

Lemma copied_of_matched st st' rows fl rows' : Forall2 (matched rows) rows fl -> Forall2 (comes_back st st') fl rows' -> Forall2 (copied st st') rows rows'.
Proof.
  intros M C. remember (matched rows) as P eqn:EP.
  assert (HP : forall r f, P r f -> snd f = snd r /\ exists cs, fst f = map info cs /\ map shape cs = map shape (fst r)) by (subst P; intros r f (A & cs & B & D & _); eauto).
  clear EP. revert rows' C. induction M as [|r f rs l M0 M IH]; intros rows' C; inversion C as [|? out ? ? (C1 & C2) C']; subst; constructor; [|now apply IH].
  apply HP in M0 as (M1 & cs & M2 & M3). rewrite M2, M1 in *. split.
  - clear -C1 M3. destruct r as [cs2 row], out as [cs3 out]. cbn [fst] in *. revert cs2 M3 cs3 C1. induction cs as [|c cs IH]; intros [|c2 cs2] M3 cs3 C1; try discriminate;
      inversion C1 as [|? d ? ds (D1 & D2 & _) C1']; subst; constructor.
    + cbn [info ci_name ci_type] in D1, D2. cbn [map] in M3. assert (shape c = shape c2) as Q by congruence. unfold shape in Q. split; congruence.
    + apply IH; [cbn [map] in M3; congruence|exact C1'].
  - now apply same_row_info with (cs1 := cs).
Qed.

Section Run.
Variables st st' : settings.
Variables (pr : props) (md5 : list Z -> list Z).
Hypothesis Hd : digest md5.
Variable N : nat.
Hypothesis HN : (0 < N)%nat.
Variable junk : nat -> nat -> list Z.
Variable sets : list (list Z * Z).
Variable rows' : list arow.
Hypothesis HC : rows_copyable st N pr rows'.

(** the state of the iterator while the rows [rs] are to come, the first being current *)
Definition coming (u : uiter) (rs rs' : list arow) : Prop :=
  (u_end u = true /\ rs = [] /\ rs' = []) \/
  (u_end u = false /\ r_end (u_it u) = false /\ shaped (u_it u) /\ ahead md5 st junk (u_it u) rs /\
    (exists is_, places sets (r_cols (u_it u)) is_ /\ u_idx u = map Z.of_nat is_) /\
    Forall2 (assigned sets) rs rs' /\
    exists row rest, rs' = (r_cols (u_it u), row) :: rest /\ u_data u = concat row).

Lemma next_coming u rs rs' : coming u rs rs' -> Forall eight rs -> Forall (named sets) rs -> Forall eight rs' ->
  u_end u = false -> exists u1 r r' rest rest', next_update md5 st junk sets u = Ok u1 /\ rs = r :: rest /\ rs' = r' :: rest' /\
    coming u1 rest rest' /\ fst r' = r_cols (u_it u) /\ concat (snd r') = u_data u /\
    (u_end u1 = true \/ r_new (u_it u1) = true \/ r_cols (u_it u1) = r_cols (u_it u)).
Proof.
  intros [(C & _)|(C0 & C1 & Sh & A & (is_ & P & Ei) & F & row & rest' & -> & Ed)] E8 En E8' Hu; [congruence|].
  destruct (ahead_step md5 st junk (u_it u) rs Sh C1 A) as (it1 & o & rest & -> & Nx & A1).
  destruct (next_step md5 st junk (u_it u) it1 o Sh Nx) as (Sh1 & Nc).
  inversion F as [|? ? ? ? F0 F1]; subst. inversion E8 as [|? ? E80 E81]; subst. inversion En as [|? ? En0 En1]; subst. inversion E8' as [|? ? E80' E81']; subst.
  unfold next_update. rewrite C0, Nx. cbn [bind]. destruct Nc as [(R1 & _)|(R1 & _ & Rn)]; rewrite R1.
  - exists {| u_it := it1; u_idx := u_idx u; u_data := u_data u; u_end := true |}. exists (r_cols (u_it u), r_last (u_it u)), (r_cols (u_it u), row), rest, rest'.
    split; [reflexivity|]. split; [reflexivity|]. split; [reflexivity|]. split.
    { left. destruct A1 as [(_ & ->)|(Q & _)]; [|congruence]. inversion F1; subst. auto. }
    split; [reflexivity|]. split; [now rewrite Ed|now left].
  - destruct A1 as [(Q & _)|(_ & rest1 & -> & R2)]; [congruence|].
    inversion F1 as [|? r1' ? rest2 Q0 Q1]; subst. inversion En1 as [|? ? En2 En3]; subst. inversion E81 as [|? ? E82 E83]; subst.
    destruct En2 as (is1 & P1). cbn [fst] in P1.
    assert (Idx : (if r_new it1 then update_indices sets (r_cols it1) else Ok (u_idx u)) = Ok (map Z.of_nat is1)).
    { destruct Rn as [-> |(_ & Rc)]; [now apply indices_ok|]. destruct (r_new it1); [now apply indices_ok|].
      rewrite Ei. f_equal. f_equal. rewrite <- Rc in P. clear -P P1. unfold places in *. revert is1 P1.
      induction P as [|p i ps is_ D _ IH]; intros is1 P1; inversion P1 as [|? j ? js D1 D2]; subst; [reflexivity|]. f_equal; [|now apply IH].
      apply D1. now apply D. }
    rewrite Idx. cbn [bind]. assert (L1 : length (r_last it1) = length (r_cols it1)) by (now apply Sh1).
    rewrite (take_ok sets it1 is1 L1 E82 P1). cbn [bind].
    eexists _, (r_cols (u_it u), r_last (u_it u)), (r_cols (u_it u), row), _, _. split; [reflexivity|]. split; [reflexivity|]. split; [reflexivity|].
    cbn [u_it u_end]. split; [|split; [reflexivity|split; [now rewrite Ed|right; destruct Rn as [Rn|(_ & Rc)]; auto]]].
    right. cbn [u_it u_end u_idx u_data]. split; [reflexivity|]. split; [exact R1|]. split; [exact Sh1|].
    split; [right; split; [exact R1|]; exists rest1; auto|]. split; [exists is1; auto|]. split; [constructor; assumption|].
    destruct r1' as [cs1 row1]. exists row1, rest2. pose proof (as_columns _ _ _ Q0) as Ec. cbn [fst] in Ec. subst cs1. split; [reflexivity|].
    now rewrite (assigned_unique sets (r_cols it1) (r_last it1) row1 _ is1 P1 L1 Q0 (assigned_cells sets (r_cols it1) is1 (r_last it1) P1 L1)).
Qed.

Lemma set_loop_ok : forall rs rs' u w cs0 p done, rows' = done ++ rs' -> coming u rs rs' -> Forall eight rs -> Forall (named sets) rs -> Forall eight rs' ->
  session st st' pr md5 N rows' w cs0 p done -> (u_end u = false -> r_new (u_it u) = true \/ map shape (r_cols (u_it u)) = map shape cs0) ->
  forall fuel, (length rs < fuel)%nat -> exists w' cs1 p', set_loop md5 st junk sets N pr fuel w u = Ok w' /\ session st st' pr md5 N rows' w' cs1 p' rows'.
Proof using All.
  induction rs as [|r rs IH]; intros rs' u w cs0 p done E C E8 En E8' Se F [|fuel] Hf; try (cbn in Hf; lia); cbn [set_loop].
  - destruct C as [(C & _ & ->)|(_ & _ & _ & _ & _ & F2 & row & rest & -> & _)]; [|inversion F2]. rewrite C. exists w, cs0, p. rewrite app_nil_r in E. rewrite <- E in Se. auto.
  - destruct (u_end u) eqn:Ue; [destruct C as [(_ & C & _)|(C & _)]; [discriminate|congruence]|].
    destruct (next_coming u _ rs' C E8 En E8' Ue) as (u1 & r0 & r' & rest & rest' & Nx & Er & -> & C1 & Fc & Fd & Fn).
    injection Er as -> <-. destruct r' as [cs' row']. cbn [fst snd] in *. subst cs'.
    assert (Hin : In (r_cols (u_it u), row') rows') by (rewrite E; apply in_or_app; right; now left).
    destruct (row_step st st' pr md5 Hd N HN junk rows' HC w cs0 p done (r_new (u_it u)) (r_cols (u_it u)) row' Se Hin (F eq_refl)) as (w1 & cs1 & p1 & R1 & R2 & R3).
    rewrite (pass1_row_concat _ _ _ _ _ _ _ [u_data u] row') by (cbn [concat]; rewrite app_nil_r; congruence).
    rewrite R1. cbn [bind]. rewrite Nx. cbn [bind]. inversion E8; subst. inversion En; subst. inversion E8'; subst.
    apply (IH rest' u1 w1 cs1 p1 (done ++ [(r_cols (u_it u), row')])); auto.
    + now rewrite <- app_assoc.
    + intros E1. destruct Fn as [Fn|[Fn|Fn]]; [congruence|auto|right; congruence].
    + cbn [length] in Hf. lia.
Qed.
End Run.

(** ** C52 *)

(** The rows of the new file are those of the old one with the assignments carried out. *)
Theorem C52_set : forall md5 st st' N pr junk sets file rows rows1, digest md5 -> (0 < N)%nat -> rows <> [] ->
  (forall f, (length rows < f)%nat -> file_rows md5 st junk f file = (rows, Clean)) ->
  (forall cs row x, In (cs, row) rows -> In x row -> length x = 8%nat) ->
  (forall cs row nm v, In (cs, row) rows -> In (nm, v) sets -> exists i, designates cs nm i) ->
  Forall2 (assigned sets) rows rows1 -> rows_copyable st N pr rows1 ->
  exists out, (forall fuel, (length rows < fuel)%nat -> set_file md5 st junk sets N pr fuel file = Ok out) /\
    forall junk', exists rows2, Forall2 (copied st st') rows1 rows2 /\
      forall f, (length rows < f)%nat -> file_rows md5 st' junk' f out = (rows2, Clean).
Proof.
  intros md5 st st' N pr junk sets file rows rows1 Hd HN Hne R W D As HC.
  assert (E8 : Forall eight rows).
  { apply Forall_forall. intros [cs row] Hr. apply Forall_forall. intros x Hx. apply (W cs row x Hr Hx). }
  assert (En : Forall (named sets) rows).
  { apply Forall_forall. intros [cs row] Hr. unfold named, places. cbn [fst].
    assert (X : forall nm v, In (nm, v) sets -> exists i, designates cs nm i) by (intros nm v; apply (D cs row nm v Hr)). clear -X.
    induction sets as [|[nm v] ss IH]; [exists []; constructor|]. destruct IH as (is_ & P); [intros; eapply X; right; eassumption|].
    destruct (X nm v (or_introl eq_refl)) as (i & Di). exists (i :: is_). constructor; assumption. }
  assert (exists it, begin_rows md5 st junk file = Ok it) as (it & B).
  { pose proof (R (S (length rows)) ltac:(lia)) as Q. unfold file_rows in Q. unfold begin_rows.
    destruct (open_rows md5 st junk file) as [it0| |]; cbn [bind]; try discriminate. cbn [list_rows] in Q.
    destruct (next_row md5 st junk it0) as [[it1 o]| |]; cbn [bind]; try discriminate. eauto. }
  destruct (begin_ahead md5 st junk file it rows B) as (Sh & AH). apply AH in R. clear AH.
  destruct R as [(_ & R)|(Ee & rest & Er & Rr)]; [congruence|]. 
  assert (L : length (r_last it) = length (r_cols it)) by (now apply Sh).
  rewrite Er in *. clear Er. inversion As as [|? r1 ? rest1 A0 A1]; subst. destruct r1 as [cs1 row1]. pose proof (as_columns _ _ _ A0) as Ec. cbn [fst] in Ec. subst cs1.
  inversion En as [|? ? (is_ & P) En1]; subst. cbn [fst] in P. inversion E8 as [|? ? E80 E81]; subst.
  set (u := {| u_it := it; u_idx := map Z.of_nat is_; u_data := concat (set_cells (combine is_ (map snd sets)) (r_last it)); u_end := false |}).
  assert (Bu : begin_update sets it = Ok u).
  { unfold begin_update. rewrite (indices_ok sets _ is_ P). cbn [bind]. rewrite (take_ok sets it is_ L E80 P). reflexivity. }
  assert (Row1 : row1 = set_cells (combine is_ (map snd sets)) (r_last it)).
  { apply (assigned_unique sets (r_cols it) (r_last it) _ _ is_ P L A0). now apply assigned_cells. }
  assert (E81' : Forall eight ((r_cols it, row1) :: rest1)).
  { constructor; [rewrite Row1; apply set_cells_eight; exact E80|]. clear -A1 E81 En1. induction A1 as [|r r1 rs rs1 A _ IH]; constructor.
    - inversion En1 as [|? ? (is_ & P) _]; subst. inversion E81; subst. destruct r as [cs row], r1 as [cs1 row1]. pose proof (as_columns _ _ _ A) as Ec. cbn [fst] in *. subst cs1.
      unfold eight in *. cbn [snd] in *. apply Forall_forall. intros x Hx. apply In_nth_error in Hx as (i & Ei).
      destruct (assigned_cases sets cs is_ P i) as [(k & nm & v & H3 & H4 & H5)|H].
      + pose proof (as_set _ _ _ A k nm v i H3 H4 H5) as Q. cbn [snd] in Q. rewrite Q in Ei. injection Ei as <-. reflexivity.
      + pose proof (as_kept _ _ _ A i H) as Q. cbn [snd] in Q. rewrite Q in Ei. apply nth_error_In in Ei. rewrite Forall_forall in H1. auto.
    - inversion En1; inversion E81; subst. auto. }
  assert (Cm : coming st md5 junk sets u ((r_cols it, r_last it) :: rest) ((r_cols it, row1) :: rest1)).
  { right. unfold u. cbn [u_it u_end u_idx u_data]. split; [reflexivity|]. split; [exact Ee|]. split; [exact Sh|]. split; [right; split; [exact Ee|]; exists rest; auto|].
    split; [exists is_; auto|]. split; [constructor; assumption|]. exists row1, rest1. split; [reflexivity|now rewrite Row1]. }
  set (rows1 := (r_cols it, row1) :: rest1) in *.
  assert (Hin : In (r_cols it) (map fst rows1)) by (now left).
  destruct (start_ok st pr N rows1 HC (new_writer []) (r_cols it) Hin eq_refl) as (w & G1 & G2 & base & G3 & G4 & G5). cbn [new_writer w_out] in G2, G5.
  assert (Se : session st st' pr md5 N rows1 (write_header w) (r_cols it) [] []).
  { split; auto.
    - exists base. rewrite G2. auto.
    - intros ? [].
    - exists []. rewrite G2. split; [apply hold_nil|constructor]. }
  assert (Core : forall fuel, (length (((r_cols it, r_last it) :: rest) : list arow) < fuel)%nat -> exists copy r1, set_file md5 st junk sets N pr fuel file = Ok copy /\
            frames_hold st st' pr md5 copy r1 /\ Forall2 (matched rows1) rows1 r1).
  { intros fuel Hf. destruct (set_loop_ok st st' pr md5 Hd N HN junk sets rows1 HC _ rows1 u (write_header w) (r_cols it) [] [] eq_refl Cm E8 En E81' Se) with (fuel := fuel)
      as (w1 & cs1 & p1 & L1 & [S1 (base1 & B1 & B2 & B3) S3 S4 (r1 & D1 & D2)]); [intros _; now right|exact Hf|].
    unfold set_file. rewrite B. cbn [bind]. rewrite Bu. cbn [bind]. change (u_it u) with it. rewrite G1. cbn [bind]. rewrite L1. cbn [bind].
    destruct (known st pr N rows1 HC cs1 S1) as (_ & _ & W1).
    destruct (session_flush st st' pr md5 Hd N HN (map info cs1) base1 W1 B1 w1 p1 (w_out w1) B3) as (w2 & Dd & F1 & F2 & F3);
      [lia|intros Hp; apply (part_ok st pr N rows1 HC); auto; lia|].
    rewrite F1. cbn [bind]. unfold Writer.close. destruct F2 as [Q1 _ Q3 Q4 _ _ _]. rewrite Q1. unfold flush. rewrite Q1, Q3. cbn [assert bind].
    eexists (w_out w2), _. split; [reflexivity|]. split; [|exact D2]. rewrite Q4. now apply hold_app. }
  destruct (Core (S (length ((r_cols it, r_last it) :: rest))) (Nat.lt_succ_diag_r _)) as (out & r1 & K & (fs & bs & -> & F & <-) & M).
  exists (concat bs). split.
  - intros fuel Hf. destruct (Core fuel Hf) as (out' & _ & K' & _). rewrite K'. clear -K K' B Bu. revert K K'. unfold set_file. rewrite B. cbn [bind]. rewrite Bu. cbn [bind].
    destruct (pass1_init st (new_writer []) (r_cols (u_it u))) as [w| |]; cbn [bind]; try discriminate.
    generalize (S (length (((r_cols it, r_last it) :: rest) : list arow))) as f1. intros f1.
    assert (X : forall a b w u x y, set_loop md5 st junk sets N pr a w u = Ok x -> set_loop md5 st junk sets N pr b w u = Ok y -> x = y).
    { clear. induction a as [|a IH]; intros [|b] w u x y; cbn [set_loop]; try discriminate.
      destruct (u_end u); [congruence|]. destruct (pass1_row md5 st N pr w (r_new (u_it u)) (r_cols (u_it u)) [u_data u]) as [w1| |]; cbn [bind]; try discriminate.
      destruct (next_update md5 st junk sets u) as [u1| |]; cbn [bind]; try discriminate. apply IH. }
    destruct (set_loop md5 st junk sets N pr f1 (write_header w) u) as [x| |] eqn:E1; cbn [bind]; try discriminate.
    destruct (set_loop md5 st junk sets N pr fuel (write_header w) u) as [y| |] eqn:E2; cbn [bind]; try discriminate.
    rewrite (X _ _ _ _ _ _ E2 E1). congruence.
  - intros junk'. destruct (read_file st st' pr md5 Hd junk' fs bs F) as (rows2 & C & RR).
    assert (Ll : length (flat fs) = length (((r_cols it, r_last it) :: rest) : list arow)).
    { pose proof (TableProofs.Forall2_length _ _ _ M) as Q1. pose proof (TableProofs.Forall2_length _ _ _ As) as Q2. congruence. }
    exists rows2. split; [|now rewrite <- Ll]. now apply (copied_of_matched st st' rows1 (flat fs)).
Qed.
Print Assumptions C52_set.

(** There always are such rows. *)
Theorem C52_exists : forall md5 st junk sets file rows,
  (forall f, (length rows < f)%nat -> file_rows md5 st junk f file = (rows, Clean)) ->
  (forall cs row nm v, In (cs, row) rows -> In (nm, v) sets -> exists i, designates cs nm i) ->
  exists rows1, Forall2 (assigned sets) rows rows1 /\ forall other, Forall2 (assigned sets) rows other -> other = rows1.
Proof.
  intros md5 st junk sets file rows R D.
  assert (L : Forall (fun r : arow => length (snd r) = length (fst r)) rows).
  { assert (exists it, begin_rows md5 st junk file = Ok it) as (it & B).
    { pose proof (R (S (length rows)) ltac:(lia)) as Q. unfold file_rows in Q. unfold begin_rows.
      destruct (open_rows md5 st junk file) as [it0| |]; cbn [bind]; try discriminate. cbn [list_rows] in Q.
      destruct (next_row md5 st junk it0) as [[it1 o]| |]; cbn [bind]; try discriminate. eauto. }
    destruct (begin_ahead md5 st junk file it rows B) as (Sh & AH). apply AH in R. clear -R Sh. revert it R Sh.
    induction rows as [|r rows IH]; intros it A Sh; constructor.
    - destruct A as [(_ & Q)|(E & rest & Q & _)]; [discriminate|]. injection Q as -> _. cbn [fst snd]. now apply Sh.
    - destruct (r_end it) eqn:E; [destruct A as [(_ & A)|(A & _)]; [discriminate|congruence]|].
      destruct (ahead_step md5 st junk it _ Sh E A) as (it1 & o & rest & Q & Nx & A1). injection Q as _ ->.
      destruct (next_step md5 st junk it it1 o Sh Nx) as (Sh1 & _). now apply (IH it1). }
  clear R. induction rows as [|[cs row] rows IH]; [exists []; split; [constructor|intros o H; now inversion H]|].
  inversion L as [|? ? L0 L1]; subst. cbn [fst snd] in L0.
  destruct IH as (rows1 & H & U); [intros; eapply D; [right; eassumption|eassumption]|exact L1|].
  assert (exists is_, places sets cs is_) as (is_ & P).
  { assert (X : forall nm v, In (nm, v) sets -> exists i, designates cs nm i) by (intros nm v; apply (D cs row nm v); now left). clear -X. unfold places.
    induction sets as [|[nm v] ss IH]; [exists []; constructor|]. destruct IH as (is_ & P); [intros; eapply X; right; eassumption|].
    destruct (X nm v (or_introl eq_refl)) as (i & Di). exists (i :: is_). constructor; assumption. }
  eexists (_ :: rows1). split; [constructor; [now apply (assigned_cells sets cs is_)|exact H]|].
  intros o Ho. inversion Ho as [|? [cs1 row1] ? o1 A B]; subst. f_equal; [|now apply U]. pose proof (as_columns _ _ _ A) as Ec. cbn [fst] in Ec. subst cs1. f_equal.
  apply (assigned_unique sets cs row _ _ is_ P L0 A). now apply assigned_cells.
Qed.
Print Assumptions C52_exists.

(** A name that designates no column of the first table, or more than one, is refused. *)
Theorem C52_unknown : forall md5 st N pr junk sets file rows nm v, 
  (forall f, (length rows < f)%nat -> file_rows md5 st junk f file = (rows, Clean)) ->
  In (nm, v) sets -> rows <> [] -> (forall i, ~ designates (fst (hd ([], []) rows)) nm i) ->
  forall fuel, set_file md5 st junk sets N pr fuel file = Throw ColumnNotFound \/ set_file md5 st junk sets N pr fuel file = Throw AmbiguousColumn.
Proof.
  intros md5 st N pr junk sets file rows nm v R I Hne D fuel.
  assert (exists it, begin_rows md5 st junk file = Ok it) as (it & B).
  { pose proof (R (S (length rows)) ltac:(lia)) as Q. unfold file_rows in Q. unfold begin_rows.
    destruct (open_rows md5 st junk file) as [it0| |]; cbn [bind]; try discriminate. cbn [list_rows] in Q.
    destruct (next_row md5 st junk it0) as [[it1 o]| |]; cbn [bind]; try discriminate. eauto. }
  destruct (begin_ahead md5 st junk file it rows B) as (Sh & AH). apply AH in R. clear AH.
  destruct R as [(_ & R)|(_ & rest & -> & _)]; [congruence|]. cbn [hd fst] in D.
  assert (X : update_indices sets (r_cols it) = Throw ColumnNotFound \/ update_indices sets (r_cols it) = Throw AmbiguousColumn).
  { unfold update_indices. clear -I D. induction sets as [|[nm0 v0] ss IH]; [destruct I|]. cbn [map_out fst].
    assert (C : (exists k, column_index (r_cols it) nm0 = Ok k /\ exists i, designates (r_cols it) nm0 i) \/
                column_index (r_cols it) nm0 = Throw ColumnNotFound \/ column_index (r_cols it) nm0 = Throw AmbiguousColumn).
    { unfold column_index. destruct (column_index_spec nm0 (r_cols it) 0 None) as [H _]. specialize (H eq_refl).
      destruct (column_index_loop (r_cols it) 0 nm0 None) as [k|e|]; [|destruct e; try contradiction; auto|contradiction].
      left. exists k. split; [reflexivity|]. destruct H as (i & _ & H). exists i. exact H. }
    destruct C as [(k & -> & i & Di)|[-> | ->]]; cbn [bind]; auto.
    destruct I as [I|I]; [injection I as -> ->; exfalso; apply (D i Di)|]. destruct (IH I) as [-> | ->]; auto. }
  unfold set_file. rewrite B. cbn [bind]. unfold begin_update. destruct X as [-> | ->]; auto.
Qed.
Print Assumptions C52_unknown.

(** ** The text of the assignments *)

Lemma hex_digit_ok c d : hex_value c d -> hex_digit c = Some d /\ 0 <= d < 16 /\ is_space c = false /\ c <> 45 /\ c <> 43.
Proof.
  unfold hex_value, hex_digit, digitb, is_space. intros H.
  destruct (Z.leb_spec 48 c), (Z.leb_spec c 57), (Z.leb_spec 97 c), (Z.leb_spec c 102), (Z.leb_spec 65 c), (Z.leb_spec c 70); cbn [andb]; try (exfalso; lia);
    (split; [f_equal; lia|]); split; try lia; split; try lia.
Qed.

Lemma hex_pair_ok p b : hex_pair p b -> exists x y, p = [x; y] /\ strtoul16 [x; y] mod 256 = b /\ 0 <= b < 256.
Proof.
  intros (x & y & h & l & -> & Hx & Hy & ->). exists x, y. split; [reflexivity|].
  destruct (hex_digit_ok x h Hx) as (X1 & X2 & X3 & X4 & X5). destruct (hex_digit_ok y l Hy) as (Y1 & Y2 & _).
  split; [|lia]. unfold strtoul16. cbn [drop_while]. rewrite X3.
  destruct (Z.eqb_spec x 45); [lia|]. destruct (Z.eqb_spec x 43); [lia|].
  assert (E : hex_prefix [x; y] = [x; y]) by (unfold hex_prefix; repeat (destruct x as [|x|x]; try reflexivity)).
  rewrite E. cbn [hex_number]. rewrite X1, Y1. rewrite Z.mul_0_r, Z.add_0_l, !Z.mod_small; lia.
Qed.

Lemma hex_bytes_ok ps bs : Forall2 hex_pair ps bs -> hex_bytes (concat ps) = bs /\ length (concat ps) = (2 * length bs)%nat /\ Forall (fun b => 0 <= b < 256) bs.
Proof.
  induction 1 as [|p b ps bs H _ (IH1 & IH2 & IH3)]; [repeat split; constructor|].
  destruct (hex_pair_ok p b H) as (x & y & -> & E & B). cbn [concat app hex_bytes length]. rewrite E, IH1, IH2. split; [reflexivity|]. split; [lia|now constructor].
Qed.

Lemma le_val_zeros bs : le_val (bs ++ repeat 0 (8 - length bs)) = le_val bs.
Proof.
  generalize (8 - length bs)%nat as n. intros n. induction bs as [|b bs IH]; cbn [app le_val]; [|now rewrite IH].
  induction n as [|n IH]; cbn [repeat le_val]; [reflexivity|]. rewrite IH. cbn. reflexivity.
Qed.

Lemma mark_split nm n : no_assignment_mark nm -> no_assignment_mark n -> split_text [61] (nm ++ 61 :: n) = [nm; n].
Proof.
  intros (A & B) (C & D). rewrite split_at; [|exact A|intros x Hx [E|[]]; destruct (B x Hx); lia|now left].
  f_equal. apply split_one; [exact C|]. intros x Hx [E|[]]. destruct (D x Hx). lia.
Qed.

Theorem C52_parse : forall translate t sets, assignments translate t sets -> parse_updates translate t = Ok sets.
Proof.
  intros translate t sets (ts & L & F). unfold parse_updates. rewrite (split_line [44] ts t L). apply map_out_forall2.
  clear L. induction F as [|x p ts sets A _ IH]; constructor; [|exact IH]. destruct p as [nm v]. cbn [fst snd] in A.
  destruct A as [n E Hn Hv N T | ps bs E Hn H Lb Ev]; subst.
  - rewrite mark_split by assumption. unfold set_value.
    assert (starts_with (str "0x") n = false) as ->; [|cbn [negb]; rewrite T; reflexivity].
    destruct (starts_with (str "0x") n) eqn:S; [|reflexivity]. apply starts_with_app in S as (r & E). now elim (N r).
  - destruct (hex_bytes_ok ps bs H) as (H1 & H2 & H3).
    assert (M : no_assignment_mark (str "0x" ++ concat ps)).
    { split; [discriminate|]. intros c Hc. apply in_app_or in Hc as [Hc|Hc].
      - cbn in Hc. destruct Hc as [<-|[<-|[]]]; lia.
      - apply in_concat in Hc as (p & Hp & Hc). clear -H Hp Hc. induction H as [|q b ps bs H0 _ IH]; [destruct Hp|]. destruct Hp as [->|Hp]; [|auto].
        destruct H0 as (x & y & h & l & -> & X & Y & _). unfold hex_value in *. destruct Hc as [<-|[<-|[]]]; lia. }
    rewrite mark_split by assumption. unfold set_value. rewrite (proj2 (starts_with_app (str "0x") (str "0x" ++ concat ps))) by eauto.
    cbn [negb]. change (skipn 2 (str "0x" ++ concat ps)) with (concat ps). rewrite H1, H2.
    replace (Z.of_nat (2 * length bs) mod 2) with 0 by (rewrite Nat2Z.inj_mul, Z.mul_comm, Z_mod_mult; reflexivity).
    replace (Z.of_nat (2 * length bs) / 2) with (Z.of_nat (length bs)) by (rewrite Nat2Z.inj_mul, Z.mul_comm, Z_div_mult by lia; reflexivity).
    destruct (Z.leb_spec (Z.of_nat (length bs)) 8); [|lia]. cbn [assert bind Z.eqb]. now rewrite le_val_zeros.
Qed.
Print Assumptions C52_parse.

(** The tool: text of assignments, old file, new file. *)
Theorem C52_tool : forall md5 st st' N pr junk translate arg sets file rows rows1, digest md5 -> (0 < N)%nat -> rows <> [] ->
  assignments translate arg sets ->
  (forall f, (length rows < f)%nat -> file_rows md5 st junk f file = (rows, Clean)) ->
  (forall cs row x, In (cs, row) rows -> In x row -> length x = 8%nat) ->
  (forall cs row nm v, In (cs, row) rows -> In (nm, v) sets -> exists i, designates cs nm i) ->
  Forall2 (assigned sets) rows rows1 -> rows_copyable st N pr rows1 ->
  exists out, (forall fuel, (length rows < fuel)%nat -> set_tool md5 st junk translate N pr fuel arg file = Ok out) /\
    forall junk', exists rows2, Forall2 (copied st st') rows1 rows2 /\
      forall f, (length rows < f)%nat -> file_rows md5 st' junk' f out = (rows2, Clean).
Proof.
  intros md5 st st' N pr junk translate arg sets file rows rows1 Hd HN Hne Ha R W D As HC.
  destruct (C52_set md5 st st' N pr junk sets file rows rows1 Hd HN Hne R W D As HC) as (out & O1 & O2). exists out. split; [|exact O2].
  intros fuel Hf. unfold set_tool. rewrite (C52_parse translate arg sets Ha). cbn [bind]. now apply O1.
Qed.
Print Assumptions C52_tool.
