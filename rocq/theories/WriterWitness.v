(** Concrete cases for C36 and C37, and the counterexamples of C38. *)
From Coq Require Import String.
From Verif Require Import Spec Base Fp Stream Codec Meta Header Encoder Table Reader ReadSpec
  StreamLocal Md5 Through P_Frame P_Numbers P_Reals Writer RowReader WriterSpec WriterProofs P_Writer EncodeWitness.
Open Scope Z_scope.
Local Notation length := List.length.

Definition wcol (nm : string) (ty size : Z) : colinfo := {| ci_name := str nm; ci_type := ty; ci_size := size; ci_bits := [] |}.
Definition wcols : list colinfo := [wcol "n" ty_INTEGER 8; wcol "s" ty_STRING 16; wcol "d" ty_DOUBLE 8].
Definition wrow (n : Z) (s : string) (d : Z) : action := Row [int_cell false n; pad 16 (str s); le_bytes 8 d].
(** the first row of every frame has missing values in its leading columns *)
Definition wacts : list action :=
  [wrow MDI "" d_one; wrow 4 "abc" 0; wrow 4 "abcdefghijkl" 0; Flush; Flush; wrow MDI "x" 0; wrow (-7) "" d_one; wrow 5 "" 0].

Definition noise : nat -> nat -> list Z := fun n i => [65; 66; 67; Z.of_nat n; Z.of_nat i].
Definition got (st : settings) (file : outcome (list Z)) : list (list (list Z)) * ending :=
  match file with Ok f => read_rows md5 st noise 20 f | _ => ([], OutOfFuel) end.
Definition counts (file : outcome (list Z)) : list Z * ending :=
  match file with Ok f => row_counts f | _ => ([], OutOfFuel) end.


Lemma storable_ints nm ns : forallb (fun n => (-2147483648 <=? n) && (n <? 2147483648)) ns = true ->
  storable doubles (wcol nm ty_INTEGER 8) (map (int_cell false) ns).
Proof.
  intros H. apply (st_int doubles); [now left|reflexivity|].
  rewrite forallb_forall in H. split; [|left]; apply Forall_forall; intros n Hn; specialize (H n Hn); unfold mid, int32; lia.
Qed.

Lemma storable_doubles nm bs : Forall num bs -> ~ In negzero bs -> ~ inf_with_missing bs ->
  storable doubles (wcol nm ty_DOUBLE 8) (map (le_bytes 8) bs).
Proof. intros. apply st_double; auto. Qed.

Lemma storable_texts nm cells : forallb (fun c => (length c =? 16)%nat && bytes_okb c) cells = true -> distinct cells < 65536 ->
  storable doubles (wcol nm ty_STRING 16) cells.
Proof.
  intros H D. apply (st_string doubles (wcol nm ty_STRING 16) 2); [reflexivity|reflexivity|lia|lia| | |exact D|intros (Q & _); discriminate Q].
  all: rewrite forallb_forall in H; apply Forall_forall; intros x I; specialize (H x I); apply andb_true_iff in H as (H1 & H2).
  - apply Nat.eqb_eq in H1. rewrite H1. reflexivity.
  - unfold bytes_okb in H2. rewrite forallb_forall in H2. apply Forall_forall. intros z Hz. specialize (H2 z Hz).
    unfold is_byteb, is_byte in *. lia.
Qed.

Definition shaped (rows : list (list (list Z))) : bool :=
  forallb (fun row => match row with [a; b; c] => (length a =? 8)%nat && (length b =? 16)%nat && (length c =? 8)%nat | _ => false end) rows.

Lemma wwritable ns ss ds rows :
  column_cells 0 rows = map (int_cell false) ns -> column_cells 1 rows = ss -> column_cells 2 rows = map (le_bytes 8) ds ->
  shaped rows = true -> forallb (fun n => (-2147483648 <=? n) && (n <? 2147483648)) ns = true ->
  forallb (fun c => (length c =? 16)%nat && bytes_okb c) ss = true ->
  forallb (fun d => existsb (Z.eqb d) [0; d_one]) ds = true ->
  (distinct ss <? 65536) && (rows_room wcols rows [] <? 2 ^ 31) && (len rows <? 1000) = true ->
  writable doubles wcols [] rows.
Proof.
  intros E1 E2 E3 Sh H1 H2 H3 H4. apply andb_true_iff in H4 as (H4 & H6). apply andb_true_iff in H4 as (H4 & H5). split.
  - unfold shaped in Sh. rewrite forallb_forall in Sh. apply Forall_forall. intros row I. specialize (Sh row I).
    destruct row as [|a [|b [|c [|]]]]; try discriminate. apply andb_true_iff in Sh as (Sh & S3). apply andb_true_iff in Sh as (S1 & S2).
    apply Nat.eqb_eq in S1, S2, S3. repeat constructor; unfold len; [rewrite S1|rewrite S2|rewrite S3]; reflexivity.
  - intros [|[|[|[|i]]]] ci E; cbn [nth_error wcols] in E; try discriminate;
      match type of E with Some ?x = Some _ => assert (ci = x) by congruence; subst ci end.
    + rewrite E1. now apply storable_ints.
    + rewrite E2. apply storable_texts; [exact H2|lia].
    + rewrite E3. assert (A : forall d, In d ds -> d = 0 \/ d = d_one).
      { intros d I. rewrite forallb_forall in H3. specialize (H3 d I). cbn [existsb] in H3.
        apply orb_true_iff in H3 as [H3|H3]; [left; now apply Z.eqb_eq|]. apply orb_true_iff in H3 as [H3|H3]; [right; now apply Z.eqb_eq|discriminate]. }
      apply storable_doubles.
      * apply Forall_forall. intros d I. destruct (A d I) as [-> | ->]; vm_compute; split; try split; congruence.
      * intros I. destruct (A _ I) as [Q|Q]; vm_compute in Q; discriminate.
      * intros ((v & I & Q) & _). destruct (A _ I) as [-> | ->]; vm_compute in Q; discriminate.
  - lia.
  - cbn [wcols wcol map ci_size fold_right]. lia.
Qed.

(** 6 rows, two flushes in the middle, 2 rows per frame *)
Theorem C36_witness :
  writable_columns wcols [] /\ Forall (writable doubles wcols []) (split_frames 2 [] wacts) /\
  map (@length _) (split_frames 2 [] wacts) = [2; 1; 2; 1]%nat.
Proof.
  split; [|split].
  - split.
    + discriminate.
    + vm_compute. reflexivity.
    + repeat constructor; intros Q; repeat (destruct Q as [Q|Q]; try (vm_compute in Q; discriminate Q)); exact Q.
    + repeat constructor; discriminate.
    + constructor; [left; split; [left; left; reflexivity|reflexivity]|].
      constructor; [right; split; [reflexivity|exists 2; cbn [ci_size wcol]; lia]|].
      constructor; [left; split; [right; right; reflexivity|reflexivity]|constructor].
    + repeat constructor; try (vm_compute; reflexivity); intros Q; discriminate Q.
    + split; [constructor|]. split; [vm_compute; reflexivity|constructor].
  - constructor; [|constructor; [|constructor; [|constructor; [|constructor]]]].
    + apply (wwritable [MDI; 4] [pad 16 []; pad 16 (str "abc")] [d_one; 0]); vm_compute; reflexivity.
    + apply (wwritable [4] [pad 16 (str "abcdefghijkl")] [0]); vm_compute; reflexivity.
    + apply (wwritable [MDI; -7] [pad 16 (str "x"); pad 16 []] [0; d_one]); vm_compute; reflexivity.
    + apply (wwritable [5] [pad 16 []] [0]); vm_compute; reflexivity.
  - vm_compute. reflexivity.
Qed.

(** what is read: the strings come back in elements as wide as the longest of the frame *)
Definition seen (n : Z) (s : string) (w : nat) (d : Z) : list (list Z) := [int_cell false n; pad w (str s); le_bytes 8 d].

Theorem C36_computed :
  let file := write_file md5 doubles 2 [] wcols [] (map call wacts) in
  got doubles file =
    ([seen MDI "" 8 d_one; seen 4 "abc" 8 0; seen 4 "abcdefghijkl" 16 0; seen MDI "x" 8 0; seen (-7) "" 8 d_one; seen 5 "" 8 0], Clean) /\
  counts file = ([2; 1; 2; 1], Clean) /\
  counts (write_file md5 doubles 100 [] wcols [] (map call wacts)) = ([3; 3], Clean).
Proof. vm_compute. repeat split. Qed.

(** integers as 64-bit values on either side; the first column is constant in the first frame *)
Definition int64_acts : list action :=
  map (fun p => Row [int_cell true (fst p); int_cell true (snd p)]) [(5, 1); (5, 2); (MDI, 3); (MDI, 4); (-2147483648, MDI)].
Theorem C36_int64 :
  let cols := [wcol "a" ty_INTEGER 8; wcol "b" ty_INTEGER 8] in
  let file := write_file md5 int64s 2 [] cols [] (map call int64_acts) in
  let row i p := [int_cell i (fst p); int_cell i (snd p)] in
  got int64s file = (map (row true) [(5, 1); (5, 2); (MDI, 3); (MDI, 4); (-2147483648, MDI)], Clean) /\
  got doubles file = (map (row false) [(5, 1); (5, 2); (MDI, 3); (MDI, 4); (-2147483648, MDI)], Clean).
Proof. vm_compute. repeat split. Qed.

(** ** C38: a missing value set by the client *)

(** Column [a] gets the missing value 0.  The third row is the first of the second frame. *)
Definition zero_acts : list action :=
  map (fun p => Row [int_cell false (fst p); int_cell false (snd p)]) [(5, 1); (6, 2); (0, 3); (0, 4); (7, 5)].

Lemma optimize_doubles st o ty c k : optimize st o ty c = Ok k -> iad st = true ->
  int_type ty \/ real_type ty \/ ty = ty_STRING -> c_int64 k = false.
Proof.
  intros H Hi T.
  assert (G : forall f, c_int64 f = false -> adopt c f = Ok k -> c_int64 k = false).
  { intros f Hf Ha. apply adopt_keeps in Ha as (_ & _ & _ & ->). exact Hf. }
  assert (Gn : forall kd ty, c_int64 (new_codec (iad st) o kd ty) = false).
  { intros kd ty'. rewrite Hi. cbn [new_codec c_int64 negb]. now rewrite andb_false_r. }
  destruct T as [[-> | ->]|[[-> | ->]| ->]]; cbn [optimize Z.eqb orb] in H.
  1,2: unfold optimize, optimize_int in H; cbn [Z.eqb orb ty_INTEGER ty_BITFIELD ty_REAL ty_DOUBLE ty_STRING Pos.eqb] in H;
       apply bind_ok in H as (n & _ & H); eapply G; [|exact H]; apply Gn.
  - unfold optimize, optimize_real in H. cbn [Z.eqb orb ty_REAL Pos.eqb] in H. destruct (c_kind c); try discriminate.
    destruct (c_ord c); try discriminate. apply bind_ok in H as (n & _ & H). eapply G; [|exact H]. apply Gn.
  - unfold optimize, optimize_double in H. cbn [Z.eqb orb ty_REAL ty_DOUBLE Pos.eqb] in H. eapply G; [|exact H]. apply Gn.
  - unfold optimize, optimize_string in H. cbn [Z.eqb orb ty_REAL ty_DOUBLE ty_STRING Pos.eqb] in H.
    apply bind_ok in H as (n & _ & H). apply bind_ok in H as (u & _ & H). apply bind_ok in H as (f & Hf & H). eapply G; [|exact H].
    destruct ((n =? 1) && (data_size_doubles c =? 1)); [injection Hf as <-; apply Gn|].
    assert (Gs : forall kd, (do f1 <- set_data_size (new_codec (iad st) o kd ty_STRING) (data_size_doubles c);
       Ok (set_strings f1 (c_strings c) (c_lookup c) (c_dsd f1))) = Ok f -> c_int64 f = false).
    { intros kd Hx. apply bind_ok in Hx as (f1 & Hx1 & Hx2). apply set_data_size_missing in Hx1 as (_ & _ & B & _).
      injection Hx2 as <-. cbn [set_strings c_int64]. rewrite B. apply Gn. }
    destruct ((n =? 1) && long_strings st); [apply (Gs KLongConstantString Hf)|].
    destruct (n <? 256); [apply (Gs KInt8String Hf)|apply (Gs KInt16String Hf)].
Qed.

(** Whatever was configured, after the first flush every column has the missing value of its
    type again, while the row that the next frame is compared with still holds the
    configured one. *)
Theorem C38_forgotten : forall md5 st N pr w w', w_rows w <> [] -> flush md5 st N pr w = Ok w' ->
  length (w_cols w') = length (w_cols w) /\
  forall i c c', nth_error (w_cols w) i = Some c -> nth_error (w_cols w') i = Some c' ->
    c_missing (col_coder c') = default_missing (col_type c) /\
    ((col_type c = ty_STRING <-> chars_based (c_kind (col_coder c)) = true) ->
     int_type (col_type c) \/ real_type (col_type c) \/ col_type c = ty_STRING -> iad st = true ->
     exists rest, nth_error (w_last w') i = Some (le_bytes 8 (c_missing (col_coder c)) ++ rest)).
Proof.
  intros md5 st N pr w w' Hr H. unfold flush in H. apply bind_ok in H as (u & _ & H).
  destruct (w_rows w) as [|r rs] eqn:Er; [congruence|].
  apply bind_ok in H as (cols & O & H). destruct (65536 <=? _); [discriminate|].
  apply bind_ok in H as (body & _ & H). destruct (_ <? _); [discriminate|]. apply bind_ok in H as (h & _ & H).
  apply bind_ok in H as (cols' & R & H). assert (w' = {| w_cols := map reset_stats cols'; w_last := alloc_buffers cols; w_rows := [];
                w_size := w_size w; w_out := w_out w ++ h ++ body; w_init := true |}) as -> by congruence. clear H. cbn [w_cols w_last].
  apply Api.map_out_inv in O. apply Api.map_out_inv in R. rewrite map_length.
  pose proof (TableProofs.Forall2_length _ _ _ O) as L1. pose proof (TableProofs.Forall2_length _ _ _ R) as L2. split; [congruence|].
  intros i c c' Ec Ec'. rewrite nth_error_map in Ec'. destruct (nth_error cols' i) as [c2|] eqn:E2; [|discriminate]. cbn [option_map] in Ec'.
  assert (c' = reset_stats c2) by congruence. subst c'. clear Ec'.
  destruct (nth_error cols i) as [c1|] eqn:E1; [|apply nth_error_None in E1; assert (nth_error cols' i <> None) by congruence; apply nth_error_Some in H; lia].
  pose proof (P_Memory.Forall2_nth_error _ _ _ i O) as O1. rewrite Ec, E1 in O1. pose proof (P_Memory.Forall2_nth_error _ _ _ i R) as R1. rewrite E1, E2 in R1.
  unfold optimize_column in O1. apply bind_ok in O1 as (k & O1 & O2). assert (c1 = with_coder c k) by congruence. subst c1. clear O2.
  cbn in R1. unfold reset_codec in R1. apply bind_ok in R1 as (k0 & K0 & R1). apply bind_ok in R1 as (k1 & K1 & R1).
  assert (c2 = with_coder (with_coder c k) k1) by congruence. subst c2. clear R1. split.
  - cbn [reset_stats with_coder col_coder set_stats c_missing]. apply working_missing in K0 as (A & _). cbn [with_coder col_type] in A.
    apply set_data_size_missing in K1 as (B & _). congruence.
  - intros HT KT Hi. unfold alloc_buffers. rewrite nth_error_map, E1. cbn [option_map]. eexists. f_equal. unfold initial_cell.
    f_equal. f_equal. cbn [with_coder col_coder]. unfold missing_value. rewrite (optimize_doubles _ _ _ _ _ O1 Hi KT), andb_false_r.
    apply (optimize_keeps _ _ _ _ _ O1); intros Q; [now apply HT|]. destruct (chars_based (c_kind (col_coder c))) eqn:E; [|reflexivity].
    exfalso. apply Q, HT. reflexivity.
Qed.
Print Assumptions C38_forgotten.

Theorem C38_refuted :
  let cols := [wcol "a" ty_INTEGER 8; wcol "b" ty_INTEGER 8] in
  let file N := write_file md5 doubles N [] cols [(0%nat, z2d 0)] (map call zero_acts) in
  let row a b := [int_cell false a; int_cell false b] in
  (* all rows in one frame: read as written *)
  got doubles (file 10%nat) = ([row 5 1; row 6 2; row 0 3; row 0 4; row 7 5], Clean) /\
  (* two rows per frame: the values 0 of the second frame have become 2147483647 *)
  got doubles (file 2%nat) = ([row 5 1; row 6 2; row MDI 3; row MDI 4; row 7 5], Clean).
Proof. vm_compute. repeat split. Qed.
