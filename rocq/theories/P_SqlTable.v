(** C68: which column of a file a name in a query denotes. *)
From Coq Require Import String.
From Verif Require Import Base Fp Stream Codec Meta Header Encoder Table Writer Reader RowReader RowList Comparator P_Tables SetSpec
  Query QuerySpec P_Query P_Compare Api WriterRun SqlTable SqlTableSpec.
Open Scope Z_scope.
Local Notation length := List.length.

(** ** The columns the engine is told of *)

Definition told (i : nat) (c : column) (t : sqlcol) : Prop :=
  t_name t = col_name c /\ t_index t = i /\ In (col_type c, t_type t) sql_type_names /\
  t_doubles t = (if col_type c =? ty_BITFIELD then None else Some (data_size_doubles (col_coder c))) /\
  (t_hasMissing t = true <-> c_hasMissing (col_coder c) <> 0) /\ t_missing t = missing_value (col_coder c) /\
  t_members t = (col_bfnames c, col_bfsizes c).

Lemma sql_column_told i c t : sql_column i c = Ok t -> told i c t.
Proof.
  unfold sql_column. intros H. unfold told, sql_type_names.
  assert (M : negb (c_hasMissing (col_coder c) =? 0) = true <-> c_hasMissing (col_coder c) <> 0) by (rewrite negb_true_iff, Z.eqb_neq; tauto).
  destruct (Z.eqb_spec (col_type c) ty_INTEGER) as [E|]; [injection H as <-; rewrite E; cbn [In t_name t_index t_type t_doubles t_hasMissing t_missing t_members]; change (ty_INTEGER =? ty_BITFIELD) with false; tauto|].
  destruct (Z.eqb_spec (col_type c) ty_STRING) as [E|]; [injection H as <-; rewrite E; cbn [In t_name t_index t_type t_doubles t_hasMissing t_missing t_members]; change (ty_STRING =? ty_BITFIELD) with false; tauto|].
  destruct (Z.eqb_spec (col_type c) ty_REAL) as [E|]; [injection H as <-; rewrite E; cbn [In t_name t_index t_type t_doubles t_hasMissing t_missing t_members]; change (ty_REAL =? ty_BITFIELD) with false; tauto|].
  destruct (Z.eqb_spec (col_type c) ty_DOUBLE) as [E|]; [injection H as <-; rewrite E; cbn [In t_name t_index t_type t_doubles t_hasMissing t_missing t_members]; change (ty_DOUBLE =? ty_BITFIELD) with false; tauto|].
  destruct (Z.eqb_spec (col_type c) ty_BITFIELD) as [E|]; [|discriminate].
  injection H as <-; rewrite E; cbn [In t_name t_index t_type t_doubles t_hasMissing t_missing t_members]; tauto.
Qed.

Lemma sql_column_total i c : 1 <= col_type c <= 5 -> exists t, sql_column i c = Ok t.
Proof.
  intros H. unfold sql_column, ty_INTEGER, ty_STRING, ty_REAL, ty_DOUBLE, ty_BITFIELD.
  repeat (match goal with |- context [if ?x =? ?y then _ else _] => destruct (Z.eqb_spec x y) as [E|] end; [eauto|]). lia.
Qed.
Lemma sql_column_bad i c : ~ 1 <= col_type c <= 5 -> sql_column i c = Throw SeriousBug.
Proof.
  intros H. unfold sql_column, ty_INTEGER, ty_STRING, ty_REAL, ty_DOUBLE, ty_BITFIELD.
  repeat (match goal with |- context [if ?x =? ?y then _ else _] => destruct (Z.eqb_spec x y) as [E|] end; [lia|]). reflexivity.
Qed.

Lemma sql_columns_total : forall cs i, sql_types cs -> exists ts, sql_columns i cs = Ok ts.
Proof.
  induction cs as [|c cs IH]; intros i H; [eexists; reflexivity|]. apply Forall_inv in H as H1. apply Forall_inv_tail in H.
  destruct (sql_column_total i c H1) as (t & E). destruct (IH (S i) H) as (ts & Es). cbn [sql_columns]. rewrite E. cbn [bind]. rewrite Es. eexists. reflexivity.
Qed.
Lemma sql_columns_bad : forall cs i, ~ sql_types cs -> sql_columns i cs = Throw SeriousBug.
Proof.
  induction cs as [|c cs IH]; intros i H; [destruct H; constructor|]. cbn [sql_columns].
  destruct (Z_le_dec 1 (col_type c)), (Z_le_dec (col_type c) 5); try (rewrite sql_column_bad by lia; reflexivity).
  destruct (sql_column_total i c) as (t & E); [lia|]. rewrite E. cbn [bind]. rewrite IH; [reflexivity|]. intros K. apply H. constructor; [lia|exact K].
Qed.
Lemma sql_columns_told : forall cs i ts, sql_columns i cs = Ok ts -> length ts = length cs /\
  forall k c, nth_error cs k = Some c -> exists t, nth_error ts k = Some t /\ told (i + k) c t.
Proof.
  induction cs as [|c cs IH]; intros i ts H; cbn [sql_columns] in H.
  { injection H as <-. split; [reflexivity|]. intros [|k] ? ?; discriminate. }
  destruct (sql_column i c) as [t| |] eqn:E; try discriminate. cbn [bind] in H.
  destruct (sql_columns (S i) cs) as [ts1| |] eqn:Es; try discriminate. cbn [bind] in H. injection H as <-.
  destruct (IH _ _ Es) as (L & A). split; [cbn; lia|]. intros [|k] d N; cbn [nth_error] in *.
  - injection N as <-. exists t. split; [reflexivity|]. rewrite Nat.add_0_r. now apply sql_column_told.
  - destruct (A k d N) as (u & U1 & U2). exists u. split; [exact U1|]. now replace (i + S k)%nat with (S i + k)%nat by lia.
Qed.

Lemma sql_columns_names : forall cs i ts, sql_columns i cs = Ok ts -> map t_name ts = map col_name cs.
Proof.
  induction cs as [|c cs IH]; intros i ts H; cbn [sql_columns] in H; [now injection H as <-|].
  destruct (sql_column i c) as [t| |] eqn:E; try discriminate. cbn [bind] in H.
  destruct (sql_columns (S i) cs) as [ts1| |] eqn:Es; try discriminate. cbn [bind] in H. injection H as <-.
  cbn [map]. rewrite (IH _ _ Es). f_equal. now apply sql_column_told in E as (-> & _).
Qed.

Lemma distinctb_iff : forall ts, distinctb ts = true <-> NoDup (map t_name ts).
Proof.
  induction ts as [|t ts IH]; cbn [distinctb map]; [split; [constructor|reflexivity]|].
  rewrite andb_true_iff, negb_true_iff, IH. split.
  - intros [A B]. constructor; [|exact B]. intros C. apply in_map_iff in C as (u & E & I).
    assert (existsb (fun u => bytes_eqb (t_name u) (t_name t)) ts = true); [|congruence]. apply existsb_exists. exists u. split; [exact I|]. now apply bytes_eqb_iff.
  - intros N. inversion N as [|? ? N1 N2]; subst. split; [|exact N2].
    destruct (existsb _ ts) eqn:E; [|reflexivity]. exfalso. apply N1. apply existsb_exists in E as (u & I & E). apply bytes_eqb_iff in E. rewrite <- E. now apply in_map.
Qed.

(** The engine is told of every column of the first row, its name, index, type, size, missing
    value and members, and refuses columns of other types. *)
Theorem C68_told : forall cs, NoDup (map col_name cs) ->
  (sql_types cs -> exists ts, make_table cs = Ok ts /\ length ts = length cs /\
    forall i c, nth_error cs i = Some c -> exists t, nth_error ts i = Some t /\ told i c t) /\
  (~ sql_types cs -> make_table cs = Throw SeriousBug).
Proof.
  intros cs D. unfold make_table. split; intros T.
  - destruct (sql_columns_total cs 0 T) as (ts & E). rewrite E. cbn [bind].
    assert (N : distinctb ts = true) by (apply distinctb_iff; rewrite (sql_columns_names _ _ _ E); exact D). rewrite N.
    exists ts. split; [reflexivity|]. apply (sql_columns_told _ _ _ E).
  - now rewrite sql_columns_bad.
Qed.

Lemma make_table_inv cs ts : make_table cs = Ok ts -> sql_columns 0 cs = Ok ts /\ NoDup (map t_name ts).
Proof.
  unfold make_table. destruct (sql_columns 0 cs) as [ts1| |]; cbn [bind]; try discriminate.
  destruct (distinctb ts1) eqn:N; [|discriminate]. intros H. injection H as <-. split; [reflexivity|]. now apply distinctb_iff.
Qed.

(** ** Names *)

Lemma begins_iff nm t : begins nm t = true <-> exists rest, t_name t = nm ++ 64 :: rest.
Proof.
  unfold begins. rewrite starts_with_app. split; intros (r & E); exists r; rewrite E; now rewrite <- app_assoc.
Qed.

Section Names.
Variables (cs : list column) (ts : list sqlcol) (nm : list Z).
Hypothesis made : make_table cs = Ok ts.

Lemma same_place i : (exists c, nth_error cs i = Some c) -> exists c t, nth_error cs i = Some c /\ nth_error ts i = Some t /\ t_name t = col_name c.
Proof.
  intros (c & E). destruct (make_table_inv _ _ made) as (S1 & _). destruct (sql_columns_told _ _ _ S1) as (_ & A).
  destruct (A i c E) as (t & T & (N & _)). eauto.
Qed.
Lemma same_place_r i t : nth_error ts i = Some t -> exists c, nth_error cs i = Some c /\ t_name t = col_name c.
Proof.
  intros E. destruct (make_table_inv _ _ made) as (S1 & _). destruct (sql_columns_told _ _ _ S1) as (L & A).
  destruct (nth_error cs i) as [c|] eqn:C.
  - destruct (A i c C) as (t' & T & (N & _)). exists c. split; [reflexivity|congruence].
  - apply nth_error_None in C. assert (i < length ts)%nat by (apply nth_error_Some; congruence). lia.
Qed.
Lemma named_iff i : named cs nm i <-> exists t, nth_error ts i = Some t /\ t_name t = nm.
Proof.
  split.
  - intros (c & E & N). destruct (same_place i) as (c' & t & E' & T & N'); [eauto|]. exists t. split; [exact T|congruence].
  - intros (t & E & N). destruct (same_place_r i t E) as (c & C & N'). exists c. split; [exact C|congruence].
Qed.
Lemma qualified_iff i : qualified cs nm i <-> exists t, nth_error ts i = Some t /\ begins nm t = true.
Proof.
  split.
  - intros (c & r & E & N). destruct (same_place i) as (c' & t & E' & T & N'); [eauto|]. exists t. split; [exact T|]. apply begins_iff. exists r. congruence.
  - intros (t & E & N). apply begins_iff in N as (r & N). destruct (same_place_r i t E) as (c & C & N'). exists c, r. split; [exact C|congruence].
Qed.

Lemma exactly_some t : exactly ts nm = Some t -> exists i, named cs nm i /\ nth_error ts i = Some t.
Proof.
  unfold exactly. intros H. apply find_some in H as (I & E). apply bytes_eqb_iff in E. apply In_nth_error in I as (i & I). exists i. split; [|exact I]. apply named_iff. eauto.
Qed.
Lemma exactly_none : exactly ts nm = None -> forall i, ~ named cs nm i.
Proof.
  unfold exactly. intros H i N. apply named_iff in N as (t & E & N). apply nth_error_In in E. pose proof (find_none _ _ H t E) as F. cbn beta in F.
  apply bytes_eqb_iff in N. congruence.
Qed.
Lemma one_named i j : named cs nm i -> named cs nm j -> i = j.
Proof.
  intros A B. apply named_iff in A as (t & A1 & A2). apply named_iff in B as (u & B1 & B2).
  destruct (make_table_inv _ _ made) as (_ & D). rewrite NoDup_nth_error in D. apply D.
  - rewrite map_length. apply nth_error_Some. congruence.
  - rewrite !nth_error_map, A1, B1. cbn. congruence.
Qed.
End Names.

(** What the loop of [column] finds. *)
Lemma only_one_some nm : forall ts t0, only_one nm ts (Some t0) =
  if existsb (begins nm) ts then Throw UserError else Ok t0.
Proof.
  induction ts as [|t ts IH]; intros t0; cbn [only_one existsb]; [reflexivity|]. destruct (begins nm t); [reflexivity|]. apply IH.
Qed.
Lemma only_one_none nm : forall ts,
  match only_one nm ts None with
  | Ok t => exists i, nth_error ts i = Some t /\ forall j, (exists u, nth_error ts j = Some u /\ begins nm u = true) <-> j = i
  | Throw UserError => exists i j u v, i <> j /\ nth_error ts i = Some u /\ begins nm u = true /\ nth_error ts j = Some v /\ begins nm v = true
  | Throw SeriousBug => forall j u, nth_error ts j = Some u -> begins nm u = false
  | _ => False
  end.
Proof.
  induction ts as [|t ts IH]; cbn [only_one]; [intros [|j] u; discriminate|]. destruct (begins nm t) eqn:B.
  - rewrite only_one_some. destruct (existsb (begins nm) ts) eqn:E.
    + apply existsb_exists in E as (v & I & V). apply In_nth_error in I as (j & I). exists 0%nat, (S j), t, v. repeat split; auto; discriminate.
    + exists 0%nat. split; [reflexivity|]. intros [|j]; split.
      * reflexivity.
      * exists t. split; [reflexivity|exact B].
      * intros (u & U & V). cbn [nth_error] in U. apply nth_error_In in U. assert (existsb (begins nm) ts = true) by (apply existsb_exists; eauto). congruence.
      * discriminate.
  - destruct (only_one nm ts None) as [u|e|]; [| |exact IH].
    + destruct IH as (i & I & A). exists (S i). split; [exact I|]. intros [|j]; split.
      * intros (u0 & U & V). cbn [nth_error] in U. injection U as <-. congruence.
      * discriminate.
      * intros (u0 & U & V). f_equal. apply A. exists u0. split; assumption.
      * intros Q. injection Q as Q. apply A in Q. exact Q.
    + destruct e; try exact IH.
      * destruct IH as (i & j & u & v & D & U1 & U2 & V1 & V2). exists (S i), (S j), u, v. repeat split; auto.
      * intros [|j] u U; cbn [nth_error] in U; [now injection U as <-|]. now apply (IH j u).
Qed.

(** What [hasColumn] counts. *)
Lemma count_from nm : forall ts n, fold_left (fun n t => if begins nm t then S n else n) ts n = (n + length (filter (begins nm) ts))%nat.
Proof.
  induction ts as [|t ts IH]; intros n; cbn [fold_left filter]; [cbn; lia|]. rewrite IH. destruct (begins nm t); cbn [length]; lia.
Qed.
Lemma only_one_count nm : forall ts,
  match only_one nm ts None with
  | Ok _ => length (filter (begins nm) ts) = 1%nat
  | Throw UserError => (2 <= length (filter (begins nm) ts))%nat
  | _ => length (filter (begins nm) ts) = 0%nat
  end.
Proof.
  induction ts as [|t ts IH]; cbn [only_one filter]; [reflexivity|]. destruct (begins nm t); [|exact IH].
  rewrite only_one_some. destruct (existsb (begins nm) ts) eqn:E; cbn [length].
  - apply existsb_exists in E as (v & I & V). assert (J : In v (filter (begins nm) ts)) by (apply filter_In; split; assumption).
    destruct (filter (begins nm) ts); [contradiction|cbn [length]; lia].
  - f_equal. destruct (filter (begins nm) ts) as [|v l] eqn:F; [reflexivity|]. assert (I : In v (filter (begins nm) ts)) by (rewrite F; now left).
    apply filter_In in I as (I1 & I2). assert (existsb (begins nm) ts = true) by (apply existsb_exists; eauto). congruence.
Qed.
Lemma has_is_column ts nm : table_has ts nm = match table_column ts nm with Ok _ => Ok true | Throw UserError => Throw UserError | _ => Ok false end.
Proof.
  unfold table_has, table_column. destruct (exactly ts nm); [reflexivity|]. rewrite count_from. cbn [Nat.add].
  pose proof (only_one_count nm ts) as H. destruct (only_one nm ts None) as [t|e|]; [rewrite H; reflexivity| |rewrite H; reflexivity].
  destruct e; try (rewrite H; reflexivity). destruct (length (filter (begins nm) ts)) as [|[|n]]; try lia. reflexivity.
Qed.

(** The name of a column denotes it; another name denotes the only column whose name is this
    one, an '@' and more.  Where there are several of these, the name is refused; otherwise it
    is not a name of the table. *)
Theorem C68_names : forall cs ts nm, make_table cs = Ok ts ->
  (forall t, table_column ts nm = Ok t <-> exists i, denotes cs nm i /\ nth_error ts i = Some t) /\
  (table_column ts nm = Throw UserError <-> ambiguous cs nm) /\
  (table_column ts nm = Throw SeriousBug <-> forall i, ~ named cs nm i /\ ~ qualified cs nm i) /\
  (table_has ts nm = Ok true <-> exists i, denotes cs nm i) /\
  (table_has ts nm = Throw UserError <-> ambiguous cs nm) /\
  (table_has ts nm = Ok false <-> forall i, ~ named cs nm i /\ ~ qualified cs nm i).
Proof.
  intros cs ts nm M. rewrite has_is_column. unfold table_column.
  destruct (exactly ts nm) as [t0|] eqn:E.
  { destruct (exactly_some _ _ _ M _ E) as (i0 & N & T0).
    assert (Amb : ~ ambiguous cs nm) by (intros (H & _); exact (H i0 N)).
    assert (No : ~ forall i, ~ named cs nm i /\ ~ qualified cs nm i) by (intros H; destruct (H i0) as (H1 & _); exact (H1 N)).
    split; [|split; [|split; [|split; [|split]]]]; try (split; [discriminate|tauto]).
    - intros t. split.
      + intros H. injection H as <-. exists i0. split; [now left|exact T0].
      + intros (i & [D|(D & _)] & T); [|exfalso; exact (D i0 N)]. rewrite (one_named _ _ _ M _ _ D N) in T. congruence.
    - split; [|reflexivity]. intros _. exists i0. now left. }
  pose proof (exactly_none _ _ _ M E) as NN. pose proof (only_one_none nm ts) as H.
  destruct (only_one nm ts None) as [t0|e|]; [| |contradiction].
  - destruct H as (i0 & T0 & A).
    assert (Q : forall j, qualified cs nm j <-> j = i0) by (intros j; rewrite (qualified_iff _ _ _ M); apply A).
    assert (Amb : ~ ambiguous cs nm) by (intros (_ & i & j & D & I & J); apply Q in I; apply Q in J; congruence).
    assert (No : ~ forall i, ~ named cs nm i /\ ~ qualified cs nm i) by (intros K; destruct (K i0) as (_ & K2); apply K2; now apply Q).
    split; [|split; [|split; [|split; [|split]]]]; try (split; [discriminate|tauto]).
    + intros t. split.
      * intros K. injection K as <-. exists i0. split; [right; split; assumption|exact T0].
      * intros (i & [D|(_ & D)] & T); [exfalso; exact (NN i D)|]. assert (i = i0) by (apply Q, D; reflexivity). congruence.
    + split; [|reflexivity]. intros _. exists i0. right. split; assumption.
  - destruct e; try contradiction.
    + destruct H as (i & j & u & v & D & U1 & U2 & V1 & V2).
      assert (Qi : qualified cs nm i) by (apply (qualified_iff _ _ _ M); eauto). assert (Qj : qualified cs nm j) by (apply (qualified_iff _ _ _ M); eauto).
      assert (Amb : ambiguous cs nm) by (split; [exact NN|exists i, j; auto]).
      assert (ND : forall k, ~ denotes cs nm k).
      { intros k [K|(_ & K)]; [exact (NN k K)|]. apply K in Qi. apply K in Qj. congruence. }
      assert (No : ~ forall i, ~ named cs nm i /\ ~ qualified cs nm i) by (intros K; destruct (K i) as (_ & K2); exact (K2 Qi)).
      split; [|split; [|split; [|split; [|split]]]]; try (split; [discriminate|tauto]); try (split; [intros _; exact Amb|reflexivity]).
      * intros t. split; [discriminate|]. intros (k & K & _). destruct (ND k K).
      * split; [discriminate|]. intros (k & K). destruct (ND k K).
    + assert (NQ : forall k, ~ qualified cs nm k).
      { intros k K. apply (qualified_iff _ _ _ M) in K as (u & U & B). rewrite (H _ _ U) in B. discriminate. }
      assert (ND : forall k, ~ denotes cs nm k).
      { intros k [K|(_ & K)]; [exact (NN k K)|]. apply (NQ k). now apply K. }
      assert (Amb : ~ ambiguous cs nm) by (intros (_ & i & j & _ & I & _); exact (NQ i I)).
      split; [|split; [|split; [|split; [|split]]]]; try (split; [discriminate|tauto]).
      * intros t. split; [discriminate|]. intros (k & K & _). destruct (ND k K).
      * split; [intros _ i; split; [apply NN|apply NQ]|reflexivity].
      * split; [discriminate|]. intros (k & K). destruct (ND k K).
      * split; [intros _ i; split; [apply NN|apply NQ]|reflexivity].
Qed.

(** ** Queries *)

Lemma plain_designates cs full k : named cs full k -> plain cs full -> designates cs full k.
Proof.
  intros N (k0 & A & B) j. unfold positions, called. split.
  - intros (c & E & [C|(r & C)]).
    + assert (J : named cs full j) by (exists c; auto). apply A in J. apply A in N. congruence.
    + exfalso. apply (B j). exists c, r. auto.
  - intros ->. destruct N as (c & E & C). exists c. split; [exact E|now left].
Qed.

Lemma plain_named cs full : plain cs full -> exists k, named cs full k.
Proof. intros (k & A & _). exists k. now apply A. Qed.

Lemma answers_named r full a : plain (fst r) full -> answers r full a -> value_named r full a.
Proof.
  intros P (i & c & cell & D & C & Ce & E). destruct (plain_named _ _ P) as (k & N). pose proof (plain_designates _ _ _ N P) as Dk.
  assert (i = k).
  { assert (Pi : positions (fst r) full i) by (now apply D). apply Dk in Pi. exact Pi. }
  subst i. destruct N as (c' & C' & Nm). exists k, c, cell. repeat split; auto. congruence.
Qed.

Lemma oda_of_load md5 st junk : forall fuel count cols file it, load_table md5 st junk fuel count cols file = Ok it -> r_end it = false -> is_oda file = true.
Proof.
  intros [|f] count cols file it H E; [discriminate|]. cbn [load_table] in H. unfold read_magic in H. unfold is_oda.
  destruct file as [|b file]; [cbn [bind] in H; injection H as <-; discriminate|].
  destruct (length (b :: file) <? 5)%nat eqn:L; [discriminate|].
  destruct (bytes_eqb (firstn 5 (b :: file)) ([255; 255] ++ str "ODA")) eqn:M; [|discriminate].
  apply Nat.ltb_ge in L. apply Nat.leb_le in L. now rewrite L.
Qed.

Lemma oda_nonempty md5 st junk file it o : open_rows md5 st junk file = Ok it -> next_row md5 st junk it = Ok (o) -> r_end (fst o) = false -> is_oda file = true.
Proof.
  intros O N E. apply (oda_of_load _ _ _ _ _ _ _ _ O). destruct (r_end it) eqn:R; [|reflexivity].
  unfold next_row in N. rewrite R in N. injection N as <-. cbn [fst] in E. congruence.
Qed.

(** The table opened on a file that has a row. *)
Lemma table_of_rows md5 st junk fuel file r0 rows e : file_rows md5 st junk (S fuel) file = (r0 :: rows, e) ->
  open_table md5 st junk file = (do ts <- make_table (fst r0); Ok (Some ts)).
Proof.
  intros F. unfold file_rows in F. destruct (open_rows md5 st junk file) as [it0| |] eqn:O; try discriminate.
  cbn [list_rows] in F. destruct (next_row md5 st junk it0) as [[it1 o]| |] eqn:N; try discriminate.
  destruct (begin_steps _ _ _ _ _ _ _ O N) as (B & Sh & G).
  destruct (next_step _ _ _ _ _ _ Sh N) as (Sh1 & [[E1 ->]|(E1 & -> & C)]); [discriminate|].
  destruct (list_rows md5 st junk fuel it1) as [rows1 e1] eqn:L1.
  assert (r0 = (r_cols it1, r_last it1)) by congruence. subst r0.
  unfold open_table. rewrite (oda_nonempty _ _ _ _ _ _ O N E1), B. reflexivity.
Qed.

Lemma found_columns cs ts nms is : make_table cs = Ok ts -> Forall2 (denotes cs) nms is ->
  exists found, map_out (table_column ts) nms = Ok found /\ Forall2 (fun i t => exists c, nth_error cs i = Some c /\ t_name t = col_name c) is found.
Proof.
  intros M F. induction F as [|nm i nms is D F (found & IH1 & IH2)]; [exists []; split; [reflexivity|constructor]|].
  assert (V : exists c, nth_error cs i = Some c).
  { destruct D as [(c & C & _)|(_ & Q)]; [eauto|]. destruct (proj2 (Q i) eq_refl) as (c & r & C & _). eauto. }
  destruct (same_place _ _ M i V) as (c & t & C & T & N).
  assert (Fd : table_column ts nm = Ok t) by (apply (C68_names cs ts nm M); eauto).
  exists (t :: found). split; [cbn [map_out]; rewrite Fd; cbn [bind]; rewrite IH1; reflexivity|]. constructor; [eauto|exact IH2].
Qed.

(** A query for names that denote columns of the first table sees, in every row of the file,
    the value of the column of that (full) name, provided every table has one and none whose
    name continues it with an '@'. *)
Theorem C68_rows : forall md5 st junk nms is fulls file fuel r0 rows e,
  file_rows md5 st junk (S fuel) file = (r0 :: rows, e) -> NoDup (map col_name (fst r0)) -> sql_types (fst r0) ->
  Forall2 (denotes (fst r0)) nms is -> Forall2 (fun i full => named (fst r0) full i) is fulls ->
  Forall (fun r => Forall (plain (fst r)) fulls /\ wide (fst r)) (r0 :: rows) ->
  exists vs, sql_query md5 st junk nms (S fuel) file = Some (vs, e) /\
    Forall2 (fun r v => Forall2 (value_named r) fulls (snd v)) (r0 :: rows) vs.
Proof.
  intros md5 st junk nms is fulls file fuel r0 rows e F D T Dn Nf P.
  unfold sql_query. rewrite (table_of_rows _ _ _ _ _ _ _ _ F). destruct (proj1 (C68_told _ D) T) as (ts & M & _). rewrite M. cbn [bind].
  destruct (found_columns _ _ _ _ M Dn) as (found & Fo & Ff). rewrite Fo.
  assert (Eq : map t_name found = fulls).
  { clear - Ff Nf. revert fulls Nf. induction Ff as [|i t is found (c & C & N) Ff IH]; intros fulls Nf; inversion Nf as [|? full ? fulls' (c' & C' & N') Nf']; subst; [reflexivity|].
    cbn [map]. f_equal; [congruence|now apply IH]. }
  rewrite Eq.
  assert (K : Forall (fun r => knows (fst r) fulls /\ wide (fst r)) (r0 :: rows)).
  { eapply Forall_impl; [|exact P]. intros r (A & W). split; [|exact W]. unfold knows. eapply Forall_impl; [|exact A].
    intros full Pl. destruct (plain_named _ _ Pl) as (k & N). exists k. now apply plain_designates. }
  destruct (C55_rows md5 st junk fulls file fuel _ _ F K) as (vs & Q & A & _). exists vs. rewrite Q. split; [reflexivity|].
  clear - A P. induction A as [|r v rs vs H A IH]; [constructor|]. pose proof (Forall_inv P) as (Pl & _).
  constructor; [|apply IH; exact (Forall_inv_tail P)].
  clear - Pl H. induction H as [|full a fulls as_ Ha H IH]; [constructor|].
  constructor; [apply answers_named; [now apply Forall_inv in Pl|exact Ha]|apply IH; now apply Forall_inv_tail in Pl].
Qed.

(** A query for a column of the first table is refused when another column has its name and an
    '@'. *)
Theorem C68_shadowed : forall md5 st junk nms is i file fuel r0 rows e,
  file_rows md5 st junk (S fuel) file = (r0 :: rows, e) -> NoDup (map col_name (fst r0)) -> sql_types (fst r0) ->
  Forall2 (denotes (fst r0)) nms is -> In i is -> shadowed (fst r0) i ->
  sql_query md5 st junk nms (S fuel) file = Some ([], Failed UserError).
Proof.
  intros md5 st junk nms is i file fuel r0 rows e F D T Dn I (c & j & C & (cj & rest & Cj & Nj)).
  unfold sql_query. rewrite (table_of_rows _ _ _ _ _ _ _ _ F). destruct (proj1 (C68_told _ D) T) as (ts & M & _). rewrite M. cbn [bind].
  destruct (found_columns _ _ _ _ M Dn) as (found & Fo & Ff). rewrite Fo.
  assert (In (col_name c) (map t_name found)) as Hin.
  { clear - Ff I C. induction Ff as [|i0 t is found (c' & C' & N) Ff IH]; [contradiction|]. cbn [map]. destruct I as [->|I]; [left; congruence|right; now apply IH]. }
  assert (Dg : forall k, ~ designates (fst r0) (col_name c) k).
  { intros k H. assert (Pi : positions (fst r0) (col_name c) i) by (exists c; split; [exact C|now left]).
    assert (Pj : positions (fst r0) (col_name c) j) by (exists cj; split; [exact Cj|right; eauto]).
    apply H in Pi. apply H in Pj. subst k. subst j. rewrite C in Cj. injection Cj as <-.
    apply (f_equal (@List.length Z)) in Nj. rewrite app_length in Nj. cbn [List.length] in Nj. lia. }
  destruct (C55_refused md5 st junk (map t_name found) (col_name c) file fuel [] r0 rows e F) as (vs & Q & A); [constructor|exact Hin|exact Dg|].
  inversion A; subst. now rewrite Q.
Qed.
