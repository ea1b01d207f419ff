(** The writer: every call sequence. *)
From Coq Require Import String.
From Verif Require P_Threads.
From Verif Require Import Spec WriterSpec Base Fp FpProofs Stream StreamProofs StreamLocal Codec Meta Header Encoder Table Writer RowReader Reader
  ColumnProofs HeaderProofs HeaderSize TableProofs DecodeProofs LookupProofs FrameProofs Roundtrip P_Frame WriterProofs.
Open Scope Z_scope.
Local Notation length := List.length.

Lemma map_out_forall2 {A B} (f : A -> outcome B) l l' : Forall2 (fun x y => f x = Ok y) l l' -> map_out f l = Ok l'.
Proof. induction 1 as [|x y l l' H _ IH]; [reflexivity|]. cbn. rewrite H. cbn [bind]. now rewrite IH. Qed.

Lemma choose {A B C} : forall (R : nat -> A -> B -> C -> Prop) la lb, length la = length lb ->
  (forall i a b, nth_error la i = Some a -> nth_error lb i = Some b -> exists c, R i a b c) ->
  exists lc, length lc = length la /\
    forall i a b c, nth_error la i = Some a -> nth_error lb i = Some b -> nth_error lc i = Some c -> R i a b c.
Proof.
  intros R la. revert R. induction la as [|a la IH]; intros R [|b lb] L H; try discriminate.
  - exists []. split; [reflexivity|]. intros [|i] x y z E; discriminate.
  - destruct (H 0%nat a b eq_refl eq_refl) as (c & Hc).
    destruct (IH (fun i => R (S i)) lb) as (lc & Ll & Hl); [cbn in L; lia|intros i; apply (H (S i))|].
    exists (c :: lc). split; [cbn; lia|]. intros [|i] x y z E1 E2 E3; cbn in E1, E2, E3.
    + assert (x = a) by congruence. assert (y = b) by congruence. assert (z = c) by congruence. now subst.
    + eapply Hl; eassumption.
Qed.

(** ** Gathering row by row *)

Fixpoint gather_rows (cols : list column) (rows : list (list (list Z))) : outcome (list column) :=
  match rows with
  | [] => Ok cols
  | r :: rs => do c <- gather_row cols r; gather_rows c rs
  end.

Lemma gather_rows_app cols a b : gather_rows cols (a ++ b) = do c <- gather_rows cols a; gather_rows c b.
Proof.
  revert cols. induction a as [|r a IH]; intros cols; [reflexivity|]. cbn [app gather_rows].
  destruct (gather_row cols r) as [c| |]; cbn [bind]; auto.
Qed.

Lemma gather_row_ok : forall cols row ks, length row = length cols ->
  Forall2 (fun cx k => gather (col_coder (fst cx)) (snd cx) = Ok k) (combine cols row) ks ->
  gather_row cols row = Ok (map (fun ck => with_coder (fst ck) (snd ck)) (combine cols ks)).
Proof.
  induction cols as [|c cols IH]; intros [|x row] ks L F; try discriminate.
  - inversion F; subst. reflexivity.
  - cbn [combine] in F. inversion F as [|? k ? ks' H F']; subst. cbn [gather_row fst snd] in *. rewrite H. cbn [bind].
    rewrite (IH row ks') by (auto; cbn in L; lia). reflexivity.
Qed.

Lemma gather_heads : forall cols row ks (rest : nat -> list (list Z)), length ks = length cols -> length row = length cols ->
  (forall i c k, nth_error cols i = Some c -> nth_error ks i = Some k -> gather_all (col_coder c) (nth i row [] :: rest i) = Ok k) ->
  exists ks1, length ks1 = length cols /\
       Forall2 (fun cx k => gather (col_coder (fst cx)) (snd cx) = Ok k) (combine cols row) ks1 /\
       forall i c k k1, nth_error cols i = Some c -> nth_error ks i = Some k -> nth_error ks1 i = Some k1 ->
         gather_all k1 (rest i) = Ok k.
Proof.
  induction cols as [|c cols IHc]; intros [|x row] [|k ks] rest L Lr H; try discriminate.
  - exists []. split; [reflexivity|]. split; [constructor|]. intros [|i] c k k1 A; discriminate.
  - pose proof (H 0%nat c k eq_refl eq_refl) as H0. cbn in H0. apply bind_ok in H0 as (k1 & E1 & E2).
    destruct (IHc row ks (fun i => rest (S i))) as (ks1 & L1 & F1 & N1); [cbn in L; lia|cbn in Lr; lia| |].
    { intros i c' k' A B. apply (H (S i) c' k' A B). }
    exists (k1 :: ks1). split; [cbn; lia|]. split; [constructor; assumption|].
    intros [|i] c' k' k1' A B C; cbn in A, B, C.
    + assert (c' = c) by congruence. assert (k' = k) by congruence. assert (k1' = k1) by congruence. subst. exact E2.
    + exact (N1 i c' k' k1' A B C).
Qed.

(** all columns: the base column, the cells, the gathered codec *)
Lemma gather_rows_ok : forall rows cols ks, Forall (fun row => length row = length cols) rows -> length ks = length cols ->
  (forall i c k, nth_error cols i = Some c -> nth_error ks i = Some k -> gather_all (col_coder c) (column_cells i rows) = Ok k) ->
  gather_rows cols rows = Ok (map (fun ck => with_coder (fst ck) (snd ck)) (combine cols ks)).
Proof.
  induction rows as [|row rows IH]; intros cols ks Hr L H.
  - cbn [gather_rows]. f_equal. unfold column_cells in H. cbn [map] in H. revert ks L H. clear Hr. induction cols as [|c cols IHc]; intros [|k ks] L H; try discriminate; [reflexivity|].
    cbn [combine map fst snd]. f_equal.
    + specialize (H 0%nat c k eq_refl eq_refl). cbn in H. injection H as <-. now destruct c.
    + apply IHc; [cbn in L; lia|]. intros i c' k' A B. apply (H (S i) c' k' A B).
  - inversion Hr as [|? ? Lr Hr']; subst. cbn [gather_rows].
    assert (G : exists ks1, length ks1 = length cols /\
       Forall2 (fun cx k => gather (col_coder (fst cx)) (snd cx) = Ok k) (combine cols row) ks1 /\
       forall i c k k1, nth_error cols i = Some c -> nth_error ks i = Some k -> nth_error ks1 i = Some k1 ->
         gather_all k1 (column_cells i rows) = Ok k).
    { apply (gather_heads cols row ks (fun i => column_cells i rows)); auto. }
    destruct G as (ks1 & L1 & F1 & N1). rewrite (gather_row_ok cols row ks1 Lr F1). cbn [bind].
    set (cols1 := map (fun ck => with_coder (fst ck) (snd ck)) (combine cols ks1)).
    assert (Lc : length cols1 = length cols) by (unfold cols1; rewrite map_length, combine_length; lia).
    assert (Nc : forall i c k1, nth_error cols i = Some c -> nth_error ks1 i = Some k1 -> nth_error cols1 i = Some (with_coder c k1)).
    { intros i c k1 A B. unfold cols1. rewrite nth_error_map, (P_Threads.nth_error_combine cols ks1 i c k1 A B). reflexivity. }
    rewrite (IH cols1 ks).
    + f_equal. clear -L L1. unfold cols1. clear cols1. revert ks1 ks L L1. induction cols as [|c cols IHc]; intros [|k1 ks1] [|k ks] L L1; try discriminate; [reflexivity|].
      cbn [combine map fst snd]. f_equal. apply IHc; cbn in *; lia.
    + eapply Forall_impl; [|exact Hr']. intros; congruence.
    + congruence.
    + intros i c1 k A B.
      assert (exists c, nth_error cols i = Some c) as (c & C).
      { destruct (nth_error cols i) eqn:E; [eauto|]. apply nth_error_None in E.
        assert (nth_error ks i <> None) as Q by congruence. apply nth_error_Some in Q. lia. }
      assert (exists k1, nth_error ks1 i = Some k1) as (k1 & D).
      { destruct (nth_error ks1 i) eqn:E; [eauto|]. apply nth_error_None in E.
        assert (nth_error ks i <> None) as Q by congruence. apply nth_error_Some in Q. lia. }
      rewrite (Nc i c k1 C D) in A. injection A as <-. cbn [with_coder col_coder]. eapply N1; eassumption.
Qed.

(** ** The items of a frame *)

Section Run.
Variables st st' : settings.

Lemma items_rows rows : forall cols a, (forall i ci, nth_error cols i = Some ci -> storable st ci (column_cells (a + i) rows)) ->
  exists its, map i_ci its = cols /\ (forall i it, nth_error its i = Some it -> i_cells it = column_cells (a + i) rows) /\
    Forall (item_ok st st' LE) its /\
    Forall (fun it => storable st (i_ci it) (i_cells it)) its /\
    Forall (fun it => Forall2 (same_value st st' (ci_type (i_ci it))) (i_cells it) (i_outs it)) its.
Proof.
  induction cols as [|ci cols IH]; intros a H.
  - exists []. split; [reflexivity|]. split; [intros [|i] it E; discriminate|]. repeat split; constructor.
  - destruct (IH (S a)) as (its & E1 & E2 & E3 & E4 & E5).
    { intros i c E. specialize (H (S i) c E). now rewrite Nat.add_succ_r in H. }
    specialize (H 0%nat ci eq_refl). rewrite Nat.add_0_r in H.
    destruct (storable_rt st st' ci _ H) as (outs & G & SV). destruct (G LE) as (k & k' & P & R & C & D).
    exists ({| i_ci := ci; i_k := k; i_k' := k'; i_cells := column_cells a rows; i_outs := outs |} :: its).
    cbn [map i_ci]. rewrite E1. split; [reflexivity|]. split.
    { intros [|i] it E; cbn in E.
      - injection E as <-. now rewrite Nat.add_0_r.
      - rewrite (E2 i it E). now rewrite Nat.add_succ_r. }
    split; [constructor; [|assumption]; split; [exact P|]; split; [exact R|]; split; [exact C|exact D]|].
    split; constructor; assumption.
Qed.

Lemma in_nth_Forall2 {A B} (P : A -> B -> Prop) la lb x : Forall2 P la lb -> In x la -> exists y, P x y.
Proof. induction 1; intros []; subst; eauto. Qed.

Lemma both_Forall2 {A B} (P Q : A -> B -> Prop) la lb x : Forall2 P la lb -> Forall2 Q la lb -> In x la -> exists y, P x y /\ Q x y.
Proof. intros H. induction H; intros G I; inversion G; subst; destruct I; subst; eauto. Qed.

Lemma Forall2_by_nth {A B} (P : A -> B -> Prop) : forall la lb, length la = length lb ->
  (forall i a b, nth_error la i = Some a -> nth_error lb i = Some b -> P a b) -> Forall2 P la lb.
Proof.
  induction la as [|a la IH]; intros [|b lb] L H; try discriminate; constructor.
  - apply (H 0%nat); reflexivity.
  - apply IH; [cbn in L; lia|]. intros i x y A1 B1. apply (H (S i)); assumption.
Qed.

Variables (cols : list colinfo) (pr : props).
Hypothesis WC : writable_columns cols pr.

Lemma known_cell ci : known_type ci -> cell_type ci.
Proof. intros [H|(H & _)]; [now left|now right]. Qed.

Lemma rows_room_items rows : forall its a,
  (forall i it, nth_error its i = Some it -> i_cells it = column_cells (a + i) rows) ->
  total (fun ci => column_room (snd ci) (column_cells (fst ci) rows)) (combine (seq a (length its)) (map i_ci its)) =
  total (fun cd => column_room (fst cd) (cd_cells (snd cd))) (combine (map i_ci its) (map i_data its)).
Proof.
  induction its as [|it its IH]; intros a H; [reflexivity|]. cbn [length seq map combine total fold_right fst snd i_data cd_cells].
  unfold total in IH. rewrite (IH (S a)).
  - specialize (H 0%nat it eq_refl). rewrite Nat.add_0_r in H. now rewrite H.
  - intros i it' E. specialize (H (S i) it' E). now rewrite Nat.add_succ_r in H.
Qed.

Lemma writable_wframe rows : rows <> [] -> writable st cols pr rows ->
  exists its, map i_ci its = cols /\ (forall i it, nth_error its i = Some it -> i_cells it = column_cells i rows) /\
    wframe st st' its pr rows.
Proof using WC.
  intros Hn [W1 W2 W3 W4]. destruct WC as [C1 C2 C3 C4 C5 C6 C7].
  destruct (items_rows rows cols 0 W2) as (its & E1 & E2 & E3 & E4 & E5). cbn [Nat.add] in E2.
  exists its. split; [exact E1|]. split; [exact E2|].
  assert (Hr : total col_room (map final_column its) <= rows_room cols rows pr - 200 - total (fun kv => 8 + len (fst kv) + len (snd kv)) pr).
  { pose proof (items_room st st' LE its E3 E4) as R. rewrite <- (rows_room_items rows its 0 E2) in R.
    unfold rows_room. assert (L : length cols = length its) by (rewrite <- E1, map_length; reflexivity).
    rewrite L. rewrite E1 in R. lia. }
  split; auto.
  - apply Forall_forall. intros it Hin. apply known_cell. rewrite Forall_forall in C5. apply C5. rewrite <- E1. now apply in_map.
  - intros ->. apply C1. now rewrite <- E1.
  - rewrite <- E1, map_length in C2. lia.
  - apply Forall_forall. intros it Hin. rewrite Forall_forall in C6, E4. apply describable_ok.
    + eapply storable_type. apply E4, Hin.
    + apply C6. rewrite <- E1. now apply in_map.
  - lia.
  - unfold sizes. rewrite <- E1, map_map in W4. exact W4.
  - apply Forall_forall. intros row Hrow. rewrite Forall_forall in W1. specialize (W1 row Hrow).
    apply Forall2_by_nth.
    + pose proof (Forall2_length _ _ _ W1) as L. rewrite <- L, <- E1, map_length. reflexivity.
    + intros i it x A B. pose proof (nth_error_In _ _ A) as Hin. rewrite Forall_forall in E3, E5.
      destruct (E3 it Hin) as (_ & _ & F & _). specialize (E5 it Hin). unfold good.
      assert (Ix : In x (i_cells it)); [|split; [exact Ix|apply (both_Forall2 _ _ _ _ x F E5 Ix)]]. rewrite (E2 i it A). unfold column_cells.
      assert (x = nth i row []) as -> by (symmetry; now apply nth_error_nth).
      apply (in_map (fun row => nth i row [])). exact Hrow.
Qed.

(** ** The columns of the writer *)

Variable base : list column.
Hypothesis Hb : Forall2 (fun ci c => make_column st ci = Ok c) cols base.

Lemma base_len : length base = length cols.
Proof using Hb. symmetry. apply (Forall2_length _ _ _ Hb). Qed.

Lemma base_nth i ci : nth_error cols i = Some ci -> exists c, nth_error base i = Some c /\ make_column st ci = Ok c.
Proof using Hb.
  pose proof Hb as F. clear WC Hb. revert i ci. induction F as [|ci c cols' base' H _ IH]; intros [|i] x E; try discriminate; cbn in *.
  - injection E as <-. eauto.
  - apply (IH i x E).
Qed.

Lemma initial_base : Forall2 (start_cell st) cols (alloc_buffers base).
Proof using Hb.
  pose proof Hb as F. clear WC Hb. unfold alloc_buffers. induction F as [|ci c cols' base' H _ IH]; [constructor|]. cbn [map]. constructor; [|exact IH].
  exists (missing_value (col_coder c)). unfold initial_cell.
  apply make_column_facts in H as (A1 & _ & _ & _ & A5 & A6 & _). rewrite A6. split; [reflexivity|].
  rewrite (missing_punned _ (ci_type ci) A1).
  - destruct (base_integer (c_kind (col_coder c)) && c_int64 (col_coder c)) eqn:E; [|now left]. right.
    apply andb_true_iff in E as (_ & E). rewrite A5 in E. apply andb_true_iff in E as (E1 & E2). split; [now apply int_type_b|].
    split; [now destruct (iad st)|reflexivity].
  - rewrite A5. intros E. apply andb_true_iff in E as (E1 & _). now apply int_type_b.
Qed.

Lemma set_stats_same k : set_stats k (c_hasMissing k) (c_min k) (c_max k) (c_missing k) = k.
Proof. now destruct k. Qed.

Lemma reset_base : map reset_stats base = base.
Proof using Hb.
  pose proof Hb as F. clear WC Hb. induction F as [|ci c cols' base' H _ IH]; [reflexivity|]. cbn [map]. f_equal; [|exact IH].
  apply make_column_facts in H as (_ & A2 & A3 & A4 & _). unfold reset_stats.
  destruct c as [nm ty b1 b2 k]. cbn [col_coder] in *. unfold with_coder. cbn. f_equal.
  destruct k; cbn in *. unfold set_stats; cbn. congruence.
Qed.

Lemma gather_row_width : forall cs row cs', gather_row cs row = Ok cs' -> length row = length cs -> map width cs' = map width cs /\ length cs' = length cs.
Proof.
  induction cs as [|c cs IH]; intros row cs' H L; destruct row as [|x row]; try discriminate; cbn in H.
  - injection H as <-. auto.
  - apply bind_ok in H as (k & E & H). apply bind_ok in H as (r & E2 & H). injection H as <-.
    destruct (IH row r E2) as (I1 & I2); [cbn in L; lia|]. cbn [map length]. rewrite I1, I2. split; [|reflexivity]. f_equal.
    apply gather_keeps in E as (_ & K1 & K2). unfold width, data_size_doubles. cbn [with_coder col_coder]. now rewrite K1, K2.
Qed.

Lemma gather_rows_width : forall rows cs cs', gather_rows cs rows = Ok cs' -> Forall (fun row => length row = length cs) rows ->
  map width cs' = map width cs /\ length cs' = length cs.
Proof.
  induction rows as [|row rows IH]; intros cs cs' H F; cbn in H.
  - injection H as <-. auto.
  - apply bind_ok in H as (c1 & E & H). inversion F as [|? ? L F']; subst. apply gather_row_width in E as (E1 & E2); [|assumption].
    apply IH in H as (H1 & H2).
    + split; congruence.
    + eapply Forall_impl; [|exact F']. intros; congruence.
Qed.

Lemma base_width : map width base = map ci_size cols.
Proof using Hb.
  pose proof Hb as F. clear WC Hb. induction F as [|ci c cols' base' H _ IH]; [reflexivity|]. cbn [map]. f_equal; [|exact IH].
  apply make_column_facts in H. tauto.
Qed.

Lemma split_concat : forall cs row, Forall2 (fun w x => Z.of_nat (length x) = w) (map width cs) row -> split_row cs (concat row) = Ok row.
Proof.
  induction cs as [|c cs IH]; intros row F; inversion F as [|? x ? xs Hx F']; subst; [reflexivity|].
  cbn [split_row concat]. rewrite app_length. destruct (Z.ltb_spec (Z.of_nat (length x + length (concat xs))) (width c)) as [Q|_]; [lia|].
  rewrite <- Hx, Nat2Z.id. rewrite (skipn_app_exact x) by reflexivity. rewrite (firstn_app_exact x) by reflexivity.
  rewrite (IH xs F'). reflexivity.
Qed.

Definition total_size : Z := fold_right Z.add 0 (map ci_size cols).

Lemma total_size_pos : 0 < total_size.
Proof using WC.
  destruct WC as [C1 _ _ _ C5 _ _]. unfold total_size. clear -C1 C5.
  assert (P : forall ci, known_type ci -> 8 <= ci_size ci).
  { intros ci [(_ & H)|(_ & d & H)]; lia. }
  assert (N : forall l, Forall known_type l -> 0 <= fold_right Z.add 0 (map ci_size l)).
  { induction 1 as [|ci l H _ IH]; cbn; [lia|]. specialize (P ci H). lia. }
  destruct cols as [|ci l]; [congruence|]. inversion C5; subst. specialize (P ci ltac:(assumption)). specialize (N l ltac:(assumption)). cbn. lia.
Qed.

Variable md5 : list Z -> list Z.
Hypothesis md5_length : forall l, length (md5 l) = 32%nat.
Variable N : nat.

(** The writer after some calls: rows [p] are buffered, [out] is written. *)
Record pending (w : writer) (p : list (list (list Z))) (out : list Z) : Prop := {
  pe_init : w_init w = true;
  pe_last : Forall2 (start_cell st) cols (w_last w);
  pe_rows : w_rows w = p;
  pe_out : w_out w = out;
  pe_size : w_size w = 0 /\ p = [] \/ total_size <= w_size w;
  pe_cols : gather_rows base p = Ok (w_cols w);
  pe_shape : Forall (fun row => Forall2 (fun ci cell => len cell = ci_size ci) cols row) p
}.

Lemma shape_len p : Forall (fun row => Forall2 (fun ci cell => len cell = ci_size ci) cols row) p ->
  Forall (fun row : list (list Z) => length row = length base) p.
Proof using Hb.
  intros H. eapply Forall_impl; [|exact H]. intros row F. rewrite base_len. symmetry. apply (Forall2_length _ _ _ F).
Qed.

(** what the bytes [b] of a frame hold *)
Definition holds_rows (rows : list (list (list Z))) (b : list Z) : Prop :=
  exists its body h, map i_ci its = cols /\ (forall i it, nth_error its i = Some it -> i_cells it = column_cells i rows) /\
    wframe st st' its pr rows /\ b = h ++ body /\
    (exists prev, Forall2 (start_cell st) cols prev /\ encode_rows (map i_k its) (Some prev) rows = Ok body) /\
    serialize_header md5 LE (Z.of_nat (length body)) (Z.of_nat (length rows)) pr (map final_column its) = Ok h.

Lemma flush_ok w p out : pending w p out -> p <> [] -> (length p <= N)%nat -> writable st cols pr p ->
  exists w' b, flush md5 st N pr w = Ok w' /\ pending w' [] (out ++ b) /\ holds_rows p b.
Proof using All.
  intros [P1 P2 P3 P4 P5 P6 P7] Hp HN HW.
  destruct (writable_wframe p Hp HW) as (its & E1 & E2 & WF).
  destruct (wframe_ok st st' md5 (fun _ _ => []) md5_length its pr p (w_last w) WF) as (body & h & B1 & B2 & B3 & _).
  { now rewrite E1. }
  assert (Lc : length its = length cols) by (rewrite <- E1, map_length; reflexivity).
  assert (OPT : map_out (optimize_column st LE) (w_cols w) = Ok (map final_column its)).
  { apply map_out_forall2.
    (* the gathered codecs *)
    assert (G : exists ks, length ks = length base /\
      forall i it c k, nth_error its i = Some it -> nth_error base i = Some c -> nth_error ks i = Some k ->
        gather_all (col_coder c) (column_cells i p) = Ok k /\ optimize st LE (ci_type (i_ci it)) k = Ok (i_k it)).
    { destruct WF as [F1 _ _ _ _ _ _ _ _ _ _].
      assert (Q : forall i it c, nth_error its i = Some it -> nth_error base i = Some c ->
        exists k, gather_all (col_coder c) (column_cells i p) = Ok k /\ optimize st LE (ci_type (i_ci it)) k = Ok (i_k it)).
      { intros i it c A B. pose proof (nth_error_In _ _ A) as Hin. rewrite Forall_forall in F1. destruct (F1 it Hin) as (Pr & _).
        unfold prepare in Pr. apply bind_ok in Pr as (c0 & M & Pr). apply bind_ok in Pr as (k & G1 & G2).
        assert (nth_error cols i = Some (i_ci it)) as Ec by (rewrite <- E1, nth_error_map, A; reflexivity).
        destruct (base_nth i _ Ec) as (c1 & B1' & M1). assert (c1 = c) by congruence. assert (c0 = c) by congruence. subst.
        exists k. rewrite <- (E2 i it A). auto. }
      assert (Lb : length base = length its) by (rewrite base_len; auto).
      destruct (choose (fun i c it k => gather_all (col_coder c) (column_cells i p) = Ok k /\
          optimize st LE (ci_type (i_ci it)) k = Ok (i_k it)) base its Lb) as (ks & L & H).
      { intros i c it A B. exact (Q i it c B A). }
      exists ks. split; [exact L|]. intros i it c k A B C. exact (H i c it k B A C). }
    destruct G as (ks & Lk & HK).
    assert (Lb : length base = length its) by (rewrite base_len; auto).
    rewrite (gather_rows_ok p base ks (shape_len p P7) Lk) in P6.
    2: { intros i c k A B. assert (exists it, nth_error its i = Some it) as (it & C).
         { destruct (nth_error its i) eqn:E; [eauto|]. apply nth_error_None in E.
           assert (nth_error base i <> None) as Q by congruence. apply nth_error_Some in Q. lia. }
         apply (HK i it c k C A B). }
    injection P6 as P6. rewrite <- P6. apply Forall2_by_nth.
    { rewrite !map_length, combine_length. lia. }
    intros i x y A B. rewrite nth_error_map in A, B.
    destruct (nth_error (combine base ks) i) as [[c k]|] eqn:E; [|discriminate]. cbn in A. injection A as <-.
    destruct (nth_error its i) as [it|] eqn:E'; [|discriminate]. cbn in B. injection B as <-.
    assert (nth_error base i = Some c /\ nth_error ks i = Some k) as (X1 & X2).
    { clear -E. revert base ks E. induction i as [|i IH]; intros [|a la] [|b lb] E; try discriminate; cbn in E; [|now apply IH].
      injection E as -> ->. auto. }
    destruct (HK i it c k E' X1 X2) as (_ & O).
    assert (nth_error cols i = Some (i_ci it)) as Ec by (rewrite <- E1, nth_error_map, E'; reflexivity).
    destruct (base_nth i _ Ec) as (c1 & Y1 & Y2). assert (c1 = c) by congruence. subst c1.
    destruct (make_column_shape _ _ _ Y2) as (S1 & S2 & S3 & S4).
    unfold optimize_column. cbn [with_coder col_type col_coder]. rewrite S2, O. cbn [bind]. unfold final_column, with_coder.
    cbn [col_name col_type col_bfnames col_bfsizes]. now rewrite S1, S2, S3, S4. }
  assert (RES : map_out (reset_codec st) (map final_column its) = Ok base).
  { apply map_out_forall2. apply Forall2_by_nth. { rewrite map_length, base_len. auto. }
    intros i x c A B. rewrite nth_error_map in A. destruct (nth_error its i) as [it|] eqn:E; [|discriminate]. cbn in A. injection A as <-.
    assert (nth_error cols i = Some (i_ci it)) as Ec by (rewrite <- E1, nth_error_map, E; reflexivity).
    destruct (base_nth i _ Ec) as (c1 & Y1 & Y2). assert (c1 = c) by congruence. subst c1.
    destruct WF as [F1 _ _ _ _ _ _ _ _ _ _]. rewrite Forall_forall in F1. destruct (F1 it (nth_error_In _ _ E)) as (Pr & _).
    apply prepare_facts in Pr as (_ & Pr). unfold make_column in Y2.
    apply bind_ok in Y2 as (k & K1 & Y2). apply bind_ok in Y2 as (u & _ & Y2). apply bind_ok in Y2 as (k1 & K2 & Y2).
    injection Y2 as <-. unfold reset_codec. cbn [final_column col_type col_coder]. rewrite K1. cbn [bind].
    replace (data_size_doubles (i_k it)) with (ci_size (i_ci it) / 8) by (rewrite <- Pr, Z.mul_comm, Z.div_mul; lia).
    rewrite K2. reflexivity. }
  assert (ALL : Forall2 (start_cell st) cols (alloc_buffers (map final_column its))).
  { destruct WF as [F1 _ _ _ _ _ _ _ _ _ _]. unfold alloc_buffers. rewrite <- E1. clear -F1. induction F1 as [|it its H F1 IH]; [constructor|].
    cbn [map]. constructor; [|exact IH]. exists (missing_value (i_k it)). unfold initial_cell, width. cbn [final_column col_coder].
    pose proof H as (Pr & _). apply prepare_facts in Pr as (_ & Pr). rewrite Pr. split; [reflexivity|]. apply (missing_write st st' it H). }
  eexists {| w_cols := base; w_last := alloc_buffers (map final_column its); w_rows := []; w_size := w_size w; w_out := out ++ h ++ body; w_init := true |}, (h ++ body).
  split; [|split].
  - unfold flush. rewrite P1. cbn [assert bind]. rewrite P3. destruct p as [|r0 p']; [congruence|].
    rewrite OPT. cbn [bind]. rewrite map_length.
    destruct (Z.leb_spec 65536 (Z.of_nat (length its))) as [Q|_]; [exfalso; destruct WC as [_ C2 _ _ _ _ _]; lia|].
    rewrite map_map. cbn [final_column col_coder]. change (map (fun x : item => i_k x) its) with (map i_k its).
    rewrite B1. cbn [bind].
    pose proof total_size_pos as TP.
    assert (sizes its = total_size) as TS by (unfold total_size, sizes; rewrite <- E1, map_map; reflexivity).
    assert (SZ : sizes its <= w_size w).
    { destruct P5 as [(_ & Q)|Q]; [discriminate|]. lia. }
    destruct (Z.ltb_spec (Z.of_nat N * (w_size w + 2)) (Z.of_nat (length body))) as [Q|_]; [exfalso; nia|].
    rewrite B3. cbn [bind]. rewrite RES. cbn [bind]. rewrite reset_base, P4. reflexivity.
  - split; cbn; auto.
    destruct P5 as [(_ & Q)|Q]; [congruence|]. now right.
  - exists its, body, h. eauto 12.
Qed.

Lemma gather_some p : p <> [] -> writable st cols pr p -> exists c1, gather_rows base p = Ok c1.
Proof using All.
  intros Hp HW. destruct (writable_wframe p Hp HW) as (its & E1 & E2 & WF).
  assert (Lb : length base = length its) by (rewrite base_len, <- E1, map_length; reflexivity).
  destruct (choose (fun i c (it : item) k => gather_all (col_coder c) (column_cells i p) = Ok k) base its Lb) as (ks & L & H).
  - intros i c it B A. destruct WF as [F1 _ _ _ _ _ _ _ _ _ _]. rewrite Forall_forall in F1.
    destruct (F1 it (nth_error_In _ _ A)) as (Pr & _). unfold prepare in Pr.
    apply bind_ok in Pr as (c0 & M & Pr). apply bind_ok in Pr as (k & G1 & G2).
    assert (nth_error cols i = Some (i_ci it)) as Ec by (rewrite <- E1, nth_error_map, A; reflexivity).
    destruct (base_nth i _ Ec) as (c1 & B1' & M1). assert (c1 = c) by congruence. assert (c0 = c) by congruence. subst.
    exists k. rewrite <- (E2 i it A). exact G1.
  - eexists. apply (gather_rows_ok p base ks); auto.
    + apply shape_len, HW.
    + intros i c k A B. assert (exists it, nth_error its i = Some it) as (it & C).
      { destruct (nth_error its i) eqn:E; [eauto|]. apply nth_error_None in E.
        assert (nth_error base i <> None) as Q by congruence. apply nth_error_Some in Q. lia. }
      apply (H i c it k A C B).
Qed.

Lemma row_ok w p out row q : pending w p out -> (length p < N)%nat -> writable st cols pr ((p ++ [row]) ++ q) ->
  exists w1, pending w1 (p ++ [row]) out /\
    write_row md5 st N pr w (concat row) = if (length (p ++ [row]) =? N)%nat then flush md5 st N pr w1 else Ok w1.
Proof using All.
  intros [P1 P2 P3 P4 P5 P6 P7] HN HW.
  destruct (gather_some ((p ++ [row]) ++ q)) as (c2 & G2); [destruct p; discriminate|exact HW|].
  rewrite gather_rows_app in G2. apply bind_ok in G2 as (c1 & G1 & _).
  pose proof G1 as G1'. rewrite gather_rows_app, P6 in G1'. cbn [bind gather_rows] in G1'.
  apply bind_ok in G1' as (c1' & G3 & G4). injection G4 as ->.
  destruct HW as [W1 _ _ _]. rewrite <- app_assoc in W1. apply Forall_app in W1 as (_ & W1). inversion W1 as [|? ? Sr _]; subst.
  destruct (gather_rows_width _ _ _ P6 (shape_len _ P7)) as (Wd & Ld). rewrite base_width in Wd.
  assert (SP : split_row (w_cols w) (concat row) = Ok row).
  { apply split_concat. rewrite Wd. clear -Sr. induction Sr as [|ci x l xs Hx _ IH]; cbn [map]; constructor; auto. }
  exists {| w_cols := c1; w_last := w_last w; w_rows := w_rows w ++ [row];
            w_size := (if w_size w =? 0 then row_bytes (w_cols w) else w_size w); w_out := w_out w; w_init := w_init w |}.
  split.
  - split; cbn [w_init w_last w_rows w_out w_size w_cols]; auto.
    + right. unfold row_bytes. rewrite Wd. fold total_size. pose proof total_size_pos.
      destruct P5 as [(Q & _)|Q]; [rewrite Q; cbn; lia|]. destruct (Z.eqb_spec (w_size w) 0); lia.
    + apply Forall_app. split; [exact P7|]. constructor; [exact Sr|constructor].
  - unfold write_row. rewrite P1. cbn [assert bind]. rewrite SP. cbn [bind]. rewrite G3. cbn [bind].
    destruct (Nat.leb_spec N (length (w_rows w))) as [Q|_]; [lia|]. cbn [w_rows].
    reflexivity.
Qed.

Lemma split_first : forall acts p, p <> [] -> exists q rest, split_frames N p acts = (p ++ q) :: rest.
Proof.
  induction acts as [|[cells|] acts IH]; intros p Hp; cbn [split_frames].
  - exists [], []. rewrite app_nil_r. destruct p; [congruence|reflexivity].
  - destruct (_ =? N)%nat.
    + exists [cells], (split_frames N [] acts). reflexivity.
    + destruct (IH (p ++ [cells])) as (q & rest & E); [destruct p; discriminate|]. exists (cells :: q), rest.
      rewrite E. now rewrite <- app_assoc.
  - exists [], (split_frames N [] acts). rewrite app_nil_r. destruct p; [congruence|reflexivity].
Qed.

(** Any sequence of calls: complete frames are written, the rest is buffered. *)
Theorem run_ok : (0 < N)%nat -> forall acts p w out, pending w p out -> (length p < N)%nat ->
  Forall (writable st cols pr) (split_frames N p acts) ->
  exists w1 p1 fs bs, write_ops md5 st N pr w (map call acts) = Ok w1 /\
    pending w1 p1 (out ++ concat bs) /\ (length p1 < N)%nat /\
    split_frames N p acts = fs ++ one_frame p1 /\ p ++ rows_of_actions acts = concat fs ++ p1 /\
    Forall2 holds_rows fs bs.
Proof using All.
  intros HN. induction acts as [|[cells|] acts IH]; intros p w out P L HW.
  - exists w, p, [], []. cbn [map write_ops concat app rows_of_actions]. rewrite !app_nil_r. auto 10.
  - cbn [map call write_ops write_op]. cbn [split_frames] in HW.
    destruct (Nat.eqb_spec (length (p ++ [cells])) N) as [E|E].
    + pose proof (Forall_inv HW) as HW1; pose proof (Forall_inv_tail HW) as HW2.
      destruct (row_ok w p out cells [] P) as (w1 & P1 & R); [assumption|now rewrite app_nil_r|].
      rewrite R. destruct (Nat.eqb_spec (length (p ++ [cells])) N) as [_|Q]; [|contradiction].
      destruct (flush_ok w1 (p ++ [cells]) out P1) as (w2 & b & F1 & F2 & F3); [destruct p; discriminate|lia|assumption|].
      rewrite F1. cbn [bind].
      destruct (IH [] w2 (out ++ b) F2 HN HW2) as (w3 & p1 & fs & bs & R1 & R2 & R3 & R4 & R5 & R6).
      exists w3, p1, ((p ++ [cells]) :: fs), (b :: bs).
      split; [exact R1|]. split; [cbn [concat]; now rewrite app_assoc|]. split; [exact R3|].
      split. { cbn [split_frames]. destruct (Nat.eqb_spec (length (p ++ [cells])) N) as [_|Q]; [|contradiction]. now rewrite R4. }
      split. { cbn [rows_of_actions concat app] in *. rewrite R5. now rewrite <- !app_assoc. }
      constructor; assumption.
    + destruct (split_first acts (p ++ [cells])) as (q & rest & Q); [destruct p; discriminate|].
      pose proof HW as HW'. rewrite Q in HW'. pose proof (Forall_inv HW') as HW1.
      destruct (row_ok w p out cells q P L HW1) as (w1 & P1 & R).
      rewrite R. destruct (Nat.eqb_spec (length (p ++ [cells])) N) as [Q'|_]; [contradiction|]. cbn [bind].
      assert (L1 : (length (p ++ [cells]) < N)%nat) by (rewrite app_length in *; cbn in *; lia).
      destruct (IH (p ++ [cells]) w1 out P1 L1 HW) as (w3 & p1 & fs & bs & R1 & R2 & R3 & R4 & R5 & R6).
      exists w3, p1, fs, bs. split; [exact R1|]. split; [exact R2|]. split; [exact R3|].
      split. { cbn [split_frames]. destruct (Nat.eqb_spec (length (p ++ [cells])) N) as [Q'|_]; [contradiction|]. exact R4. }
      split; [|exact R6]. cbn [rows_of_actions]. rewrite <- R5. now rewrite <- app_assoc.
  - cbn [map call write_ops write_op]. cbn [split_frames] in HW. apply Forall_app in HW as (HW1 & HW2).
    destruct p as [|r0 p].
    + assert (flush md5 st N pr w = Ok w) as ->.
      { unfold flush. destruct P as [-> _ -> _ _ _ _]. reflexivity. }
      cbn [bind]. destruct (IH [] w out P L HW2) as (w3 & p1 & fs & bs & R1 & R2 & R3 & R4 & R5 & R6).
      exists w3, p1, fs, bs. cbn [split_frames one_frame app rows_of_actions]. auto 10.
    + cbn [one_frame] in HW1. pose proof (Forall_inv HW1) as HW3.
      destruct (flush_ok w (r0 :: p) out P) as (w2 & b & F1 & F2 & F3); [discriminate|lia|assumption|].
      rewrite F1. cbn [bind].
      destruct (IH [] w2 (out ++ b) F2 HN HW2) as (w3 & p1 & fs & bs & R1 & R2 & R3 & R4 & R5 & R6).
      exists w3, p1, ((r0 :: p) :: fs), (b :: bs).
      split; [exact R1|]. split; [cbn [concat]; now rewrite app_assoc|]. split; [exact R3|].
      split. { cbn [split_frames one_frame app]. now rewrite R4. }
      split. { cbn [rows_of_actions concat app] in *. rewrite R5. now rewrite <- !app_assoc. }
      constructor; assumption.
Qed.

Lemma open_ok w : set_columns st [] cols = Ok base -> open_writer st cols [] = Ok w -> pending w [] [].
Proof using All.
  intros E H. unfold open_writer in H. rewrite E in H. cbn [bind set_missing] in H. injection H as <-.
  split; cbn; auto.
  - apply initial_base.
  - now rewrite reset_base.
Qed.

End Run.

Lemma set_columns_ok st : forall cols done, NoDup (done ++ map ci_name cols) -> Forall (fun ci => ci_name ci <> []) cols ->
  Forall known_type cols -> exists base, set_columns st done cols = Ok base /\ Forall2 (fun ci c => make_column st ci = Ok c) cols base.
Proof.
  induction cols as [|ci cols IH]; intros done ND NE KT; [exists []; split; [reflexivity|constructor]|].
  inversion NE as [|? ? N1 N2]; inversion KT as [|? ? K1 K2]; subst. cbn [set_columns map] in *.
  assert (existsb (bytes_eqb (ci_name ci)) (done ++ map (fun _ => []) cols) = false) as ->.
  { apply Bool.not_true_iff_false. intros Q. apply existsb_exists in Q as (x & I & Q). apply bytes_eqb_eq in Q. subst x.
    apply in_app_or in I as [I|I].
    - apply NoDup_remove_2 in ND. apply ND, in_or_app. now left.
    - apply in_map_iff in I as (y & I & _). now apply N1. }
  assert (exists c, make_column st ci = Ok c) as (c & Hc).
  { unfold make_column, working_codec. destruct K1 as [([Ti|Tr] & S8)|(Ts & d & D1 & D2 & D3)].
    - rewrite S8. destruct Ti as [-> | ->].
      + eexists. reflexivity.
      + destruct st as [[] l]; eexists; vm_compute; reflexivity.
    - rewrite S8. destruct Tr as [-> | ->]; eexists; reflexivity.
    - rewrite Ts, D2. cbn [Z.eqb orb ty_STRING ty_INTEGER ty_BITFIELD ty_REAL ty_DOUBLE bind Pos.eqb]. rewrite Z.mul_comm, Z_mod_mult. cbn. eauto. }
  destruct (IH (done ++ [ci_name ci])) as (base & E & F); auto.
  { now rewrite <- app_assoc. }
  exists (c :: base). rewrite Hc. cbn [bind]. rewrite E. split; [reflexivity|]. now constructor.
Qed.
