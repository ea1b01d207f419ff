(** C34: the span of a frame is the set of values the frame decodes to. *)
From Coq Require Import String.
From Verif Require Import Base Fp FpProofs Stream StreamProofs StreamLocal Codec Meta Header Table TableProofs DecodeProofs LookupProofs Roundtrip P_Strings RowSpec Spec Reader ReaderProofs FrameDecode P_Tables P_Decode Span SpanProofs SpanTable.
Open Scope Z_scope.
Open Scope list_scope.

(** Column [nm], asked for by that name, is the one at position [p], both for decoding
    (full name, else the first with that short name) and for a span (the only one called
    so). *)
Definition picks (cs : list column) (nm : list Z) (p : nat) : Prop :=
  select (map col_name cs) nm = Some p /\ forall j, positions cs nm j <-> j = p.

(** The element decoded for a row of column [c]: the bytes of the array the codec fills. *)
Definition element (c : column) (out : facade) (r : nat) : list Z :=
  firstn (Z.to_nat (8 * data_size_doubles (col_coder c))) (nth r (f_elems out) []).

(** A table that can be decoded: distinct column names, the columns [names] at positions
    [ps], and rows in the data part, the first of which stores every column (as the encoder
    does). *)
Definition decodable (file : list Z) (t : table) (names : list (list Z)) (ps : list nat) (rows : list stored_row) : Prop :=
  NoDup (map col_name (t_cols t)) /\ Forall2 (picks (t_cols t)) names ps /\ NoDup ps /\ NoDup names /\
  (exists buf rest, read_encoded file false t = Ok buf /\ row_stream (map col_coder (t_cols t)) rows buf rest) /\
  t_rows t = Z.of_nat (List.length rows) /\ (forall p, In p ps -> stored rows p 0 <> None).

Lemma picks_index cs nm p : picks cs nm p -> column_index cs nm = Ok (Z.of_nat p).
Proof. intros [_ H]. apply (proj1 (C39_column_index cs nm)). split; [lia|]. intros j. rewrite H. lia. Qed.

Lemma Forall2_picks cs names ps : Forall2 (picks cs) names ps ->
  Forall2 (fun nm p => select (map col_name cs) nm = Some p) names ps /\ Forall2 (fun nm p => column_index cs nm = Ok (Z.of_nat p)) names ps.
Proof.
  intros H. split; eapply Forall2_weaken; try exact H; intros nm p Q; [apply Q|now apply picks_index].
Qed.

Lemma plain_width iad c s cell s' : plain iad c -> decode (col_coder c) s = Ok (cell, s') -> Z.of_nat (List.length cell) = 8 * data_size_doubles (col_coder c).
Proof.
  intros [_ P] D. eapply decode_width; [| |exact D]; unfold data_size_doubles; destruct (c_kind (col_coder c)); cbn [chars_based]; try lia; contradiction.
Qed.

Lemma latest_from0 rows p r : stored rows p 0 <> None -> exists r' cell, shows rows p r r' cell.
Proof.
  intros H. pose proof (latest_shows rows p r) as L. destruct (latest rows p r) as [[r' cell]|]; [eauto|]. exfalso. apply H, L. lia.
Qed.

(** The elements of a decoded column are the cells stored for it. *)
Lemma elements_stored iad file t names ps rows facs outs k nm p c out :
  decodable file t names ps rows -> Forall2 (fits_rows rows) ps facs -> decode_target file t names facs = Ok (map Some outs) ->
  nth_error names k = Some nm -> nth_error ps k = Some p -> nth_error (t_cols t) p = Some c -> nth_error outs k = Some out -> plain iad c ->
  forall cell, (exists r, (r < List.length rows)%nat /\ element c out r = cell) <-> exists r, stored rows p r = Some cell.
Proof.
  intros (ND & HF & HN & NN & (buf & rest & Hb & HS) & Hr & H0) HT HD Hn Hp Hc Ho Pl cell. destruct (Forall2_picks _ _ _ HF) as [HF1 _].
  destruct (C20_rows file t names facs ps rows buf rest ND HF1 HN Hb Hr HS HT) as (outs' & E & L & D). rewrite E in HD. injection HD as Em.
  assert (outs' = outs). { clear -Em. revert outs Em. induction outs' as [|a l IH]; intros [|b l2] Em; try discriminate; [reflexivity|]. cbn in Em. injection Em as -> Em. now rewrite (IH _ Em). } subst outs'.
  assert (exists f, nth_error facs k = Some f) as (f & Hf).
  { destruct (nth_error facs k) eqn:Q; [eauto|]. apply nth_error_None in Q. apply Forall2_length in HT. assert (k < List.length ps)%nat by (apply nth_error_Some; congruence). lia. }
  destruct (D k p f out c Hp Hf Ho Hc) as (D1 & D2 & D3 & D4).
  assert (Wd : forall r cl, stored rows p r = Some cl -> Z.of_nat (List.length cl) = 8 * data_size_doubles (col_coder c)).
  { intros r cl St. assert (K : nth_error (map col_coder (t_cols t)) p = Some (col_coder c)) by (rewrite nth_error_map, Hc; reflexivity).
    destruct (stored_decode _ _ _ _ HS p r cl _ St K) as (s1 & s2 & Dc). eapply plain_width; eassumption. }
  assert (El : forall r r' cl, (r < List.length rows)%nat -> shows rows p r r' cl -> element c out r = cl).
  { intros r r' cl Hr' Sh. destruct (D3 r Hr') as (_ & Q & _). specialize (Q r' cl Sh). destruct Sh as (_ & St & _). specialize (Wd _ _ St).
    unfold element. replace (Z.to_nat (8 * data_size_doubles (col_coder c))) with (List.length cl) by lia. exact Q. }
  assert (Hp' : stored rows p 0 <> None) by (apply H0; eapply nth_error_In; exact Hp).
  split.
  - intros (r & Hr' & <-). destruct (latest_from0 rows p r Hp') as (r' & cl & Sh). rewrite (El r r' cl Hr' Sh). exists r'. apply Sh.
  - intros (r & St). assert (Hr' : (r < List.length rows)%nat). { unfold stored in St. destruct (nth_error rows r) eqn:Q; [|discriminate]. apply nth_error_Some. congruence. }
    exists r. split; [exact Hr'|]. apply (El r r cell Hr'). split; [lia|]. split; [exact St|]. intros q Hq. lia.
Qed.

Lemma span_ready : forall iad file t names ps rows facs outs,
  decodable file t names ps rows -> Forall2 (fits_rows rows) ps facs ->
  decode_target file t names facs = Ok (map Some outs) ->
  (forall k p c out, nth_error ps k = Some p -> nth_error (t_cols t) p = Some c -> nth_error outs k = Some out ->
     plain iad c /\ forall r, (r < List.length rows)%nat -> readable iad (col_type c) (element c out r)) ->
  exists s, table_span iad file t names false = Ok s /\ wf s /\
    sp_start s = t_start t /\ sp_length s = t_next t - t_start t /\
    (forall k nm p c out x, nth_error names k = Some nm -> nth_error ps k = Some p -> nth_error (t_cols t) p = Some c -> nth_error outs k = Some out ->
       (has s nm x <-> exists r, (r < List.length rows)%nat /\ reads iad (col_type c) (element c out r) x)) /\
    (forall nm x, ~ In nm names -> ~ has s nm x) /\
    (forall nm k, free_for s nm k <-> forall j p c, nth_error names j = Some nm -> nth_error ps j = Some p -> nth_error (t_cols t) p = Some c -> k = sort_ty (col_type c)).
Proof.
  intros iad file t names ps rows facs outs Dt HT HD HR.
  pose proof Dt as (ND & HF & HN & NN & (buf & rest & Hb & HS) & Hr & H0). destruct (Forall2_picks _ _ _ HF) as [HF1 HF2].
  assert (Lo : List.length outs = List.length names).
  { destruct (C20_rows file t names facs ps rows buf rest ND HF1 HN Hb Hr HS HT) as (outs' & E & L & _). rewrite E in HD. injection HD as Em. apply (f_equal (@List.length _)) in Em. rewrite !map_length in Em. lia. }
  assert (Ln : List.length names = List.length ps) by (eapply Forall2_length; exact HF).
  destruct (table_span_ok iad file t names ps rows buf rest ND HF1 HF2 HN NN Hb Hr HS) as (s & E & W & S1 & S2 & H & F).
  { intros p c Hp Hc. apply In_nth_error in Hp as (k & Hk). assert (Hk' : (k < List.length ps)%nat) by (apply nth_error_Some; congruence).
    destruct (nth_error outs k) as [out|] eqn:Ho; [|apply nth_error_None in Ho; lia]. destruct (nth_error names k) as [nm|] eqn:Hn; [|apply nth_error_None in Hn; lia].
    destruct (HR k p c out Hk Hc Ho) as [Pl Rd]. split; [exact Pl|].
    assert (St0 : stored rows p 0 <> None) by (apply H0; eapply nth_error_In; exact Hk). split.
    - destruct (stored rows p 0) as [cell|] eqn:Q; [|congruence]. eauto.
    - intros r cell St. destruct (proj2 (elements_stored iad file t names ps rows facs outs k nm p c out Dt HT HD Hn Hk Hc Ho Pl cell)) as (r' & Hr' & <-); eauto. }
  exists s. split; [exact E|]. split; [exact W|]. split; [exact S1|]. split; [exact S2|]. split; [|split; [|exact F]].
  - intros k nm p c out x Hn Hk Hc Ho. destruct (HR k p c out Hk Hc Ho) as [Pl _]. rewrite H. split.
    + intros (k' & p' & c' & Hn' & Hp' & Hc' & r & cell & St & Rd).
      assert (k = k') by (eapply NoDup_nth_error; [exact NN|apply nth_error_Some; congruence|congruence]). subst k'.
      assert (p' = p) by congruence. subst p'. assert (c' = c) by congruence. subst c'.
      destruct (proj2 (elements_stored iad file t names ps rows facs outs k nm p c out Dt HT HD Hn Hk Hc Ho Pl cell)) as (r' & Hr' & <-); eauto.
    + intros (r & Hr' & Rd). destruct (proj1 (elements_stored iad file t names ps rows facs outs k nm p c out Dt HT HD Hn Hk Hc Ho Pl (element c out r))) as (r' & St); [eauto|].
      exists k, p, c. split; [exact Hn|]. split; [exact Hk|]. split; [exact Hc|]. exists r', (element c out r). auto.
  - intros nm x Hnin Q. apply H in Q as (k & p & c & Hn & _). apply Hnin. eapply nth_error_In; exact Hn.
Qed.

(** C34 for a frame of one table: for columns that can be decoded and whose elements can be
    read (integers that fit in a long, no NaN), the span of the table holds exactly the
    distinct values of the elements; the offset and length are those of the table. *)
Theorem C34_span : forall iad file t names ps rows facs outs,
  decodable file t names ps rows -> Forall2 (fits_rows rows) ps facs ->
  decode_target file t names facs = Ok (map Some outs) ->
  (forall k p c out, nth_error ps k = Some p -> nth_error (t_cols t) p = Some c -> nth_error outs k = Some out ->
     plain iad c /\ forall r, (r < List.length rows)%nat -> readable iad (col_type c) (element c out r)) ->
  exists s, table_span iad file t names false = Ok s /\
    sp_start s = t_start t /\ sp_length s = t_next t - t_start t /\
    (forall k nm p c out x, nth_error names k = Some nm -> nth_error ps k = Some p -> nth_error (t_cols t) p = Some c -> nth_error outs k = Some out ->
       (has s nm x <-> exists r, (r < List.length rows)%nat /\ reads iad (col_type c) (element c out r) x)) /\
    (forall nm x, ~ In nm names -> ~ has s nm x).
Proof.
  intros iad file t names ps rows facs outs Dt HT HD HR. destruct (span_ready iad file t names ps rows facs outs Dt HT HD HR) as (s & E & _ & A & B & H & N & _). exists s. auto.
Qed.
Print Assumptions C34_span.

(** ** Several tables *)

(** A table whose requested columns decode to [outs]. *)
Definition decodes_to (iad : bool) (file : list Z) (names : list (list Z)) (t : table) (ps : list nat) (rows : list stored_row) (outs : list facade) : Prop :=
  decodable file t names ps rows /\
  (exists facs, Forall2 (fits_rows rows) ps facs /\ decode_target file t names facs = Ok (map Some outs)) /\
  (forall k p c out, nth_error ps k = Some p -> nth_error (t_cols t) p = Some c -> nth_error outs k = Some out ->
     plain iad c /\ forall r, (r < List.length rows)%nat -> readable iad (col_type c) (element c out r)).

(** [x] is the value of column [nm] in some row *)
Definition occurs (iad : bool) (names : list (list Z)) (t : table) (ps : list nat) (rows : list stored_row) (outs : list facade) (nm : list Z) (x : value) : Prop :=
  exists k p c out r, nth_error names k = Some nm /\ nth_error ps k = Some p /\ nth_error (t_cols t) p = Some c /\ nth_error outs k = Some out /\
    (r < List.length rows)%nat /\ reads iad (col_type c) (element c out r) x.

(** The requested columns are numbers, integers or texts in the same way in both tables. *)
Definition same_sorts (names : list (list Z)) (t t' : table) (ps ps' : list nat) : Prop :=
  forall k p p' c c', (k < List.length names)%nat -> nth_error ps k = Some p -> nth_error ps' k = Some p' -> nth_error (t_cols t) p = Some c -> nth_error (t_cols t') p' = Some c' ->
    sort_ty (col_type c) = sort_ty (col_type c').

Record info := { in_table : table; in_ps : list nat; in_rows : list stored_row; in_outs : list facade }.
Definition size (i : info) : Z := t_next (in_table i) - t_start (in_table i).
Fixpoint total (l : list info) : Z := match l with [] => 0 | i :: l' => size i + total l' end.

Section Frame.
Variables (iad : bool) (file : list Z) (names : list (list Z)).

Lemma one_span i : decodes_to iad file names (in_table i) (in_ps i) (in_rows i) (in_outs i) ->
  exists s, table_span iad file (in_table i) names false = Ok s /\ wf s /\ sp_start s = t_start (in_table i) /\ sp_length s = size i /\
    (forall nm x, has s nm x <-> occurs iad names (in_table i) (in_ps i) (in_rows i) (in_outs i) nm x) /\
    (forall nm k, free_for s nm k <-> forall j p c, nth_error names j = Some nm -> nth_error (in_ps i) j = Some p -> nth_error (t_cols (in_table i)) p = Some c -> k = sort_ty (col_type c)).
Proof.
  intros (Dt & (facs & HT & HD) & HR). destruct (span_ready iad file _ names _ _ facs _ Dt HT HD HR) as (s & E & W & A & B & H & N & F). exists s.
  split; [exact E|]. split; [exact W|]. split; [exact A|]. split; [exact B|]. split; [|exact F].
  pose proof Dt as (ND & HF & HN & NN & (buf & rest & Hb & HS) & Hr & H0). destruct (Forall2_picks _ _ _ HF) as [HF1 HF2].
  assert (Lo : List.length (in_outs i) = List.length names).
  { destruct (C20_rows file (in_table i) names facs _ _ buf rest ND HF1 HN Hb Hr HS HT) as (outs' & E' & L & _). rewrite E' in HD. injection HD as Em. apply (f_equal (@List.length _)) in Em. rewrite !map_length in Em. lia. }
  assert (Ln : List.length names = List.length (in_ps i)) by (eapply Forall2_length; exact HF).
  intros nm x. split.
  - intros Q. destruct (in_dec (list_eq_dec Z.eq_dec) nm names) as [I|I]; [|destruct (N nm x I Q)]. apply In_nth_error in I as (k & Hk).
    assert (Hk' : (k < List.length names)%nat) by (apply nth_error_Some; congruence).
    destruct (nth_error (in_outs i) k) as [out|] eqn:Ho; [|apply nth_error_None in Ho; lia]. destruct (nth_error (in_ps i) k) as [p|] eqn:Hp; [|apply nth_error_None in Hp; lia].
    assert (exists c, nth_error (t_cols (in_table i)) p = Some c) as (c & Hc).
    { assert (Z0 : select (map col_name (t_cols (in_table i))) nm = Some p). { clear -HF1 Hk Hp. revert k Hk Hp. induction HF1; intros [|k] A B; try discriminate; [cbn in A, B; congruence|eauto]. }
      apply select_lt in Z0. rewrite map_length in Z0. destruct (nth_error (t_cols (in_table i)) p) eqn:Q'; [eauto|]. apply nth_error_None in Q'. lia. }
    apply (H k nm p c out x Hk Hp Hc Ho) in Q as (r & Hr' & Q). exists k, p, c, out, r. exact (conj Hk (conj Hp (conj Hc (conj Ho (conj Hr' Q))))).
  - intros (k & p & c & out & r & Hk & Hp & Hc & Ho & Hr' & Q). apply (H k nm p c out x Hk Hp Hc Ho). eauto.
Qed.

Lemma spans_ok : forall l s (P : list Z -> value -> Prop) (base : info), wf s -> (forall nm x, has s nm x <-> P nm x) ->
  decodes_to iad file names (in_table base) (in_ps base) (in_rows base) (in_outs base) ->
  (forall nm k, free_for s nm k <-> forall j p c, nth_error names j = Some nm -> nth_error (in_ps base) j = Some p -> nth_error (t_cols (in_table base)) p = Some c -> k = sort_ty (col_type c)) ->
  Forall (fun i => decodes_to iad file names (in_table i) (in_ps i) (in_rows i) (in_outs i)) l ->
  Forall (fun i => same_sorts names (in_table base) (in_table i) (in_ps base) (in_ps i)) l ->
  Forall (fun i => t_start (in_table i) <> sp_start s) l ->
  exists s', extend_spans iad file (map in_table l) names false s = Ok s' /\ sp_start s' = sp_start s /\ sp_length s' = sp_length s + total l /\
    forall nm x, has s' nm x <-> P nm x \/ exists i, In i l /\ occurs iad names (in_table i) (in_ps i) (in_rows i) (in_outs i) nm x.
Proof.
  induction l as [|i l IH]; intros s P base W HP Db F HD HS HN; cbn [map extend_spans total].
  - exists s. split; [reflexivity|]. split; [reflexivity|]. split; [lia|]. intros nm x. rewrite HP. split; [auto|]. intros [Q|(? & [] & _)]. exact Q.
  - inversion HD as [|? ? Di HD']; subst. inversion HS as [|? ? Si HS']; subst. inversion HN as [|? ? Ni HN']; subst.
    destruct (one_span i Di) as (si & E & Wi & Ai & Bi & Hi & Fi). rewrite E. cbn [bind].
    assert (FF : forall nm k, free_for s nm k <-> free_for si nm k).
    { pose proof Db as ((_ & HFb & _) & _ & _). pose proof Di as ((_ & HFi & _) & _ & _).
      assert (Lb : List.length names = List.length (in_ps base)) by (eapply Forall2_length; exact HFb).
      assert (Li : List.length names = List.length (in_ps i)) by (eapply Forall2_length; exact HFi).
      assert (Get : forall b, Forall2 (picks (t_cols (in_table b))) names (in_ps b) -> forall j, (j < List.length names)%nat -> exists p c, nth_error (in_ps b) j = Some p /\ nth_error (t_cols (in_table b)) p = Some c).
      { intros b Hb j Hj. destruct (Forall2_picks _ _ _ Hb) as [Hb1 _]. clear -Hb1 Hj. revert j Hj. induction Hb1 as [|nm p names ps Hs Hb1 IH]; intros [|j] Hj; cbn in Hj; try lia.
        - apply select_lt in Hs. rewrite map_length in Hs. destruct (nth_error (t_cols (in_table b)) p) as [c|] eqn:Q; [exists p, c; auto|]. apply nth_error_None in Q. lia.
        - apply IH. lia. }
      intros nm k. rewrite F, Fi. split; intros Q j p c Hj Hp Hc; assert (Hj' : (j < List.length names)%nat) by (apply nth_error_Some; congruence).
      - destruct (Get base HFb j Hj') as (p' & c' & Hp' & Hc'). rewrite (Q j p' c' Hj Hp' Hc'). exact (Si j p' p c' c Hj' Hp' Hp Hc' Hc).
      - destruct (Get i HFi j Hj') as (p' & c' & Hp' & Hc'). rewrite (Q j p' c' Hj Hp' Hc'). symmetry. exact (Si j p p' c c' Hj' Hp Hp' Hc Hc'). }
    destruct (extend_ok s si W Wi) as (s2 & E2 & W2 & A2 & B2 & H2 & F2).
    { intros nm. assert (Own : forall k0, (forall k, k <> k0 -> ~ free_for si nm k) -> free_for si nm k0).
      { intros k0 Q. apply Fi. intros j p c Hj Hp Hc.
        assert (Dk : {k0 = sort_ty (col_type c)} + {k0 <> sort_ty (col_type c)}) by decide equality. destruct Dk as [Dk|Dk]; [exact Dk|]. exfalso.
        apply (Q (sort_ty (col_type c))); [congruence|]. apply Fi. intros j' p' c' Hj' Hp' Hc'. destruct Di as ((_ & _ & _ & NN & _) & _ & _).
        assert (j = j') by (eapply NoDup_nth_error; [exact NN|apply nth_error_Some; congruence|congruence]). subst j'. congruence. }
      assert (Both : forall k0, (forall k, k <> k0 -> ~ free_for si nm k) -> free_for s nm k0 /\ free_for si nm k0) by (intros k0 Q; rewrite FF; auto).
      split; [|split]; intros M; apply Both; intros k Nk (G1 & G2 & G3); apply M; auto. }
    rewrite E2. cbn [bind].
    destruct (IH s2 (fun nm x => P nm x \/ has si nm x) base W2) as (s' & E' & A' & B' & H').
    { intros nm x. rewrite H2, HP. reflexivity. }
    { exact Db. }
    { intros nm k. rewrite F2, <- FF, F. tauto. }
    { exact HD'. } { exact HS'. } { rewrite A2. exact HN'. }
    exists s'. split; [exact E'|]. split; [congruence|].
    split; [rewrite B', B2, Ai, Bi; destruct (Z.eqb_spec (sp_start s) (t_start (in_table i))); [congruence|lia]|].
    intros nm x. rewrite H', Hi. split.
    + intros [[Q|Q]|(j & Hj & Q)]; [now left|right; exists i; split; [now left|exact Q]|right; exists j; split; [now right|exact Q]].
    + intros [Q|(j & [<-|Hj] & Q)]; [auto|auto|right; eauto].
Qed.
End Frame.

(** C34: the span of a frame of any number of tables, at different offsets, is the union
    over its tables of the values they decode to; it begins at the first table and its
    length is the sum of theirs. *)
Theorem C34_frame : forall iad file names i l,
  Forall (fun i => decodes_to iad file names (in_table i) (in_ps i) (in_rows i) (in_outs i)) (i :: l) ->
  Forall (fun j => same_sorts names (in_table i) (in_table j) (in_ps i) (in_ps j)) l ->
  Forall (fun j => t_start (in_table j) <> t_start (in_table i)) l ->
  exists s, frame_span iad file (map in_table (i :: l)) names false = Ok s /\
    sp_start s = t_start (in_table i) /\ sp_length s = total (i :: l) /\
    forall nm x, has s nm x <-> exists j, In j (i :: l) /\ occurs iad names (in_table j) (in_ps j) (in_rows j) (in_outs j) nm x.
Proof.
  intros iad file names i l HD HS HN. inversion HD as [|? ? Di HD']; subst. destruct (one_span iad file names i Di) as (s & E & W & A & B & H & F).
  unfold frame_span. cbn [map]. rewrite E. cbn [bind].
  destruct (spans_ok iad file names l s _ i W H Di F HD' HS) as (s' & E' & A' & B' & H'); [rewrite A; exact HN|].
  exists s'. split; [exact E'|]. split; [congruence|]. split; [cbn [total]; lia|]. intros nm x. rewrite H'. cbn [In]. split.
  - intros [Q|(j & Hj & Q)]; eauto.
  - intros (j & [<-|Hj] & Q); eauto.
Qed.
Print Assumptions C34_frame.
