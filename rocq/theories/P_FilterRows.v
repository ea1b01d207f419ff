(** C62: the rows a filter writes. *)
From Coq Require Import Lia.
From Verif Require CsvRows P_Threads.
From Verif Require Import Base Fp Stream Codec Meta Header Encoder StreamProofs TableProofs StreamLocal Table Reader RowReader RowList Through
  WriterSpec Spec WriterRun WriterRead Writer Copy CopySpec CopyProofs P_Copy OdaOut OdaSpec SelectOut SelectSpec P_Select Filter FilterSpec.
Open Scope Z_scope.

Definition meta_of (st : settings) (ann : list (colinfo * bool)) : list column := p_meta (fst (sel_push st 0 ann)).
Definition last_ann (ann : list (colinfo * bool)) (q : qrow) : list (colinfo * bool) := fold_left (fun _ t => fst t) (q_types q) ann.
Fixpoint turns (ann : list (colinfo * bool)) (qs : list qrow) : list (list (colinfo * bool) * qrow) :=
  match qs with [] => [] | q :: qs' => (last_ann ann q, q) :: turns (last_ann ann q) qs' end.

Lemma last_ann_cols : forall ann q, map fst (last_ann ann q) = announced_last (map fst ann) q.
Proof.
  intros ann q. unfold last_ann, announced_last. revert ann. induction (q_types q) as [|t ts IH]; intros ann; [reflexivity|].
  cbn [fold_left]. apply IH.
Qed.

Lemma turns_in_turn : forall qs ann, map (fun t => (map fst (fst t), snd t)) (turns ann qs) = in_turn (map fst ann) qs.
Proof.
  induction qs as [|q qs IH]; intros ann; [reflexivity|]. cbn [turns map in_turn fst snd]. rewrite IH, last_ann_cols. reflexivity.
Qed.

(** ** The columns *)

Lemma column_facts : forall st ci has c, accepted ci -> sel_column st ci has = Ok c ->
  info c = announced ci /\ shape c = (ci_name ci, ci_type ci, ci_size ci / 8) /\ copyable c.
Proof.
  intros st ci has c A H. destruct (column_told st ci has A) as (c' & C1 & (T1 & T2 & T3 & T4 & T5) & _).
  assert (c' = c) by congruence. subst c'. cbn [fst snd] in *. clear C1.
  assert (D : data_size_doubles (col_coder c) = ci_size ci / 8). { rewrite <- T5, Z.mul_comm, Z.div_mul by lia. reflexivity. }
  split; [|split].
  - unfold info, announced. rewrite T1, T2, T3, T5. f_equal. destruct (ci_type ci =? ty_STRING) eqn:E; [reflexivity|]. apply (ty_text ci A E).
  - unfold shape. rewrite T1, T2, D. reflexivity.
  - split.
    + intros _. unfold sel_column in H. destruct (known_type (ci_type ci)); cbn [negb] in H; [|discriminate].
      destruct (working_codec st LE (ci_type ci)) as [k| |]; cbn [bind] in H; try discriminate.
      destruct (set_data_size (set_stats k (if has then 1 else 0) (c_min k) (c_max k) (c_missing k)) (ci_size ci / 8)) as [k1| |]; cbn [bind] in H; try discriminate.
      inversion H; subst. cbn [col_bfnames col_bfsizes]. rewrite !map_length. reflexivity.
    + intros K. destruct (working_told st (ci_type ci) (proj1 A)) as (KT & k & W1 & W2 & _).
      unfold sel_column in H. rewrite KT, W1 in H. cbn [negb bind] in H. unfold set_data_size in H. cbn [set_stats c_kind] in H. rewrite W2 in H.
      destruct (ci_type ci =? ty_STRING) eqn:E.
      * cbn [bind] in H. inversion H; subst. cbn [col_coder set_strings set_stats c_min c_max].
        apply Z.eqb_eq in E. rewrite E in W1. change (working_codec st LE ty_STRING) with (Ok (new_codec (iad st) LE KChars ty_STRING)) in W1.
        inversion W1; subst. split; vm_compute; reflexivity.
      * destruct (ci_size ci / 8 =? 1); cbn [bind] in H; [|discriminate].
        assert (c_kind (col_coder c) = c_kind k) as KK by (injection H as <-; reflexivity).
        rewrite KK, W2 in K. discriminate.
Qed.

Lemma push_meta : forall st ann o p r, Forall accepted (map fst ann) -> sel_push st o ann = (p, r) ->
  Forall2 (fun a c => sel_column st (fst a) (snd a) = Ok c) ann (p_meta p) /\ p_meta p = meta_of st ann.
Proof.
  intros st ann. 
  assert (X : forall o p r, Forall accepted (map fst ann) -> sel_push st o ann = (p, r) -> Forall2 (fun a c => sel_column st (fst a) (snd a) = Ok c) ann (p_meta p)).
  { induction ann as [|[ci has] ann IH]; intros o p r A H; cbn [sel_push] in H.
    - inversion H; subst. constructor.
    - cbn [map fst] in A. inversion A as [|? ? A1 A2]; subst. pose proof (accepted_size ci A1) as [_ M]. rewrite M in H. cbn [Z.eqb negb] in H.
      destruct (column_told st ci has A1) as (c & C1 & _). rewrite C1 in H.
      destruct (sel_push st (o + ci_size ci / 8) ann) as [p1 r1] eqn:E. inversion H; subst. cbn [p_meta]. constructor; [exact C1|].
      apply (IH _ _ _ A2 E). }
  intros o p r A H. split; [apply (X o p r A H)|]. unfold meta_of. destruct (sel_push st 0 ann) as [p0 r0] eqn:E.
  pose proof (X _ _ _ A H) as F1. pose proof (X _ _ _ A E) as F2. cbn [fst]. clear -F1 F2. revert F2. generalize (p_meta p0) as l2.
  induction F1 as [|a c l l1 H F IH]; intros l2 F2; inversion F2 as [|? c2 ? ? H2 F2']; subst; [reflexivity|]. f_equal; [congruence|]. apply IH. exact F2'.
Qed.

Lemma meta_cols : forall st ann, Forall accepted (map fst ann) -> Forall2 (fun a c => sel_column st (fst a) (snd a) = Ok c) ann (meta_of st ann).
Proof.
  intros st ann A. destruct (sel_push st 0 ann) as [p r] eqn:E. destruct (push_meta st ann 0 p r A E) as [X Y]. rewrite <- Y. exact X.
Qed.

Lemma meta_facts : forall st ann, Forall accepted (map fst ann) ->
  map info (meta_of st ann) = map announced (map fst ann) /\
  map shape (meta_of st ann) = map (fun ci => (ci_name ci, ci_type ci, ci_size ci / 8)) (map fst ann) /\
  Forall copyable (meta_of st ann).
Proof.
  intros st ann A. pose proof (meta_cols st ann A) as F. induction F as [|a c ann l H F IH]; [repeat split; constructor|].
  cbn [map] in A. inversion A as [|? ? A1 A2]; subst. destruct (IH A2) as (I1 & I2 & I3).
  destruct (column_facts st (fst a) (snd a) c A1 H) as (C1 & C2 & C3). cbn [map]. rewrite C1, C2, I1, I2. repeat split. constructor; assumption.
Qed.

Lemma faces : forall a b, Forall accepted a -> Forall accepted b ->
  map (fun ci => (ci_name ci, ci_type ci, ci_size ci / 8)) a = map (fun ci => (ci_name ci, ci_type ci, ci_size ci / 8)) b <-> map face a = map face b.
Proof.
  intros a b A. revert b. induction A as [|x a A1 A IH]; intros b B; destruct b as [|y b]; cbn [map]; try (split; intros; discriminate); [split; reflexivity|].
  inversion B as [|? ? B1 B2]; subst. pose proof (accepted_div x A1) as D1. pose proof (accepted_div y B1) as D2.
  specialize (IH b B2). unfold face at 1 3. split; intros H; injection H as H1 H2 H3 H4.
  - rewrite (proj1 IH H4). f_equal. rewrite <- D1, <- D2. congruence.
  - rewrite (proj2 IH H4). f_equal. congruence.
Qed.

(** ** One row *)

Lemma value_meta : forall s i v, s_meta (fst (output_value s i v)) = s_meta s.
Proof.
  intros s i v. destruct v as [bits missing|val n missing]; unfold output_value.
  - destruct ((s_out s <=? s_pos s) && (s_pos s <? s_end s)); [|reflexivity]. destruct (if missing then nth_error (s_missing s) i else Some bits); reflexivity.
  - destruct (nth_error (s_sizes s) i); [|reflexivity]. destruct ((s_out s <=? s_pos s) && (s_pos s + 8 * z <=? s_end s)); [|reflexivity].
    destruct (8 * z <? n); [reflexivity|]. destruct (negb missing && (Z.of_nat (length val) <? n)); reflexivity.
Qed.

Lemma row_meta : forall s vals, s_meta (fst (output_row s vals)) = s_meta s.
Proof.
  intros s vals. unfold output_row. destruct (negb (length vals =? length (s_sizes s))%nat); [reflexivity|].
  assert (X : forall vs s i, s_meta (fst (output_values s i vs)) = s_meta s).
  { induction vs as [|v vs IH]; intros s0 i; [reflexivity|]. cbn [output_values]. pose proof (value_meta s0 i v) as V.
    destruct (output_value s0 i v) as [s1 r]. cbn [fst] in V. destruct r; cbn [fst]; try exact V. rewrite IH. exact V. }
  specialize (X vals (with_pos s (s_out s) (s_mem s)) 0%nat). destruct (output_values (with_pos s (s_out s) (s_mem s)) 0 vals) as [s1 r].
  cbn [fst] in X. destruct r; [|exact X|exact X]. destruct (negb (s_pos s1 =? s_end s1)); exact X.
Qed.

Definition forced (ann : list (colinfo * bool)) (a : Z) : force := {| f_cols := Some (map fst ann); f_buffer := Some (a, width (map fst ann) / 8) |}.

Lemma process_own : forall st s ann a first q,
  tracks st true (forced ann a) first s -> s_meta s = meta_of st ann ->
  Forall (fun t => fst t <> [] /\ Forall accepted (map fst (fst t))) (q_types q) ->
  Forall2 typed (map fst (last_ann ann q)) (q_vals q) -> Forall2 room (map fst (last_ann ann q)) (q_vals q) -> Forall held (q_vals q) ->
  exists s1 a1, process st s q = (s1, Ok tt) /\ tracks st true (forced (last_ann ann q) a1) false s1 /\
    s_meta s1 = meta_of st (last_ann ann q) /\ (first = true \/ q_types q <> [] -> s_new s1 = true) /\
    get (s_mem s1) (s_out s1) (s_end s1 - s_out s1) = cells st (map fst (last_ann ann q)) (q_vals q).
Proof.
  intros st s ann a first [types vals] T M A TY RM HE. unfold process, last_ann in *. cbn [q_types q_vals] in *.
  revert s ann a first T M TY RM. induction A as [|[tcols at_] types (A1 & A2) A IH]; intros s ann a first T M TY RM; cbn [fold_left] in *.
  - destruct (event_told st true (forced ann a) first s (SRow vals) T) as [E1 E2].
    { intros _. split; assumption. }
    cbv zeta in E1, E2. cbn [sel_event] in E1, E2. destruct E1 as [D1 D2 D3 D4 D5].
    pose proof T as [_ T2 _ _]. cbn [forced f_cols] in T2. destruct T2 as (_ & T2 & _). destruct (width_div _ T2) as [D _].
    assert (good true (forced ann a) (SRow vals)) as G by (cbn [good forced f_cols f_buffer]; split; [exact RM|lia]).
    pose proof (row_meta s vals) as RME.
    destruct (output_row s vals) as [s1 r] eqn:OE. cbn [fst snd] in *. assert (r = Ok tt) as -> by (apply D1; exact G). exists s1, a. split; [reflexivity|].
    split; [exact E2|]. split; [congruence|]. specialize (D3 G). cbn [shown forced f_cols f_buffer] in D3. destruct D3 as (NW & _ & SO & GM & _).
    split; [intros [->|X]; [exact NW|contradiction]|].
    destruct E2 as [_ _ E3 _]. cbn [after forced f_buffer] in E3. destruct E3 as (B1 & B2 & _).
    rewrite B2, B1. replace (a + 8 * (width (map fst ann) / 8) - a) with (width (map fst ann)) by lia. exact GM.
  - cbn [fst] in *. destruct (event_told st true (forced ann a) first s (STypes tcols at_) T) as [E1 E2].
    { split; [exact A1|exact A2]. }
    cbv zeta in E1, E2. cbn [sel_event after] in E1, E2. destruct E1 as [D1 D2 D3 D4 D5].
    assert (s_meta (fst (update_types st s tcols at_)) = meta_of st tcols) as M1.
    { unfold update_types. destruct (sel_push st 0 tcols) as [p r] eqn:E. destruct (push_meta st tcols 0 p r A2 E) as [_ PM].
      destruct r; [|exact PM|exact PM]. destruct (s_own s); [|exact PM]. cbv zeta. destruct (_ <=? _); exact PM. }
    destruct (update_types st s tcols at_) as [s1 r] eqn:UE. cbn [fst snd] in *.
    assert (r = Ok tt) as -> by (apply D1; exact Logic.I).
    change {| f_cols := Some (map fst tcols); f_buffer := Some (at_, width (map fst tcols) / 8) |} with (forced tcols at_) in E2.
    destruct (IH s1 tcols at_ true E2 M1 TY RM) as (s2 & a2 & P1 & P2 & P3 & P4 & P5).
    exists s2, a2. split; [exact P1|]. split; [exact P2|]. split; [exact P3|]. split; [|exact P5]. intros _. apply P4. left. reflexivity.
Qed.

(** ** All rows *)

Section Rows.
Variables st st' : settings.
Variables (pr : props) (md5 : list Z -> list Z).
Hypothesis Hd : digest md5.
Variable N : nat.
Hypothesis HN : (0 < N)%nat.
Variable q : query.
Hypothesis RU : runs q.
Hypothesis FI : filterable st N pr q.

Definition arow_of (t : list (colinfo * bool) * qrow) : arow := (meta_of st (fst t), row_cells st (map fst (fst t), q_vals (snd t))).
Definition arows : list arow := map arow_of (turns (qy_cols q) (qy_rows q)).

Definition fine (t : list (colinfo * bool) * qrow) : Prop :=
  fst t <> [] /\ Forall accepted (map fst (fst t)) /\ Forall (fun t => fst t <> [] /\ Forall accepted (map fst (fst t))) (q_types (snd t)) /\
  Forall2 typed (map fst (fst t)) (q_vals (snd t)) /\ Forall2 room (map fst (fst t)) (q_vals (snd t)) /\ Forall held (q_vals (snd t)).

Lemma turns_fine : Forall fine (turns (qy_cols q) (qy_rows q)).
Proof using RU.
  destruct RU as [(U1 & U2) U3 U4]. unfold answer in U4. rewrite <- turns_in_turn in U4. rewrite map_map, Forall_map in U4. cbn [fst snd] in U4.
  revert U1 U2 U4. generalize (qy_cols q) as ann. induction U3 as [|r rs U3 U3' IH]; intros ann U1 U2 U4; cbn [turns] in *; [constructor|].
  inversion U4 as [|? ? (V1 & V2 & V3) V4]; subst. cbn [fst snd] in *.
  assert (L : last_ann ann r <> [] /\ Forall accepted (map fst (last_ann ann r))).
  { unfold last_ann. clear -U1 U2 U3. revert ann U1 U2. induction U3 as [|t ts (A & B) F IH]; intros ann U1 U2; cbn [fold_left]; [split; assumption|]. apply IH; assumption. }
  destruct L as [L1 L2]. constructor; [|apply IH; assumption]. split; [exact L1|]. split; [exact L2|]. split; [exact U3|]. split; [exact V1|]. split; [exact V2|exact V3].
Qed.

Lemma answer_turns : answer q = map (fun t => (map fst (fst t), q_vals (snd t))) (turns (qy_cols q) (qy_rows q)).
Proof. unfold answer. rewrite <- turns_in_turn, map_map. reflexivity. Qed.

Lemma in_turns_fine : forall t, In t (turns (qy_cols q) (qy_rows q)) -> fine t.
Proof using RU. intros t. apply Forall_forall. apply turns_fine. Qed.

Lemma rows_fine : rows_copyable st N pr arows.
Proof using RU FI.
  split.
  - intros cs H. unfold arows in H. rewrite map_map in H. apply in_map_iff in H as (t & <- & Ht). cbn [arow_of fst].
    pose proof (in_turns_fine t Ht) as (_ & A & _). destruct (meta_facts st (fst t) A) as (M1 & _ & M3). split; [|exact M3].
    rewrite M1. apply (fi_columns _ _ _ _ FI). right. rewrite answer_turns, map_map. cbn [fst]. apply in_map_iff. exists t. split; [reflexivity|exact Ht].
  - intros cs part H NE L P. unfold arows in H. rewrite map_map in H. apply in_map_iff in H as (t & <- & Ht). cbn [arow_of fst] in *.
    pose proof (in_turns_fine t Ht) as (_ & A & _). destruct (meta_facts st (fst t) A) as (M1 & M2 & _). rewrite M1.
    apply (fi_rows _ _ _ _ FI); [rewrite answer_turns, map_map; cbn [fst]; apply in_map_iff; exists t; split; [reflexivity|exact Ht]|exact NE|exact L|].
    intros row Hr. destruct (P row Hr) as (cs' & I & S). unfold arows in I. apply in_map_iff in I as (t' & E & Ht').
    unfold arow_of in E. injection E as E1 E2. pose proof (in_turns_fine t' Ht') as (_ & A' & _). destruct (meta_facts st (fst t') A') as (_ & M2' & _).
    exists (map fst (fst t'), q_vals (snd t')). split; [rewrite answer_turns; apply in_map_iff; exists t'; split; [reflexivity|exact Ht']|].
    split; [symmetry; exact E2|]. cbn [fst]. apply faces; [exact A'|exact A|]. rewrite <- M2, <- M2'. rewrite E1. exact S.
Qed.

(** pass1 sees the bytes of the row, not its cells *)
Lemma pass1_bytes : forall w fresh md cells, pass1_row md5 st N pr w fresh md [concat cells] = pass1_row md5 st N pr w fresh md cells.
Proof. intros. unfold pass1_row. cbn [concat]. rewrite app_nil_r. reflexivity. Qed.

Notation session := (session st st' pr md5 N arows).

Lemma loop_told : forall rest done ann a s qr w cs0 p n,
  turns (qy_cols q) (qy_rows q) = done ++ (ann, qr) :: turns ann rest ->
  tracks st true (forced ann a) false s -> s_meta s = meta_of st ann ->
  get (s_mem s) (s_out s) (s_end s - s_out s) = cells st (map fst ann) (q_vals qr) ->
  session w cs0 p (map arow_of done) -> (s_new s = true \/ map shape (meta_of st ann) = map shape cs0) ->
  forall fuel, (S (length rest) < fuel)%nat ->
  exists w' cs1 p', filter_loop md5 st N pr fuel w {| it_out := s; it_rest := rest; it_done := false |} n =
    Ok (w', n + Z.of_nat (S (length rest))) /\ session w' cs1 p' arows.
Proof using All.
  induction rest as [|qr2 rest IH]; intros done ann a s qr w cs0 p n E T M G Se F fuel Hf;
    (destruct fuel as [|fuel]; [lia|]); cbn [filter_loop it_done it_out]; rewrite M, G.
  all: assert (Hin : In (arow_of (ann, qr)) arows) by (unfold arows; apply in_map; rewrite E; apply in_or_app; right; left; reflexivity).
  all: change (cells st (map fst ann) (q_vals qr)) with (concat (row_cells st (map fst ann, q_vals qr))); rewrite pass1_bytes.
  all: destruct (row_step st st' pr md5 Hd N HN (fun _ _ => []) arows rows_fine w cs0 p (map arow_of done) (s_new s) (meta_of st ann) (row_cells st (map fst ann, q_vals qr)) Se Hin F)
         as (w1 & cs1 & p1 & R1 & R2 & R3); rewrite R1; cbn [bind].
  - unfold sel_next. cbn [it_done it_rest bind]. destruct fuel as [|fuel]; [cbn in Hf; lia|]. cbn [filter_loop it_done].
    exists w1, cs1, p1. split; [reflexivity|].
    assert (map arow_of done ++ [(meta_of st ann, row_cells st (map fst ann, q_vals qr))] = arows) as Ar by (unfold arows; rewrite E; cbn [turns]; rewrite map_app; reflexivity).
    rewrite Ar in R2. exact R2.
  - unfold sel_next. cbn [it_done it_rest it_out].
    assert (In (last_ann ann qr2, qr2) (turns (qy_cols q) (qy_rows q))) as I2.
    { rewrite E. apply in_or_app. right. right. cbn [turns]. left. reflexivity. }
    pose proof (in_turns_fine _ I2) as (_ & A2 & Q1 & V1 & V2 & V3). cbn [fst snd] in *.
    destruct (process_own st s ann a false qr2 T M Q1 V1 V2 V3) as (s2 & a2 & P1 & P2 & P3 & P4 & P5).
    rewrite P1. cbn [bind].
    destruct (IH (done ++ [(ann, qr)]) (last_ann ann qr2) a2 s2 qr2 w1 cs1 p1 (n + 1)) with (fuel := fuel) as (w' & cs' & p' & L1 & L2).
    + rewrite E, <- app_assoc. reflexivity.
    + exact P2.
    + exact P3.
    + exact P5.
    + rewrite map_app. exact R2.
    + destruct (q_types qr2) as [|t ts] eqn:QT.
      * right. unfold last_ann. rewrite QT. cbn [fold_left]. exact R3.
      * left. apply P4. right. discriminate.
    + cbn [length] in Hf. lia.
    + exists w', cs', p'. split; [|exact L2]. rewrite L1. cbn [length]. do 2 f_equal. lia.
Qed.

Lemma start_any : forall md w, writable_columns (map info md) pr -> Forall copyable md -> w_rows w = [] ->
  exists w1, pass1_init st w md = Ok w1 /\ w_out (write_header w1) = w_out w /\
    (exists base, Forall2 (fun ci c => make_column st ci = Ok c) (map info md) base /\ map shape base = map shape md /\
      pending st (map info md) base (write_header w1) [] (w_out w)).
Proof.
  intros md w W C E. assert (Forall (fun c => WriterSpec.known_type (info c)) md) as K. { pose proof (wc_types _ _ W) as K. rewrite Forall_map in K. exact K. }
  destruct (columns_ok st md K C) as (cs & base & A1 & A2 & A3 & A4 & A5).
  unfold pass1_init, writer_columns. rewrite A1. cbn [bind]. rewrite A2. cbn [bind w_cols]. rewrite A3. cbn [bind].
  assert (md <> []) as Hne by (intros ->; destruct W as [W _ _ _ _ _ _]; now apply W).
  destruct (Nat.eqb_spec (length md) 0) as [Q|_]; [destruct md; [congruence|discriminate]|]. cbn [negb assert bind w_last w_out w_init].
  eexists. split; [reflexivity|]. split; [reflexivity|]. exists base. split; [exact A4|]. split; [exact A5|].
  match goal with |- pending _ _ _ (write_header ?w1) _ _ => change (w_out w) with (w_out w1) end. eapply header_ok.
  - exact A4.
  - cbn [w_cols]. now apply (reset_base st (map info md)).
  - reflexivity.
Qed.

Lemma prepared_own : forall mem, exists s0, update_types st (sel_make true mem) (qy_cols q) (qy_at q) = (s0, Ok tt) /\
  tracks st true (forced (qy_cols q) (qy_at q)) true s0 /\ s_meta s0 = meta_of st (qy_cols q).
Proof using RU.
  intros mem. destruct RU as [(U1 & U2) _ _].
  assert (tracks st true nothing true (sel_make true mem)) as T.
  { split; cbn; [reflexivity|split; reflexivity|split; reflexivity|split; reflexivity]. }
  destruct (event_told st true nothing true (sel_make true mem) (STypes (qy_cols q) (qy_at q)) T (conj U1 U2)) as [E1 E2].
  cbv zeta in E1, E2. cbn [sel_event after] in E1, E2. destruct E1 as [D1 D2 D3 D4 D5].
  assert (s_meta (fst (update_types st (sel_make true mem) (qy_cols q) (qy_at q))) = meta_of st (qy_cols q)) as M1.
  { unfold update_types. destruct (sel_push st 0 (qy_cols q)) as [p r] eqn:E. destruct (push_meta st (qy_cols q) 0 p r U2 E) as [_ PM].
    destruct r; [|exact PM|exact PM]. cbn [sel_make s_own]. cbv zeta. destruct (_ <=? _); exact PM. }
  destruct (update_types st (sel_make true mem) (qy_cols q) (qy_at q)) as [s1 r] eqn:UE. cbn [fst snd] in *.
  assert (r = Ok tt) as -> by (apply D1; exact Logic.I). exists s1. split; [reflexivity|]. split; [exact E2|exact M1].
Qed.

Lemma filter_core : forall mem, exists out r1, filter_query md5 st N pr mem q = Ok (out, Z.of_nat (length (answer q))) /\
  frames_hold st st' pr md5 out r1 /\ Forall2 (matched arows) arows r1.
Proof using All.
  intros mem. destruct (prepared_own mem) as (s0 & U & T & M). unfold filter_query. rewrite U. cbn [bind].
  assert (LA : length (answer q) = length (qy_rows q)).
  { unfold answer. rewrite map_length. generalize (map fst (qy_cols q)) as c. induction (qy_rows q) as [|x l IH]; intros c; [reflexivity|]. cbn [in_turn length]. rewrite IH. reflexivity. }
  destruct (qy_rows q) as [|qr rest] eqn:QR.
  - (* no rows *)
    unfold sel_next. cbn [it_done it_rest bind it_out]. rewrite M.
    destruct RU as [(U1 & U2) _ _]. destruct (meta_facts st (qy_cols q) U2) as (M1 & M2 & M3).
    assert (W : writable_columns (map info (meta_of st (qy_cols q))) pr). { rewrite M1. apply (fi_columns _ _ _ _ FI). left. reflexivity. }
    destruct (start_any (meta_of st (qy_cols q)) (new_writer []) W M3 eq_refl) as (w & G1 & G2 & base & G3 & G4 & G5).
    rewrite G1. cbn [bind]. cbn [length filter_loop it_done bind]. cbn [new_writer w_out] in G2, G5.
    destruct (session_flush st st' pr md5 Hd N HN _ base W G3 (write_header w) [] [] G5) as (w2 & D & F1 & F2 & F3); [cbn [length]; lia|congruence|].
    rewrite F1. cbn [bind]. unfold Writer.close. destruct F2 as [Q1 _ Q3 Q4 _ _ _]. rewrite Q1. unfold flush. rewrite Q1, Q3. cbn [assert bind].
    eexists _, _. split; [rewrite LA; reflexivity|]. cbn [w_out]. rewrite Q4. split; [exact F3|]. unfold arows. rewrite QR. constructor.
  - unfold sel_next. cbn [it_done it_rest it_out].
    assert (In (last_ann (qy_cols q) qr, qr) (turns (qy_cols q) (qy_rows q))) as I2 by (rewrite QR; left; reflexivity).
    pose proof (in_turns_fine _ I2) as (_ & A2 & Q1 & V1 & V2 & V3). cbn [fst snd] in *.
    destruct (process_own st s0 (qy_cols q) (qy_at q) true qr T M Q1 V1 V2 V3) as (s2 & a2 & P1 & P2 & P3 & P4 & P5).
    rewrite P1. cbn [bind it_out]. rewrite P3.
    set (ann := last_ann (qy_cols q) qr) in *.
    assert (Hin : In (meta_of st ann) (map fst arows)) by (unfold arows; rewrite map_map; apply in_map_iff; exists (ann, qr); split; [reflexivity|exact I2]).
    destruct (start_ok st pr N arows rows_fine (new_writer []) (meta_of st ann) Hin eq_refl) as (w & G1 & G2 & base & G3 & G4 & G5).
    rewrite G1. cbn [bind]. cbn [new_writer w_out] in G2, G5.
    assert (Se : session (write_header w) (meta_of st ann) [] (map arow_of [])).
    { split; auto.
      - exists base. rewrite G2. auto.
      - intros ? [].
      - exists []. rewrite G2. split; [apply hold_nil|constructor]. }
    destruct (loop_told rest [] ann a2 s2 qr (write_header w) (meta_of st ann) [] 0) with (fuel := S (S (length (qr :: rest)))) as (w1 & cs1 & p1 & L1 & [S1 (base1 & B1 & B2 & B3) S3 S4 (r1 & D1 & D2)]); auto.
    { rewrite QR. reflexivity. }
    rewrite L1. cbn [bind]. destruct (known st pr N arows rows_fine cs1 S1) as (_ & _ & W1).
    destruct (session_flush st st' pr md5 Hd N HN (map info cs1) base1 W1 B1 w1 p1 (w_out w1) B3) as (w2 & D & F1 & F2 & F3);
      [lia|intros Hp; apply (part_ok st pr N arows rows_fine); auto; lia|].
    rewrite F1. cbn [bind]. unfold Writer.close. destruct F2 as [Q2 _ Q3 Q4 _ _ _]. rewrite Q2. unfold flush. rewrite Q2, Q3. cbn [assert bind].
    eexists (w_out w2), _. split; [rewrite LA; reflexivity|]. split; [|exact D2]. rewrite Q4. now apply hold_app.
Qed.

Lemma given : forall t f out, In t (turns (qy_cols q) (qy_rows q)) -> matched arows (arow_of t) f -> comes_back st st' f out ->
  gives st st' q (map fst (fst t), q_vals (snd t)) out.
Proof using RU.
  intros t f out II (M1 & cs & M2 & M3 & M4) (D & L1 & L2 & V). pose proof (in_turns_fine t II) as (_ & A & _ & TY & _).
  destruct (meta_facts st (fst t) A) as (F1 & F2 & _). cbn [arow_of fst snd] in *.
  unfold arows in M4. rewrite map_map in M4. apply in_map_iff in M4 as (t' & E' & I'). cbn [arow_of fst] in E'.
  pose proof (in_turns_fine t' I') as (_ & A' & _). destruct (meta_facts st (fst t') A') as (F1' & F2' & _). rewrite E' in F1', F2'.
  assert (map face (map fst (fst t')) = map face (map fst (fst t))) as FA by (apply faces; [exact A'|exact A|congruence]).
  pose proof (TableProofs.Forall2_length _ _ _ TY) as LT.
  assert (LF : length (fst f) = length (fst t)).
  { rewrite M2, F1', !map_length. rewrite <- (map_length fst (fst t')), <- (map_length face), FA, !map_length. reflexivity. }
  split; cbn [fst snd].
  - exists (map fst (fst t')). split; [|split; [exact FA|]].
    + rewrite answer_turns, map_map. cbn [fst]. apply in_map_iff. exists t'. split; [reflexivity|exact I'].
    + rewrite <- F1', <- M2. exact D.
  - rewrite map_length in *. split; [congruence|]. congruence.
  - intros i ci v y Ei Ev Ey.
    assert (Ex : nth_error (snd f) i = Some (cell st ci v)).
    { rewrite M1. unfold row_cells. cbn [fst snd]. rewrite nth_error_map, (P_Threads.nth_error_combine _ _ i ci v Ei Ev). reflexivity. }
    assert (Ec : exists cf, nth_error (fst f) i = Some cf /\ ci_type cf = ci_type ci).
    { assert (N1 : nth_error (map face (map fst (fst t'))) i = Some (face ci)) by (rewrite FA, nth_error_map, Ei; reflexivity).
      rewrite nth_error_map in N1. destruct (nth_error (map fst (fst t')) i) as [c'|] eqn:E1; [|discriminate].
      exists (announced c'). rewrite M2, F1', nth_error_map, E1. split; [reflexivity|]. cbn [option_map] in N1. injection N1 as N1 N2 N3. exact N2. }
    destruct Ec as (cf & Ec & TC). specialize (V i cf _ y Ec Ex Ey). rewrite TC in V.
    assert (T : typed ci v). { apply (CsvRows.Forall2_at _ _ _ i _ _ TY Ei Ev). }
    destruct v as [bits m|val n m]; [exact V|]. cbn [typed] in T. destruct T as [T _].
    cbn [shows_value]. destruct V as [([V|V] & _)|[(V & _)|[(V & _)|(_ & V)]]];
      try (exfalso; rewrite T in V; unfold ty_INTEGER, ty_BITFIELD, ty_REAL, ty_DOUBLE, ty_STRING in V; congruence).
    rewrite V. cbn [cell]. destruct m; apply CsvRows.until_nul_zeros.
Qed.

Lemma filter_told : forall mem, exists out, filter_query md5 st N pr mem q = Ok (out, Z.of_nat (length (answer q))) /\
  forall junk, exists rows', Forall2 (gives st st' q) (answer q) rows' /\
    forall f, (length (answer q) < f)%nat -> file_rows md5 st' junk f out = (rows', Clean).
Proof using All.
  intros mem. destruct (filter_core mem) as (out & r1 & E & (fs & bs & -> & F & <-) & M). exists (concat bs). split; [exact E|].
  intros junk. destruct (read_file st st' pr md5 Hd junk fs bs F) as (rows' & C & RR).
  assert (L : length (flat fs) = length (answer q)).
  { rewrite answer_turns, map_length. rewrite <- (TableProofs.Forall2_length _ _ _ M). unfold arows. apply map_length. }
  exists rows'. split; [|rewrite <- L; exact RR]. rewrite answer_turns. clear L RR E.
  assert (X : forall ts fl, (forall t, In t ts -> In t (turns (qy_cols q) (qy_rows q))) -> Forall2 (matched arows) (map arow_of ts) fl ->
    forall rows', Forall2 (comes_back st st') fl rows' -> Forall2 (gives st st' q) (map (fun t => (map fst (fst t), q_vals (snd t))) ts) rows').
  { clear M C. induction ts as [|t ts IH]; intros fl HI M rs C; inversion M as [|? f ? fl' M1 M2]; subst; inversion C as [|? o ? os C1 C2]; subst; cbn [map]; constructor.
    - apply (given t f o); [apply HI; left; reflexivity|exact M1|exact C1].
    - apply (IH fl'); [intros t' H; apply HI; right; exact H|exact M2|exact C2]. }
  apply (X _ (flat fs)); [auto|exact M|exact C].
Qed.

End Rows.

(** ** C62 *)

(** Filtering writes the rows of the query, in order, and counts them. *)
Theorem C62_filter : forall md5 st N pr mem q, digest md5 -> (0 < N)%nat -> runs q -> filterable st N pr q ->
  exists out, filter_query md5 st N pr mem q = Ok (out, Z.of_nat (length (answer q))) /\
    forall st' junk, exists rows', Forall2 (gives st st' q) (answer q) rows' /\
      forall f, (length (answer q) < f)%nat -> file_rows md5 st' junk f out = (rows', Clean).
Proof.
  intros md5 st N pr mem q Hd HN RU FI. destruct (filter_told st st pr md5 Hd N HN q RU FI mem) as (out & E & _). exists out. split; [exact E|].
  intros st' junk. destruct (filter_told st st' pr md5 Hd N HN q RU FI mem) as (out' & E' & R). assert (out' = out) as -> by congruence. apply R.
Qed.
Print Assumptions C62_filter.
