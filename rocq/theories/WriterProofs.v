(** Files written row by row: what the frames hold. *)
From Coq Require Import String.
From Verif Require Import IntProofs Spec WriterSpec Base Fp FpProofs Stream StreamProofs StreamLocal Codec Meta Header Encoder Table Writer RowReader Reader RowList
  ColumnProofs HeaderProofs HeaderSize TableProofs DecodeProofs LookupProofs FrameProofs Roundtrip P_Frame.
Open Scope Z_scope.
Local Notation length := List.length.

(** ** Missing values *)

Definition default_missing (ty : Z) : Z := if (ty =? ty_INTEGER) || (ty =? ty_BITFIELD) then integerMDI else realMDI.

Lemma set_data_size_missing k n k1 : set_data_size k n = Ok k1 ->
  c_missing k1 = c_missing k /\ c_kind k1 = c_kind k /\ c_int64 k1 = c_int64 k /\
  data_size_doubles k1 = n /\ c_min k1 = c_min k /\ c_max k1 = c_max k /\ c_hasMissing k1 = c_hasMissing k.
Proof.
  unfold set_data_size, data_size_doubles. destruct (chars_based (c_kind k)) eqn:E.
  - intros [= <-]. cbn. rewrite E. auto 10.
  - destruct (Z.eqb_spec n 1); [|discriminate]. intros [= <-]. rewrite E. auto 10.
Qed.

Lemma working_missing st o ty k : working_codec st o ty = Ok k ->
  c_missing k = default_missing ty /\ c_min k = c_missing k /\ c_max k = c_missing k /\ c_hasMissing k = 0 /\
  c_int64 k = ((ty =? ty_INTEGER) || (ty =? ty_BITFIELD)) && negb (iad st) /\
  (chars_based (c_kind k) = true <-> ty = ty_STRING).
Proof.
  unfold working_codec, default_missing.
  destruct (Z.eqb_spec ty ty_INTEGER) as [->|N1].
  { intros [= <-]. cbn. repeat split; discriminate. }
  destruct (Z.eqb_spec ty ty_BITFIELD) as [->|N2].
  { unfold set_missing_value, check_cast. cbn [new_codec c_min c_missing c_max c_kind base_integer andb].
    destruct (iad st); cbn [new_codec c_int64 int_built negb andb orb Z.eqb].
    - intros H. assert (k = set_stats (new_codec true o KInt32 ty_BITFIELD) 0 bitfieldMDI bitfieldMDI bitfieldMDI) as ->
        by (revert H; vm_compute; congruence).
      cbn. repeat split; discriminate.
    - intros H. assert (k = set_stats (new_codec false o KInt32 ty_BITFIELD) 0 bitfieldMDI bitfieldMDI bitfieldMDI) as ->
        by (revert H; vm_compute; congruence).
      cbn. repeat split; discriminate. }
  destruct (Z.eqb_spec ty ty_REAL) as [->|N3]; cbn [orb].
  { intros [= <-]. cbn. repeat split; discriminate. }
  destruct (Z.eqb_spec ty ty_DOUBLE) as [->|N4]; cbn [orb].
  { intros [= <-]. cbn. repeat split; discriminate. }
  destruct (Z.eqb_spec ty ty_STRING) as [->|N5]; [|discriminate].
  intros [= <-]. cbn. repeat split; reflexivity.
Qed.

Lemma gather_keeps c x c' : gather c x = Ok c' ->
  c_missing c' = c_missing c /\ c_kind c' = c_kind c /\ c_dsd c' = c_dsd c.
Proof.
  unfold gather. destruct (chars_based (c_kind c)) eqn:E.
  - unfold chars_gather. intros H. apply bind_ok in H as (s & _ & H).
    assert (H' := f_equal (fun r => match r with Ok y => Some (c_missing y, c_kind y, c_dsd y) | _ => None end) H).
    cbn in H'. destruct (mget (c_lookup c) s); cbn in H'; injection H'; auto.
  - intros H. apply bind_ok in H as (b & _ & H). unfold base_gather in H.
    destruct (c_kind c) eqn:K; injection H as <-; repeat destruct (deq _ _); cbn; auto.
Qed.

Lemma gather_all_keeps : forall xs c c', gather_all c xs = Ok c' ->
  c_missing c' = c_missing c /\ c_kind c' = c_kind c /\ c_dsd c' = c_dsd c.
Proof.
  induction xs as [|x xs IH]; intros c c' H; cbn in H.
  - injection H as <-. auto.
  - apply bind_ok in H as (c1 & H1 & H). apply gather_keeps in H1 as (A1 & A2 & A3).
    apply IH in H as (B1 & B2 & B3). repeat split; congruence.
Qed.

Lemma adopt_keeps c0 f k : adopt c0 f = Ok k -> c_missing k = c_missing c0 /\ c_kind k = c_kind f /\
  data_size_doubles k = data_size_doubles f /\ c_int64 k = c_int64 f.
Proof.
  unfold adopt, set_missing_value. intros H. apply bind_ok in H as (c1 & H1 & H). injection H as <-.
  apply bind_ok in H1 as (u & _ & H1). apply bind_ok in H1 as (u1 & _ & H1). injection H1 as <-. cbn. auto.
Qed.

Lemma optimize_keeps st o ty c k : optimize st o ty c = Ok k ->
  (ty = ty_STRING -> chars_based (c_kind c) = true) -> (ty <> ty_STRING -> chars_based (c_kind c) = false) ->
  c_missing k = c_missing c /\ data_size_doubles k = data_size_doubles c.
Proof.
  intros H S1 S2. unfold optimize in H.
  destruct (Z.eqb_spec ty ty_REAL) as [->|N1].
  { unfold optimize_real in H. specialize (S2 ltac:(discriminate)).
    destruct (c_kind c) eqn:K; try discriminate. destruct (c_ord c); try discriminate.
    apply bind_ok in H as (kd & Hk & H). apply adopt_keeps in H as (A & _ & D & _). split; [exact A|]. rewrite D.
    unfold data_size_doubles. rewrite K. cbn [new_codec c_kind].
    destruct (deq (c_max c) (c_min c)); [destruct (has_missing c); injection Hk as <-; reflexivity|].
    destruct (c_seenFltMax c); [apply bind_ok in Hk as (u & _ & Hk); injection Hk as <-; reflexivity|].
    destruct (c_seenFltMin c); injection Hk as <-; reflexivity. }
  destruct (Z.eqb_spec ty ty_DOUBLE) as [->|N2].
  { unfold optimize_double in H. specialize (S2 ltac:(discriminate)).
    apply adopt_keeps in H as (A & _ & D & _). split; [exact A|]. rewrite D. unfold data_size_doubles. rewrite S2.
    cbn [new_codec c_kind]. destruct (deq _ _); [destruct (has_missing c)|]; reflexivity. }
  destruct (Z.eqb_spec ty ty_STRING) as [->|N3].
  { unfold optimize_string in H. specialize (S1 eq_refl). apply bind_ok in H as (n & _ & H). apply bind_ok in H as (u & _ & H).
    apply bind_ok in H as (f & Hf & H). apply adopt_keeps in H as (A & _ & D & _). split; [exact A|]. rewrite D.
    destruct ((n =? 1) && (data_size_doubles c =? 1)) eqn:E1.
    { injection Hf as <-. apply andb_prop in E1 as (_ & E1). cbn. lia. }
    assert (G : forall kd, chars_based kd = true ->
      (do f1 <- set_data_size (new_codec (iad st) o kd ty_STRING) (data_size_doubles c);
       Ok (set_strings f1 (c_strings c) (c_lookup c) (c_dsd f1))) = Ok f -> data_size_doubles f = data_size_doubles c).
    { intros kd Hkd Hx. apply bind_ok in Hx as (f1 & Hx1 & Hx2). apply set_data_size_missing in Hx1 as (_ & B & _ & C & _).
      injection Hx2 as <-. unfold data_size_doubles at 1. cbn [set_strings c_kind c_dsd]. unfold data_size_doubles at 1 in C. exact C. }
    destruct ((n =? 1) && long_strings st); [apply (G KLongConstantString eq_refl Hf)|].
    destruct (n <? 256); [apply (G KInt8String eq_refl Hf)|apply (G KInt16String eq_refl Hf)]. }
  specialize (S2 ltac:(assumption)).
  destruct ((ty =? ty_INTEGER) || (ty =? ty_BITFIELD)) eqn:E; [|now injection H as <-].
  unfold optimize_int in H. apply bind_ok in H as (n & _ & H). apply adopt_keeps in H as (A & _ & D & _).
  split; [exact A|]. rewrite D. unfold data_size_doubles. rewrite S2. cbn [new_codec c_kind].
  destruct (has_missing c); repeat destruct (_ =? _); repeat destruct (_ <? _); repeat destruct (_ <=? _); reflexivity.
Qed.

Lemma make_column_facts st ci c : make_column st ci = Ok c ->
  c_missing (col_coder c) = default_missing (ci_type ci) /\
  c_min (col_coder c) = c_missing (col_coder c) /\ c_max (col_coder c) = c_missing (col_coder c) /\
  c_hasMissing (col_coder c) = 0 /\ c_int64 (col_coder c) = ((ci_type ci =? ty_INTEGER) || (ci_type ci =? ty_BITFIELD)) && negb (iad st) /\
  width c = ci_size ci /\ (chars_based (c_kind (col_coder c)) = true <-> ci_type ci = ty_STRING).
Proof.
  unfold make_column, width. intros H. apply bind_ok in H as (k & H1 & H). apply bind_ok in H as (u & H2 & H).
  apply bind_ok in H as (k1 & H3 & H). injection H as <-. cbn [col_coder].
  apply working_missing in H1 as (A1 & A2 & A3 & A4 & A5 & A6).
  apply set_data_size_missing in H3 as (B1 & B2 & B3 & B4 & B5 & B6 & B7).
  destruct (Z.eqb_spec (ci_size ci mod 8) 0); [|discriminate].
  rewrite B1, B2, B3, B4, B5, B6, B7. repeat split; auto; try congruence; try apply A6.
  pose proof (Z.div_mod (ci_size ci) 8). lia.
Qed.

Lemma prepare_facts st o ci cells k : prepare st o ci cells = Ok k ->
  c_missing k = default_missing (ci_type ci) /\ 8 * data_size_doubles k = ci_size ci.
Proof.
  unfold prepare. intros H. apply bind_ok in H as (c & H1 & H). apply bind_ok in H as (k1 & H2 & H).
  apply make_column_facts in H1 as (A1 & _ & _ & _ & _ & A2 & A3). apply gather_all_keeps in H2 as (B1 & B2 & B3).
  unfold width in A2.
  apply optimize_keeps in H as (C1 & C2).
  - rewrite C1, B1, C2. split; [exact A1|]. unfold data_size_doubles in *. now rewrite B2, B3.
  - rewrite B2. apply A3.
  - rewrite B2. intros N. destruct (chars_based (c_kind (col_coder c))); [|reflexivity]. exfalso. apply N, A3. reflexivity.
Qed.

Lemma w_int_len o n x : length (w_int o n x) = n.
Proof. unfold w_int. rewrite swap_length. apply le_bytes_length. Qed.

Lemma read_uint_rest o n x s s' : read_uint o n s = Ok (x, s') -> s' = skipn (Z.to_nat n) s.
Proof.
  unfold read_uint, read_raw. destruct (_ <? n); [discriminate|]. cbn [bind]. congruence.
Qed.

Lemma load_missing k k' st' o ty : reloads st' o ty k k' -> is64 (c_missing k) ->
  c_missing k' = c_missing k /\ c_int64 k' = c_int64 (new_codec (iad st') o (c_kind k) ty).
Proof.
  intros (Ho & _ & _ & bytes & Hs & Hl) H64.
  assert (Hb : exists b1 b2, bytes = w_int o 4 (c_hasMissing k) ++ b1 ++ w_int o 8 (c_missing k) ++ b2 /\ length b1 = 16%nat).
  { unfold save, save_base in Hs. rewrite Ho in Hs. destruct (c_kind k); try (injection Hs as <-);
      try (destruct (c_strings k); [discriminate|injection Hs as <-]).
    all: first
      [ eexists (w_int o 8 (c_min k) ++ w_int o 8 (c_max k)), _;
        split; [rewrite <- ?app_assoc; first [reflexivity | rewrite app_nil_r; reflexivity] | rewrite app_length, !w_int_len; reflexivity]
      | eexists (le_bytes 8 (c_min k) ++ le_bytes 8 (c_max k)), [];
        split; [rewrite <- ?app_assoc, app_nil_r; reflexivity | rewrite app_length, !le_bytes_length; reflexivity]
      | eexists (w_int o 8 (c_min k) ++ w_int o 8 (c_max k)), [];
        split; [rewrite <- ?app_assoc, app_nil_r; reflexivity | rewrite app_length, !w_int_len; reflexivity] ]. }
  destruct Hb as (b1 & b2 & -> & L1). specialize (Hl []). rewrite app_nil_r in Hl.
  set (c0 := new_codec (iad st') o (c_kind k) ty) in *.
  unfold load in Hl. apply bind_ok in Hl as ([c1 s1] & Hb & Hl).
  assert (M : c_missing c1 = c_missing k /\ c_int64 c1 = c_int64 c0).
  { unfold load_base in Hb. change (c_ord c0) with o in Hb.
    apply bind_ok in Hb as ([h s2] & E1 & Hb). apply bind_ok in Hb as ([mi s3] & E2 & Hb). apply bind_ok in Hb as ([ma s4] & E3 & Hb).
    apply bind_ok in Hb as ([ms s5] & E4 & Hb).
    assert (c1 = set_stats c0 h mi ma ms) as -> by congruence. cbn [set_stats c_missing c_int64]. split; [|reflexivity].
    assert (s2 = skipn 4 (w_int o 4 (c_hasMissing k) ++ b1 ++ w_int o 8 (c_missing k) ++ b2)) as ->.
    { unfold read_i32 in E1. apply bind_ok in E1 as ([u s6] & E1 & E1'). apply read_uint_rest in E1. subst s6.
      injection E1' as _ <-. reflexivity. }
    rewrite skipn_app_exact in E2 by (rewrite w_int_len; reflexivity).
    apply read_uint_rest in E2. subst s3. apply read_uint_rest in E3. subst s4.
    rewrite TableProofs.skipn_skipn in E4. change (Z.to_nat 8 + Z.to_nat 8)%nat with 16%nat in E4.
    rewrite skipn_app_exact in E4 by (symmetry; assumption). rewrite read_f64_app in E4 by exact H64. congruence. }
  destruct M as (M1 & M2). rewrite <- M1, <- M2. clear M1 M2.
  destruct (c_kind c0).
  all: try (apply bind_ok in Hl as (u & _ & Hl); injection Hl as <- _; auto; fail).
  all: try (injection Hl as <- _; auto; fail).
  - apply bind_ok in Hl as ([t s2] & _ & Hl). injection Hl as <- _. auto.
  - apply bind_ok in Hl as ([t s2] & _ & Hl). apply bind_ok in Hl as (u & _ & Hl). injection Hl as <- _. auto.
  - apply bind_ok in Hl as ([t s2] & _ & Hl). apply bind_ok in Hl as (u & _ & Hl). apply bind_ok in Hl as ([r s3] & _ & Hl).
    apply bind_ok in Hl as (u1 & _ & Hl). injection Hl as <- _. auto.
  - apply bind_ok in Hl as ([t s2] & _ & Hl). apply bind_ok in Hl as (u & _ & Hl). apply bind_ok in Hl as ([r s3] & _ & Hl).
    apply bind_ok in Hl as (u1 & _ & Hl). injection Hl as <- _. auto.
Qed.

Lemma prepare_int64 st o ci cells k : prepare st o ci cells = Ok k -> c_int64 k = true ->
  int_type (ci_type ci) /\ iad st = false.
Proof.
  intros H. unfold prepare in H. apply bind_ok in H as (c & H1 & H). apply bind_ok in H as (k1 & H2 & H).
  set (good b := b = true -> int_type (ci_type ci) /\ iad st = false).
  change (good (c_int64 k)).
  assert (G : forall f, good (c_int64 f) -> adopt k1 f = Ok k -> good (c_int64 k)).
  { intros f Hf Ha. apply adopt_keeps in Ha as (_ & _ & _ & ->). exact Hf. }
  assert (Gn : forall kd ty, (ty =? ty_INTEGER) || (ty =? ty_BITFIELD) = false -> good (c_int64 (new_codec (iad st) o kd ty))).
  { intros kd ty T. cbn [new_codec c_int64]. rewrite T, andb_false_r. intros Q. discriminate Q. }
  unfold optimize in H. destruct (ci_type ci =? ty_REAL) eqn:T1.
  { unfold optimize_real in H. destruct (c_kind k1); try discriminate. destruct (c_ord k1); try discriminate.
    apply bind_ok in H as (kd & _ & H). eapply G; [|exact H]. now apply Gn. }
  destruct (ci_type ci =? ty_DOUBLE) eqn:T2.
  { unfold optimize_double in H. eapply G; [|exact H]. now apply Gn. }
  destruct (ci_type ci =? ty_STRING) eqn:T3.
  { unfold optimize_string in H. apply bind_ok in H as (n & _ & H). apply bind_ok in H as (u & _ & H).
    apply bind_ok in H as (f & Hf & H). eapply G; [|exact H].
    destruct ((n =? 1) && (data_size_doubles k1 =? 1)); [injection Hf as <-; now apply Gn|].
    assert (Gs : forall kd, (do f1 <- set_data_size (new_codec (iad st) o kd ty_STRING) (data_size_doubles k1);
       Ok (set_strings f1 (c_strings k1) (c_lookup k1) (c_dsd f1))) = Ok f -> good (c_int64 f)).
    { intros kd Hx. apply bind_ok in Hx as (f1 & Hx1 & Hx2). apply set_data_size_missing in Hx1 as (_ & _ & B & _).
      injection Hx2 as <-. cbn [set_strings c_int64]. rewrite B. now apply Gn. }
    destruct ((n =? 1) && long_strings st); [apply (Gs KLongConstantString Hf)|].
    destruct (n <? 256); [apply (Gs KInt8String Hf)|apply (Gs KInt16String Hf)]. }
  destruct ((ci_type ci =? ty_INTEGER) || (ci_type ci =? ty_BITFIELD)) eqn:T4.
  { intros Q. split.
    - apply orb_true_iff in T4 as [T4|T4]; apply Z.eqb_eq in T4; rewrite T4; [now left|now right].
    - unfold optimize_int in H. apply bind_ok in H as (n & _ & H). apply adopt_keeps in H as (_ & _ & _ & E). rewrite E in Q.
      cbn [new_codec c_int64] in Q. destruct (iad st); [|reflexivity]. now rewrite andb_false_r in Q. }
  apply make_column_facts in H1 as (_ & _ & _ & _ & B & _). rewrite T4 in B. cbn in B.
  injection H as <-. assert (c_int64 k1 = false) as ->; [|intros Q; discriminate Q].
  clear -B H2. revert H2 B. generalize (col_coder c) as c0. intros c0. revert c0.
  induction cells as [|x xs IH]; intros c0 H B; cbn in H; [congruence|].
  apply bind_ok in H as (c1 & E & H). eapply IH; [exact H|]. unfold gather in E.
  destruct (chars_based (c_kind c0)).
  - unfold chars_gather in E. apply bind_ok in E as (s & _ & E).
    assert (E' := f_equal (fun r => match r with Ok y => c_int64 y | _ => false end) E).
    cbn in E'. destruct (mget (c_lookup c0) s); cbn in E'; congruence.
  - apply bind_ok in E as (b & _ & E). unfold base_gather in E.
    destruct (c_kind c0); injection E as <-; repeat destruct (deq _ _); cbn; auto.
Qed.

(** ** Rows *)

Section Rows.
Variables st st' : settings.

Definition good (it : item) (x : list Z) : Prop :=
  In x (i_cells it) /\ exists out, cell_rt (i_k it) (i_k' it) (ci_size (i_ci it)) x out /\ same_value st st' (ci_type (i_ci it)) x out.

(** the reader's row [last] is a copy of the writer's row [row] *)
Inductive agree : list item -> list (list Z) -> list (list Z) -> Prop :=
| ag_nil : agree [] [] []
| ag_cons it its x xs y ys : same_value st st' (ci_type (i_ci it)) x y ->
    Z.of_nat (length y) = 8 * data_size_doubles (i_k' it) -> agree its xs ys ->
    agree (it :: its) (x :: xs) (y :: ys).

(** [row] will be written after [prev] and read after [last]: the cells that are not
    stored are copies *)
Inductive close : list item -> list (list Z) -> list (list Z) -> list (list Z) -> Prop :=
| cl_nil : close [] [] [] []
| cl_cons it its x xs p ps y ys : (x = p -> same_value st st' (ci_type (i_ci it)) p y) ->
    Z.of_nat (length y) = 8 * data_size_doubles (i_k' it) -> close its xs ps ys ->
    close (it :: its) (x :: xs) (p :: ps) (y :: ys).

Lemma agree_close its prev last : agree its prev last -> forall row, length row = length its -> close its row prev last.
Proof. induction 1; intros [|r row] L; try discriminate; constructor; auto. Qed.

Lemma close_width its row prev last : close its row prev last ->
  Forall2 (fun it y => Z.of_nat (length y) = 8 * data_size_doubles (i_k' it)) its last.
Proof. induction 1; constructor; auto. Qed.

Lemma agree_width its row last : agree its row last ->
  Forall2 (fun it y => Z.of_nat (length y) = 8 * data_size_doubles (i_k' it)) its last.
Proof. induction 1; constructor; auto. Qed.

Lemma agree_len its row last : agree its row last -> length row = length its /\ length last = length its.
Proof. induction 1 as [|it its x xs y ys _ _ _ (A & B)]; cbn; auto. Qed.

Lemma store_same cell out : length out = length cell -> store cell out = Ok out.
Proof.
  intros L. unfold store. rewrite L, Nat.ltb_irrefl, skipn_all. now rewrite app_nil_r.
Qed.

Lemma cells_all : forall its row, Forall (item_ok st st' LE) its -> Forall2 good its row ->
  exists b, encode_cells (map i_k its) row = Ok b /\ Z.of_nat (length b) <= sizes its /\
    forall last, Forall2 (fun it y => Z.of_nat (length y) = 8 * data_size_doubles (i_k' it)) its last ->
    forall rest, exists row', next_cells 0 (map read_column its) last (b ++ rest) = Ok (row', rest) /\ agree its row row'.
Proof.
  intros its row Hok H. induction H as [|it x its row (_ & out & (b1 & E1 & L1 & D1) & SV) H IH].
  - exists []. split; [reflexivity|]. split; [unfold sizes; cbn; lia|]. intros last F rest. inversion F; subst. exists [].
    split; [reflexivity|constructor].
  - inversion Hok as [|? ? Hit Hok']; subst. destruct (IH Hok') as (b & E & L & D).
    exists (b1 ++ b). cbn [map encode_cells]. rewrite E1. cbn [bind]. rewrite E. cbn [bind]. split; [reflexivity|].
    split. { rewrite app_length. unfold sizes in *. cbn [map fold_right]. lia. }
    intros last F rest. inversion F as [|? y ? ys Hy F']; subst.
    assert (Wo : Z.of_nat (length out) = 8 * data_size_doubles (i_k' it)).
    { destruct Hit as (_ & _ & _ & W). eapply decode_width; [| |apply (D1 [])]; lia. }
    destruct (D ys F' rest) as (row' & N & A). exists (out :: row').
    cbn [next_cells]. change (col_coder (read_column it)) with (i_k' it).
    rewrite <- app_assoc, D1. cbn [bind]. rewrite store_same by lia. cbn [bind]. rewrite N. cbn [bind].
    split; [reflexivity|]. now constructor.
Qed.

Lemma encode_row_ok : forall its row prev, Forall (item_ok st st' LE) its -> Forall (fun it => 0 <= ci_size (i_ci it)) its ->
  Forall2 good its row -> length prev = length its ->
  exists b, encode_cells (skipn (start_col prev row) (map i_k its)) (skipn (start_col prev row) row) = Ok b /\
    Z.of_nat (length b) <= sizes its /\
    forall last, close its row prev last -> forall rest, exists row',
      next_cells (start_col prev row) (map read_column its) last (b ++ rest) = Ok (row', rest) /\ agree its row row'.
Proof.
  induction its as [|it its IH]; intros row prev Hok Hz H L.
  - inversion H; subst. destruct prev; [|discriminate]. exists []. cbn. split; [reflexivity|]. split; [unfold sizes; cbn; lia|].
    intros last A rest. inversion A; subst. exists []. split; [reflexivity|constructor].
  - inversion H as [|? x ? xs Hx Hxs]; subst. destruct prev as [|p prev]; [discriminate|]. cbn [start_col].
    destruct (bytes_eqb x p) eqn:E.
    + apply bytes_eqb_eq in E. subst p. inversion Hok as [|? ? Hit Hok']; subst. inversion Hz; subst.
      destruct (IH xs prev Hok' ltac:(assumption) Hxs) as (b & Eb & Lb & D); [now injection L|].
      exists b. cbn [skipn map]. split; [exact Eb|]. split; [unfold sizes in *; cbn [map fold_right]; lia|].
      intros last A rest. inversion A as [|? ? ? ? ? ? y ys Sv Wy A']; subst. destruct (D ys A' rest) as (row' & N & G).
      exists (y :: row'). cbn [next_cells]. rewrite N. cbn [bind]. split; [reflexivity|]. constructor; auto.
    + destruct (cells_all (it :: its) (x :: xs) Hok H) as (b & Eb & Lb & D). exists b. cbn [skipn].
      split; [exact Eb|]. split; [exact Lb|]. intros last A rest. apply (D last). eapply close_width, A.
Qed.

Variable md5 : list Z -> list Z.
Variable junk : nat -> nat -> list Z.
Notation list_rows := (list_rows md5 st' junk).
Notation next_row := (next_row md5 st' junk).
Notation load_table := (load_table md5 st' junk).

(** between two tables *)
Definition between (file : list Z) (count : nat) : riter :=
  {| r_file := file; r_cols := []; r_data := []; r_last := []; r_left := 0; r_count := count;
     r_new := false; r_end := false |}.

Lemma load_cols c1 c2 : forall fuel count file,
  load_table fuel count c1 file = load_table fuel count c2 file \/
  exists it1 it2, load_table fuel count c1 file = Ok it1 /\ load_table fuel count c2 file = Ok it2 /\
    r_end it1 = true /\ r_end it2 = true.
Proof.
  destruct fuel as [|fuel]; intros count file; [now left|]. cbn [RowReader.load_table].
  destruct (read_magic file) as [[s|]| |]; cbn [bind]; try (now left).
  right. eexists _, _. split; [reflexivity|]. split; [reflexivity|]. split; reflexivity.
Qed.

Lemma between_same f it : r_left it = 0 -> r_end it = false -> list_rows f it = list_rows f (between (r_file it) (r_count it)).
Proof.
  intros L E. destruct f; [reflexivity|]. cbn [RowList.list_rows].
  unfold RowReader.next_row. rewrite L, E. cbn [between r_left r_end r_file r_count r_cols Z.eqb].
  destruct (load_cols (r_cols it) [] (S (length (r_file it))) (r_count it) (r_file it)) as [->|(i1 & i2 & -> & -> & E1 & E2)]; [reflexivity|].
  cbn [bind]. now rewrite E1, E2.
Qed.

Lemma new_same f file cols data last left count e b1 b2 :
  list_rows f {| r_file := file; r_cols := cols; r_data := data; r_last := last; r_left := left; r_count := count; r_new := b1; r_end := e |} =
  list_rows f {| r_file := file; r_cols := cols; r_data := data; r_last := last; r_left := left; r_count := count; r_new := b2; r_end := e |}.
Proof.
  destruct f; [reflexivity|]. cbn [RowList.list_rows]. unfold RowReader.next_row. cbn [r_end r_left r_count r_cols r_file].
  destruct e; [reflexivity|]. destruct (left =? 0); reflexivity.
Qed.

Lemma loaded_same f it file count c : load_table (S (length file)) count c file = Ok it -> r_left it <> 0 -> r_end it = false ->
  list_rows f (between file count) = list_rows f it.
Proof.
  intros H L E. destruct f; [reflexivity|]. cbn [RowList.list_rows].
  unfold RowReader.next_row. rewrite E. destruct (Z.eqb_spec (r_left it) 0) as [Q|_]; [contradiction|].
  cbn [between r_left r_end r_file r_count r_cols Z.eqb].
  destruct (load_cols c [] (S (length file)) count file) as [<-|(i1 & i2 & Q1 & Q2 & E1 & E2)]; [|congruence].
  rewrite H. cbn [bind]. rewrite E.
  destruct (read_raw 2 (r_data it)) as [[m s]| |]; cbn [bind]; try reflexivity.
  destruct (next_cells _ _ _ s) as [[row s1]| |]; cbn [bind]; try reflexivity.
  erewrite (new_same f); reflexivity.
Qed.

Lemma rows_ok its : Forall (item_ok st st' LE) its -> Forall (fun it => 0 <= ci_size (i_ci it)) its -> its <> [] ->
  (length its < Z.to_nat 65536)%nat ->
  forall rows prev, Forall (Forall2 good its) rows -> length prev = length its ->
  exists body, encode_rows (map i_k its) (Some prev) rows = Ok body /\
    2 * Z.of_nat (length rows) <= Z.of_nat (length body) <= Z.of_nat (length rows) * (2 + sizes its) /\
    forall last, (forall row rest, rows = row :: rest -> close its row prev last) -> forall file count, exists rows', Forall2 (agree its) rows rows' /\
      forall new f, list_rows (length rows + f)
         {| r_file := file; r_cols := map read_column its; r_data := body; r_last := last;
            r_left := Z.of_nat (length rows); r_count := count; r_new := new; r_end := false |} =
         let (rs, e) := list_rows f (between file count) in (map (pair (map read_column its)) rows' ++ rs, e).
Proof.
  intros Hok Hz Hn Hl. induction rows as [|row rows IH]; intros prev G L.
  - exists []. split; [reflexivity|]. split; [cbn; lia|]. intros last A file count. exists []. split; [constructor|].
    intros new f. cbn [length Nat.add app]. rewrite between_same by reflexivity. cbn [r_file r_count].
    now destruct (list_rows f (between file count)).
  - inversion G as [|? ? Grow Grows]; subst.
    assert (Lr : length row = length its) by (symmetry; apply (Forall2_length _ _ _ Grow)).
    destruct (encode_row_ok its row prev Hok Hz Grow L) as (b & Eb & Lb & D).
    destruct (IH row Grows Lr) as (body & EB & LB & DB).
    exists ((marker (start_col prev row) ++ b) ++ body). cbn [encode_rows]. unfold encode_row. rewrite Eb. cbn [bind].
    rewrite EB. cbn [bind]. split; [reflexivity|]. split.
    { rewrite !app_length. cbn [marker length]. nia. }
    intros last A file count. destruct (D last (A row rows eq_refl) body) as (row' & N & A').
    destruct (DB row') with (file := file) (count := count) as (rows' & F & R).
    { intros row2 rest E. rewrite E in Grows. apply agree_close; [exact A'|]. apply Forall_inv in Grows. symmetry. apply (Forall2_length _ _ _ Grows). }
    exists (row' :: rows'). split; [now constructor|]. intros new f.
    cbn [length Nat.add RowList.list_rows].
    assert (NR : next_row {| r_file := file; r_cols := map read_column its; r_data := (marker (start_col prev row) ++ b) ++ body;
        r_last := last; r_left := Z.of_nat (S (length rows)); r_count := count; r_new := new; r_end := false |} =
      Ok ({| r_file := file; r_cols := map read_column its; r_data := body; r_last := row';
             r_left := Z.of_nat (length rows); r_count := count; r_new := false; r_end := false |}, Some row')).
    { unfold RowReader.next_row. cbn [r_end r_left]. destruct (Z.eqb_spec (Z.of_nat (S (length rows))) 0) as [Q|_]; [lia|].
      cbn [bind r_end r_data r_cols r_last r_file r_count]. rewrite <- app_assoc.
      rewrite (read_raw_app 2 (marker (start_col prev row))) by reflexivity. cbn [bind].
      rewrite marker_val_marker. 2: { pose proof (start_col_le prev row). lia. }
      rewrite N. cbn [bind]. cbn [r_left]. replace (Z.of_nat (S (length rows)) - 1) with (Z.of_nat (length rows)) by lia. reflexivity. }
    rewrite NR, R. destruct (list_rows f (between file count)). reflexivity.
Qed.

(** ** One frame *)

(** what the writer's buffer for a column may hold at the start of a frame *)
Definition start_cell (ci : colinfo) (x : list Z) : Prop := exists m,
  x = le_bytes 8 m ++ repeat 0 (Z.to_nat (ci_size ci - 8)) /\
  (m = default_missing (ci_type ci) \/ int_type (ci_type ci) /\ iad st = false /\ m = MDI).

Definition cell_type (ci : colinfo) : Prop :=
  (int_type (ci_type ci) \/ real_type (ci_type ci)) /\ ci_size ci = 8 \/ ci_type ci = ty_STRING.

Lemma default_is64 ty : is64 (default_missing ty).
Proof. unfold default_missing. destruct (_ || _); vm_compute; split; congruence. Qed.

Lemma missing_punned k ty : c_missing k = default_missing ty -> (c_int64 k = true -> int_type ty) ->
  missing_value k = if base_integer (c_kind k) && c_int64 k then MDI else default_missing ty.
Proof.
  intros M T. unfold missing_value. destruct (base_integer (c_kind k) && c_int64 k) eqn:E; [|exact M].
  apply andb_true_iff in E as (_ & E). rewrite M. unfold default_missing. destruct (T E) as [-> | ->]; vm_compute; reflexivity.
Qed.

Lemma reload_int64 it : item_ok st st' LE it ->
  c_missing (i_k' it) = default_missing (ci_type (i_ci it)) /\ c_kind (i_k' it) = c_kind (i_k it) /\
  c_int64 (i_k' it) = int_built (c_kind (i_k it)) && ((ci_type (i_ci it) =? ty_INTEGER) || (ci_type (i_ci it) =? ty_BITFIELD)) && negb (iad st').
Proof.
  intros (P & R & _). apply prepare_facts in P as (P1 & _).
  pose proof (default_is64 (ci_type (i_ci it))) as D. rewrite <- P1 in D.
  pose proof R as (_ & _ & K & _).
  apply load_missing in R as (R1 & R2); [|exact D]. split; [congruence|]. split; [exact K|exact R2].
Qed.

Lemma int_type_b ty : (ty =? ty_INTEGER) || (ty =? ty_BITFIELD) = true <-> int_type ty.
Proof.
  split.
  - intros H. apply orb_true_iff in H as [H|H]; apply Z.eqb_eq in H; rewrite H; [now left|now right].
  - intros [-> | ->]; reflexivity.
Qed.

Lemma missing_write it : item_ok st st' LE it ->
  missing_value (i_k it) = default_missing (ci_type (i_ci it)) \/
  int_type (ci_type (i_ci it)) /\ iad st = false /\ missing_value (i_k it) = MDI.
Proof.
  intros (P & R & _). pose proof (prepare_int64 _ _ _ _ _ P) as Q. apply prepare_facts in P as (P1 & _).
  rewrite (missing_punned _ _ P1) by (intros H; apply (Q H)).
  destruct (base_integer (c_kind (i_k it)) && c_int64 (i_k it)) eqn:E; [|now left]. right.
  apply andb_true_iff in E as (_ & E). destruct (Q E). auto.
Qed.

Lemma le8_inj a b : le_bytes 8 a = le_bytes 8 b -> a mod 2 ^ 64 = b mod 2 ^ 64.
Proof. intros H. apply (f_equal le_val) in H. rewrite !le_val_le_bytes in H. exact H. Qed.

(** an integer cell that is not stored in the first row is the missing value *)
Lemma int_start it x p y : item_ok st st' LE it -> storable st (i_ci it) (i_cells it) -> int_type (ci_type (i_ci it)) ->
  In x (i_cells it) -> (exists m, p = le_bytes 8 m /\ (m = default_missing (ci_type (i_ci it)) \/ int_type (ci_type (i_ci it)) /\ iad st = false /\ m = MDI)) ->
  y = le_bytes 8 (missing_value (i_k' it)) -> x = p ->
  same_value st st' (ci_type (i_ci it)) p y.
Proof.
  intros Hit Hs Ti Hx (m & Hp & Hm) Hy E. destruct (reload_int64 it Hit) as (M1 & M2 & M3).
  assert (X : exists ns, i_cells it = map (int_cell (negb (iad st))) ns /\ Forall mid ns /\ ci_size (i_ci it) = 8).
  { inversion Hs as [ns A1 A2 A3 A4|bs A1|bs A1|dsd cells A1]; [|exfalso..].
    - exists ns. split; [reflexivity|]. split; [apply A3|exact A2].
    - rewrite A1 in Ti. destruct Ti as [Q|Q]; discriminate Q.
    - rewrite A1 in Ti. destruct Ti as [Q|Q]; discriminate Q.
    - rewrite A1 in Ti. destruct Ti as [Q|Q]; discriminate Q. }
  destruct X as (ns & Ec & Hmid & S8).
  destruct (prepare_int st LE (i_ci it) ns Ti S8 Hmid) as (h & lo & hi & IS & Pk).
  destruct Hit as (P & _). rewrite Ec, Pk in P. assert (K : i_k it = int_codec (iad st) LE (ci_type (i_ci it)) (int_kind h (hi - lo)) h lo hi) by congruence.
  rewrite Ec in Hx. apply in_map_iff in Hx as (n & Hn & In_n). pose proof (proj1 (Forall_forall _ _) Hmid n In_n) as Mn.
  assert (D : default_missing (ci_type (i_ci it)) = integerMDI) by (unfold default_missing; destruct Ti as [-> | ->]; reflexivity).
  rewrite D in Hm. clear D.
  (* the value is the missing one *)
  assert (n = MDI /\ p = int_cell (negb (iad st)) MDI) as (-> & Ep).
  { subst x p. unfold int_cell in *. destruct (iad st) eqn:Es; cbn [negb] in *.
    - destruct Hm as [-> |(_ & Q & _)]; [|discriminate]. split; [|reflexivity]. apply le8_inj in E.
      apply mid_small in Mn. unfold small in Mn. destruct (z2d_fin n Mn) as (_ & A & _). destruct (z2d_fin 2147483647 ltac:(lia)) as (_ & B & _).
      unfold is64 in A, B. unfold integerMDI in E. rewrite !Z.mod_small in E by assumption.
      apply z2d_inj in E; [exact E|exact Mn|unfold small; lia].
    - apply le8_inj in E. unfold mid in Mn. destruct Hm as [-> |(_ & _ & ->)].
      + exfalso. revert E. change (integerMDI mod 2 ^ 64) with 4746794007244308480.
        intros E. destruct (Z.lt_ge_cases n 0) as [Q|Q].
        * replace n with ((n + 2 ^ 64) + (-1) * 2 ^ 64) in E by lia. rewrite Z_mod_plus_full, Z.mod_small in E by lia. lia.
        * rewrite Z.mod_small in E by lia. lia.
      + split; [|reflexivity]. revert E. change (MDI mod 2 ^ 64) with MDI. unfold MDI. intros E. destruct (Z.lt_ge_cases n 0) as [Q|Q].
        * replace n with ((n + 2 ^ 64) + (-1) * 2 ^ 64) in E by lia. rewrite Z_mod_plus_full, Z.mod_small in E by lia. lia.
        * rewrite Z.mod_small in E by lia. lia. }
  left. split; [exact Ti|]. exists MDI. split; [unfold mid, MDI; lia|]. split; [exact Ep|]. rewrite Hy. unfold int_cell. f_equal.
  rewrite (missing_punned _ (ci_type (i_ci it)) M1) by (intros _; exact Ti).
  rewrite M2, M3. rewrite (proj2 (int_type_b _) Ti), K. cbn [int_codec set_stats new_codec c_kind].
  assert (Hh : h = 1).
  { destruct IS as [H0 _ _ _ _ _]. rewrite H0. assert (existsb (fun n => n =? MDI) ns = true) as ->; [|reflexivity].
    apply existsb_exists. exists MDI. split; [exact In_n|apply Z.eqb_refl]. }
  unfold default_missing. rewrite (proj2 (int_type_b _) Ti). rewrite Hh. unfold int_kind. cbn [Z.eqb negb].
  destruct (iad st'); cbn [negb]; rewrite ?andb_false_r, ?andb_true_r; [reflexivity|].
  repeat destruct (_ =? _); repeat destruct (_ <? _); reflexivity.
Qed.

Lemma missing_real it : item_ok st st' LE it -> ~ int_type (ci_type (i_ci it)) -> missing_value (i_k' it) = realMDI /\ default_missing (ci_type (i_ci it)) = realMDI.
Proof.
  intros Hit N. destruct (reload_int64 it Hit) as (M1 & M2 & M3).
  assert ((ci_type (i_ci it) =? ty_INTEGER) || (ci_type (i_ci it) =? ty_BITFIELD) = false) as B.
  { apply Bool.not_true_iff_false. now rewrite int_type_b. }
  rewrite B, andb_false_r in M3. cbn in M3. unfold missing_value. rewrite M3, andb_false_r, M1. unfold default_missing. rewrite B. auto.
Qed.

Lemma initial_close : forall its row prev n i, Forall (item_ok st st' LE) its -> Forall (fun it => cell_type (i_ci it)) its ->
  Forall (fun it => storable st (i_ci it) (i_cells it)) its ->
  Forall2 good its row -> Forall2 start_cell (map i_ci its) prev ->
  close its row prev (init_row junk n i (map read_column its)).
Proof.
  induction its as [|it its IH]; intros row prev n i H T Hs G Pv.
  { inversion G; inversion Pv; subst. constructor. }
  pose proof (Forall_inv H) as H1. pose proof (Forall_inv_tail H) as H2. pose proof (Forall_inv T) as T1. pose proof (Forall_inv_tail T) as T2.
  pose proof (Forall_inv Hs) as Hs1. pose proof (Forall_inv_tail Hs) as Hs2.
  destruct row as [|x xs]; [inversion G|]. destruct prev as [|p ps]; [inversion Pv|].
  assert (Gx : In x (i_cells it)) by (inversion G as [|? ? ? ? (A & _) ?]; exact A). assert (Gxs : Forall2 good its xs) by (inversion G; assumption).
  cbn [map] in Pv. assert (Pp : start_cell (i_ci it) p) by (inversion Pv; assumption). assert (Pps : Forall2 start_cell (map i_ci its) ps) by (inversion Pv; assumption).
  clear H T Hs G Pv. destruct Pp as (m & Hp & Hm).
  cbn [map init_row]. change (col_coder (read_column it)) with (i_k' it).
  unfold width. change (col_coder (read_column it)) with (i_k' it).
  pose proof H1 as (P & R & F & W1 & W2 & W3).
  constructor; [|rewrite app_length, pad_length, le_bytes_length; lia|apply IH; assumption].
  intros Exp.
  destruct T1 as [([Ti|Tr] & S8)|Ts].
  - replace (8 * data_size_doubles (i_k' it) - 8) with 0 in * by lia. unfold pad. rewrite S8 in *. cbn [Z.to_nat Z.sub firstn repeat app Nat.sub Z.opp Z.add Z.pos_sub] in *.
    rewrite app_nil_r in *. apply (int_start it x); auto. exists m. auto.
  - assert (NI : ~ int_type (ci_type (i_ci it))) by (intros [Q|Q]; destruct Tr as [Q'|Q']; rewrite Q in Q'; discriminate Q').
    destruct (missing_real it H1 NI) as (-> & D). destruct Hm as [-> |(Q & _)]; [|contradiction]. rewrite Hp, D.
    rewrite S8. replace (8 * data_size_doubles (i_k' it) - 8) with 0 by lia. unfold pad. cbn [Z.to_nat Z.sub firstn repeat app Nat.sub].
    rewrite !app_nil_r. right. destruct Tr as [Tr|Tr].
    + left. split; [exact Tr|]. exists realMDI, realMDI.
      split; [vm_compute; split; congruence|]. split; [vm_compute; split; congruence|].
      split; [reflexivity|]. split; [reflexivity|]. vm_compute. reflexivity.
    + right. left. split; [exact Tr|reflexivity].
  - assert (NI : ~ int_type (ci_type (i_ci it))) by (intros [Q|Q]; rewrite Q in Ts; discriminate Ts).
    destruct (missing_real it H1 NI) as (-> & D). destruct Hm as [-> |(Q & _)]; [|contradiction]. rewrite Hp, D.
    right. right. right. split; [exact Ts|]. reflexivity.
Qed.

Hypothesis md5_length : forall l, length (md5 l) = 32%nat.

Record wframe (its : list item) (pr : props) (rows : list (list (list Z))) : Prop := {
  wf_items : Forall (item_ok st st' LE) its;
  wf_types : Forall (fun it => cell_type (i_ci it)) its;
  wf_stored : Forall (fun it => storable st (i_ci it) (i_cells it)) its;
  wf_some : its <> [];
  wf_ncols : (length its < Z.to_nat 65536)%nat;
  wf_cols : Forall (fun it => column_ok (final_column it)) its;
  wf_props : props_ok pr;
  wf_header : 100 + total (fun kv => 8 + len (fst kv) + len (snd kv)) pr + total col_room (map final_column its) < 2 ^ 31;
  wf_body : Z.of_nat (length rows) * (2 + sizes its) < 2 ^ 63;
  wf_rows : rows <> [];
  wf_good : Forall (Forall2 good its) rows
}.

Lemma sizes_nonneg its : Forall (fun it => 0 <= ci_size (i_ci it)) its -> 0 <= sizes its.
Proof. unfold sizes. induction 1; cbn; lia. Qed.

Lemma item_size it : item_ok st st' LE it -> 0 <= ci_size (i_ci it).
Proof. intros (_ & _ & _ & W1 & W2 & W3). lia. Qed.

Lemma wframe_ok its pr rows prev : wframe its pr rows -> Forall2 start_cell (map i_ci its) prev ->
  exists body h,
    encode_rows (map i_k its) (Some prev) rows = Ok body /\
    Z.of_nat (length body) <= Z.of_nat (length rows) * (2 + sizes its) /\
    serialize_header md5 LE (Z.of_nat (length body)) (Z.of_nat (length rows)) pr (map final_column its) = Ok h /\
    (forall post, exists s, read_magic (h ++ body ++ post) = Ok (Some s) /\
      load_after_magic md5 st' s =
        Ok ({| h_order := LE; h_dataSize := Z.of_nat (length body); h_rows := Z.of_nat (length rows);
               h_props := pr; h_cols := map read_column its |}, body ++ post)) /\
    forall count post, exists rows', Forall2 (agree its) rows rows' /\
      (forall f, list_rows (length rows + f) (between (h ++ body ++ post) count) =
        let (rs, e) := list_rows f (between post (S count)) in (map (pair (map read_column its)) rows' ++ rs, e)) /\
      exists it, load_table (S (length (h ++ body ++ post))) count [] (h ++ body ++ post) = Ok it /\ r_left it <> 0 /\
        forall f, list_rows f it = list_rows f (between (h ++ body ++ post) count).
Proof using md5_length.
  intros [W1 W2 W2s W3 W4 W5 W6 W7 W8 W9 W10] Pv.
  assert (Hz : Forall (fun it => 0 <= ci_size (i_ci it)) its).
  { eapply Forall_impl; [|exact W1]. apply item_size. }
  assert (Li : length prev = length its) by (rewrite <- (Forall2_length _ _ _ Pv), map_length; reflexivity).
  destruct (rows_ok its W1 Hz W3 W4 rows _ W10 Li) as (body & Eb & Lb & D).
  assert (Lr : (0 < length rows)%nat) by (destruct rows; [congruence|cbn; lia]).
  pose proof (sizes_nonneg its Hz) as S0.
  assert (Hr : Z.of_nat (length rows) < 2 ^ 63) by nia.
  destruct (load_serialized md5 md5_length st' LE (Z.of_nat (length body)) (Z.of_nat (length rows)) pr
              (map final_column its) (map read_column its)) as (h & Eh & Lh).
  { unfold int64. lia. } { unfold int64. lia. } { exact W6. }
  { unfold len31. rewrite map_length. lia. }
  { apply Forall2_map. intros it Hin. rewrite Forall_forall in *. exists (i_k' it). split; [auto|].
    split; [|reflexivity]. apply (W1 it Hin). }
  assert (Lt : Z.of_nat (length h) < 2 ^ 31).
  { pose proof (serialize_len md5 LE _ _ _ _ _ md5_length Eh) as SL. unfold len at 1 in SL. lia. }
  specialize (Lh Lt).
  exists body, h. split; [exact Eb|]. split; [apply Lb|]. split; [exact Eh|]. split; [intros post; apply Lh|].
  intros count post. destruct (Lh (body ++ post)) as (s & M1 & M2).
  destruct (D (init_row junk count 0 (map read_column its))) with (file := post) (count := S count) as (rows' & F & R).
  { intros row rest E. apply initial_close; auto. rewrite E in W10. now apply Forall_inv in W10. } exists rows'. split; [exact F|].
  assert (LT : load_table (S (length (h ++ body ++ post))) count [] (h ++ body ++ post) =
    Ok {| r_file := post; r_cols := map read_column its; r_data := body; r_last := init_row junk count 0 (map read_column its);
          r_left := Z.of_nat (length rows); r_count := S count; r_new := true; r_end := false |}).
  { cbn [RowReader.load_table]. rewrite M1. cbn [bind]. rewrite M2. cbn [bind h_dataSize h_rows h_cols].
    destruct (Z.eqb_spec (Z.of_nat (length body)) 0) as [Q|_]; [lia|].
    destruct (Z.eqb_spec (Z.of_nat (length rows)) 0) as [Q|_]; [lia|]. cbn [negb assert bind].
    destruct (Z.leb_spec 2 (Z.of_nat (length body))) as [_|Q]; [|lia]. cbn [orb assert bind].
    destruct (Z.ltb_spec (Z.of_nat (length body)) 0) as [Q|_]; [lia|]. rewrite Nat2Z.id.
    rewrite (firstn_app_exact body) by reflexivity. rewrite (skipn_app_exact body) by reflexivity.
    destruct (Nat.eqb_spec (length body) 0) as [Q|_]; [lia|]. rewrite Z.ltb_irrefl.
    rewrite (Z.mod_small (Z.of_nat (length rows))) by lia. reflexivity. }
  split.
  - intros f. rewrite (loaded_same _ _ _ _ _ LT); [apply R|cbn [r_left]; lia|reflexivity].
  - eexists. split; [exact LT|]. split; [cbn [r_left]; lia|]. intros f. symmetry. apply loaded_same with (c := []); [exact LT|cbn [r_left]; lia|reflexivity].
Qed.

End Rows.
