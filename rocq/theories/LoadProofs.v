(** What a header describes, however it came about, can be written again and is then loaded
    as before. *)
From Coq Require Import String.
From Verif Require Import Spec Base Fp FpProofs Stream StreamProofs StreamLocal Codec Meta Header Table
  GatherProofs StringProofs ColumnProofs HeaderProofs TableProofs.
Open Scope Z_scope.
Local Notation length := List.length.

(** ** Reading valid bytes *)

Lemma raw_inv n s b s' : read_raw n s = Ok (b, s') -> bytes_ok s -> bytes_ok b /\ bytes_ok s' /\ (0 <= n -> Z.of_nat (length b) = n).
Proof.
  unfold read_raw. destruct (Z.ltb_spec (Z.of_nat (length s)) n) as [|Hlt]; [discriminate|]. intros E H.
  assert (b = firstn (Z.to_nat n) s) by congruence. assert (s' = skipn (Z.to_nat n) s) by congruence. subst.
  unfold bytes_ok in *. rewrite <- (firstn_skipn (Z.to_nat n) s), Forall_app in H. destruct H as [H1 H2].
  split; [exact H1|]. split; [exact H2|]. intros Hn. rewrite firstn_length. lia.
Qed.

Lemma uint_inv o n s u s' : read_uint o n s = Ok (u, s') -> 0 <= n -> bytes_ok s -> 0 <= u < 256 ^ n /\ bytes_ok s'.
Proof.
  unfold read_uint. intros H Hn B. apply bind_ok in H as ([b s1] & E & H). cbv beta iota zeta in H.
  destruct (raw_inv _ _ _ _ E B) as (B1 & B2 & L). specialize (L Hn).
  assert (u = le_val (swap o b)) by congruence. assert (s' = s1) by congruence. subst u s'. split; [|exact B2].
  pose proof (le_val_bound _ (swap_ok o _ B1)) as V. rewrite swap_length in V. rewrite L in V. exact V.
Qed.

Lemma signed_range w u : 0 < w -> 0 <= u < 2 ^ w -> - 2 ^ (w - 1) <= signed w u < 2 ^ (w - 1).
Proof.
  intros Hw Hu. unfold signed. assert (E : 2 ^ w = 2 * 2 ^ (w - 1)) by (rewrite <- Z.pow_succ_r by lia; f_equal; lia).
  destruct (Z.ltb_spec u (2 ^ (w - 1))); lia.
Qed.

Lemma i32_inv o s n s' : read_i32 o s = Ok (n, s') -> bytes_ok s -> - 2 ^ 31 <= n < 2 ^ 31 /\ bytes_ok s'.
Proof.
  unfold read_i32. intros H B. apply bind_ok in H as ([u s1] & E & H). cbv beta iota zeta in H. apply uint_inv in E as [U B1]; [|lia|exact B].
  assert (n = signed 32 u) by congruence. assert (s' = s1) by congruence. subst. split; [|exact B1].
  apply (signed_range 32 u); [lia|exact U].
Qed.

Lemma i64_inv o s n s' : read_i64 o s = Ok (n, s') -> bytes_ok s -> int64 n /\ bytes_ok s'.
Proof.
  unfold read_i64. intros H B. apply bind_ok in H as ([u s1] & E & H). cbv beta iota zeta in H. apply uint_inv in E as [U B1]; [|lia|exact B].
  assert (n = signed 64 u) by congruence. assert (s' = s1) by congruence. subst. split; [|exact B1].
  apply (signed_range 64 u); [lia|exact U].
Qed.

Lemma f64_inv o s n s' : read_f64 o s = Ok (n, s') -> bytes_ok s -> is64 n /\ bytes_ok s'.
Proof. unfold read_f64. intros H B. apply uint_inv in H as [U B1]; [|lia|exact B]. split; [exact U|exact B1]. Qed.

Lemma string_inv o s t s' : read_string o s = Ok (t, s') -> bytes_ok s -> len31 t /\ bytes_ok t /\ bytes_ok s'.
Proof.
  unfold read_string. intros H B. apply bind_ok in H as ([n s1] & E & H). cbv beta iota zeta in H. apply i32_inv in E as [N B1]; [|exact B].
  destruct (Z.ltb_spec n 0); [discriminate|]. apply raw_inv in H as (B2 & B3 & L); [|exact B1].
  split; [unfold len31; rewrite L by lia; lia|]. split; assumption.
Qed.

Lemma read_n_inv {A} (rd : reader A) (P : A -> Prop) :
  (forall s x s', rd s = Ok (x, s') -> bytes_ok s -> P x /\ bytes_ok s') ->
  forall fuel n s xs s', read_n rd fuel n s = Ok (xs, s') -> bytes_ok s ->
  Forall P xs /\ bytes_ok s' /\ Z.of_nat (length xs) = Z.max 0 n.
Proof.
  intros R. induction fuel as [|fuel IH]; intros n s xs s' H B; cbn [read_n] in H; destruct (Z.leb_spec n 0) as [L|L].
  - assert (xs = []) by congruence. assert (s' = s) by congruence. subst. cbn. split; [constructor|]. split; [exact B|lia].
  - discriminate.
  - assert (xs = []) by congruence. assert (s' = s) by congruence. subst. cbn. split; [constructor|]. split; [exact B|lia].
  - apply bind_ok in H as ([x s1] & E & H). cbv beta iota zeta in H. apply bind_ok in H as ([ys s2] & E2 & H). cbv beta iota zeta in H.
    destruct (R _ _ _ E B) as [Px B1]. destruct (IH _ _ _ _ E2 B1) as (Py & B2 & L2).
    assert (xs = x :: ys) by congruence. assert (s' = s2) by congruence. subst. split; [constructor; assumption|].
    split; [exact B2|]. cbn [length]. lia.
Qed.

Lemma read_vec_inv {A} o (rd : reader A) (P : A -> Prop) :
  (forall s x s', rd s = Ok (x, s') -> bytes_ok s -> P x /\ bytes_ok s') ->
  forall s xs s', read_vec o rd s = Ok (xs, s') -> bytes_ok s -> Forall P xs /\ bytes_ok s' /\ len31 xs.
Proof.
  intros R s xs s' H B. unfold read_vec in H. apply bind_ok in H as ([n s1] & E & H). cbv beta iota zeta in H. apply i32_inv in E as [N B1]; [|exact B].
  destruct (Z.ltb_spec n 0); [discriminate|]. destruct (read_n_inv rd P R _ _ _ _ _ H B1) as (F & B2 & L).
  split; [exact F|]. split; [exact B2|]. unfold len31. lia.
Qed.

(** ** Codecs *)

(** The string table is as wide as its longest entry. *)
Definition tidy (k : codec) : Prop :=
  In (c_kind k) [KInt8String; KInt16String] -> c_dsd k = table_doubles (c_strings k).

Lemma base_inv c s c1 s1 : load_base c s = Ok (c1, s1) -> bytes_ok s ->
  exists h mi ma ms, c1 = set_stats c h mi ma ms /\ - 2 ^ 31 <= h < 2 ^ 31 /\ is64 mi /\ is64 ma /\ is64 ms /\ bytes_ok s1.
Proof.
  unfold load_base. intros H B. apply bind_ok in H as ([h s2] & E1 & H). cbv beta iota zeta in H. apply bind_ok in H as ([mi s3] & E2 & H). cbv beta iota zeta in H.
  apply bind_ok in H as ([ma s4] & E3 & H). cbv beta iota zeta in H. apply bind_ok in H as ([ms s5] & E4 & H). cbv beta iota zeta in H.
  apply i32_inv in E1 as [H1 B1]; [|exact B]. apply f64_inv in E2 as [H2 B2]; [|exact B1]. apply f64_inv in E3 as [H3 B3]; [|exact B2].
  apply f64_inv in E4 as [H4 B4]; [|exact B3]. exists h, mi, ma, ms.
  assert (c1 = set_stats c h mi ma ms) by congruence. assert (s1 = s5) by congruence. subst. auto 10.
Qed.

Lemma Forall_set {A} (P : A -> Prop) x : forall l i, Forall P l -> P x -> Forall P (list_set l i x).
Proof. induction l as [|y l IH]; intros [|i] F Px; cbn [list_set]; inversion F; subst; constructor; auto. Qed.

Lemma entries_inv o num : forall fuel n ss d s r s', load_entries o num fuel n ss d s = Ok (r, s') -> bytes_ok s -> Forall len31 ss ->
  Forall len31 (fst r) /\ length (fst r) = length ss /\ bytes_ok s'.
Proof.
  induction fuel as [|fuel IH]; intros n ss d s r s' H B F; cbn [load_entries] in H; destruct (n <=? 0).
  - assert (r = (ss, d)) by congruence. assert (s' = s) by congruence. subst. auto.
  - discriminate.
  - assert (r = (ss, d)) by congruence. assert (s' = s) by congruence. subst. auto.
  - apply bind_ok in H as ([[t i] s1] & E & H). cbv beta iota zeta in H. apply bind_ok in H as (u & _ & H). cbv beta iota zeta in H.
    destruct (i <? 0); [discriminate|].
    unfold load_entry in E. apply bind_ok in E as ([t0 s2] & E1 & E). cbv beta iota zeta in E. apply bind_ok in E as ([c0 s3] & E2 & E). cbv beta iota zeta in E.
    apply bind_ok in E as ([i0 s4] & E3 & E). cbv beta iota zeta in E. apply string_inv in E1 as (L1 & _ & B1); [|exact B].
    apply i32_inv in E2 as (_ & B2); [|exact B1]. apply i32_inv in E3 as (_ & B3); [|exact B2].
    assert (t0 = t) by congruence. assert (s4 = s1) by congruence. subst.
    destruct (IH _ _ _ _ _ _ H B3) as (F1 & F2 & F3).
    + now apply Forall_set.
    + rewrite list_set_length in F2. auto.
Qed.

Lemma set_stats_strings c h mi ma ms : c_strings (set_stats c h mi ma ms) = c_strings c.
Proof. reflexivity. Qed.

Theorem loaded_codec st o ty s k s' : load_codec st o ty s = Ok (k, s') -> bytes_ok s ->
  codec_ok (iad st) ty k /\ c_ord k = o /\ c_int64 k = c_int64 (new_codec (iad st) o (c_kind k) ty) /\
  (tidy k -> reload_of (iad st) ty k = k) /\ bytes_ok s'.
Proof.
  unfold load_codec. intros H B. apply bind_ok in H as ([nm s0] & E0 & H). cbv beta iota zeta in H. apply string_inv in E0 as (_ & _ & B0); [|exact B].
  destruct (kind_of_name nm) as [kd|]; [|discriminate]. clear nm B s. rename s0 into s.
  unfold load in H. apply bind_ok in H as ([c1 s1] & E1 & H). cbv beta iota zeta in H.
  destruct (base_inv _ _ _ _ E1 B0) as (h & mi & ma & ms & -> & R1 & R2 & R3 & R4 & B1). clear E1.
  assert (Fin : forall k', c_kind k' = kd -> c_ord k' = o -> c_hasMissing k' = h -> is64 (c_min k') -> is64 (c_max k') -> c_missing k' = ms ->
     (In kd [KInt8String; KInt16String; KLongConstantString] -> Z.of_nat (length (c_strings k')) < 2 ^ 31 /\ Forall len31 (c_strings k')) ->
     (kd = KLongConstantString -> c_strings k' <> []) ->
     (numeric kd = true -> check_cast (new_codec (iad st) o kd ty) ms = Ok tt) -> codec_ok (iad st) ty k').
  { intros k' K1 K2 K3 K4 K5 K6 K7 K8 K9. split; rewrite ?K1, ?K2, ?K3, ?K6; assumption. }
  assert (Kk : c_kind (new_codec (iad st) o kd ty) = kd) by reflexivity. rewrite Kk in H. clear Kk.
  destruct kd eqn:Kd; cbv beta iota in H;
    try (apply bind_ok in H as (u & Ec & H); cbv beta iota zeta in H; assert (k = set_stats (new_codec (iad st) o kd ty) h mi ma ms) by (subst kd; congruence); assert (s' = s1) by congruence; subst k s'; subst kd;
         assert (u = tt) by (destruct u; reflexivity); subst u;
         split; [apply Fin; try reflexivity; try assumption; cbn; try (intros Q; decompose [or] Q; discriminate || contradiction); try discriminate; intros _; exact Ec|];
         split; [reflexivity|]; split; [reflexivity|]; split; [reflexivity|exact B1]).
  - (* constant string *)
    match type of H with Ok (?x, _) = _ => assert (k = x) by congruence end. assert (s' = s1) by congruence. subst k s'.
    split; [apply Fin; try reflexivity; try (apply is64_swap); cbn; try (intros Q; decompose [or] Q; discriminate || contradiction); discriminate|].
    split; [reflexivity|]. split; [reflexivity|]. split; [reflexivity|exact B1].
  - (* long constant string *)
    apply bind_ok in H as ([t s2] & E2 & H). cbv beta iota zeta in H. apply string_inv in E2 as (L2 & _ & B2); [|exact B1].
    match type of H with Ok (?x, _) = _ => assert (k = x) by congruence end. assert (s' = s2) by congruence. subst k s'. clear H.
    split.
    { apply Fin; try reflexivity; try assumption; cbn [set_strings c_strings set_stats new_codec app].
      - intros _. cbn. split; [lia|]. constructor; [exact L2|constructor].
      - discriminate. }
    split; [reflexivity|]. split; [reflexivity|]. split; [|exact B2]. intros _. reflexivity.
  - (* chars *)
    apply bind_ok in H as ([n s2] & E2 & H). cbv beta iota zeta in H. apply i32_inv in E2 as (_ & B2); [|exact B1].
    apply bind_ok in H as (u & _ & H). cbv beta iota zeta in H.
    match type of H with Ok (?x, _) = _ => assert (k = x) by congruence end. assert (s' = s2) by congruence. subst k s'. clear H.
    split; [apply Fin; try reflexivity; try assumption; cbn; try (intros Q; decompose [or] Q; discriminate || contradiction); discriminate|].
    split; [reflexivity|]. split; [reflexivity|]. split; [reflexivity|exact B2].
  - (* int8 strings *)
    apply bind_ok in H as ([n s2] & E2 & H). cbv beta iota zeta in H. apply i32_inv in E2 as (N2 & B2); [|exact B1].
    apply bind_ok in H as (u & An & H). cbv beta iota zeta in H. apply bind_ok in H as ([r s3] & E3 & H). cbv beta iota zeta in H.
    apply bind_ok in H as (u2 & _ & H). cbv beta iota zeta in H.
    match type of H with Ok (?x, _) = _ => assert (k = x) by congruence end. assert (s' = s3) by congruence. subst k s'. clear H.
    apply entries_inv in E3 as (F1 & F2 & F3); [|exact B2|apply Forall_forall; intros x Hx; apply repeat_spec in Hx; subst; unfold len31; cbn; lia].
    rewrite repeat_length in F2.
    split; [apply Fin; try reflexivity; try assumption; cbn [set_strings c_strings set_stats new_codec]; try discriminate; intros _; split; [rewrite F2; lia|exact F1]|].
    split; [reflexivity|]. split; [reflexivity|]. split; [|exact F3].
    intros T. unfold tidy in T. cbn [set_strings set_stats new_codec c_kind c_dsd c_strings] in T.
    unfold reload_of. cbn [set_strings set_stats new_codec c_kind c_ord c_hasMissing c_min c_max c_missing c_strings c_lookup].
    rewrite <- T by (left; reflexivity). reflexivity.
  - (* int16 strings *)
    apply bind_ok in H as ([n s2] & E2 & H). cbv beta iota zeta in H. apply i32_inv in E2 as (N2 & B2); [|exact B1].
    apply bind_ok in H as (u & An & H). cbv beta iota zeta in H. apply bind_ok in H as ([r s3] & E3 & H). cbv beta iota zeta in H.
    apply bind_ok in H as (u2 & _ & H). cbv beta iota zeta in H.
    match type of H with Ok (?x, _) = _ => assert (k = x) by congruence end. assert (s' = s3) by congruence. subst k s'. clear H.
    apply entries_inv in E3 as (F1 & F2 & F3); [|exact B2|apply Forall_forall; intros x Hx; apply repeat_spec in Hx; subst; unfold len31; cbn; lia].
    rewrite repeat_length in F2.
    split; [apply Fin; try reflexivity; try assumption; cbn [set_strings c_strings set_stats new_codec]; try discriminate; intros _; split; [rewrite F2; lia|exact F1]|].
    split; [reflexivity|]. split; [reflexivity|]. split; [|exact F3].
    intros T. unfold tidy in T. cbn [set_strings set_stats new_codec c_kind c_dsd c_strings] in T.
    unfold reload_of. cbn [set_strings set_stats new_codec c_kind c_ord c_hasMissing c_min c_max c_missing c_strings c_lookup].
    rewrite <- T by (right; left; reflexivity). reflexivity.
Qed.

(** ** Columns and headers *)

(** A column as found in a header: it can be written again, and is then found unchanged. *)
Record loaded (st : settings) (o : order) (c : column) : Prop := {
  ld_col : column_ok c;
  ld_codec : codec_ok (iad st) (col_type c) (col_coder c);
  ld_ord : c_ord (col_coder c) = o;
  ld_int : c_int64 (col_coder c) = c_int64 (new_codec (iad st) o (c_kind (col_coder c)) (col_type c));
  ld_reload : tidy (col_coder c) -> reload_of (iad st) (col_type c) (col_coder c) = col_coder c;
  ld_bits : col_type c <> ty_BITFIELD -> col_bfnames c = [] /\ col_bfsizes c = []
}.

Lemma column_inv st o s c s' : load_column st o s = Ok (c, s') -> bytes_ok s -> loaded st o c /\ bytes_ok s'.
Proof.
  unfold load_column. intros H B. apply bind_ok in H as ([nm s1] & E1 & H). cbv beta iota zeta in H. apply string_inv in E1 as (L1 & _ & B1); [|exact B].
  apply bind_ok in H as ([ty s2] & E2 & H). cbv beta iota zeta in H. apply i32_inv in E2 as (L2 & B2); [|exact B1].
  apply bind_ok in H as ([[names sizes] s3] & E3 & H). cbv beta iota zeta in H.
  apply bind_ok in H as ([k s4] & E4 & H). cbv beta iota zeta in H. cbn [fst snd] in H.
  match type of H with Ok (?x, _) = _ => assert (c = x) by congruence end. assert (s' = s4) by congruence. subst c s'. clear H.
  assert (X : bytes_ok s3 /\ (ty = ty_BITFIELD -> length names = length sizes /\ len31 names /\ Forall len31 names /\ Forall (fun z => - 2 ^ 31 <= z < 2 ^ 31) sizes) /\
              (ty <> ty_BITFIELD -> names = [] /\ sizes = [])).
  { destruct (Z.eqb_spec ty ty_BITFIELD) as [->|N].
    - apply bind_ok in E3 as ([ns sa] & F1 & E3). cbv beta iota zeta in E3. apply bind_ok in E3 as ([zs sb] & F2 & E3). cbv beta iota zeta in E3.
      apply bind_ok in E3 as (u & F3 & E3). cbv beta iota zeta in E3.
      assert (ns = names) by congruence. assert (zs = sizes) by congruence. assert (sb = s3) by congruence. subst ns zs sb.
      apply (read_vec_inv o _ (fun t => len31 t)) in F1 as (P1 & Ba & N1); [|intros ? ? ? R Q; apply string_inv in R as (? & ? & ?); auto|exact B2].
      apply (read_vec_inv o _ (fun z => - 2 ^ 31 <= z < 2 ^ 31)) in F2 as (P2 & Bb & N2); [|intros ? ? ? R Q; eapply i32_inv; eassumption|exact Ba].
      split; [exact Bb|]. split; [|congruence]. intros _. split; [|auto].
      destruct (Nat.eqb_spec (length names) (length sizes)); [assumption|discriminate].
    - assert (names = []) by congruence. assert (sizes = []) by congruence. assert (s3 = s2) by congruence. subst. split; [exact B2|]. split; [congruence|auto]. }
  destruct X as (B3 & X1 & X2). destruct (loaded_codec st o ty s3 k s4 E4 B3) as (K1 & K2 & K3 & K4 & B4).
  split; [|exact B4]. split; cbn [col_name col_type col_bfnames col_bfsizes col_coder]; try assumption.
  split; cbn [col_name col_type col_bfnames col_bfsizes]; assumption.
Qed.

Lemma pairs_inv o : forall s kv s', read_pair o s = Ok (kv, s') -> bytes_ok s -> (len31 (fst kv) /\ len31 (snd kv)) /\ bytes_ok s'.
Proof.
  intros s kv s' H B. unfold read_pair in H. apply bind_ok in H as ([k s1] & E1 & H). cbv beta iota zeta in H. apply bind_ok in H as ([v s2] & E2 & H). cbv beta iota zeta in H.
  apply string_inv in E1 as (L1 & _ & B1); [|exact B]. apply string_inv in E2 as (L2 & _ & B2); [|exact B1].
  assert (kv = (k, v)) by congruence. assert (s' = s2) by congruence. subst. auto.
Qed.

Lemma memplace_grow {V} (P : list Z * V -> Prop) (m : smap V) k v : Forall P m -> P (k, v) ->
  Forall P (memplace m k v) /\ (length (memplace m k v) <= S (length m))%nat.
Proof.
  induction m as [|[k' v'] m IH]; intros F Pk; cbn [memplace].
  - split; [constructor; [exact Pk|constructor]|cbn; lia].
  - inversion F as [|? ? F1 F2]; subst. destruct (bytes_cmp k k').
    + split; [exact F|cbn; lia].
    + split; [constructor; [exact Pk|exact F]|cbn; lia].
    + destruct (IH F2 Pk) as [I1 I2]. split; [constructor; assumption|cbn [length]; lia].
Qed.

Lemma read_map_inv o s m s' : read_map o s = Ok (m, s') -> bytes_ok s -> props_ok m /\ bytes_ok s'.
Proof.
  unfold read_map. intros H B. apply bind_ok in H as ([n s1] & E1 & H). cbv beta iota zeta in H. apply i32_inv in E1 as (L1 & B1); [|exact B].
  apply bind_ok in H as ([kvs s2] & E2 & H). cbv beta iota zeta in H.
  apply (read_n_inv _ _ (pairs_inv o)) in E2 as (P & B2 & L); [|exact B1].
  match type of H with Ok (?x, _) = _ => assert (m = x) by congruence end. assert (s' = s2) by congruence. subst m s'. split; [|exact B2].
  assert (G : forall l acc, Forall (fun kv : list Z * list Z => len31 (fst kv) /\ len31 (snd kv)) l -> msorted acc -> Forall (fun kv => len31 (fst kv) /\ len31 (snd kv)) acc ->
     let r := fold_left (fun m kv => memplace m (fst kv) (snd kv)) l acc in
     msorted r /\ Forall (fun kv => len31 (fst kv) /\ len31 (snd kv)) r /\ (length r <= length l + length acc)%nat).
  { induction l as [|[k v] l IH]; intros acc Fl Sa Fa; cbn [fold_left].
    - split; [exact Sa|]. split; [exact Fa|cbn; lia].
    - inversion Fl as [|? ? P1 P2]; subst. cbn [fst snd].
      destruct (memplace_grow (fun kv => len31 (fst kv) /\ len31 (snd kv)) acc k v Fa P1) as [G1 G2].
      destruct (IH (memplace acc k v) P2 (memplace_sorted acc k v Sa) G1) as (I1 & I2 & I3).
      split; [exact I1|]. split; [exact I2|]. cbn [length]. lia. }
  destruct (G kvs [] P I (Forall_nil _)) as (G1 & G2 & G3). cbn [length] in G3. split; [exact G1|]. split; [unfold len31; lia|exact G2].
Qed.

Lemma bytes_ok_app a b : bytes_ok (a ++ b) <-> bytes_ok a /\ bytes_ok b.
Proof. unfold bytes_ok. apply Forall_app. Qed.
Lemma bytes_ok_firstn n l : bytes_ok l -> bytes_ok (firstn n l).
Proof. intros H. rewrite <- (firstn_skipn n l) in H. now apply bytes_ok_app in H. Qed.
Lemma bytes_ok_skipn n l : bytes_ok l -> bytes_ok (skipn n l).
Proof. intros H. rewrite <- (firstn_skipn n l) in H. now apply bytes_ok_app in H. Qed.

(** Everything a header says fits the format. *)
Theorem loaded_header md5 st s h r : load_after_magic md5 st s = Ok (h, r) -> bytes_ok s ->
  Forall (loaded st (h_order h)) (h_cols h) /\ len31 (h_cols h) /\ props_ok (h_props h) /\ int64 (h_dataSize h) /\ int64 (h_rows h).
Proof.
  unfold load_after_magic. destruct (length s <? 4)%nat; [discriminate|]. cbv zeta. generalize (if le_val (firstn 4 s) =? 1 then LE else BE) as o. intros o H B0.
  pose proof (bytes_ok_skipn 4 s B0) as B. revert H B. generalize (skipn 4 s). clear s B0. intros s H B.
  unfold load_header in H. destruct (length s <? 48)%nat; [discriminate|]. apply bind_ok in H as ([d hs] & _ & H). cbv beta iota zeta in H.
  destruct (hs <? 0); [discriminate|]. destruct (_ <? hs); [discriminate|]. destruct (bytes_eqb _ _); [|discriminate].
  apply bind_ok in H as (h0 & H & E). cbv beta iota zeta in E. assert (h0 = h) by congruence. subst h0. clear E.
  apply (bytes_ok_skipn 48) in B. apply (bytes_ok_firstn (Z.to_nat hs)) in B. revert H B. generalize (firstn (Z.to_nat hs) (skipn 48 s)). clear s. intros s H B.
  unfold load_variable in H. apply bind_ok in H as ([ds s1] & E1 & H). cbv beta iota zeta in H. apply bind_ok in H as ([pv s2] & E2 & H). cbv beta iota zeta in H.
  apply bind_ok in H as (u & _ & H). cbv beta iota zeta in H. apply bind_ok in H as ([nr s3] & E3 & H). cbv beta iota zeta in H.
  apply bind_ok in H as ([fl s4] & E4 & H). cbv beta iota zeta in H. apply bind_ok in H as ([pr s5] & E5 & H). cbv beta iota zeta in H.
  apply bind_ok in H as ([cs s6] & E6 & H). cbv beta iota zeta in H.
  match type of H with Ok ?x = _ => assert (h = x) by congruence end. subst h. clear H. cbn [h_order h_cols h_props h_dataSize h_rows].
  apply i64_inv in E1 as (P1 & B1); [|exact B]. apply i64_inv in E2 as (_ & B2); [|exact B1]. apply i64_inv in E3 as (P3 & B3); [|exact B2].
  apply (read_vec_inv o _ (fun _ => True)) in E4 as (_ & B4 & _); [|intros ? ? ? R Q; split; [exact I|]; apply f64_inv in R as (_ & R); assumption|exact B3].
  apply read_map_inv in E5 as (P5 & B5); [|exact B4].
  apply (read_vec_inv o _ (loaded st o)) in E6 as (P6 & _ & L6); [|intros ? ? ? R Q; eapply column_inv; eassumption|exact B5].
  auto.
Qed.

(** A column as found is found again after being written. *)
Lemma reloads_again st' o ty k : codec_ok (iad st') ty k -> c_ord k = o -> reloads st' o ty k (reload_of (iad st') ty k).
Proof.
  intros K O. destruct (load_save_codec (iad st') ty k K) as (bytes & S & L).
  split; [exact O|]. split; [unfold reload_of; destruct (c_kind k); exact O|].
  split; [unfold reload_of; destruct (c_kind k) eqn:E; cbn; try (now rewrite E); reflexivity|].
  exists bytes. split; [exact S|]. intros rest. rewrite <- O. apply L.
Qed.
