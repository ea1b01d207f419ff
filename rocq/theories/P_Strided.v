(** C26: filling and slicing periodic arrays. *)
From Verif Require Import Base Stream Strided.
Open Scope Z_scope.

(** ** What is expected *)

(** the address of byte [k] of element [row] *)
Definition byte_of (s : strided) (row k : Z) : Z := s_base s + row * s_stride s + k.

(** an array whose elements do not overlap *)
Definition separate (s : strided) : Prop := 0 < s_size s <= s_stride s.

(** [m'] is [m] with the elements src+1 .. fin replaced by the element [src] *)
Definition filled (s : strided) (src fin : Z) (m m' : mem) : Prop :=
  (forall row k, src < row <= fin -> 0 <= k < s_size s -> m' (byte_of s row k) = m (byte_of s src k)) /\
  (forall x, (forall row k, src < row <= fin -> 0 <= k < s_size s -> x <> byte_of s row k) -> m' x = m x).

(** ** Memory *)

Lemma load_length m a n : length (load m a n) = n.
Proof. unfold load. now rewrite map_length, seq_length. Qed.

Lemma load_nth m a n k d : (k < n)%nat -> nth k (load m a n) d = m (a + Z.of_nat k).
Proof.
  intros H. unfold load. rewrite (nth_indep _ d (m (a + Z.of_nat 0))) by (rewrite map_length, seq_length; lia).
  rewrite (map_nth (fun k => m (a + Z.of_nat k))), seq_nth by assumption. reflexivity.
Qed.

Lemma load_ext m m' a n : (forall k, (k < n)%nat -> m (a + Z.of_nat k) = m' (a + Z.of_nat k)) -> load m a n = load m' a n.
Proof. intros H. unfold load. apply map_ext_in. intros k Hk. apply in_seq in Hk. apply H. lia. Qed.

Lemma store_in m a b x : a <= x < a + Z.of_nat (length b) -> store m a b x = nth (Z.to_nat (x - a)) b 0.
Proof. intros H. unfold store. replace (a <=? x) with true by (symmetry; apply Z.leb_le; lia). replace (x <? _) with true by (symmetry; apply Z.ltb_lt; lia). reflexivity. Qed.

Lemma store_out m a b x : ~ (a <= x < a + Z.of_nat (length b)) -> store m a b x = m x.
Proof. intros H. unfold store. destruct (Z.leb_spec a x), (Z.ltb_spec x (a + Z.of_nat (length b))); cbn; auto; lia. Qed.

Lemma get_row s i : 0 <= i < 2 ^ 31 -> get s i = s_base s + i * s_stride s.
Proof.
  intros H. unfold get. rewrite Z.mod_small by lia. unfold signed. change (2 ^ (32 - 1)) with (2 ^ 31).
  destruct (Z.ltb_spec i (2 ^ 31)); [reflexivity|lia].
Qed.

(** ** The loops *)

Section F.
Variables (s : strided) (src : Z) (m : mem).
Hypothesis Sep : separate s.
Hypothesis Hsrc : 0 <= src.
Let v := load m (s_base s + src * s_stride s) (Z.to_nat (s_size s)).

Lemma v_len : Z.of_nat (length v) = s_size s.
Proof. unfold v. rewrite load_length. destruct Sep. lia. Qed.

Lemma rows_apart row row' k k' : 0 <= k < s_size s -> 0 <= k' < s_size s -> byte_of s row k = byte_of s row' k' -> row = row' /\ k = k'.
Proof. unfold byte_of. destruct Sep. intros. assert (row = row') by nia. subst. split; lia. Qed.

Lemma filled_start : filled s src src m m.
Proof. split; [intros; lia|auto]. Qed.

Lemma filled_step r m' : src <= r -> filled s src r m m' -> filled s src (r + 1) m (store m' (s_base s + (r + 1) * s_stride s) v).
Proof.
  intros Hr [F1 F2]. split.
  - intros row k Hrow Hk. destruct (Z.eq_dec row (r + 1)) as [->|N].
    + rewrite store_in by (rewrite v_len; unfold byte_of; lia). unfold v. rewrite load_nth by (unfold byte_of; destruct Sep; lia).
      f_equal. unfold byte_of. lia.
    + rewrite store_out; [apply F1; lia|]. rewrite v_len. unfold byte_of. destruct Sep. nia.
  - intros x Hx. rewrite store_out.
    + apply F2. intros row k Hrow Hk. apply Hx; lia.
    + rewrite v_len. intros C. apply (Hx (r + 1) (x - (s_base s + (r + 1) * s_stride s)) ltac:(lia) ltac:(lia)). unfold byte_of. lia.
Qed.

Lemma source_kept r m' : src <= r -> filled s src r m m' -> load m' (s_base s + src * s_stride s) (Z.to_nat (s_size s)) = v.
Proof.
  intros Hr [_ F2]. unfold v. apply load_ext. intros k Hk. apply F2. intros row k' Hrow Hk' E.
  destruct (rows_apart src row (Z.of_nat k) k'); [destruct Sep; lia|lia|unfold byte_of in *; lia|lia].
Qed.

Lemma words_spec fin : s_size s = 8 -> s_stride s = 8 -> forall n r m', src <= r -> fin = r + Z.of_nat n -> filled s src r m m' ->
  exists m'', filled s src fin m m'' /\ forall fuel, (n <= fuel)%nat ->
    fill_words fuel (s_base s + (r + 1) * s_stride s) (s_base s + (fin + 1) * s_stride s) v m' = Some m''.
Proof.
  intros E1 E2. induction n as [|n IH]; intros r m' Hr -> F.
  - replace (r + Z.of_nat 0) with r by lia. exists m'. split; [exact F|]. intros [|fuel] _; cbn [fill_words]; now rewrite Z.eqb_refl.
  - destruct (IH (r + 1) _ ltac:(lia) ltac:(lia) (filled_step r m' Hr F)) as (m'' & F'' & L). exists m''.
    split; [exact F''|]. intros [|fuel] Hf; [lia|]. cbn [fill_words]. destruct (Z.eqb_spec (s_base s + (r + 1) * s_stride s) (s_base s + (r + Z.of_nat (S n) + 1) * s_stride s)); [lia|].
    rewrite <- (L fuel) by lia. f_equal; lia.
Qed.

Lemma strided_spec fin : s_size s = 8 -> forall n r m', src <= r -> fin = r + Z.of_nat n -> filled s src r m m' ->
  exists m'', filled s src fin m m'' /\ forall fuel, (n <= fuel)%nat ->
    fill_strided fuel (s_base s + (r + 1) * s_stride s) (s_base s + fin * s_stride s) (s_stride s) v m' = Some m''.
Proof.
  intros E1. induction n as [|n IH]; intros r m' Hr -> F.
  - replace (r + Z.of_nat 0) with r by lia. exists m'. split; [exact F|].
    intros fuel _. assert (L : (s_base s + r * s_stride s <? s_base s + (r + 1) * s_stride s) = true) by (apply Z.ltb_lt; destruct Sep; lia).
    destruct fuel; cbn [fill_strided]; now rewrite L.
  - destruct (IH (r + 1) _ ltac:(lia) ltac:(lia) (filled_step r m' Hr F)) as (m'' & F'' & L). exists m''.
    split; [exact F''|]. intros [|fuel] Hf; [lia|]. cbn [fill_strided].
    destruct (Z.ltb_spec (s_base s + (r + Z.of_nat (S n)) * s_stride s) (s_base s + (r + 1) * s_stride s)); [destruct Sep; nia|].
    rewrite <- (L fuel) by lia. f_equal; lia.
Qed.

Lemma copies_spec fin : fin < 2 ^ 31 -> forall n r m', src <= r -> fin = r + Z.of_nat n -> filled s src r m m' ->
  exists m'', filled s src fin m m'' /\ forall fuel, (n <= fuel)%nat -> fill_copies fuel s src (r + 1) fin m' = Some (Ok m'').
Proof.
  intros Hfin. induction n as [|n IH]; intros r m' Hr Hf F.
  - assert (E : fin = r) by lia. clear Hf. rewrite E in *. exists m'. split; [exact F|]. intros fuel _.
    assert (L : (r <? r + 1) = true) by (apply Z.ltb_lt; lia). destruct fuel; cbn [fill_copies]; now rewrite L.
  - destruct (IH (r + 1) _ ltac:(lia) ltac:(lia) (filled_step r m' Hr F)) as (m'' & F'' & L). exists m''.
    split; [exact F''|]. intros [|fuel] Hfu; [lia|]. cbn [fill_copies].
    destruct (Z.ltb_spec fin (r + 1)); [lia|]. rewrite !get_row by lia.
    destruct (Z.ltb_spec (Z.abs (s_base s + (r + 1) * s_stride s - (s_base s + src * s_stride s))) (s_size s)); [destruct Sep; nia|].
    rewrite (source_kept r m' Hr F). apply L. lia.
Qed.
End F.

(** ** C26 *)

(** Whatever the element size and the stride, and so whichever loop is used. *)
Theorem C26_fill : forall s src fin m, separate s -> 0 <= src <= fin -> fin + 1 < 2 ^ 31 ->
  exists m', filled s src fin m m' /\
    forall fuel, (Z.to_nat (fin - src) <= fuel)%nat -> mfill fuel s src fin m = Some (Ok m').
Proof.
  intros s src fin m Sep H Hfin. unfold mfill. replace (src <=? fin) with true by (symmetry; apply Z.leb_le; lia). cbn [negb].
  rewrite !get_row by lia.
  destruct (Z.eqb_spec (s_size s) 8) as [E|E].
  - destruct (Z.eqb_spec (s_stride s) 8) as [E'|E'].
    + destruct (words_spec s src m Sep ltac:(lia) fin E E' (Z.to_nat (fin - src)) src m ltac:(lia) ltac:(lia) (filled_start s src m)) as (m' & F & L).
      exists m'. split; [exact F|]. intros fuel Hf. specialize (L fuel Hf). rewrite E in L. change (Z.to_nat 8) with 8%nat in L. rewrite L. reflexivity.
    + destruct (strided_spec s src m Sep ltac:(lia) fin E (Z.to_nat (fin - src)) src m ltac:(lia) ltac:(lia) (filled_start s src m)) as (m' & F & L).
      exists m'. split; [exact F|]. intros fuel Hf. specialize (L fuel Hf). rewrite E in L. change (Z.to_nat 8) with 8%nat in L. rewrite L. reflexivity.
  - destruct (copies_spec s src m Sep ltac:(lia) fin ltac:(lia) (Z.to_nat (fin - src)) src m ltac:(lia) ltac:(lia) (filled_start s src m)) as (m' & F & L).
    exists m'. split; [exact F|exact L].
Qed.
Print Assumptions C26_fill.

Theorem C26_fill_refused : forall s src fin m fuel, fin < src -> mfill fuel s src fin m = Some (Throw AssertFailed).
Proof. intros. unfold mfill. replace (src <=? fin) with false by (symmetry; apply Z.leb_gt; lia). reflexivity. Qed.
Print Assumptions C26_fill_refused.

(** A slice is accepted when it lies within the array; its elements are those from [off] on. *)
Theorem C26_slice : forall s off n, 0 <= off < 2 ^ 31 -> 0 <= n ->
  (off + n <= s_nelem s -> exists t, slice s off n = Ok t /\ s_nelem t = n /\ s_size t = s_size s /\ s_stride t = s_stride s /\
     forall row k, byte_of t row k = byte_of s (off + row) k) /\
  (s_nelem s < off + n -> slice s off n = Throw AssertFailed).
Proof.
  intros s off n Ho Hn. unfold slice, assert. split; intros H.
  - replace (off + n <=? s_nelem s) with true by (symmetry; apply Z.leb_le; lia). cbn [bind]. eexists. split; [reflexivity|]. cbn [s_nelem s_size s_stride].
    repeat split. intros row k. unfold byte_of. cbn [s_base s_stride]. rewrite get_row by lia. lia.
  - replace (off + n <=? s_nelem s) with false by (symmetry; apply Z.leb_gt; lia). reflexivity.
Qed.
Print Assumptions C26_slice.

(** A slice of a slice is a slice. *)
Theorem C26_slices : forall s off n off' n' t, 0 <= off -> 0 <= off' -> off + off' < 2 ^ 31 -> 0 <= n' -> off' + n' <= n ->
  slice s off n = Ok t -> slice t off' n' = slice s (off + off') n'.
Proof.
  intros s off n off' n' t H1 H2 H3 H4 H5 E. unfold slice, assert in *.
  destruct (Z.leb_spec (off + n) (s_nelem s)) as [L|L]; [|discriminate]. cbn [bind] in E. injection E as <-. cbn [s_nelem s_size s_stride].
  replace (off' + n' <=? n) with true by (symmetry; apply Z.leb_le; lia).
  replace (off + off' + n' <=? s_nelem s) with true by (symmetry; apply Z.leb_le; lia). cbn [bind]. f_equal. f_equal.
  rewrite !get_row by lia. cbn [s_base s_stride]. lia.
Qed.
Print Assumptions C26_slices.

(** The test used to find the first column that changed from one row to the next. *)
Theorem C26_new_value : forall m s row, 0 <= row < 2 ^ 31 ->
  is_new_value m s row = false <-> 0 < row /\ forall k, 0 <= k < s_size s -> m (byte_of s row k) = m (byte_of s (row - 1) k).
Proof.
  intros m s row H. unfold is_new_value. destruct (Z.eqb_spec row 0) as [->|N].
  { split; [discriminate|lia]. }
  rewrite !get_row by lia.
  destruct (list_eq_dec Z.eq_dec _ _) as [E|E]; cbn [negb].
  - split; [|reflexivity]. intros _. split; [lia|]. intros k Hk.
    apply (f_equal (fun l => nth (Z.to_nat k) l 0)) in E. rewrite !load_nth in E by lia. unfold byte_of. rewrite Z2Nat.id in E by lia. exact E.
  - split; [discriminate|]. intros [_ F]. exfalso. apply E. clear E. unfold load. apply map_ext_in. intros k Hk. apply in_seq in Hk.
    specialize (F (Z.of_nat k) ltac:(lia)). unfold byte_of in F. exact F.
Qed.
Print Assumptions C26_new_value.

(** ** Limits *)

(** Beyond 2^31 - 1 the offset is converted to a negative int: the slice starts before the array. *)
Theorem C26_large_offset_refuted : forall s off n t, 2 ^ 31 <= off < 2 ^ 32 -> 0 < s_stride s -> slice s off n = Ok t -> s_base t < s_base s.
Proof.
  intros s off n t H Hs E. unfold slice, assert in E. destruct (off + n <=? s_nelem s); [|discriminate]. cbn [bind] in E. injection E as <-. cbn [s_base].
  unfold get. rewrite Z.mod_small by lia. unfold signed. change (2 ^ (32 - 1)) with (2 ^ 31). destruct (Z.ltb_spec off (2 ^ 31)); [lia|].
  assert (off - 2 ^ 32 < 0) by lia. nia.
Qed.
Print Assumptions C26_large_offset_refuted.

(** With 8 byte elements and a stride of 0 the fill loop does not end. *)
Theorem C26_zero_stride_refuted : forall s src fin m fuel, s_size s = 8 -> s_stride s = 0 -> src <= fin -> mfill fuel s src fin m = None.
Proof.
  intros s src fin m fuel E1 E2 H. unfold mfill. replace (src <=? fin) with true by (symmetry; apply Z.leb_le; lia). cbn [negb]. rewrite E1, E2. cbn [Z.eqb Pos.eqb].
  assert (G : forall i, get s i = s_base s) by (intros; unfold get; rewrite E2; lia). rewrite !G.
  set (v := load m (s_base s) 8). clearbody v. revert m. induction fuel as [|fuel IH]; intros m; cbn [fill_strided]; rewrite Z.ltb_irrefl; [reflexivity|].
  rewrite Z.add_0_r. apply IH.
Qed.
Print Assumptions C26_zero_stride_refuted.

(** ** Concrete cases: three arrays sharing a block of 12 byte rows (8 + 4 bytes), one alone *)
Definition demo : mem := fun x => x mod 256.
Definition demo8 : strided := {| s_base := 100; s_nelem := 4; s_size := 8; s_stride := 12 |}.
Definition demo4 : strided := {| s_base := 108; s_nelem := 4; s_size := 4; s_stride := 12 |}.
Definition demo88 : strided := {| s_base := 100; s_nelem := 4; s_size := 8; s_stride := 8 |}.
Definition after (s : strided) (a b : Z) (from n : nat) : list Z :=
  match mfill 10 s a b demo with Some (Ok m) => load m (Z.of_nat from) n | _ => [] end.

Theorem C26_witness : separate demo8 /\ separate demo4 /\ separate demo88 /\
  after demo8 0 2 100 40 = load demo 100 12 ++ load demo 100 8 ++ load demo 120 4 ++ load demo 100 8 ++ load demo 132 8 /\
  after demo4 1 2 100 48 = load demo 100 32 ++ load demo 120 4 ++ load demo 136 12 /\
  after demo88 0 1 100 32 = load demo 100 8 ++ load demo 100 8 ++ load demo 116 16 /\
  after demo88 1 1 100 32 = load demo 100 32.
Proof. unfold separate. repeat (split; [vm_compute; try reflexivity; split; congruence|]). vm_compute. reflexivity. Qed.
