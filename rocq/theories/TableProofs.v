(** Decoding a table: the value of a cell is the one last stored for its column. *)
From Verif Require Import Base Fp FpProofs Stream StreamProofs StreamLocal Codec Meta Header Table.
From Verif Require Export RowSpec.

(** ** Skipping *)

Lemma read_uint_adv o n s v s' : read_uint o n s = Ok (v, s') -> advance n s = Ok (tt, s').
Proof.
  unfold read_uint, read_raw, advance. destruct (_ <? n); [discriminate|]. cbn. now intros [= <- <-].
Qed.

Theorem decode_skip c s cell s' : decode c s = Ok (cell, s') -> skip c s = Ok (tt, s').
Proof.
  unfold decode, skip. destruct (c_kind c).
  - intros H. apply bind_ok in H. destruct H as (x & _ & H). now inversion H.
  - now intros [= _ <-].
  - destruct (c_strings c); [discriminate|]. now intros [= _ <-].
  - intros H. apply bind_ok in H. destruct H as ((u & s1) & H1 & H). apply bind_ok in H. destruct H as (? & _ & H).
    inversion H; subst. now apply read_uint_adv in H1.
  - intros H. apply bind_ok in H. destruct H as ((u & s1) & H1 & H). apply bind_ok in H. destruct H as (? & _ & H).
    inversion H; subst. now apply read_uint_adv in H1.
  - intros H. apply bind_ok in H. destruct H as ((u & s1) & H1 & H). inversion H; subst.
    apply bind_ok in H1. destruct H1 as ((u' & s1) & H1 & H2). inversion H2; subst. now apply read_uint_adv in H1.
  - intros H. apply bind_ok in H. destruct H as ((u & s1) & H1 & H). apply bind_ok in H. destruct H as (? & _ & H).
    inversion H; subst. now apply read_uint_adv in H1.
  - intros H. apply bind_ok in H. destruct H as ((u & s1) & H1 & H). apply bind_ok in H. destruct H as (? & _ & H).
    inversion H; subst. now apply read_uint_adv in H1.
  - intros H. apply bind_ok in H. destruct H as ((u & s1) & H1 & H). apply bind_ok in H. destruct H as (? & _ & H).
    inversion H; subst. now apply read_uint_adv in H1.
  - intros H. apply bind_ok in H. destruct H as ((u & s1) & H1 & H). apply bind_ok in H. destruct H as (? & _ & H).
    inversion H; subst. now apply read_uint_adv in H1.
  - intros H. apply bind_ok in H. destruct H as ((u & s1) & H1 & H). inversion H; subst. now apply read_uint_adv in H1.
  - intros H. apply bind_ok in H. destruct H as ((u & s1) & H1 & H). inversion H; subst. now apply read_uint_adv in H1.
  - intros H. apply bind_ok in H. destruct H as ((u & s1) & H1 & H). inversion H; subst. now apply read_uint_adv in H1.
  - unfold read_raw, advance. destruct (_ <? _); [discriminate|]. now intros [= <- <-].
  - intros H. apply bind_ok in H. destruct H as ((u & s1) & H1 & H). destruct (_ <=? u); [discriminate|].
    inversion H; subst. now apply read_uint_adv in H1.
  - intros H. apply bind_ok in H. destruct H as ((u & s1) & H1 & H). destruct (_ <=? u); [discriminate|].
    inversion H; subst. now apply read_uint_adv in H1.
Qed.

(** ** Pure versions of the updates *)

Definition putf (f : facade) (r : nat) (b : list Z) : facade :=
  {| f_size := f_size f; f_elems := list_set (f_elems f) r (b ++ skipn (length b) (nth r (f_elems f) [])) |}.
Definition fillf (f : facade) (src fin : nat) : facade :=
  {| f_size := f_size f; f_elems := fill_elems (f_elems f) src fin |}.

Definition with_fac (d : dcol) (f : facade) (l : nat) : dcol :=
  {| d_codec := d_codec d; d_fac := Some f; d_last := l |}.

Definition upd_cell (row : nat) (d : dcol) (cell : list Z) : dcol :=
  match d_fac d with None => d | Some f => with_fac d (putf f row cell) row end.
Definition upd_fill (last : nat) (d : dcol) : dcol :=
  match d_fac d with None => d | Some f => with_fac d (fillf f (d_last d) last) (d_last d) end.

Lemma put_ok f r b : Z.of_nat (length b) <= f_size f -> (r < length (f_elems f))%nat -> put f r b = Ok (putf f r b).
Proof.
  intros H1 H2. unfold put. destruct (Z.ltb_spec (f_size f) (Z.of_nat (length b))); [lia|].
  destruct (Nat.leb_spec (length (f_elems f)) r); [lia|]. reflexivity.
Qed.

Lemma fill_ok f a b : (a <= b < length (f_elems f))%nat -> fill f a b = Ok (fillf f a b).
Proof.
  intros H. unfold fill. destruct (Nat.leb_spec a b); [|lia]. cbn [assert bind].
  destruct (Nat.leb_spec (length (f_elems f)) b); [lia|]. reflexivity.
Qed.

Lemma list_set_length {A} (l : list A) i x : length (list_set l i x) = length l.
Proof. revert i; induction l as [|y l IH]; intros [|i]; cbn; auto. Qed.

Lemma nth_list_set {A} (l : list A) i x j d : (i < length l)%nat ->
  nth j (list_set l i x) d = if (j =? i)%nat then x else nth j l d.
Proof.
  revert i j; induction l as [|y l IH]; intros i j H; cbn in H; [lia|].
  destruct i, j; cbn; try reflexivity. rewrite IH by lia. reflexivity.
Qed.

Lemma nth_error_list_set {A} (l : list A) i x j : (i < length l)%nat ->
  nth_error (list_set l i x) j = if (j =? i)%nat then Some x else nth_error l j.
Proof.
  revert i j; induction l as [|y l IH]; intros i j H; cbn in H; [lia|].
  destruct i, j; cbn; try reflexivity. rewrite IH by lia. reflexivity.
Qed.

Lemma nth_firstn {A} (l : list A) n j d : (j < n)%nat -> nth j (firstn n l) d = nth j l d.
Proof. revert n j; induction l as [|y l IH]; intros [|n] [|j] H; cbn; try lia; auto. apply IH; lia. Qed.

Lemma nth_skipn {A} (l : list A) n j d : nth j (skipn n l) d = nth (n + j) l d.
Proof. revert n; induction l as [|y l IH]; intros [|n]; cbn; auto. destruct j; reflexivity. Qed.

Lemma skipn_skipn {A} (l : list A) a b : skipn a (skipn b l) = skipn (a + b) l.
Proof.
  revert b; induction l as [|y l IH]; intros [|b]; rewrite ?skipn_nil, ?Nat.add_0_r; try reflexivity.
  rewrite Nat.add_succ_r. cbn. apply IH.
Qed.

Lemma nth_error_skipn {A} (l : list A) n j : nth_error (skipn n l) j = nth_error l (n + j).
Proof. revert n; induction l as [|y l IH]; intros [|n]; cbn; auto. destruct j; reflexivity. Qed.

Lemma nth_error_firstn {A} (l : list A) n j : (j < n)%nat -> nth_error (firstn n l) j = nth_error l j.
Proof. revert n j; induction l as [|y l IH]; intros [|n] [|j] H; cbn; try lia; auto. apply IH; lia. Qed.

Lemma fill_elems_length l a b : (a <= b < length l)%nat -> length (fill_elems l a b) = length l.
Proof. intros H. unfold fill_elems. rewrite !app_length, repeat_length, firstn_length, skipn_length. lia. Qed.

Lemma nth_repeat_lt {A} (x d : A) n j : (j < n)%nat -> nth j (repeat x n) d = x.
Proof. revert j; induction n as [|n IH]; intros [|j] H; cbn; try lia; auto. apply IH; lia. Qed.

Lemma nth_fill_elems l a b r : (a <= b < length l)%nat ->
  nth r (fill_elems l a b) [] = if ((a <? r) && (r <=? b))%nat then nth a l [] else nth r l [].
Proof.
  intros H. unfold fill_elems. assert (L : length (firstn (S a) l) = S a) by (rewrite firstn_length; lia).
  destruct (Nat.ltb_spec a r), (Nat.leb_spec r b); cbn [andb].
  - rewrite app_nth2 by lia. rewrite L. rewrite app_nth1 by (rewrite repeat_length; lia). apply nth_repeat_lt. lia.
  - rewrite app_nth2 by lia. rewrite L. rewrite app_nth2 by (rewrite repeat_length; lia). rewrite repeat_length, nth_skipn.
    f_equal. lia.
  - rewrite app_nth1 by lia. apply nth_firstn. lia.
  - lia.
Qed.

(** ** The loop over the columns of a row *)

Definition fits_cell (row : nat) (d : dcol) (cell : list Z) : Prop :=
  forall f, d_fac d = Some f -> Z.of_nat (length cell) <= f_size f /\ (row < length (f_elems f))%nat.

Lemma decode_cols_ok row : forall ds cells s s',
  cells_stream (map d_codec ds) cells s s' -> Forall2 (fits_cell row) ds cells ->
  decode_cols row ds s = Ok (map (fun p => upd_cell row (fst p) (snd p)) (combine ds cells), s').
Proof.
  induction ds as [|d ds IH]; intros cells s s' H F; cbn [map] in H.
  - inversion H; subst. reflexivity.
  - inversion H as [|? ? cell cells0 ? s1 ? Hd Hcs]; subst. inversion F as [|? ? ? ? Hfit F']; subst.
    cbn [decode_cols combine map fst snd]. unfold upd_cell at 1.
    destruct (d_fac d) as [f|] eqn:Ef.
    + destruct (Hfit f Ef) as [A B]. rewrite Hd. cbn [bind]. rewrite put_ok by assumption. cbn [bind].
      rewrite (IH cells0 s1 s') by assumption. reflexivity.
    + apply decode_skip in Hd. rewrite Hd. cbn [bind]. rewrite (IH cells0 s1 s') by assumption. reflexivity.
Qed.

Lemma map_dcols_fill last : forall ds,
  Forall (fun d => forall f, d_fac d = Some f -> (d_last d <= last < length (f_elems f))%nat) ds ->
  map_dcols (fill_col last) ds = Ok (map (upd_fill last) ds).
Proof.
  induction 1 as [|d ds Hd H IH]; [reflexivity|]. cbn [map_dcols map].
  assert (E : fill_col last d = Ok (upd_fill last d)).
  { unfold fill_col, upd_fill. destruct (d_fac d) as [f|] eqn:Ef; [|reflexivity].
    rewrite fill_ok by auto. reflexivity. }
  rewrite E. cbn [bind]. rewrite IH. reflexivity.
Qed.

(** ** The invariant *)

(** element [r'] of the target as the value stored in row [r'] leaves it *)
Definition written (f0 : facade) (r' : nat) (cell : list Z) : list Z :=
  cell ++ skipn (length cell) (nth r' (f_elems f0) []).

(** the specified content of row [r]: the last stored value, or the (prefilled) row 0 *)
Definition spec_elem (rows : list stored_row) (f0 : facade) (i r : nat) : list Z :=
  match latest rows i r with
  | Some (r', cell) => written f0 r' cell
  | None => nth 0 (f_elems f0) []
  end.

Definition last_row (rows : list stored_row) (i : nat) (row : nat) : nat :=
  match row with
  | O => O
  | S r => match latest rows i r with Some (r', _) => r' | None => O end
  end.

(** state of column [i] after [row] rows, the last of which started at [lastStart] *)
Definition col_inv (rows : list stored_row) (row lastStart i : nat) (d0 d : dcol) : Prop :=
  d_codec d = d_codec d0 /\
  match d_fac d0, d_fac d with
  | None, None => d_last d = O
  | Some f0, Some f =>
      f_size f = f_size f0 /\ length (f_elems f) = length (f_elems f0) /\
      d_last d = last_row rows i row /\
      (forall r, (r < row)%nat -> (lastStart <= i)%nat \/ (r <= d_last d)%nat -> nth r (f_elems f) [] = spec_elem rows f0 i r) /\
      (forall r, (row <= r)%nat -> nth r (f_elems f) [] = nth r (f_elems f0) []) /\
      (latest rows i (row - 1) = None \/ row = O -> nth 0 (f_elems f) [] = nth 0 (f_elems f0) [])
  | _, _ => False
  end.

Lemma latest_le rows i r r' c : latest rows i r = Some (r', c) -> (r' <= r)%nat.
Proof.
  induction r as [|r IH]; cbn; destruct (stored rows i _).
  - intros [= <- _]; lia.
  - discriminate.
  - intros [= <- _]; lia.
  - intros H. apply IH in H. lia.
Qed.

Lemma latest_between rows i r r' q c : latest rows i r = Some (r', c) -> (r' <= q <= r)%nat -> latest rows i q = Some (r', c).
Proof.
  induction r as [|r IH]; cbn; destruct (stored rows i _) eqn:St; intros H Hq.
  - inversion H; subst. assert (q = 0)%nat as -> by lia. cbn. rewrite St. reflexivity.
  - discriminate.
  - inversion H; subst. assert (q = S r) as -> by lia. cbn. rewrite St. reflexivity.
  - destruct (Nat.eq_dec q (S r)) as [->|N].
    + cbn. rewrite St. exact H.
    + apply IH; [exact H|lia].
Qed.

Lemma latest_none rows i r q : latest rows i r = None -> (q <= r)%nat -> latest rows i q = None.
Proof.
  induction r as [|r IH]; cbn; destruct (stored rows i _) eqn:St; intros H Hq; try discriminate.
  - assert (q = 0)%nat as -> by lia. cbn. now rewrite St.
  - destruct (Nat.eq_dec q (S r)) as [->|N].
    + cbn. rewrite St. exact H.
    + apply IH; [exact H|lia].
Qed.

Lemma last_row_le rows i row : (last_row rows i row <= row - 1)%nat.
Proof.
  destruct row as [|r]; cbn; [lia|]. destruct (latest rows i r) as [[r' c]|] eqn:E; [|lia]. apply latest_le in E. lia.
Qed.

(** filling the pending rows of a column completes it *)
Lemma fill_inv rows row i d0 d ls : (0 < row)%nat ->
  (forall f, d_fac d0 = Some f -> (row <= length (f_elems f))%nat) ->
  col_inv rows row ls i d0 d -> col_inv rows row i i d0 (upd_fill (row - 1) d).
Proof.
  intros Hr Hf [H1 H2]. unfold upd_fill. split.
  - destruct (d_fac d); cbn; assumption.
  - destruct (d_fac d0) as [f0|], (d_fac d) as [f|] eqn:Ef; try contradiction.
    2:{ rewrite Ef. assumption. }
    destruct H2 as (A & B & C & D & E & F). specialize (Hf f0 eq_refl).
    pose proof (last_row_le rows i row) as LR. rewrite <- C in LR.
    assert (Hb : (d_last d <= row - 1 < length (f_elems f))%nat) by lia.
    cbn [d_fac with_fac d_last fillf f_size f_elems]. split; [exact A|].
    split; [rewrite fill_elems_length by exact Hb; exact B|]. split; [exact C|]. split; [|split].
    + intros r H3 _. rewrite nth_fill_elems by exact Hb.
      destruct (Nat.ltb_spec (d_last d) r), (Nat.leb_spec r (row - 1)); cbn [andb]; try lia.
      2:{ apply D; [assumption|now right]. }
      rewrite D by (try lia; right; lia). unfold spec_elem.
      destruct row as [|row']; [lia|]. cbn [last_row] in C. rewrite C.
      destruct (latest rows i row') as [[r' c]|] eqn:L.
      * rewrite (latest_between _ _ _ _ r' _ L) by (apply latest_le in L; lia).
        rewrite (latest_between _ _ _ _ r _ L) by lia. reflexivity.
      * rewrite (latest_none _ _ _ 0 L), (latest_none _ _ _ r L) by lia. reflexivity.
    + intros r H3. rewrite nth_fill_elems by exact Hb.
      destruct (Nat.leb_spec r (row - 1)); [lia|]. rewrite andb_false_r. auto.
    + intros H3. rewrite nth_fill_elems by exact Hb. cbn. auto.
Qed.

Lemma stored_step rows i r : latest rows i (S r) =
  match stored rows i (S r) with Some c => Some (S r, c) | None => latest rows i r end.
Proof. reflexivity. Qed.

(** a column that is stored in row [row] *)
Lemma cell_inv rows row i d0 d ls cell :
  (forall f, d_fac d0 = Some f -> (row < length (f_elems f))%nat) ->
  col_inv rows row ls i d0 d -> ((ls <= i)%nat \/ row = O) -> stored rows i row = Some cell ->
  col_inv rows (S row) i i d0 (upd_cell row d cell).
Proof.
  intros Hf [H1 H2] Hls Hst. unfold upd_cell. split.
  - destruct (d_fac d); cbn; assumption.
  - destruct (d_fac d0) as [f0|], (d_fac d) as [f|] eqn:Ef; try contradiction.
    2:{ rewrite Ef. assumption. }
    destruct H2 as (A & B & C & D & E & F). specialize (Hf f0 eq_refl).
    cbn [d_fac with_fac d_last putf f_size f_elems]. split; [exact A|].
    split; [rewrite list_set_length; exact B|].
    assert (L : latest rows i row = Some (row, cell)) by (destruct row; cbn; rewrite Hst; reflexivity).
    split; [cbn; now rewrite L|]. split; [|split].
    + intros r H3 _. rewrite nth_list_set by lia. destruct (Nat.eqb_spec r row) as [->|N].
      * unfold spec_elem. rewrite L. unfold written. rewrite E by lia. reflexivity.
      * apply D; [lia|]. destruct Hls as [Hls| ->]; [now left|lia].
    + intros r H3. rewrite nth_list_set by lia. destruct (Nat.eqb_spec r row); [lia|]. apply E. lia.
    + intros [H3|H3]; [|lia]. cbn [Nat.sub] in H3. rewrite Nat.sub_0_r in H3. congruence.
Qed.

(** a column that is not stored in row [row] *)
Lemma keep_inv rows row i d0 d ls ls' :
  col_inv rows row ls i d0 d -> (i < ls')%nat -> stored rows i row = None ->
  col_inv rows (S row) ls' i d0 d.
Proof.
  intros [H1 H2] Hi Hst. split; [assumption|].
  destruct (d_fac d0) as [f0|], (d_fac d) as [f|] eqn:Ef; try contradiction; [|assumption].
  destruct H2 as (A & B & C & D & E & F). split; [exact A|]. split; [exact B|].
  assert (C' : d_last d = last_row rows i (S row)).
  { rewrite C. destruct row as [|row]; cbn; rewrite Hst; reflexivity. }
  split; [exact C'|]. split; [|split].
  - intros r H3 [H4|H4]; [lia|]. destruct (Nat.eq_dec r row) as [->|N].
    + (* r = row: only row 0 can be at or before d_last *)
      pose proof (last_row_le rows i row) as LR. rewrite <- C in LR. assert (row = 0)%nat as -> by lia.
      rewrite F by (now right). unfold spec_elem. cbn. rewrite Hst. reflexivity.
    + apply D; [lia|now right].
  - intros r H3. apply E. lia.
  - intros [H3|H3]; [|lia]. cbn [Nat.sub] in H3. rewrite Nat.sub_0_r in H3. apply F.
    destruct row as [|row]; [now right|left]. cbn [Nat.sub]. rewrite Nat.sub_0_r. eapply latest_none; [exact H3|lia].
Qed.

Lemma col_inv_ls rows row i d0 d ls ls' : (ls <= i)%nat -> (ls' <= i)%nat ->
  col_inv rows row ls i d0 d -> col_inv rows row ls' i d0 d.
Proof.
  intros H1 H2 [H3 H4]. split; [assumption|]. destruct (d_fac d0), (d_fac d); try contradiction; [|assumption].
  destruct H4 as (A & B & C & D & E & F). repeat (split; [assumption|]). split; [|split; assumption].
  intros r Hr _. apply D; auto.
Qed.

Lemma col_inv_pending rows row i d0 d ls ls' : (i < ls')%nat ->
  col_inv rows row ls i d0 d -> col_inv rows row ls' i d0 d.
Proof.
  intros H2 [H3 H4]. split; [assumption|]. destruct (d_fac d0), (d_fac d); try contradiction; [|assumption].
  destruct H4 as (A & B & C & D & E & F). repeat (split; [assumption|]). split; [|split; assumption].
  intros r Hr [Q|Q]; [lia|]. apply D; auto.
Qed.

Definition inv (rows : list stored_row) (row ls : nat) (cols0 cols : list dcol) : Prop :=
  length cols = length cols0 /\
  forall i d0 d, nth_error cols0 i = Some d0 -> nth_error cols i = Some d -> col_inv rows row ls i d0 d.

(** the target: large enough, elements wide enough *)
Definition target_ok (nrows : nat) (rows : list stored_row) (cols0 : list dcol) : Prop :=
  forall i d0 f, nth_error cols0 i = Some d0 -> d_fac d0 = Some f ->
    (nrows <= length (f_elems f))%nat /\
    forall r cell, stored rows i r = Some cell -> Z.of_nat (length cell) <= f_size f.

Lemma cells_stream_length ks cells s s' : cells_stream ks cells s s' -> length cells = length ks.
Proof. induction 1; cbn; auto. Qed.

Lemma inv_codecs rows row ls cols0 cols : inv rows row ls cols0 cols -> map d_codec cols = map d_codec cols0.
Proof.
  intros [L H]. set (dd := {| d_codec := new_codec false LE KChars 0; d_fac := None; d_last := 0 |}).
  apply nth_ext with (d := d_codec dd) (d' := d_codec dd).
  - now rewrite !map_length.
  - intros n Hn. rewrite map_length in Hn. rewrite !map_nth.
    assert (Hn' : (n < length cols0)%nat) by lia.
    specialize (H n _ _ (nth_error_nth' cols0 dd Hn') (nth_error_nth' cols dd Hn)). apply H.
Qed.

Lemma nth_error_mid {A} (l : list A) (f : A -> A) a b i : (a <= b <= length l)%nat ->
  nth_error (firstn a l ++ map f (firstn (b - a) (skipn a l)) ++ skipn b l) i =
  if ((a <=? i) && (i <? b))%nat then option_map f (nth_error l i) else nth_error l i.
Proof.
  intros H. assert (L1 : length (firstn a l) = a) by (rewrite firstn_length; lia).
  assert (L2 : length (map f (firstn (b - a) (skipn a l))) = (b - a)%nat)
    by (rewrite map_length, firstn_length, skipn_length; lia).
  destruct (Nat.leb_spec a i), (Nat.ltb_spec i b); cbn [andb].
  - rewrite nth_error_app2 by lia. rewrite L1, nth_error_app1 by lia.
    rewrite nth_error_map, nth_error_firstn, nth_error_skipn by lia. do 2 f_equal. lia.
  - rewrite nth_error_app2 by lia. rewrite L1, nth_error_app2 by lia. rewrite L2, nth_error_skipn. f_equal. lia.
  - rewrite nth_error_app1 by lia. apply nth_error_firstn. lia.
  - lia.
Qed.

Lemma nth_error_combine {A B} (la : list A) (lb : list B) i a b :
  nth_error la i = Some a -> nth_error lb i = Some b -> nth_error (combine la lb) i = Some (a, b).
Proof.
  revert lb i; induction la as [|x la IH]; intros [|y lb] [|i]; cbn; try discriminate.
  - now intros [= ->] [= ->].
  - apply IH.
Qed.

Lemma Forall2_length {A B} (P : A -> B -> Prop) la lb : Forall2 P la lb -> length la = length lb.
Proof. induction 1; cbn; auto. Qed.

Lemma Forall2_nth {A B} (P : A -> B -> Prop) la lb : length la = length lb ->
  (forall i a b, nth_error la i = Some a -> nth_error lb i = Some b -> P a b) -> Forall2 P la lb.
Proof.
  revert lb; induction la as [|x la IH]; intros [|y lb] L H; try discriminate; constructor.
  - apply (H 0%nat); reflexivity.
  - apply IH; [now injection L|]. intros i a b Ha Hb. apply (H (S i)); assumption.
Qed.

Lemma decode_row_ok rows row ls cols0 cols start cells m s1 s2 nrows :
  target_ok nrows rows cols0 -> (row < nrows)%nat ->
  inv rows row ls cols0 cols -> (ls <= length cols)%nat -> (row = O -> ls = O) ->
  nth_error rows row = Some (start, cells) ->
  length m = 2%nat -> marker_val m = start -> (start <= length cols)%nat ->
  cells_stream (skipn start (map d_codec cols0)) cells s1 s2 ->
  exists cols', decode_row row ls cols (m ++ s1) = Ok (start, cols', s2) /\ inv rows (S row) start cols0 cols'.
Proof.
  intros HT Hrow HI Hls Hls0 Hrw Hm Hst Hsc Hcs. pose proof HI as [LI HI'].
  unfold decode_row. rewrite read_raw_app by (rewrite Hm; reflexivity). cbn [bind]. rewrite Hst.
  (* after the fill of the columns start..ls-1 *)
  assert (Fill : exists cols1,
    (if (start <? ls)%nat then
       if (length cols <? ls)%nat then UB
       else
         do mid <- map_dcols (fill_col (row - 1)) (firstn (ls - start) (skipn start cols));
         Ok (firstn start cols ++ mid ++ skipn ls cols)
     else Ok cols) = Ok cols1 /\ length cols1 = length cols /\
    (forall i, (i < start)%nat -> nth_error cols1 i = nth_error cols i) /\
    (forall i d0 d, nth_error cols0 i = Some d0 -> nth_error cols1 i = Some d -> (start <= i)%nat ->
       col_inv rows row i i d0 d)).
  { destruct (Nat.ltb_spec start ls) as [Lt|Ge].
    - destruct (Nat.ltb_spec (length cols) ls); [lia|].
      assert (0 < row)%nat by (destruct row; [specialize (Hls0 eq_refl); lia|lia]).
      rewrite map_dcols_fill.
      2:{ apply Forall_forall. intros d Hd f Hf. apply In_nth_error in Hd. destruct Hd as [j Hj].
          assert (J : (j < ls - start)%nat).
          { assert (j < length (firstn (ls - start) (skipn start cols)))%nat by (apply nth_error_Some; congruence).
            rewrite firstn_length in *. lia. }
          rewrite nth_error_firstn, nth_error_skipn in Hj by assumption.
          destruct (nth_error cols0 (start + j)) as [d0|] eqn:E0.
          2:{ apply nth_error_None in E0. assert (start + j < length cols)%nat by (apply nth_error_Some; congruence). lia. }
          destruct (HI' _ _ _ E0 Hj) as [_ C]. destruct (d_fac d0) as [f0|] eqn:F0; rewrite Hf in C; [|contradiction].
          destruct C as (_ & B & C & _). destruct (HT _ _ _ E0 F0) as [T _].
          rewrite C, B. pose proof (last_row_le rows (start + j) row). lia. }
      cbn [bind]. eexists. split; [reflexivity|].
      split; [rewrite !app_length, map_length, !firstn_length, !skipn_length; lia|].
      split.
      + intros i Hi. rewrite nth_error_mid by lia. destruct (Nat.leb_spec start i); [lia|]. reflexivity.
      + intros i d0 d E0 E1 Hi. rewrite nth_error_mid in E1 by lia.
        destruct (Nat.leb_spec start i); [|lia]. destruct (Nat.ltb_spec i ls); cbn [andb] in E1.
        * destruct (nth_error cols i) as [d1|] eqn:E2; [|discriminate]. cbn in E1. inversion E1; subst d.
          eapply fill_inv; [assumption| |exact (HI' i d0 d1 E0 E2)].
          intros f Hf. destruct (HT _ _ _ E0 Hf). lia.
        * eapply col_inv_ls; [| |exact (HI' i d0 d E0 E1)]; lia.
    - exists cols. split; [reflexivity|]. split; [reflexivity|]. split; [reflexivity|].
      intros i d0 d E0 E1 Hi. eapply col_inv_ls; [| |exact (HI' i d0 d E0 E1)]; lia. }
  destruct Fill as (cols1 & E1 & L1 & Low & High). rewrite E1. cbn [bind].
  assert (Cod : map d_codec (skipn start cols1) = skipn start (map d_codec cols0)).
  { rewrite <- (inv_codecs _ _ _ _ _ HI).
    assert (forall i d d1, nth_error cols i = Some d -> nth_error cols1 i = Some d1 -> d_codec d1 = d_codec d) as P.
    { intros i d d1 A B. assert (i < length cols0)%nat by (rewrite <- LI; apply nth_error_Some; congruence).
      destruct (nth_error cols0 i) as [d0|] eqn:E0; [|apply nth_error_None in E0; lia].
      destruct (HI' i d0 d E0 A) as [Q _]. destruct (Nat.lt_ge_cases i start).
      - rewrite Low in B by assumption. congruence.
      - destruct (High i d0 d1 E0 B) as [Q' _]; [assumption|]. congruence. }
    rewrite <- skipn_map. f_equal.
    assert (F : Forall2 (fun d1 d => d_codec d1 = d_codec d) cols1 cols).
    { apply Forall2_nth; [assumption|]. intros i a b A B. eapply P; eassumption. }
    clear -F. induction F; cbn; congruence. }
  pose proof (cells_stream_length _ _ _ _ Hcs) as LC. rewrite <- Cod in Hcs.
  rewrite skipn_length, map_length in LC.
  assert (Stored : forall i, (start <= i)%nat -> stored rows i row = nth_error cells (i - start)).
  { intros i Hi. unfold stored. rewrite Hrw. destruct (Nat.leb_spec start i); [reflexivity|lia]. }
  erewrite decode_cols_ok; [|exact Hcs|].
  2:{ apply Forall2_nth; [rewrite skipn_length; lia|]. intros j d cell Hd Hc. rewrite nth_error_skipn in Hd.
      intros f Hf. assert (start + j < length cols0)%nat by (rewrite <- LI, <- L1; apply nth_error_Some; congruence).
      destruct (nth_error cols0 (start + j)) as [d0|] eqn:E0; [|apply nth_error_None in E0; lia].
      destruct (High _ d0 d E0 Hd) as [_ C]; [lia|]. destruct (d_fac d0) as [f0|] eqn:F0; rewrite Hf in C; [|contradiction].
      destruct C as (A & B & _). destruct (HT _ _ _ E0 F0) as [T1 T2]. rewrite A, B. split; [|lia].
      apply (T2 row). rewrite Stored by lia. replace (start + j - start)%nat with j by lia. assumption. }
  cbn [bind]. eexists. split; [reflexivity|]. split.
  { rewrite app_length, firstn_length, map_length, combine_length, skipn_length. lia. }
  intros i d0 d E0 Ed. destruct (Nat.lt_ge_cases i start) as [Hi|Hi].
  - rewrite nth_error_app1 in Ed by (rewrite firstn_length; lia). rewrite nth_error_firstn in Ed by assumption.
    rewrite Low in Ed by assumption. eapply keep_inv; [exact (HI' i d0 d E0 Ed)|assumption|].
    unfold stored. rewrite Hrw. destruct (Nat.leb_spec start i); [lia|reflexivity].
  - rewrite nth_error_app2 in Ed by (rewrite firstn_length; lia). rewrite firstn_length, Nat.min_l in Ed by lia.
    rewrite nth_error_map in Ed.
    assert (Hi' : (i < length cols0)%nat) by (apply nth_error_Some; congruence).
    destruct (nth_error cols1 i) as [d1|] eqn:Ed1; [|apply nth_error_None in Ed1; lia].
    destruct (nth_error cells (i - start)) as [cell|] eqn:Ec; [|apply nth_error_None in Ec; lia].
    rewrite (nth_error_combine _ _ _ d1 cell) in Ed; [|rewrite nth_error_skipn; rewrite <- Ed1; f_equal; lia|assumption].
    cbn in Ed. inversion Ed; subst d.
    apply col_inv_ls with (ls := i); [lia|assumption|].
    apply cell_inv with (ls := i).
    + intros f Hf. destruct (HT _ _ _ E0 Hf). lia.
    + apply High; assumption.
    + left; lia.
    + rewrite Stored by assumption. exact Ec.
Qed.

Lemma decode_rows_ok rows cols0 nrows : target_ok nrows rows cols0 -> length rows = nrows ->
  forall todo row ls cols s s', (row + length todo = nrows)%nat -> skipn row rows = todo ->
  inv rows row ls cols0 cols -> (ls <= length cols)%nat -> (row = O -> ls = O) ->
  row_stream (map d_codec cols0) todo s s' ->
  exists cols' ls', decode_rows (length todo) row ls cols s = Ok cols' /\ inv rows nrows ls' cols0 cols'.
Proof.
  intros HT Hlen. induction todo as [|[start cells] todo IH]; intros row ls cols s s' Hn Hsk HI Hls Hls0 HS.
  - exists cols, ls. split; [reflexivity|]. cbn in Hn. rewrite Nat.add_0_r in Hn. now subst row.
  - inversion HS as [|? ? ? m s1 s2 s3 Hm Hmv Hst Hcs HS']; subst.
    assert (Hnth : nth_error rows row = Some (marker_val m, cells)).
    { rewrite <- (Nat.add_0_r row), <- nth_error_skipn, Hsk. reflexivity. }
    pose proof HI as [LI _].
    destruct (decode_row_ok rows row ls cols0 cols (marker_val m) cells m s1 s2 (length rows)) as (cols1 & E & HI1);
      auto; try (cbn [length] in *; lia).
    { rewrite map_length in Hst. lia. }
    cbn [decode_rows length]. rewrite E. cbn [bind fst snd].
    apply (IH (S row) (marker_val m) cols1 s2 s').
    + cbn [length] in *. lia.
    + replace (S row) with (1 + row)%nat by lia. rewrite <- skipn_skipn. rewrite Hsk. reflexivity.
    + exact HI1.
    + destruct HI1 as [L _]. rewrite map_length in Hst. lia.
    + lia.
    + exact HS'.
Qed.

(** ** After the last row *)

Lemma col_inv_done rows nrows i d0 d ls : (nrows = 0 \/ d_last d = nrows - 1)%nat -> col_inv rows nrows ls i d0 d ->
  col_inv rows nrows i i d0 d.
Proof.
  intros Hd [H3 H4]. split; [assumption|]. destruct (d_fac d0), (d_fac d); try contradiction; [|assumption].
  destruct H4 as (A & B & C & D & E & F). repeat (split; [assumption|]). split; [|split; assumption].
  intros r Hr _. apply D; [assumption|]. right. lia.
Qed.

(** last_row is monotone in the column: a column stored in the last row is followed by
    columns stored in the last row *)
Lemma last_row_mono rows (ncols : nat) nrows i j : (0 < nrows)%nat -> length rows = nrows ->
  Forall (fun r : stored_row => (fst r <= ncols)%nat /\ length (snd r) = (ncols - fst r)%nat) rows ->
  (i <= j < ncols)%nat -> last_row rows i nrows = (nrows - 1)%nat -> (nrows = 1)%nat \/ last_row rows j nrows = (nrows - 1)%nat.
Proof.
  intros Hn Hl Hw Hij. destruct nrows as [|n]; [lia|]. cbn [last_row]. rewrite Nat.sub_succ, Nat.sub_0_r.
  destruct n as [|n]; [now left|]. intros H. right.
  assert (Si : stored rows i (S n) <> None).
  { rewrite stored_step in H. destruct (stored rows i (S n)); [discriminate|].
    destruct (latest rows i n) as [[r' c]|] eqn:L; [apply latest_le in L; lia|lia]. }
  assert (Sj : stored rows j (S n) <> None).
  { unfold stored in *. destruct (nth_error rows (S n)) as [[start cells]|] eqn:E; [|congruence].
    apply nth_error_In in E. rewrite Forall_forall in Hw. specialize (Hw _ E). cbn in Hw.
    destruct (Nat.leb_spec start i); [|congruence]. destruct (Nat.leb_spec start j); [|lia].
    apply nth_error_Some. lia. }
  rewrite stored_step. destruct (stored rows j (S n)); congruence.
Qed.

Lemma final_fill_ok rows nrows cols0all cols0 : forall cols base,
  target_ok nrows rows cols0all -> (0 < nrows)%nat -> length rows = nrows ->
  Forall (fun r : stored_row => (fst r <= length cols0all)%nat /\ length (snd r) = (length cols0all - fst r)%nat) rows ->
  skipn base cols0all = cols0 -> length cols = length cols0 ->
  (forall i d0 d, nth_error cols0 i = Some d0 -> nth_error cols i = Some d ->
     exists ls, col_inv rows nrows ls (base + i) d0 d) ->
  exists cols', final_fill nrows cols = Ok cols' /\ length cols' = length cols0 /\
    forall i d0 d, nth_error cols0 i = Some d0 -> nth_error cols' i = Some d -> col_inv rows nrows (base + i) (base + i) d0 d.
Proof.
  induction cols0 as [|d0 cols0 IH]; intros cols base HT Hn Hlen Hw Hb Hc HI.
  - destruct cols; [|discriminate]. exists []. split; [reflexivity|]. split; [reflexivity|]. intros [|i]; discriminate.
  - destruct cols as [|d cols]; [discriminate|]. cbn [final_fill].
    assert (E0 : nth_error cols0all base = Some d0).
    { rewrite <- (Nat.add_0_r base), <- nth_error_skipn, Hb. reflexivity. }
    destruct (HI 0%nat d0 d eq_refl eq_refl) as [ls Hd]. rewrite Nat.add_0_r in Hd.
    assert (Lr : forall f f0, d_fac d = Some f -> d_fac d0 = Some f0 -> d_last d = last_row rows base nrows).
    { intros f f0 A B. destruct Hd as [_ C]. rewrite A, B in C. apply C. }
    destruct (Nat.ltb_spec (d_last d) (nrows - 1)) as [Lt|Ge].
    + assert (Ef : fill_col (nrows - 1) d = Ok (upd_fill (nrows - 1) d)).
      { unfold fill_col, upd_fill. destruct (d_fac d) as [f|] eqn:F; [|reflexivity].
        rewrite fill_ok; [reflexivity|]. destruct Hd as [_ C]. rewrite F in C.
        destruct (d_fac d0) as [f0|] eqn:F0; [|contradiction]. destruct C as (_ & B & _).
        destruct (HT _ _ _ E0 F0). lia. }
      rewrite Ef. cbn [bind].
      destruct (IH cols (S base) HT Hn Hlen Hw) as (cols' & E & L & P).
      * replace (S base) with (1 + base)%nat by lia. rewrite <- skipn_skipn, Hb. reflexivity.
      * now injection Hc.
      * intros i e0 e A B. replace (S base + i)%nat with (base + S i)%nat by lia. apply HI; assumption.
      * rewrite E. cbn [bind]. eexists. split; [reflexivity|]. split; [cbn; congruence|].
        intros [|i] e0 e A B; cbn in A, B.
        { inversion A; inversion B; subst. rewrite Nat.add_0_r. eapply fill_inv; [assumption| |exact Hd].
          intros f Hf. destruct (HT _ _ _ E0 Hf). lia. }
        { replace (base + S i)%nat with (S base + i)%nat by lia. apply P; assumption. }
    + exists (d :: cols). split; [reflexivity|]. split; [assumption|].
      (* d has been stored in the last row (or there is just one row), so have all that follow *)
      intros i e0 e A B. destruct (HI i e0 e A B) as [ls' He].
      assert (Hi : (base + i < length cols0all)%nat).
      { apply nth_error_Some. rewrite <- nth_error_skipn, Hb, A. discriminate. }
      destruct (d_fac e0) as [f0|] eqn:F0.
      2:{ destruct He as [H1 H2]. split; [assumption|]. rewrite F0 in *. destruct (d_fac e); [contradiction|assumption]. }
      destruct (d_fac e) as [f|] eqn:F.
      2:{ destruct He as [H1 H2]. rewrite F0, F in H2. contradiction. }
      assert (Le : d_last e = last_row rows (base + i) nrows).
      { destruct He as [_ C]. rewrite F0, F in C. apply C. }
      apply col_inv_done with (ls := ls'); [|exact He]. right. rewrite Le.
      pose proof (last_row_le rows (base + i) nrows) as LL.
      destruct (d_fac d) as [fd|] eqn:Fd.
      * destruct (d_fac d0) as [fd0|] eqn:Fd0; [|destruct Hd as [_ C]; rewrite Fd0, Fd in C; contradiction].
        specialize (Lr fd fd0 eq_refl eq_refl). pose proof (last_row_le rows base nrows) as LL2.
        destruct (last_row_mono rows (length cols0all) nrows base (base + i)) as [Q|Q]; auto; lia.
      * destruct Hd as [_ C]. rewrite Fd in C. destruct (d_fac d0); [contradiction|]. lia.
Qed.
