(** Lemmas for C40: the memory after odc_decode_threaded. *)
From Verif Require Import Base Fp Stream Codec Meta Header Table TableProofs Strided P_Strided MemDecode MemProofs P_Memory Frame
  ThreadProofs P_Threads ColumnInfo CDecoder CutProofs.
Open Scope Z_scope.

(** ** Reordering *)

Lemma store8 m a m1 s x : store m a (load m1 s 8) x = if (a <=? x) && (x <? a + 8) then m1 (s + (x - a)) else m x.
Proof.
  destruct (Z.leb_spec a x), (Z.ltb_spec x (a + 8)); cbn [andb]; try (apply store_out; rewrite load_length; lia).
  rewrite store_in by (rewrite load_length; lia). rewrite load_nth by lia. f_equal. lia.
Qed.

(** double [c] of row [row] of the reordered array *)
Definition at_out (out rows row c : Z) : Z := out + 8 * (row + c * rows).

Lemma reorder_row_spec out src rows row cols m : 0 < rows ->
  (forall c c' j j', 0 <= c < Z.of_nat cols -> 0 <= c' < Z.of_nat cols -> 0 <= j < 8 -> 0 <= j' < 8 -> src + 8 * c + j <> at_out out rows row c' + j') ->
  (forall c j, 0 <= c < Z.of_nat cols -> 0 <= j < 8 -> reorder_row out src rows row cols m (at_out out rows row c + j) = m (src + 8 * c + j)) /\
  (forall x, (forall c j, 0 <= c < Z.of_nat cols -> 0 <= j < 8 -> x <> at_out out rows row c + j) -> reorder_row out src rows row cols m x = m x).
Proof.
  intros Hr. induction cols as [|k IH]; intros HD; cbn [reorder_row]; [split; [intros; lia|reflexivity]|].
  destruct IH as [A B]; [intros; apply HD; lia|].
  split.
  - intros c j Hc Hj. rewrite store8. fold (at_out out rows row (Z.of_nat k)).
    destruct (Z.eq_dec c (Z.of_nat k)) as [->|N].
    + rewrite (proj2 (Z.leb_le _ _)), (proj2 (Z.ltb_lt _ _)) by lia. cbn [andb].
      replace (src + 8 * Z.of_nat k + (at_out out rows row (Z.of_nat k) + j - at_out out rows row (Z.of_nat k))) with (src + 8 * Z.of_nat k + j) by lia.
      apply B. intros c' j' Hc' Hj'. apply HD; lia.
    + replace ((at_out out rows row (Z.of_nat k) <=? at_out out rows row c + j) && (at_out out rows row c + j <? at_out out rows row (Z.of_nat k) + 8)) with false.
      * apply A; lia.
      * symmetry. apply andb_false_iff. unfold at_out. destruct (Z.lt_total c (Z.of_nat k)) as [L|[L|L]]; [left; apply Z.leb_gt; nia|lia|right; apply Z.ltb_ge; nia].
  - intros x Hx. rewrite store8. fold (at_out out rows row (Z.of_nat k)).
    replace ((at_out out rows row (Z.of_nat k) <=? x) && (x <? at_out out rows row (Z.of_nat k) + 8)) with false.
    + apply B. intros c j Hc Hj. apply Hx; lia.
    + symmetry. apply andb_false_iff. destruct (Z.leb_spec (at_out out rows row (Z.of_nat k)) x); [right|auto]. apply Z.ltb_ge.
      destruct (Z.le_gt_cases (at_out out rows row (Z.of_nat k) + 8) x); [assumption|]. exfalso. apply (Hx (Z.of_nat k) (x - at_out out rows row (Z.of_nat k))); lia.
Qed.

Lemma reorder_spec out src rows cols n m : 0 < rows -> Z.of_nat n <= rows ->
  (forall x row c j, src <= x < src + 8 * (Z.of_nat n * Z.of_nat cols) -> 0 <= row < Z.of_nat n -> 0 <= c < Z.of_nat cols -> 0 <= j < 8 -> x <> at_out out rows row c + j) ->
  (forall row c j, 0 <= row < Z.of_nat n -> 0 <= c < Z.of_nat cols -> 0 <= j < 8 ->
     reorder out src rows cols n m (at_out out rows row c + j) = m (src + 8 * (row * Z.of_nat cols + c) + j)) /\
  (forall x, (forall row c j, 0 <= row < Z.of_nat n -> 0 <= c < Z.of_nat cols -> 0 <= j < 8 -> x <> at_out out rows row c + j) -> reorder out src rows cols n m x = m x).
Proof.
  intros Hr. induction n as [|k IH]; intros Hn HD; cbn [reorder]; [split; [intros; lia|reflexivity]|].
  destruct IH as [A B]; [lia|intros x row c j Hx Hrow Hc Hj; apply HD; [nia|lia|lia|lia]|].
  destruct (reorder_row_spec out (src + 8 * (Z.of_nat k * Z.of_nat cols)) rows (Z.of_nat k) cols (reorder out src rows cols k m) Hr) as [C D].
  { intros c c' j j' Hc Hc' Hj Hj'. apply HD; [nia|lia|lia|lia]. }
  split.
  - intros row c j Hrow Hc Hj. destruct (Z.eq_dec row (Z.of_nat k)) as [->|N].
    + rewrite C by lia. rewrite B.
      * f_equal. lia.
      * intros row' c' j' H1 H2 H3. apply HD; [nia|lia|lia|lia].
    + rewrite D; [apply A; lia|]. intros c' j' Hc' Hj'. unfold at_out. intros E. assert (row + c * rows = Z.of_nat k + c' * rows) by lia. assert (c = c') by nia. subst c'. lia.
  - intros x Hx. rewrite D; [apply B; intros; apply Hx; lia|]. intros c j Hc Hj. apply Hx; lia.
Qed.

(** ** Columns after fill_in_decoder *)

Definition data_of (c : dcol) : Z := match dc_data c with Some a => a | None => 0 end.

(** the address of byte [b] of the element of row [r] *)
Definition cell (nrows : Z) (c : dcol) (r b : Z) : Z :=
  if dc_transpose c then data_of c + 8 * ((b / 8) * nrows + r) + b mod 8 else data_of c + r * dc_stride c + b.

Definition cells (n nrows : Z) (c : dcol) (x : Z) : Prop := exists r b, 0 <= r < n /\ 0 <= b < dc_size c /\ x = cell nrows c r b.
Definition temp (n : Z) (tmp : nat -> Z) (i : nat) (c : dcol) (x : Z) : Prop := dc_transpose c = true /\ tmp i <= x < tmp i + n * dc_size c.

Record settled (c : dcol) : Prop := {
  se_data : dc_data c <> None;
  se_size : 0 < dc_size c <= dc_stride c;
  se_transpose : dc_transpose c = true -> dc_size c mod 8 = 0 /\ dc_stride c = dc_size c
}.

Definition facade_of (tmp : nat -> Z) (n : Z) (i : nat) (c : dcol) : strided :=
  {| s_base := if dc_transpose c then tmp i else data_of c; s_nelem := n; s_size := dc_size c; s_stride := dc_stride c |}.

Fixpoint mapi {A B} (f : nat -> A -> B) (i : nat) (l : list A) : list B := match l with [] => [] | a :: l' => f i a :: mapi f (S i) l' end.

Lemma mapi_nth {A B} (f : nat -> A -> B) : forall l i k, nth_error (mapi f i l) k = option_map (f (i + k)%nat) (nth_error l k).
Proof.
  induction l as [|a l IH]; intros i [|k]; cbn [mapi nth_error option_map]; try reflexivity; [now rewrite Nat.add_0_r|]. rewrite IH. now rewrite Nat.add_succ_comm.
Qed.

Lemma facades_ok tmp n : forall cols i, Forall settled cols -> facades tmp n i cols = Ok (mapi (facade_of tmp n) i cols).
Proof.
  induction cols as [|c cols IH]; intros i F; [reflexivity|]. inversion F as [|? ? F1 F2]; subst. cbn [facades mapi].
  assert (E : (if dc_transpose c then do _ <- assert (dc_size c mod 8 =? 0); do _ <- assert (dc_stride c =? dc_size c); Ok (tmp i)
      else match dc_data c with Some a => Ok a | None => UB end) = Ok (s_base (facade_of tmp n i c))).
  { unfold facade_of. cbn [s_base]. destruct F1 as [D Sz T]. destruct (dc_transpose c).
    - destruct (T eq_refl) as [T1 T2]. unfold assert. now rewrite (proj2 (Z.eqb_eq _ _) T1), (proj2 (Z.eqb_eq _ _) T2).
    - unfold data_of. destruct (dc_data c); [reflexivity|congruence]. }
  rewrite E. cbn [bind]. rewrite IH by exact F2. reflexivity.
Qed.

(** the regions of memory used for the columns do not overlap *)
Record separated (n nrows : Z) (tmp : nat -> Z) (cols : list dcol) : Prop := {
  sp_cells : forall i j c c' x, nth_error cols i = Some c -> nth_error cols j = Some c' -> i <> j -> cells n nrows c x -> cells n nrows c' x -> False;
  sp_temps : forall i j c c' x, nth_error cols i = Some c -> nth_error cols j = Some c' -> i <> j -> temp n tmp i c x -> temp n tmp j c' x -> False;
  sp_cross : forall i j c c' x, nth_error cols i = Some c -> nth_error cols j = Some c' -> cells n nrows c x -> temp n tmp j c' x -> False
}.

Lemma in_facade tmp n nrows i c x : settled c -> 0 <= n -> in_array (facade_of tmp n i c) x -> if dc_transpose c then temp n tmp i c x else cells n nrows c x.
Proof.
  intros [_ Sz T] Hn (r & k & H1 & H2 & ->). unfold facade_of, byte_of in *. cbn [s_base s_nelem s_size s_stride] in *. destruct (dc_transpose c) eqn:E.
  - split; [exact E|]. destruct (T eq_refl) as [_ ->]. nia.
  - exists r, k. split; [exact H1|]. split; [exact H2|]. unfold cell. rewrite E. reflexivity.
Qed.

Lemma facades_good tmp n cols : Forall settled cols -> 0 <= n < 2 ^ 31 -> forall i, Forall good (mapi (facade_of tmp n) i cols).
Proof.
  intros F Hn. induction F as [|c cols [_ Sz _] F IH]; intros i; cbn [mapi]; constructor; [|apply IH]. split; [exact Sz|exact Hn].
Qed.

Lemma facades_disjoint tmp n nrows cols : Forall settled cols -> 0 <= n -> separated n nrows tmp cols -> pairwise_disjoint (mapi (facade_of tmp n) 0 cols).
Proof.
  intros F Hn [A B C] i j s s' Hi Hj N x X X'. rewrite mapi_nth in Hi, Hj. cbn [Nat.add] in *.
  destruct (nth_error cols i) as [c|] eqn:Ei; [|discriminate]. destruct (nth_error cols j) as [c'|] eqn:Ej; [|discriminate]. cbn in Hi, Hj. injection Hi as <-. injection Hj as <-.
  rewrite Forall_forall in F. pose proof (in_facade tmp n nrows i c x (F c (nth_error_In _ _ Ei)) Hn X) as P. pose proof (in_facade tmp n nrows j c' x (F c' (nth_error_In _ _ Ej)) Hn X') as P'.
  destruct (dc_transpose c), (dc_transpose c').
  - exact (B i j c c' x Ei Ej N P P').
  - exact (C j i c' c x Ej Ei P' P).
  - exact (C i j c c' x Ei Ej P P').
  - exact (A i j c c' x Ei Ej N P P').
Qed.

(** ** Reordering all columns *)

Section R.
Variables (n : nat) (nrows : Z) (tmp : nat -> Z).
Hypothesis Hrows : 0 < nrows.
Hypothesis Hn : Z.of_nat n <= nrows.

(** one column *)
Lemma reorder_column i c m : settled c -> dc_transpose c = true -> (forall x, cells (Z.of_nat n) nrows c x -> temp (Z.of_nat n) tmp i c x -> False) ->
  let m' := reorder (data_of c) (tmp i) nrows (Z.to_nat (dc_size c / 8)) n m in
  (forall r b, 0 <= r < Z.of_nat n -> 0 <= b < dc_size c -> m' (cell nrows c r b) = m (tmp i + r * dc_size c + b)) /\
  (forall x, ~ cells (Z.of_nat n) nrows c x -> m' x = m x).
Proof.
  intros [_ Sz T] Tr HD m'. destruct (T Tr) as [T1 T2].
  assert (Sz8 : dc_size c = 8 * (dc_size c / 8)) by (pose proof (Z.div_mod (dc_size c) 8); lia).
  set (q := dc_size c / 8) in *. assert (Hq : Z.of_nat (Z.to_nat q) = q) by (unfold q; pose proof (Z.div_pos (dc_size c) 8); lia).
  assert (CE : forall r k j, 0 <= r < Z.of_nat n -> 0 <= k < q -> 0 <= j < 8 -> at_out (data_of c) nrows r k + j = cell nrows c r (8 * k + j) /\ 0 <= 8 * k + j < dc_size c).
  { intros r k j Hr Hk Hj. split; [|lia]. unfold cell, at_out. rewrite Tr. replace ((8 * k + j) / 8) with k by (apply (Z.div_unique _ _ _ j); lia).
    replace ((8 * k + j) mod 8) with j by (apply (Z.mod_unique _ _ k); lia). lia. }
  destruct (reorder_spec (data_of c) (tmp i) nrows (Z.to_nat q) n m Hrows Hn) as [A B].
  { rewrite Hq. intros x r k j Hx Hr Hk Hj E. destruct (CE r k j Hr Hk Hj) as [E1 E2]. apply (HD x).
    - exists r, (8 * k + j). rewrite E, E1. auto.
    - split; [exact Tr|]. rewrite Sz8. lia. }
  rewrite Hq in A, B. split.
  - intros r b Hr Hb. assert (Hk : 0 <= b / 8 < q) by (split; [apply Z.div_pos; lia|apply Z.div_lt_upper_bound; lia]). pose proof (Z.mod_pos_bound b 8 ltac:(lia)) as Hj.
    pose proof (Z.div_mod b 8 ltac:(lia)) as Eb. destruct (CE r (b / 8) (b mod 8) Hr Hk Hj) as [E1 _]. rewrite <- Eb in E1. unfold m'. rewrite <- E1, A by assumption. f_equal.
    rewrite Sz8. rewrite Eb at 3. ring.
  - intros x Hx. apply B. intros r k j Hr Hk Hj E. destruct (CE r k j Hr Hk Hj) as [E1 E2]. apply Hx. exists r, (8 * k + j). rewrite E, E1. auto.
Qed.

Definition step_col (i : nat) (c : dcol) (m : mem) : mem :=
  if dc_transpose c then match dc_data c with Some a => reorder a (tmp i) nrows (Z.to_nat (dc_size c / 8)) n m | None => m end else m.

Lemma step_col_spec i c m : settled c -> (forall x, cells (Z.of_nat n) nrows c x -> temp (Z.of_nat n) tmp i c x -> False) ->
  (forall r b, 0 <= r < Z.of_nat n -> 0 <= b < dc_size c -> step_col i c m (cell nrows c r b) = m (byte_of (facade_of tmp (Z.of_nat n) i c) r b)) /\
  (forall x, ~ (dc_transpose c = true /\ cells (Z.of_nat n) nrows c x) -> step_col i c m x = m x).
Proof.
  intros Hs HD. unfold step_col. destruct (dc_transpose c) eqn:Tr.
  - pose proof (se_data _ Hs) as Da. destruct (dc_data c) as [a|] eqn:Ea; [|congruence]. assert (Ed : data_of c = a) by (unfold data_of; now rewrite Ea).
    rewrite <- Ed. destruct (reorder_column i c m Hs Tr HD) as [A B]. destruct (se_transpose _ Hs Tr) as [_ T2]. split.
    + intros r b Hr Hb. rewrite A by assumption. unfold byte_of, facade_of. cbn [s_base s_stride]. rewrite Tr, T2. reflexivity.
    + intros x Hx. apply B. intros Hc. apply Hx. auto.
  - split; [|auto]. intros r b _ _. unfold cell, byte_of, facade_of. cbn [s_base s_stride]. now rewrite Tr.
Qed.

Lemma reorder_all_spec : forall cols i0 m, Forall settled cols ->
  (forall i j c c' x, nth_error cols i = Some c -> nth_error cols j = Some c' -> i <> j -> cells (Z.of_nat n) nrows c x -> cells (Z.of_nat n) nrows c' x -> False) ->
  (forall i j c c' x, nth_error cols i = Some c -> nth_error cols j = Some c' -> cells (Z.of_nat n) nrows c x -> temp (Z.of_nat n) tmp (i0 + j) c' x -> False) ->
  let m' := reorder_all tmp nrows n i0 cols m in
  (forall i c r b, nth_error cols i = Some c -> 0 <= r < Z.of_nat n -> 0 <= b < dc_size c ->
     m' (cell nrows c r b) = m (byte_of (facade_of tmp (Z.of_nat n) (i0 + i) c) r b)) /\
  (forall x, (forall i c, nth_error cols i = Some c -> ~ cells (Z.of_nat n) nrows c x) -> m' x = m x).
Proof.
  induction cols as [|c cols IH]; intros i0 m F D1 D2 m'; [split; [intros [|i]; discriminate|reflexivity]|].
  inversion F as [|? ? F1 F2]; subst. unfold m'. cbn [reorder_all]. fold (step_col i0 c m).
  destruct (step_col_spec i0 c m F1) as [A B]. { intros x X T. apply (D2 0%nat 0%nat c c x eq_refl eq_refl X). now rewrite Nat.add_0_r. }
  destruct (IH (S i0) (step_col i0 c m) F2) as [C E].
  { intros i j a a' x Hi Hj N. apply (D1 (S i) (S j) a a' x Hi Hj). lia. }
  { intros i j a a' x Hi Hj X T. apply (D2 (S i) (S j) a a' x Hi Hj X). now rewrite Nat.add_succ_r. }
  split.
  - intros [|i] a r b Hi Hr Hb; cbn [nth_error] in Hi.
    + injection Hi as <-. rewrite E; [rewrite Nat.add_0_r; apply A; assumption|]. intros j a' Hj X. apply (D1 0%nat (S j) c a' (cell nrows c r b) eq_refl Hj ltac:(lia)); [exists r, b; auto|exact X].
    + rewrite C with (1 := Hi) by assumption. rewrite Nat.add_succ_r. cbn [Nat.add]. apply B. intros [Tr X].
      (* the source of column S i: its own cells or its temporary *)
      assert (IA : in_array (facade_of tmp (Z.of_nat n) (S (i0 + i)) a) (byte_of (facade_of tmp (Z.of_nat n) (S (i0 + i)) a) r b)) by (exists r, b; auto).
      rewrite Forall_forall in F2. apply (in_facade tmp _ nrows) in IA; [|apply F2; eapply nth_error_In; exact Hi|lia].
      destruct (dc_transpose a).
      * apply (D2 0%nat (S i) c a _ eq_refl Hi X). rewrite Nat.add_succ_r. exact IA.
      * apply (D1 0%nat (S i) c a _ eq_refl Hi ltac:(lia) X IA).
  - intros x Hx. rewrite E; [apply B; intros [_ X]; exact (Hx 0%nat c eq_refl X)|]. intros i a Hi. exact (Hx (S i) a Hi).
Qed.
End R.

(** ** The whole call, once the columns have their places *)

Lemma frame_total ts : frame_rows ts = total_rows ts.
Proof. unfold frame_rows. induction ts as [|t ts IH]; cbn [fold_right total_rows]; lia. Qed.

Definition rows_before (ts : list table) (i : nat) : Z := total_rows (firstn i ts).

Lemma decode_settled nthreads heap tmp file ts d m d1 : prepare_decode heap tmp ts d = Ok (d1, mapi (facade_of tmp (cd_nrows d1)) 0 (cd_cols d1)) ->
  Forall settled (cd_cols d1) -> separated (frame_rows ts) (cd_nrows d1) tmp (cd_cols d1) ->
  ts <> [] -> Forall (fun t => 0 <= t_rows t) ts -> 0 < frame_rows ts < 2 ^ 31 -> frame_rows ts <= cd_nrows d1 ->
  (forall t facs, In t ts -> Forall2 (fun c f => f_size f = dc_size c /\ length (f_elems f) = Z.to_nat (t_rows t) /\ Forall (fun e => length e = Z.to_nat (dc_size c)) (f_elems f)) (cd_cols d1) facs ->
     is_ok (decode_target file t (cd_names d) facs) = true) -> 1 <= nthreads ->
  (exists m', c_decode nthreads heap tmp file ts d m (Ok (d1, frame_rows ts)) m') /\
  forall r m', c_decode nthreads heap tmp file ts d m r m' -> r = Ok (d1, frame_rows ts) /\
    (forall k t, nth_error ts k = Some t -> exists facs outs,
       Forall2 (fun c f => f_size f = dc_size c /\ length (f_elems f) = Z.to_nat (t_rows t) /\ Forall (fun e => length e = Z.to_nat (dc_size c)) (f_elems f)) (cd_cols d1) facs /\
       decode_target file t (cd_names d) facs = Ok outs /\ length outs = length (cd_cols d1) /\
       (forall i c, nth_error (cd_cols d1) i = Some c -> exists f, nth_error outs i = Some (Some f) /\ f_size f = dc_size c /\ length (f_elems f) = Z.to_nat (t_rows t) /\
          forall r b, 0 <= r < t_rows t -> 0 <= b < dc_size c ->
            m' (cell (cd_nrows d1) c (rows_before ts k + r) b) = nth (Z.to_nat b) (nth (Z.to_nat r) (f_elems f) []) 0)) /\
    (forall x, (forall i c, nth_error (cd_cols d1) i = Some c -> ~ cells (frame_rows ts) (cd_nrows d1) c x /\ ~ temp (frame_rows ts) tmp i c x) -> m' x = m x).
Proof.
  intros P Se Sp Nts R Hrows Hle De Hth. set (N := frame_rows ts) in *. set (cols := cd_cols d1) in *. set (arrs := mapi (facade_of tmp (cd_nrows d1)) 0 cols) in *.
  set (ca := mapi (facade_of tmp N) 0 cols).
  assert (CA : map (cut (total_rows ts)) arrs = ca).
  { unfold arrs, ca. rewrite <- frame_total. fold N. generalize 0%nat. clear. induction cols as [|c cols IH]; intros i; cbn [mapi map]; [reflexivity|]. f_equal. apply IH. }
  assert (AN : Forall (fun s => total_rows ts <= s_nelem s) arrs).
  { unfold arrs. rewrite <- frame_total. fold N. generalize 0%nat. clear -Hle. induction cols as [|c cols IH]; intros i; cbn [mapi]; constructor; auto. }
  assert (CN : Forall (fun s => s_nelem s = total_rows ts) ca).
  { unfold ca. rewrite <- frame_total. fold N. generalize 0%nat. clear. induction cols as [|c cols IH]; intros i; cbn [mapi]; constructor; auto. }
  assert (FI : forall k t, nth_error ts k = Some t ->
    Forall2 (fun c f => f_size f = dc_size c /\ length (f_elems f) = Z.to_nat (t_rows t) /\ Forall (fun e => length e = Z.to_nat (dc_size c)) (f_elems f)) cols (map (content m) (target_of ca ts k))).
  { intros k t E. unfold ca, target_of. rewrite E. generalize 0%nat. clear. induction cols as [|c cols IH]; intros i; cbn [mapi map]; constructor; [|apply IH].
    split; [reflexivity|]. split; [cbn [content f_elems]; now rewrite view_length|]. cbn [content f_elems]. unfold view. apply Forall_forall. intros e He. apply in_map_iff in He as (q & <- & _). now rewrite load_length. }
  destruct (frame_runs file (cd_names d) ts ca m) as (ms & R1 & R2 & R3 & R4 & R5).
  { apply facades_good; [exact Se|lia]. }
  { eapply facades_disjoint; [exact Se|lia|exact Sp]. }
  { exact Nts. } { exact R. } { exact CN. }
  { intros k t E. apply De; [eapply nth_error_In; exact E|apply FI; exact E]. }
  assert (RC : forall n r m', runs (frame_decode n file (cd_names d) ts ca) m r m' <-> runs (frame_decode n file (cd_names d) ts arrs) m r m').
  { intros n r m'. rewrite <- CA. apply runs_cut; assumption. }
  assert (NN : Z.of_nat (Z.to_nat N) = N) by lia.
  split.
  { destruct (R4 (Z.to_nat nthreads) ltac:(lia)) as (m1 & X). eexists. apply (cd_done _ _ _ _ _ _ _ d1 arrs m1 P Hth). apply RC. exact X. }
  intros r m' H. inversion H as [r0 P0 K|r0 P0 K|d2 arrs2 r0 m2 P0 K X K2|d2 arrs2 m2 P0 K X]; subst.
  - exfalso. rewrite P in K. discriminate.
  - lia.
  - exfalso. rewrite P in P0. injection P0 as <- <-. apply RC in X. destruct (R5 (Z.to_nat nthreads) _ _ ltac:(lia) X) as [-> _]. discriminate.
  - rewrite P in P0. injection P0 as <- <-. apply RC in X. destruct (R5 (Z.to_nat nthreads) _ _ ltac:(lia) X) as [_ EM]. split; [reflexivity|].
    destruct Sp as [D1 D2 D3].
    destruct (reorder_all_spec (Z.to_nat N) (cd_nrows d1) tmp ltac:(lia) ltac:(lia) cols 0 m2 Se) as [A B].
    { rewrite NN. exact D1. } { rewrite NN. intros i j c c' x. exact (D3 i j c c' x). }
    rewrite NN in A, B. fold N. split.
    + intros k t E. exists (map (content m) (target_of ca ts k)), (map (fun s => Some (content ms s)) (target_of ca ts k)).
      split; [apply FI; exact E|]. split; [apply R2; exact E|].
      assert (Lc : length ca = length cols) by (unfold ca; generalize 0%nat; clear; induction cols; intros; cbn [mapi length]; auto).
      split; [unfold target_of; rewrite !map_length; exact Lc|].
      intros i c Ei. exists (content ms (part (facade_of tmp N i c) (rows_before ts k) (t_rows t))). split.
      { unfold target_of. rewrite !nth_error_map. unfold ca. rewrite mapi_nth, Ei. cbn [option_map Nat.add]. rewrite E. reflexivity. }
      split; [reflexivity|]. split; [cbn [content f_elems]; now rewrite view_length|].
      pose proof (total_split ts k t E) as TS. destruct (Forall_part _ _ k R) as [P1 _]. destruct (Forall_part _ _ (S k) R) as [_ P2]. apply total_nonneg in P1, P2.
      pose proof (proj1 (Forall_forall _ _) R t (nth_error_In _ _ E)) as P3. cbn beta in P3. pose proof (frame_total ts) as FT. fold N in FT. unfold rows_before.
      intros r b Hr Hb. rewrite (A i c _ b Ei) by (try assumption; lia). rewrite EM. cbn [content f_elems Nat.add].
      rewrite view_nth by (cbn [part s_nelem]; lia). cbn [part s_size facade_of]. rewrite load_nth by lia. f_equal. unfold byte_of, part, facade_of. cbn [s_base s_stride]. rewrite !Z2Nat.id by lia. ring.
    + intros x Hx. rewrite B by (intros i c Ei; apply (Hx i c Ei)). rewrite EM. apply R3. intros s Hs X2. apply In_nth_error in Hs as (i & Hs). unfold ca in Hs. rewrite mapi_nth in Hs. cbn [Nat.add] in Hs.
      destruct (nth_error cols i) as [c|] eqn:Ei; [|discriminate]. cbn in Hs. injection Hs as <-. destruct (Hx i c Ei) as [Y1 Y2].
      apply (in_facade tmp N (cd_nrows d1)) in X2; [|rewrite Forall_forall in Se; apply Se; eapply nth_error_In; exact Ei|lia]. destruct (dc_transpose c); [exact (Y2 X2)|exact (Y1 X2)].
Qed.
