(** C40: decoding through the C API. *)
From Verif Require Import Base Fp Stream Codec Meta Header Table TableProofs Strided P_Strided MemDecode MemProofs P_Memory Frame
  ThreadProofs P_Threads StreamProofs StreamLocal ReaderProofs ColumnInfo CDecoder CutProofs CApiProofs.
Open Scope Z_scope.

(** ** Layouts *)

(** The element size of a column: as set by the caller; 8 for an array of the caller of
    unspecified element size; otherwise the size of the column in the frame. *)
Inductive sized (infos : list cinfo) (nm : list Z) (c : dcol) : Z -> Prop :=
| sz_set : dc_size c <> 0 -> sized infos nm c (dc_size c)
| sz_own a : dc_size c = 0 -> dc_data c = Some a -> sized infos nm c 8
| sz_frame i : dc_size c = 0 -> dc_data c = None -> In i infos -> i_name i = nm -> 0 < i_size i -> i_size i mod 8 = 0 -> sized infos nm c (i_size i).

(** columns without an array of their own share one *)
Definition shares (c : dcol) : bool := match dc_data c with None => true | Some _ => false end.
Fixpoint sum_if (p : dcol -> bool) (cols : list dcol) (ws : list Z) : Z :=
  match cols, ws with c :: cs, w :: ws' => (if p c then w else 0) + sum_if p cs ws' | _, _ => 0 end.
(** bytes per row of the shared array needed by its columns, and those the API counts *)
Definition needed := sum_if shares.
Definition counted := sum_if (fun c => dc_size c =? 0).
(** bytes per row of the columns before column [i] *)
Definition offset (cols : list dcol) (ws : list Z) (i : nat) : Z := needed (firstn i cols) (firstn i ws).

(** the shared array: where it is, and its size *)
Definition array_at (heap : Z) (d : cdecoder) : Z := match cd_ext d with Some a => a | None => heap end.
Definition array_width (d : cdecoder) (ws : list Z) : Z := match cd_ext d with Some _ => cd_width d | None => counted (cd_cols d) ws end.
Definition array_height (d : cdecoder) : Z := match cd_ext d with Some _ => cd_height d | None => cd_nrows d end.

Definition stride_of (c : dcol) (w : Z) : Z := if dc_stride c =? 0 then w else dc_stride c.

(** The address of byte [b] of the value of row [r] and column [i].  In a column-major array
    a column of values wider than 8 bytes is stored as several columns of 8 bytes. *)
Definition position (heap : Z) (d : cdecoder) (ws : list Z) (i : nat) (c : dcol) (w : Z) (r b : Z) : Z :=
  match dc_data c with
  | Some a => a + r * stride_of c w + b
  | None =>
      let A := array_at heap d in let H := array_height d in
      if cd_major d then A + 8 * ((offset (cd_cols d) ws i / 8 + b / 8) * H + r) + b mod 8
      else A + r * array_width d ws + offset (cd_cols d) ws i + b
  end.

(** the array of the caller for a column *)
Definition own_array (n : Z) (c : dcol) (w x : Z) : Prop := exists a r b, dc_data c = Some a /\ 0 <= r < n /\ 0 <= b < w /\ x = a + r * stride_of c w + b.
(** the array shared by columns *)
Definition shared_array (heap : Z) (d : cdecoder) (ws : list Z) (x : Z) : Prop := array_at heap d <= x < array_at heap d + array_width d ws * array_height d.
(** a temporary array *)
Definition temporary (n : Z) (tmp : nat -> Z) (d : cdecoder) (i : nat) (c : dcol) (w x : Z) : Prop :=
  dc_data c = None /\ cd_major d = true /\ 8 < w /\ tmp i <= x < tmp i + n * w.

Definition at_col (d : cdecoder) (ws : list Z) (i : nat) (c : dcol) (w : Z) : Prop := nth_error (cd_cols d) i = Some c /\ nth_error ws i = Some w.

(** A request the API can serve. *)
Record servable (heap : Z) (tmp : nat -> Z) (ts : list table) (d : cdecoder) (infos : list cinfo) (ws : list Z) : Prop := {
  sv_infos : column_infos ts = Ok infos;
  sv_unique : NoDup (map i_name infos);
  sv_lengths : length (cd_names d) = length (cd_cols d) /\ length ws = length (cd_cols d);
  sv_ncols : (length (cd_names d) <= length infos)%nat;
  sv_sizes : forall i nm c w, nth_error (cd_names d) i = Some nm -> at_col d ws i c w -> sized infos nm c w /\ 0 < w;
  sv_fresh : Forall (fun c => dc_transpose c = false) (cd_cols d);
  sv_tables : Forall (fun t => 0 <= t_rows t) ts;
  sv_rows : 0 < frame_rows ts < 2 ^ 31 /\ frame_rows ts <= cd_nrows d;
  sv_counted : counted (cd_cols d) ws < 2 ^ 64;
  sv_kind : 0 < counted (cd_cols d) ws \/ Forall (fun c => shares c = false /\ dc_stride c <> 0) (cd_cols d);
  sv_width : needed (cd_cols d) ws <= array_width d ws /\ counted (cd_cols d) ws <= array_width d ws;
  sv_height : cd_nrows d <= array_height d;
  sv_own : forall i c w, at_col d ws i c w -> shares c = false -> w <= stride_of c w;
  sv_major : forall i c w, at_col d ws i c w -> shares c = true -> cd_major d = true -> w mod 8 = 0 /\ (8 < w -> array_height d = cd_nrows d);
  sv_own_own : forall i j c c' w w' x, at_col d ws i c w -> at_col d ws j c' w' -> i <> j -> own_array (frame_rows ts) c w x -> own_array (frame_rows ts) c' w' x -> False;
  sv_own_shared : forall i c w x, at_col d ws i c w -> own_array (frame_rows ts) c w x -> shared_array heap d ws x -> False;
  sv_own_tmp : forall i j c c' w w' x, at_col d ws i c w -> at_col d ws j c' w' -> own_array (frame_rows ts) c w x -> temporary (frame_rows ts) tmp d j c' w' x -> False;
  sv_tmp_tmp : forall i j c c' w w' x, at_col d ws i c w -> at_col d ws j c' w' -> i <> j -> temporary (frame_rows ts) tmp d i c w x -> temporary (frame_rows ts) tmp d j c' w' x -> False;
  sv_tmp_shared : forall i c w x, at_col d ws i c w -> temporary (frame_rows ts) tmp d i c w x -> shared_array heap d ws x -> False
}.

(** ** fill_in_decoder *)

Definition with_size (c : dcol) (w : Z) : dcol := {| dc_data := dc_data c; dc_size := w; dc_stride := dc_stride c; dc_transpose := dc_transpose c |}.
Fixpoint with_sizes (cols : list dcol) (ws : list Z) : list dcol := match cols, ws with c :: cs, w :: ws' => with_size c w :: with_sizes cs ws' | _, _ => [] end.

Lemma sum_if_nonneg p : forall cols ws, Forall (fun w => 0 < w) ws -> 0 <= sum_if p cols ws.
Proof. induction cols as [|c cols IH]; intros [|w ws] F; cbn [sum_if]; try lia. inversion F; subst. specialize (IH ws H2). destruct (p c); lia. Qed.

Lemma find_name infos i nm : NoDup (map i_name infos) -> In i infos -> i_name i = nm -> find (fun i => bytes_eqb (i_name i) nm) infos = Some i.
Proof.
  intros ND Hi E. induction infos as [|a l IH]; [destruct Hi|]. cbn [find]. inversion ND as [|? ? N1 N2]; subst. destruct Hi as [->|Hi].
  - now rewrite (proj2 (bytes_eqb_eq _ _) eq_refl).
  - destruct (bytes_eqb (i_name a) (i_name i)) eqn:Q; [|auto]. apply bytes_eqb_eq in Q. exfalso. apply N1. rewrite Q. now apply in_map.
Qed.

Lemma fill_sizes_ok infos : NoDup (map i_name infos) -> forall cols names ws width,
  length names = length cols -> length ws = length cols -> Forall (fun w => 0 < w) ws ->
  (forall i nm c w, nth_error names i = Some nm -> nth_error cols i = Some c -> nth_error ws i = Some w -> sized infos nm c w) ->
  0 <= width -> width + counted cols ws < 2 ^ 64 ->
  fill_sizes infos names cols width = Ok (with_sizes cols ws, width + counted cols ws).
Proof.
  intros ND. induction cols as [|c cols IH]; intros [|nm names] [|w ws] width L1 L2 P H H0 Hw; try discriminate; cbn [fill_sizes with_sizes].
  - unfold counted. cbn [sum_if]. now rewrite Z.add_0_r.
  - unfold counted in Hw. cbn [sum_if] in Hw. fold (counted cols ws) in Hw. inversion P as [|? ? P1 P2]; subst.
    pose proof (sum_if_nonneg (fun c => dc_size c =? 0) cols ws P2) as NN. fold (counted cols ws) in NN.
    pose proof (H 0%nat nm c w eq_refl eq_refl eq_refl) as Sz.
    assert (IH' : forall width, 0 <= width -> width + counted cols ws < 2 ^ 64 -> fill_sizes infos names cols width = Ok (with_sizes cols ws, width + counted cols ws)).
    { intros wd W1 W2. apply IH; [cbn in L1; lia|cbn in L2; lia|exact P2| |exact W1|exact W2]. intros i nm' c' w' A B C. exact (H (S i) nm' c' w' A B C). }
    unfold counted. cbn [sum_if]. fold (counted cols ws).
    destruct (Z.eqb_spec (dc_size c) 0) as [E0|N0].
    + assert (Es : (match dc_data c with Some _ => Ok 8 | None => match find (fun i => bytes_eqb (i_name i) nm) infos with None => Throw AssertFailed
          | Some i => do _ <- assert (0 <? i_size i); do _ <- assert (i_size i mod 8 =? 0); Ok (i_size i) end end) = Ok w).
      { inversion Sz as [Q|a Q1 Q2|i Q1 Q2 Q3 Q4 Q5 Q6]; subst; [congruence|now rewrite Q2|]. rewrite Q2, (find_name infos i (i_name i) ND Q3 eq_refl).
        unfold assert. now rewrite (proj2 (Z.ltb_lt _ _) Q5), (proj2 (Z.eqb_eq _ _) Q6). }
      rewrite Es. cbn [bind]. unfold size_t. rewrite Z.mod_small by lia. rewrite IH' by lia. cbn [bind]. unfold with_size. f_equal. f_equal. lia.
    + assert (w = dc_size c) by (inversion Sz; subst; congruence). subst w. rewrite IH' by lia. cbn [bind]. rewrite Z.add_0_l. destruct c; reflexivity.
Qed.

(** the columns once placed *)
Definition placed (heap : Z) (d : cdecoder) (ws : list Z) (i : nat) (c : dcol) (w : Z) : dcol :=
  match dc_data c with
  | Some a => {| dc_data := Some a; dc_size := w; dc_stride := stride_of c w; dc_transpose := dc_transpose c |}
  | None =>
      {| dc_data := Some (array_at heap d + (if cd_major d then array_height d else 1) * offset (cd_cols d) ws i); dc_size := w;
         dc_stride := if cd_major d then w else array_width d ws; dc_transpose := if cd_major d && (8 <? w) then true else dc_transpose c |}
  end.

Lemma needed_snoc : forall cols ws i c w, nth_error cols i = Some c -> nth_error ws i = Some w -> needed (firstn (S i) cols) (firstn (S i) ws) = needed (firstn i cols) (firstn i ws) + (if shares c then w else 0).
Proof.
  unfold needed. induction cols as [|a cols IH]; intros [|v ws] [|i] c w E1 E2; try discriminate.
  - cbn [nth_error] in *. injection E1 as ->. injection E2 as ->. cbn [firstn sum_if]. lia.
  - specialize (IH ws i c w E1 E2). cbn [firstn sum_if] in *. lia.
Qed.

Lemma place_nth major base W H : forall cols ws off k, length ws = length cols ->
  nth_error (place major base W H off (with_sizes cols ws)) k =
    match nth_error cols k, nth_error ws k with
    | Some c, Some w => Some (match dc_data c with
        | Some a => {| dc_data := Some a; dc_size := w; dc_stride := stride_of c w; dc_transpose := dc_transpose c |}
        | None => {| dc_data := Some (base + (off + (if major then H else 1) * needed (firstn k cols) (firstn k ws))); dc_size := w;
                     dc_stride := if major then w else W; dc_transpose := if major && (8 <? w) then true else dc_transpose c |}
        end)
    | _, _ => None
    end.
Proof.
  induction cols as [|c cols IH]; intros [|w ws] off k L; try discriminate; [destruct k; reflexivity|]. cbn [with_sizes place]. cbn in L.
  destruct (dc_data c) as [a|] eqn:Ed; cbn [with_size dc_data]; rewrite Ed; destruct k as [|k]; cbn [nth_error].
  - rewrite Ed. unfold stride_of. cbn [dc_stride with_size dc_size]. destruct (dc_stride c =? 0) eqn:Es; cbn [with_size dc_transpose]; [reflexivity|unfold with_size; now rewrite Ed].
  - rewrite IH by lia. unfold needed. cbn [firstn sum_if]. unfold shares at 2. rewrite Ed. cbn [Z.add]. reflexivity.
  - rewrite Ed. unfold needed. cbn [firstn sum_if]. cbn [dc_size with_size dc_transpose]. rewrite Z.mul_0_r, Z.add_0_r. reflexivity.
  - rewrite IH by lia. unfold needed. cbn [firstn sum_if]. unfold shares at 2. rewrite Ed. cbn [dc_size with_size].
    destruct (nth_error cols k) as [c'|]; [|reflexivity]. destruct (nth_error ws k); [|reflexivity]. f_equal. destruct (dc_data c'); [reflexivity|]. f_equal. f_equal. destruct major; ring.
Qed.

Section S.
Variables (heap : Z) (tmp : nat -> Z) (ts : list table) (d : cdecoder) (infos : list cinfo) (ws : list Z).
Hypothesis V : servable heap tmp ts d infos ws.

Lemma ws_pos : Forall (fun w => 0 < w) ws.
Proof.
  destruct V as [_ _ [L1 L2] _ Sz _ _ _ _ _ _ _ _ _ _ _ _ _ _]. apply Forall_forall. intros w Hw. apply In_nth_error in Hw as (i & Hi).
  assert (i < length ws)%nat by (eapply nth_error_lt; exact Hi).
  destruct (nth_error (cd_cols d) i) as [c|] eqn:Ec; [|apply nth_error_None in Ec; lia]. destruct (nth_error (cd_names d) i) as [nm|] eqn:En; [|apply nth_error_None in En; lia].
  exact (proj2 (Sz i nm c w En (conj Ec Hi))).
Qed.

Lemma filled_in : exists d1, fill_in heap ts d = Ok d1 /\ cd_nrows d1 = cd_nrows d /\ cd_names d1 = cd_names d /\ cd_major d1 = cd_major d /\
  (forall k, nth_error (cd_cols d1) k = match nth_error (cd_cols d) k, nth_error ws k with Some c, Some w => Some (placed heap d ws k c w) | _, _ => None end) /\
  (0 < counted (cd_cols d) ws -> cd_width d1 = array_width d ws /\ cd_height d1 = array_height d /\
     (if cd_owned d1 then cd_owned d1 else cd_ext d1) = Some (array_at heap d)).
Proof.
  pose proof ws_pos as WP. destruct V as [I ND [L1 L2] NC Sz Fr _ [R1 R2] Co Ki [Wi1 Wi2] He _ _ _ _ _ _ _].
  unfold fill_in. rewrite I. cbn [bind]. replace (cd_nrows d =? 0) with false by (symmetry; apply Z.eqb_neq; lia).
  rewrite (fill_sizes_ok infos ND (cd_cols d) (cd_names d) ws 0 L1 L2 WP) by (try lia; intros i nm c w A B C; exact (proj1 (Sz i nm c w A (conj B C)))).
  cbn [bind]. rewrite Z.add_0_l. replace (cd_nrows d =? 0) with false by (symmetry; apply Z.eqb_neq; lia). rewrite orb_false_r.
  pose proof (sum_if_nonneg (fun c => dc_size c =? 0) (cd_cols d) ws WP) as NN. fold (counted (cd_cols d) ws) in NN.
  destruct (Z.eqb_spec (counted (cd_cols d) ws) 0) as [C0|C1].
  - eexists. split; [reflexivity|]. cbn [cd_nrows cd_names cd_major cd_cols]. split; [reflexivity|]. split; [reflexivity|]. split; [reflexivity|]. split; [|intros; lia].
    destruct Ki as [Ki|Ki]; [lia|]. unfold placed. set (base := array_at heap d). set (off := offset (cd_cols d) ws). set (W := array_width d ws). set (H := array_height d). clearbody base off W H. clear -L2 Ki.
    revert ws L2 off. induction (cd_cols d) as [|c cols IH]; intros [|w ws] L off; try discriminate; [intros [|k]; reflexivity|]. inversion Ki as [|? ? [K1 K2] K3]; subst.
    intros [|k]; cbn [with_sizes nth_error]; [|exact (IH K3 ws ltac:(cbn in L; lia) (fun k => off (S k)) k)]. f_equal. unfold with_size. unfold shares in K1. destruct (dc_data c) as [a|]; [|discriminate].
    f_equal. unfold stride_of. now rewrite (proj2 (Z.eqb_neq _ _) K2).
  - unfold array_at, array_width, array_height, placed, offset in *. destruct (cd_ext d) as [a|] eqn:Ee.
    + unfold assert. rewrite (proj2 (Z.leb_le _ _) Wi2), (proj2 (Z.leb_le _ _) He). cbn [bind]. eexists. split; [reflexivity|]. cbn [cd_nrows cd_names cd_major cd_cols].
      split; [reflexivity|]. split; [reflexivity|]. split; [reflexivity|]. split; [|cbn; auto]. intros k. rewrite place_nth by exact L2.
      destruct (nth_error (cd_cols d) k) as [c|]; [|reflexivity]. destruct (nth_error ws k); [|reflexivity]. f_equal. destruct (dc_data c); [reflexivity|]. unfold array_at, array_width, array_height. rewrite Ee. f_equal. all: try f_equal. all: try ring.
    + eexists. split; [reflexivity|]. cbn [cd_nrows cd_names cd_major cd_cols].
      split; [reflexivity|]. split; [reflexivity|]. split; [reflexivity|]. split; [|cbn; auto]. intros k. rewrite place_nth by exact L2.
      destruct (nth_error (cd_cols d) k) as [c|]; [|reflexivity]. destruct (nth_error ws k); [|reflexivity]. f_equal. destruct (dc_data c); [reflexivity|].
      unfold array_at, array_width, array_height. rewrite Ee. f_equal. all: try f_equal. all: try ring.
Qed.

(** ** Places *)

Lemma col_of k c1 (d1 : cdecoder) :
  (forall k, nth_error (cd_cols d1) k = match nth_error (cd_cols d) k, nth_error ws k with Some c, Some w => Some (placed heap d ws k c w) | _, _ => None end) ->
  nth_error (cd_cols d1) k = Some c1 -> exists c w, at_col d ws k c w /\ c1 = placed heap d ws k c w.
Proof.
  intros H E. rewrite H in E. destruct (nth_error (cd_cols d) k) as [c|] eqn:Ec; [|discriminate]. destruct (nth_error ws k) as [w|] eqn:Ew; [|discriminate].
  exists c, w. split; [split; assumption|congruence].
Qed.

Lemma at_facts k c w : at_col d ws k c w -> 0 < w /\ dc_transpose c = false.
Proof.
  intros [A B]. split.
  - pose proof ws_pos as W. rewrite Forall_forall in W. apply W. eapply nth_error_In; exact B.
  - pose proof (sv_fresh _ _ _ _ _ _ V) as F. rewrite Forall_forall in F. apply F. eapply nth_error_In; exact A.
Qed.

(** columns of the shared array do not overlap *)
Lemma offsets_apart i j c c' w w' : at_col d ws i c w -> at_col d ws j c' w' -> shares c = true -> shares c' = true -> (i < j)%nat ->
  offset (cd_cols d) ws i + w <= offset (cd_cols d) ws j.
Proof.
  intros [A B] [A' B'] Sc Sc' L. unfold offset. pose proof (needed_snoc _ _ _ _ _ A B) as E. rewrite Sc in E. rewrite <- E.
  assert (M : forall (cols : list dcol) (ws : list Z) p q, Forall (fun w => 0 < w) ws -> (p <= q)%nat -> needed (firstn p cols) (firstn p ws) <= needed (firstn q cols) (firstn q ws)).
  { clear. unfold needed. induction cols as [|a cols IH]; intros [|v ws] [|p] [|q] F H; cbn [firstn sum_if]; try lia.
    - inversion F; subst. pose proof (sum_if_nonneg shares (firstn q cols) (firstn q ws)). assert (Forall (fun w => 0 < w) (firstn q ws)) by (apply Forall_part; assumption). destruct (shares a); intuition lia.
    - inversion F; subst. specialize (IH ws p q H3 ltac:(lia)). lia. }
  apply M; [exact ws_pos|lia].
Qed.
Lemma offset_bound i c w : at_col d ws i c w -> shares c = true -> 0 <= offset (cd_cols d) ws i /\ offset (cd_cols d) ws i + w <= needed (cd_cols d) ws.
Proof.
  intros [A B] Sc. split; [apply sum_if_nonneg; apply Forall_part; exact ws_pos|]. unfold offset. pose proof (needed_snoc _ _ _ _ _ A B) as E. rewrite Sc in E. rewrite <- E.
  pose proof ws_pos as F. clear -F. generalize (S i). unfold needed. revert F. generalize ws. clear. induction (cd_cols d) as [|a cols IH]; intros [|v ws] F [|q]; cbn [firstn sum_if]; try lia.
  - inversion F; subst. pose proof (sum_if_nonneg shares cols ws H2). destruct (shares a); lia.
  - inversion F; subst. specialize (IH ws H2 q). lia.
Qed.
Lemma offset_mod i c w : at_col d ws i c w -> shares c = true -> cd_major d = true -> offset (cd_cols d) ws i mod 8 = 0.
Proof.
  intros [A B] Sc Mj. pose proof (sv_major _ _ _ _ _ _ V) as H. unfold offset.
  assert (G : forall k, (k <= i)%nat -> needed (firstn k (cd_cols d)) (firstn k ws) mod 8 = 0).
  { induction k as [|k IH]; intros Hk; [reflexivity|]. specialize (IH ltac:(lia)). pose proof (nth_error_lt _ _ _ A). pose proof (nth_error_lt _ _ _ B).
    destruct (nth_error (cd_cols d) k) as [c'|] eqn:Ec; [|apply nth_error_None in Ec; lia]. destruct (nth_error ws k) as [w'|] eqn:Ew; [|apply nth_error_None in Ew; lia].
    rewrite (needed_snoc _ _ _ _ _ Ec Ew). rewrite Z.add_mod, IH by lia. destruct (shares c') eqn:Sc'; [|reflexivity]. rewrite (proj1 (H k c' w' (conj Ec Ew) Sc' Mj)). reflexivity. }
  apply G. lia.
Qed.

Lemma cell_position k c w r b : at_col d ws k c w -> 0 <= b < w -> cell (cd_nrows d) (placed heap d ws k c w) r b = position heap d ws k c w r b.
Proof.
  intros At Hb. destruct (at_facts k c w At) as [Hw Tf]. unfold cell, placed, position, data_of. destruct (dc_data c) as [a|] eqn:Ed; cbn [dc_transpose dc_data dc_stride]; [now rewrite Tf|].
  assert (Sh : shares c = true) by (unfold shares; now rewrite Ed). destruct (cd_major d) eqn:Mj; cbn [andb].
  - destruct (sv_major _ _ _ _ _ _ V k c w At Sh Mj) as [M1 M2]. pose proof (offset_mod k c w At Sh Mj) as OM. pose proof (Z.div_mod (offset (cd_cols d) ws k) 8 ltac:(lia)) as OD. rewrite OM, Z.add_0_r in OD.
    destruct (Z.ltb_spec 8 w) as [L|L].
    + rewrite <- (M2 L). rewrite OD at 1. ring.
    + rewrite Tf. assert (w = 8) by (apply Z.mod_divide in M1; [|lia]; destruct M1 as [q ->]; lia). subst w. rewrite (Z.div_small b 8), (Z.mod_small b 8) by lia. rewrite OD at 1. ring.
  - rewrite Tf. ring.
Qed.

Lemma placed_settled k c w : at_col d ws k c w -> settled (placed heap d ws k c w).
Proof.
  intros At. destruct (at_facts k c w At) as [Hw Tf]. unfold placed. destruct (dc_data c) as [a|] eqn:Ed.
  - constructor; cbn [dc_data dc_size dc_stride dc_transpose]; [discriminate| |rewrite Tf; discriminate]. split; [exact Hw|]. apply (sv_own _ _ _ _ _ _ V k c w At). unfold shares. now rewrite Ed.
  - assert (Sh : shares c = true) by (unfold shares; now rewrite Ed). pose proof (offset_bound k c w At Sh). destruct (sv_width _ _ _ _ _ _ V).
    constructor; cbn [dc_data dc_size dc_stride dc_transpose]; [discriminate| |].
    + split; [exact Hw|]. destruct (cd_major d); lia.
    + destruct (cd_major d) eqn:Mj; cbn [andb]; [|rewrite Tf; discriminate]. intros _. split; [|reflexivity]. apply (sv_major _ _ _ _ _ _ V k c w At Sh Mj).
Qed.

Lemma at_size k c w : dc_size (placed heap d ws k c w) = w.
Proof. unfold placed. destruct (dc_data c); reflexivity. Qed.

Lemma cells_where k c w x : at_col d ws k c w -> cells (frame_rows ts) (cd_nrows d) (placed heap d ws k c w) x ->
  if shares c then shared_array heap d ws x else own_array (frame_rows ts) c w x.
Proof.
  intros At (r & b & Hr & Hb & ->). rewrite at_size in Hb. rewrite cell_position by assumption. destruct (at_facts k c w At) as [Hw Tf]. unfold position, shares. destruct (dc_data c) as [a|] eqn:Ed.
  - exists a, r, b. auto.
  - assert (Sh : shares c = true) by (unfold shares; now rewrite Ed). destruct (offset_bound k c w At Sh) as [O1 O2]. destruct (sv_width _ _ _ _ _ _ V) as [W1 _]. pose proof (sv_height _ _ _ _ _ _ V) as H1. destruct (sv_rows _ _ _ _ _ _ V) as [R1 R2].
    unfold shared_array. set (A := array_at heap d). set (W := array_width d ws) in *. set (H := array_height d) in *. set (o := offset (cd_cols d) ws k) in *. destruct (cd_major d) eqn:Mj.
    + pose proof (offset_mod k c w At Sh Mj) as OM. fold o in OM. pose proof (Z.div_mod o 8 ltac:(lia)) as OD. pose proof (Z.div_mod b 8 ltac:(lia)) as BD. pose proof (Z.mod_pos_bound b 8 ltac:(lia)).
      pose proof (Z.div_pos o 8 O1 ltac:(lia)). pose proof (Z.div_pos b 8 ltac:(lia) ltac:(lia)). destruct (sv_major _ _ _ _ _ _ V k c w At Sh Mj) as [M1 _]. pose proof (Z.div_mod w 8 ltac:(lia)) as WD. rewrite M1 in WD.
      assert (b / 8 < w / 8) by (apply Z.div_lt_upper_bound; lia). set (p := o / 8 + b / 8) in *. assert (8 * (p + 1) <= W) by lia. assert (0 <= p) by lia. nia.
    + nia.
Qed.

Lemma temp_where k c w x : at_col d ws k c w -> temp (frame_rows ts) tmp k (placed heap d ws k c w) x -> temporary (frame_rows ts) tmp d k c w x.
Proof.
  intros At [T H]. rewrite at_size in H. destruct (at_facts k c w At) as [Hw Tf]. unfold placed in T. destruct (dc_data c) eqn:Ed; cbn [dc_transpose] in T; [congruence|].
  destruct (cd_major d) eqn:Mj; cbn [andb] in T; [|congruence]. destruct (Z.ltb_spec 8 w); [|congruence]. split; [exact Ed|]. auto.
Qed.

(** bytes of different columns of the shared array have different places *)
Lemma shared_apart i j c c' w w' x : at_col d ws i c w -> at_col d ws j c' w' -> i <> j -> shares c = true -> shares c' = true ->
  cells (frame_rows ts) (cd_nrows d) (placed heap d ws i c w) x -> cells (frame_rows ts) (cd_nrows d) (placed heap d ws j c' w') x -> False.
Proof.
  assert (G : forall i j c c' w w' x, at_col d ws i c w -> at_col d ws j c' w' -> (i < j)%nat -> shares c = true -> shares c' = true ->
    cells (frame_rows ts) (cd_nrows d) (placed heap d ws i c w) x -> cells (frame_rows ts) (cd_nrows d) (placed heap d ws j c' w') x -> False).
  { clear i j c c' w w' x. intros i j c c' w w' x At At' L Sh Sh' (r & b & Hr & Hb & ->) (r' & b' & Hr' & Hb' & E). rewrite at_size in Hb, Hb'. rewrite !cell_position in E by assumption.
    pose proof (offsets_apart i j c c' w w' At At' Sh Sh' L) as OA. destruct (offset_bound i c w At Sh) as [O1 O2]. destruct (offset_bound j c' w' At' Sh') as [O1' O2']. destruct (sv_width _ _ _ _ _ _ V) as [W1 _].
    pose proof (sv_height _ _ _ _ _ _ V) as H1. destruct (sv_rows _ _ _ _ _ _ V) as [R1 R2].
    unfold position in E. unfold shares in Sh, Sh'. destruct (dc_data c) eqn:Ed; [discriminate|]. destruct (dc_data c') eqn:Ed'; [discriminate|].
    set (A := array_at heap d) in *. set (W := array_width d ws) in *. set (H := array_height d) in *. set (o := offset (cd_cols d) ws i) in *. set (o' := offset (cd_cols d) ws j) in *.
    assert (Sh2 : shares c = true) by (unfold shares; now rewrite Ed). assert (Sh2' : shares c' = true) by (unfold shares; now rewrite Ed').
    destruct (cd_major d) eqn:Mj.
    - pose proof (offset_mod i c w At Sh2 Mj) as OM. fold o in OM. pose proof (offset_mod j c' w' At' Sh2' Mj) as OM'. fold o' in OM'. pose proof (Z.div_mod o 8 ltac:(lia)) as OD. pose proof (Z.div_mod o' 8 ltac:(lia)) as OD'.
      pose proof (Z.div_mod b 8 ltac:(lia)) as BD. pose proof (Z.mod_pos_bound b 8 ltac:(lia)). pose proof (Z.mod_pos_bound b' 8 ltac:(lia)).
      pose proof (Z.div_pos b' 8 ltac:(lia) ltac:(lia)). destruct (sv_major _ _ _ _ _ _ V i c w At Sh2 Mj) as [M1 _]. pose proof (Z.div_mod w 8 ltac:(lia)) as WD. rewrite M1 in WD.
      assert (b / 8 < w / 8) by (apply Z.div_lt_upper_bound; lia). set (p := o / 8 + b / 8) in *. set (p' := o' / 8 + b' / 8) in *. assert (p < p') by lia.
      assert (p * H + r = p' * H + r') by lia. nia.
    - assert (r = r') by nia. subst r'. lia. }
  intros At At' N Sh Sh' X X'. destruct (Nat.lt_total i j) as [L|[L|L]]; [exact (G i j c c' w w' x At At' L Sh Sh' X X')|congruence|exact (G j i c' c w' w x At' At L Sh' Sh X' X)].
Qed.
End S.

(** ** C40 *)

(** every table of the frame can be decoded by the C++ API into arrays with these element
    sizes, whatever they contain *)
Definition arrays_for (ws : list Z) (rows : Z) (facs : list facade) : Prop :=
  Forall2 (fun w f => f_size f = w /\ length (f_elems f) = Z.to_nat rows /\ Forall (fun e => length e = Z.to_nat w) (f_elems f)) ws facs.
Definition all_decodable (file : list Z) (names : list (list Z)) (ws : list Z) (ts : list table) : Prop :=
  forall t facs, In t ts -> arrays_for ws (t_rows t) facs -> is_ok (decode_target file t names facs) = true.

(** [m'] holds, for every table, row and column, what the C++ API decodes: [place i c w r b]
    is the address of byte [b] of row [r] of the frame and column [i]. *)
Definition decoded_at (place : nat -> dcol -> Z -> Z -> Z -> Z) (file : list Z) (d : cdecoder) (ws : list Z) (ts : list table) (m' : mem) : Prop :=
  forall k t, nth_error ts k = Some t -> exists facs outs,
    arrays_for ws (t_rows t) facs /\ decode_target file t (cd_names d) facs = Ok outs /\
    forall i c w, at_col d ws i c w -> exists f, nth_error outs i = Some (Some f) /\ f_size f = w /\ length (f_elems f) = Z.to_nat (t_rows t) /\
      forall r b, 0 <= r < t_rows t -> 0 <= b < w ->
        m' (place i c w (rows_before ts k + r) b) = nth (Z.to_nat b) (nth (Z.to_nat r) (f_elems f) []) 0.

Lemma arrays_cols heap d ws rows cols1 facs : length ws = length (cd_cols d) ->
  (forall k, nth_error cols1 k = match nth_error (cd_cols d) k, nth_error ws k with Some c, Some w => Some (placed heap d ws k c w) | _, _ => None end) ->
  (Forall2 (fun c f => f_size f = dc_size c /\ length (f_elems f) = Z.to_nat rows /\ Forall (fun e => length e = Z.to_nat (dc_size c)) (f_elems f)) cols1 facs <-> arrays_for ws rows facs).
Proof.
  intros L H. assert (E : ws = map dc_size cols1).
  { apply nth_ext_error. intros k. rewrite nth_error_map, H. destruct (nth_error (cd_cols d) k) as [c|] eqn:Ec.
    - destruct (nth_error ws k) eqn:Ew; [|reflexivity]. cbn [option_map]. now rewrite at_size.
    - cbn [option_map]. apply nth_error_None in Ec. apply nth_error_None. lia. }
  unfold arrays_for. rewrite E. clear. split.
  - intros F. induction F; cbn [map]; constructor; assumption.
  - revert facs. induction cols1 as [|c l IH]; intros facs F; inversion F; subst; constructor; auto.
Qed.

Lemma settled_cols heap tmp ts d infos ws d1 : servable heap tmp ts d infos ws ->
  (forall k, nth_error (cd_cols d1) k = match nth_error (cd_cols d) k, nth_error ws k with Some c, Some w => Some (placed heap d ws k c w) | _, _ => None end) ->
  Forall settled (cd_cols d1) /\ separated (frame_rows ts) (cd_nrows d) tmp (cd_cols d1).
Proof.
  intros V Co. split.
  - apply Forall_forall. intros c1 H1. apply In_nth_error in H1 as (k & Hk). destruct (col_of heap d ws k c1 d1 Co Hk) as (c & w & At & ->). eapply placed_settled; eassumption.
  - constructor.
    + intros i j c1 c1' x Hi Hj N X X'. destruct (col_of heap d ws i c1 d1 Co Hi) as (c & w & At & ->). destruct (col_of heap d ws j c1' d1 Co Hj) as (c' & w' & At' & ->).
      pose proof (cells_where heap tmp ts d infos ws V i c w x At X) as Y. pose proof (cells_where heap tmp ts d infos ws V j c' w' x At' X') as Y'.
      destruct (shares c) eqn:Sc, (shares c') eqn:Sc'.
      * exact (shared_apart heap tmp ts d infos ws V i j c c' w w' x At At' N Sc Sc' X X').
      * exact (sv_own_shared _ _ _ _ _ _ V j c' w' x At' Y' Y).
      * exact (sv_own_shared _ _ _ _ _ _ V i c w x At Y Y').
      * exact (sv_own_own _ _ _ _ _ _ V i j c c' w w' x At At' N Y Y').
    + intros i j c1 c1' x Hi Hj N X X'. destruct (col_of heap d ws i c1 d1 Co Hi) as (c & w & At & ->). destruct (col_of heap d ws j c1' d1 Co Hj) as (c' & w' & At' & ->).
      eapply (sv_tmp_tmp _ _ _ _ _ _ V i j c c' w w' x At At' N); eapply temp_where; eassumption.
    + intros i j c1 c1' x Hi Hj X X'. destruct (col_of heap d ws i c1 d1 Co Hi) as (c & w & At & ->). destruct (col_of heap d ws j c1' d1 Co Hj) as (c' & w' & At' & ->).
      pose proof (cells_where heap tmp ts d infos ws V i c w x At X) as Y. pose proof (temp_where heap tmp ts d infos ws V j c' w' x At' X') as Y'. destruct (shares c).
      * exact (sv_tmp_shared _ _ _ _ _ _ V j c' w' x At' Y' Y).
      * exact (sv_own_tmp _ _ _ _ _ _ V i j c c' w w' x At At' Y Y').
Qed.

Lemma infos_length ts infos : column_infos ts = Ok infos -> length infos = match ts with t :: _ => length (t_cols t) | [] => 0%nat end.
Proof.
  destruct ts as [|t ts]; [discriminate|]. cbn [column_infos]. revert infos. induction (t_cols t) as [|c cs IH]; intros infos E; cbn [describe_all] in E.
  - injection E as <-. reflexivity.
  - apply bind_ok in E as (i & _ & E). apply bind_ok in E as (is & E1 & E). assert (infos = i :: is) by congruence. subst infos. cbn [length]. f_equal. now apply IH.
Qed.

Lemma prepared heap tmp ts d d1 : length (cd_names d) = length (cd_cols d) -> (length (cd_names d) <= match ts with t :: _ => length (t_cols t) | [] => 0 end)%nat ->
  frame_rows ts <= cd_nrows d -> fill_in heap ts d = Ok d1 -> Forall settled (cd_cols d1) ->
  prepare_decode heap tmp ts d = Ok (d1, mapi (facade_of tmp (cd_nrows d1)) 0 (cd_cols d1)).
Proof.
  intros L1 L2 R FI Se. unfold prepare_decode, assert. rewrite L1, Nat.eqb_refl. cbn [bind]. rewrite <- L1. rewrite (proj2 (Nat.leb_le _ _) L2). cbn [bind].
  rewrite (proj2 (Z.leb_le _ _) R). cbn [bind]. rewrite FI. cbn [bind]. rewrite facades_ok by exact Se. reflexivity.
Qed.

(** from the places of the columns to positions *)
Lemma spread heap tmp ts d infos ws d1 N tmp' ts' m m' file names : servable heap tmp ts d infos ws -> names = cd_names d -> N = frame_rows ts' ->
  (forall k, nth_error (cd_cols d1) k = match nth_error (cd_cols d) k, nth_error ws k with Some c, Some w => Some (placed heap d ws k c w) | _, _ => None end) ->
  (forall k t, nth_error ts' k = Some t -> exists facs outs,
       Forall2 (fun c f => f_size f = dc_size c /\ length (f_elems f) = Z.to_nat (t_rows t) /\ Forall (fun e => length e = Z.to_nat (dc_size c)) (f_elems f)) (cd_cols d1) facs /\
       decode_target file t names facs = Ok outs /\ length outs = length (cd_cols d1) /\
       (forall i c, nth_error (cd_cols d1) i = Some c -> exists f, nth_error outs i = Some (Some f) /\ f_size f = dc_size c /\ length (f_elems f) = Z.to_nat (t_rows t) /\
          forall r b, 0 <= r < t_rows t -> 0 <= b < dc_size c ->
            m' (cell (cd_nrows d) c (rows_before ts' k + r) b) = nth (Z.to_nat b) (nth (Z.to_nat r) (f_elems f) []) 0)) ->
  (forall x, (forall i c, nth_error (cd_cols d1) i = Some c -> ~ cells N (cd_nrows d) c x /\ ~ temp N tmp' i c x) -> m' x = m x) ->
  decoded_at (position heap d ws) file d ws ts' m' /\
  (forall x, (forall i c w, at_col d ws i c w -> ~ temporary N tmp' d i c w x /\ forall r b, 0 <= r < N -> 0 <= b < w -> x <> position heap d ws i c w r b) -> m' x = m x).
Proof.
  intros V -> -> Co A B. assert (L : length ws = length (cd_cols d)) by apply (sv_lengths _ _ _ _ _ _ V).
  assert (At1 : forall i c w, at_col d ws i c w -> nth_error (cd_cols d1) i = Some (placed heap d ws i c w)) by (intros i c w [E1 E2]; now rewrite Co, E1, E2).
  split.
  - intros k t Hk. destruct (A k t Hk) as (facs & outs & A1 & A2 & _ & A3). exists facs, outs. rewrite arrays_cols in A1 by eassumption. split; [exact A1|]. split; [exact A2|].
    intros i c w At. destruct (A3 i _ (At1 i c w At)) as (f & F1 & F2 & F3 & F4). rewrite at_size in F2, F4. exists f. split; [exact F1|]. split; [exact F2|]. split; [exact F3|].
    intros r b Hr Hb. rewrite <- (cell_position heap tmp ts d infos ws V i c w _ b At Hb). now apply F4.
  - intros x Hx. apply B. intros i c1 Hi. destruct (col_of heap d ws i c1 d1 Co Hi) as (c & w & At & ->). destruct (Hx i c w At) as [Y1 Y2]. split.
    + intros (r & b & Hr & Hb & E). rewrite at_size in Hb. rewrite (cell_position heap tmp ts d infos ws V i c w _ b At Hb) in E. exact (Y2 r b Hr Hb E).
    + intros [T1 T2]. apply Y1. rewrite at_size in T2. unfold placed in T1. pose proof (proj2 (at_facts heap tmp ts d infos ws V i c w At)) as Tf.
      destruct (dc_data c) eqn:Ed; cbn [dc_transpose] in T1; [congruence|]. destruct (cd_major d) eqn:Mj; cbn [andb] in T1; [|congruence]. destruct (Z.ltb_spec 8 w); [|congruence]. split; [exact Ed|]. auto.
Qed.

Lemma separated_fewer n n' nrows tmp cols : 0 <= n' <= n -> Forall settled cols -> separated n nrows tmp cols -> separated n' nrows tmp cols.
Proof.
  intros H Se [A B C].
  assert (CE : forall c x, cells n' nrows c x -> cells n nrows c x) by (intros c x (r & b & Hr & Hb & E); exists r, b; split; [lia|auto]).
  assert (TE : forall i c x, In c cols -> temp n' tmp i c x -> temp n tmp i c x).
  { intros i c x Hc [T1 T2]. split; [exact T1|]. rewrite Forall_forall in Se. destruct (Se c Hc) as [_ Sz _]. nia. }
  constructor.
  - intros i j c c' x Hi Hj N X X'. exact (A i j c c' x Hi Hj N (CE _ _ X) (CE _ _ X')).
  - intros i j c c' x Hi Hj N X X'. exact (B i j c c' x Hi Hj N (TE _ _ _ (nth_error_In _ _ Hi) X) (TE _ _ _ (nth_error_In _ _ Hj) X')).
  - intros i j c c' x Hi Hj X X'. exact (C i j c c' x Hi Hj (CE _ _ X) (TE _ _ _ (nth_error_In _ _ Hj) X')).
Qed.

(** Whatever the threads do, the call succeeds, reports the number of rows of the frame, and
    leaves every value at its position; apart from temporary arrays no other byte changes. *)
Theorem C40_decode : forall n heap tmp file ts d infos ws m, servable heap tmp ts d infos ws -> all_decodable file (cd_names d) ws ts -> 1 <= n ->
  exists d1, (exists m', c_decode n heap tmp file ts d m (Ok (d1, frame_rows ts)) m') /\
  (0 < counted (cd_cols d) ws -> cd_width d1 = array_width d ws /\ cd_height d1 = array_height d /\ cd_major d1 = cd_major d /\
     (if cd_owned d1 then cd_owned d1 else cd_ext d1) = Some (array_at heap d)) /\
  forall r m', c_decode n heap tmp file ts d m r m' -> r = Ok (d1, frame_rows ts) /\
    decoded_at (position heap d ws) file d ws ts m' /\
    (forall x, (forall i c w, at_col d ws i c w -> ~ temporary (frame_rows ts) tmp d i c w x /\
        forall r b, 0 <= r < frame_rows ts -> 0 <= b < w -> x <> position heap d ws i c w r b) -> m' x = m x).
Proof.
  intros n heap tmp file ts d infos ws m V De Hn. destruct (filled_in heap tmp ts d infos ws V) as (d1 & FI & Nr & Nm & Mj & Co & Sh). exists d1.
  destruct (settled_cols heap tmp ts d infos ws d1 V Co) as (Se & Sp).
  assert (L : length ws = length (cd_cols d)) by apply (sv_lengths _ _ _ _ _ _ V).
  assert (P : prepare_decode heap tmp ts d = Ok (d1, mapi (facade_of tmp (cd_nrows d1)) 0 (cd_cols d1))).
  { apply prepared; [apply (sv_lengths _ _ _ _ _ _ V)| |apply (sv_rows _ _ _ _ _ _ V)|exact FI|exact Se].
    rewrite <- (infos_length ts infos (sv_infos _ _ _ _ _ _ V)). apply (sv_ncols _ _ _ _ _ _ V). }
  destruct (decode_settled n heap tmp file ts d m d1 P Se) as [A B].
  { rewrite Nr. exact Sp. }
  { intros ->. pose proof (sv_infos _ _ _ _ _ _ V) as Q. discriminate. }
  { apply (sv_tables _ _ _ _ _ _ V). }
  { apply (sv_rows _ _ _ _ _ _ V). }
  { rewrite Nr. apply (sv_rows _ _ _ _ _ _ V). }
  { intros t facs Ht F. apply De; [exact Ht|]. rewrite arrays_cols in F by eassumption. exact F. }
  { exact Hn. }
  split; [exact A|]. split; [intros C; destruct (Sh C) as (S1 & S2 & S3); auto|].
  intros r m' H. destruct (B r m' H) as (B1 & B2 & B3). split; [exact B1|].
  rewrite Nr in B2, B3. exact (spread heap tmp ts d infos ws d1 (frame_rows ts) tmp ts m m' file (cd_names d) V eq_refl eq_refl Co B2 B3).
Qed.

Lemma done_prepared n heap tmp file ts d m d1 rows m' : c_decode n heap tmp file ts d m (Ok (d1, rows)) m' -> exists a, prepare_decode heap tmp ts d = Ok (d1, a).
Proof.
  intros H. remember (Ok (d1, rows)) as res eqn:E. destruct H as [r P K|r P K|d2 arrs r m2 P K X K2|d2 arrs m2 P K X]; [destruct r; discriminate|discriminate|destruct r; discriminate|].
  exists arrs. congruence.
Qed.

(** A decoder can be used again for frames of no more rows: every value is left at the
    position it had for the first one. *)
Theorem C40_reuse : forall n n2 heap heap2 tmp tmp2 file file2 ts ts2 d infos ws m m2 d1 rows m',
  servable heap tmp ts d infos ws -> servable heap tmp2 ts d infos ws -> all_decodable file (cd_names d) ws ts -> 1 <= n -> c_decode n heap tmp file ts d m (Ok (d1, rows)) m' ->
  all_decodable file2 (cd_names d) ws ts2 -> 1 <= n2 -> is_ok (column_infos ts2) = true -> (length (cd_cols d) <= match ts2 with t :: _ => length (t_cols t) | [] => 0 end)%nat ->
  Forall (fun t => 0 <= t_rows t) ts2 -> 0 < frame_rows ts2 <= frame_rows ts ->
  (exists m2', c_decode n2 heap2 tmp2 file2 ts2 d1 m2 (Ok (d1, frame_rows ts2)) m2') /\
  forall r m2', c_decode n2 heap2 tmp2 file2 ts2 d1 m2 r m2' -> r = Ok (d1, frame_rows ts2) /\
    decoded_at (position heap d ws) file2 d ws ts2 m2' /\
    (forall x, (forall i c w, at_col d ws i c w -> ~ temporary (frame_rows ts2) tmp2 d i c w x /\
        forall r b, 0 <= r < frame_rows ts2 -> 0 <= b < w -> x <> position heap d ws i c w r b) -> m2' x = m2 x).
Proof.
  intros n n2 heap heap2 tmp tmp2 file file2 ts ts2 d infos ws m m2 d1 rows m' V V2 De Hn H De2 Hn2 I2 NC2 R2 Rows2.
  destruct (filled_in heap tmp ts d infos ws V) as (d2 & FI & Nr & Nm & Mj & Co & Sh).
  assert (d1 = d2).
  { assert (Q : exists a, prepare_decode heap tmp ts d = Ok (d1, a)).
    { eapply done_prepared; exact H. }
    destruct Q as (a & Q). unfold prepare_decode in Q. repeat (apply bind_ok in Q as (? & ? & Q)). congruence. }
  subst d2. clear H.
  destruct (settled_cols heap tmp2 ts d infos ws d1 V2 Co) as (Se & Sp).
  assert (L : length ws = length (cd_cols d)) by apply (sv_lengths _ _ _ _ _ _ V). destruct (sv_lengths _ _ _ _ _ _ V) as [L1 _]. destruct (sv_rows _ _ _ _ _ _ V) as [R1 R1'].
  assert (L1' : length (cd_cols d1) = length (cd_cols d)).
  { assert (Q : forall k, nth_error (cd_cols d1) k = None <-> nth_error (cd_cols d) k = None).
    { intros k. rewrite Co. destruct (nth_error (cd_cols d) k) eqn:E1; [|tauto]. destruct (nth_error ws k) eqn:E2; [split; discriminate|]. apply nth_error_None in E2. pose proof (nth_error_lt _ _ _ E1). lia. }
    apply Nat.le_antisymm.
    - apply nth_error_None, Q, nth_error_None. lia.
    - apply nth_error_None, Q, nth_error_None. lia. }
  assert (FI2 : fill_in heap2 ts2 d1 = Ok d1).
  { unfold fill_in. destruct (column_infos ts2) as [is| |]; try discriminate. cbn [bind]. rewrite Nr. replace (cd_nrows d =? 0) with false by (symmetry; apply Z.eqb_neq; lia).
    assert (FS : forall cols names w, Forall settled cols -> fill_sizes is names cols w = Ok (cols, w)).
    { clear. induction cols as [|c cols IH]; intros [|nm names] w F; cbn [fill_sizes]; try reflexivity. inversion F as [|? ? [_ Sz _] F2]; subst.
      replace (dc_size c =? 0) with false by (symmetry; apply Z.eqb_neq; lia). rewrite IH by exact F2. reflexivity. }
    rewrite FS by exact Se. cbn [bind Z.eqb orb]. rewrite <- Nr. destruct d1; reflexivity. }
  assert (P : prepare_decode heap2 tmp2 ts2 d1 = Ok (d1, mapi (facade_of tmp2 (cd_nrows d1)) 0 (cd_cols d1))).
  { apply prepared; [rewrite Nm; congruence|rewrite Nm, L1; exact NC2|lia|exact FI2|exact Se]. }
  destruct (decode_settled n2 heap2 tmp2 file2 ts2 d1 m2 d1 P Se) as [A B].
  { rewrite Nr. apply (separated_fewer (frame_rows ts)); [lia|exact Se|exact Sp]. }
  { intros ->. discriminate. }
  { exact R2. } { lia. } { lia. }
  { intros t facs Ht F. rewrite Nm. apply De2; [exact Ht|]. rewrite arrays_cols in F by eassumption. exact F. }
  { exact Hn2. }
  split; [exact A|]. intros r m2' H2. destruct (B r m2' H2) as (B1 & B2 & B3). split; [exact B1|].
  rewrite Nr in B2, B3. exact (spread heap tmp ts d infos ws d1 (frame_rows ts2) tmp2 ts2 m2 m2' file2 (cd_names d1) V Nm eq_refl Co B2 B3).
Qed.
