(** C23, C24, C25, C46: the encode call, with frames of at most a given number of rows. *)
From Coq Require Import String.
From Verif Require Import Spec Base Fp FpProofs Stream StreamProofs Codec Meta Header Encoder Table Reader ReadSpec
  TableProofs FrameDecode ReaderProofs P_Frame Md5 Through P_Reader.
Open Scope Z_scope.

(** ** What is expected *)

(** The number of frames for [n] rows with at most [m] rows each. *)
Definition frame_count (n m : nat) : nat := if (n <=? m)%nat then 1 else ((n + m - 1) / m)%nat.

(** Rows i*m, i*m+1, ... (at most m of them) of every column. *)
Definition piece (m i : nat) (data : list coldata) : list coldata :=
  map (fun d => {| cd_size := cd_size d; cd_cells := firstn m (skipn (i * m) (cd_cells d)) |}) data.

(** columns that all have [n] rows *)
Definition rectangular (n : nat) (cols : list colinfo) (data : list coldata) : Prop :=
  List.length cols = List.length data /\ data <> [] /\ Forall (fun d => List.length (cd_cells d) = n) data.

(** the error of a failed call *)
Definition failure {A} (x : outcome A) : outcome unit := match x with Ok _ => Ok tt | Throw e => Throw e | UB => UB end.

(** ** The pieces are the data *)

Theorem C23_pieces : forall n m i d, (0 < m)%nat -> List.length (cd_cells d) = n -> (n = 0 -> i = 0)%nat ->
  (i < frame_count n m)%nat ->
  exists c, piece m i [d] = [c] /\ cd_size c = cd_size d /\
    List.length (cd_cells c) = (if (S i <? frame_count n m)%nat then m else n - i * m)%nat /\
    (List.length (cd_cells c) <= m)%nat /\ (n > 0 -> List.length (cd_cells c) > 0)%nat /\
    forall r, (r < List.length (cd_cells c))%nat -> nth r (cd_cells c) [] = nth (i * m + r) (cd_cells d) [].
Proof.
  intros n m i d Hm Hl H0 Hi. cbn [piece map]. eexists. split; [reflexivity|]. cbn [cd_size cd_cells]. split; [reflexivity|].
  rewrite firstn_length, skipn_length, Hl.
  assert (B : ((S i < frame_count n m)%nat -> (i * m + m <= n)%nat) /\ (i * m <= n)%nat /\ ((n > 0)%nat -> (i * m < n)%nat) /\
              (~ (S i < frame_count n m)%nat -> (n <= i * m + m)%nat)).
  { unfold frame_count in *. destruct (Nat.leb_spec n m) as [L|L].
    - assert (i = 0%nat) by lia. subst. lia.
    - pose proof (Nat.div_mod (n + m - 1) m ltac:(lia)) as D. pose proof (Nat.mod_upper_bound (n + m - 1) m ltac:(lia)) as U. set (q := ((n + m - 1) / m)%nat) in *.
      split; [|split; [|split]]; intros; nia. }
  destruct B as (B1 & B2 & B3 & B4). split.
  - destruct (Nat.ltb_spec (S i) (frame_count n m)) as [Q|Q]; [specialize (B1 Q); lia|]. specialize (B4 ltac:(lia)). lia.
  - split; [lia|]. split; [intros Q; specialize (B3 Q); lia|]. intros r Hr.
    rewrite TableProofs.nth_firstn by lia. now rewrite nth_skipn.
Qed.
Print Assumptions C23_pieces.

Theorem C23_rows : forall n m d, (0 < m)%nat -> List.length (cd_cells d) = n ->
  concat (map (fun i => concat (map cd_cells (piece m i [d]))) (seq 0 (frame_count n m))) = cd_cells d.
Proof.
  intros n m d Hm Hl. 
  assert (X : forall k, concat (map (fun i => concat (map cd_cells (piece m i [d]))) (seq 0 k)) = firstn (k * m) (cd_cells d)).
  { induction k as [|k IH]; [reflexivity|]. rewrite seq_S, map_app, concat_app, IH. cbn [map concat Nat.add piece cd_cells app]. rewrite !app_nil_r.
    rewrite <- (firstn_skipn (k * m) (firstn (S k * m) (cd_cells d))). rewrite firstn_firstn, skipn_firstn_comm.
    replace (Nat.min (k * m) (S k * m)) with (k * m)%nat by lia. replace (S k * m - k * m)%nat with m by lia. reflexivity. }
  rewrite X. apply firstn_all2. rewrite Hl. unfold frame_count. destruct (Nat.leb_spec n m); [lia|].
  pose proof (Nat.div_mod (n + m - 1) m ltac:(lia)). pose proof (Nat.mod_upper_bound (n + m - 1) m ltac:(lia)). nia.
Qed.
Print Assumptions C23_rows.

(** ** C46: what is written *)

Section E.
Variables (md5 : list Z -> list Z) (version : list Z) (st : settings) (o : order) (cols : list colinfo) (pr : props).
Let enc data := encode_frame md5 version st o cols data pr.

Lemma slices_spec m data n : (0 < m)%nat -> Forall (fun d => List.length (cd_cells d) = n) data ->
  forall todo i, (i * m < n + m)%nat -> (todo = (n + m - 1) / m - i)%nat ->
  exists fs res, (forall fuel, (todo <= fuel)%nat -> encode_slices md5 version fuel st o cols data pr m n (Nat.min n (i * m)) = Some (concat fs, res)) /\
    (List.length fs <= todo)%nat /\
    (forall j f, nth_error fs j = Some f -> enc (piece m (i + j) data) = Ok f) /\
    (List.length fs = todo -> res = Ok tt) /\
    ((List.length fs < todo)%nat -> is_ok (enc (piece m (i + List.length fs) data)) = false /\ res = failure (enc (piece m (i + List.length fs) data))).
Proof.
  intros Hm HF. induction todo as [|todo IH]; intros i Hi Ht.
  - exists [], (Ok tt). split; [|repeat split; auto; try (intros [|j]; discriminate); cbn; try lia; intros; lia].
    intros fuel _. assert (n <= i * m)%nat.
    { pose proof (Nat.div_mod (n + m - 1) m ltac:(lia)). pose proof (Nat.mod_upper_bound (n + m - 1) m ltac:(lia)). nia. }
    replace (Nat.min n (i * m)) with n by lia. destruct fuel; cbn [encode_slices]; now rewrite (proj2 (Nat.leb_le n n) ltac:(lia)).
  - assert (L : (i * m < n)%nat).
    { pose proof (Nat.div_mod (n + m - 1) m ltac:(lia)). pose proof (Nat.mod_upper_bound (n + m - 1) m ltac:(lia)). nia. }
    replace (Nat.min n (i * m)) with (i * m)%nat by lia.
    assert (P : map (slice_col (i * m) (Nat.min (n - i * m) m)) data = piece m i data).
    { unfold piece. apply map_ext_in. intros d Hd. unfold slice_col. f_equal. rewrite Forall_forall in HF. specialize (HF d Hd).
      destruct (Nat.le_gt_cases m (n - i * m)); [now replace (Nat.min (n - i * m) m) with m by lia|].
      rewrite !firstn_all2; [reflexivity| |]; rewrite skipn_length; lia. }
    assert (St : forall fuel, (S todo <= fuel)%nat -> encode_slices md5 version fuel st o cols data pr m n (i * m) =
       match enc (piece m i data) with
       | Ok b => match encode_slices md5 version (pred fuel) st o cols data pr m n (Nat.min n (S i * m)) with Some (bs, r) => Some (b ++ bs, r) | None => None end
       | Throw e => Some ([], Throw e) | UB => Some ([], UB) end).
    { intros fuel Hf. destruct fuel as [|fuel]; [lia|]. cbn [encode_slices pred]. rewrite (proj2 (Nat.leb_gt n (i * m)) L), P. fold (enc (piece m i data)).
      replace (i * m + Nat.min (n - i * m) m)%nat with (Nat.min n (S i * m)) by lia. reflexivity. }
    destruct (enc (piece m i data)) as [b|e|] eqn:E.
    + destruct (IH (S i) ltac:(lia) ltac:(lia)) as (fs & res & A1 & A2 & A3 & A4 & A5). exists (b :: fs), res.
      split; [intros fuel Hf; rewrite St by assumption; rewrite A1 by lia; reflexivity|]. cbn [List.length].
      split; [lia|]. split; [|split; [intros Q; apply A4; lia|]].
      * intros [|j] f Hj; cbn [nth_error] in Hj; [rewrite Nat.add_0_r; congruence|]. replace (i + S j)%nat with (S i + j)%nat by lia. now apply A3.
      * intros Q. replace (i + S (List.length fs))%nat with (S i + List.length fs)%nat by lia. apply A5. lia.
    + exists [], (Throw e). split; [intros fuel Hf; now rewrite St|]. cbn [List.length]. rewrite Nat.add_0_r, E.
      split; [lia|]. split; [intros [|j]; discriminate|]. split; [lia|]. intros _. split; reflexivity.
    + exists [], UB. split; [intros fuel Hf; now rewrite St|]. cbn [List.length]. rewrite Nat.add_0_r, E.
      split; [lia|]. split; [intros [|j]; discriminate|]. split; [lia|]. intros _. split; reflexivity.
Qed.
End E.

(** The output is made of the frames that encoding each piece alone gives, in order; if a
    piece cannot be encoded the call fails as encoding that piece alone does, after
    writing the frames of the pieces before it and nothing else. *)
Theorem C46_frames : forall md5 version st o cols data pr n m, (0 < m)%nat -> rectangular n cols data ->
  let enc i := encode_frame md5 version st o cols (piece m i data) pr in
  exists fs res,
    (forall fuel, (n <= fuel)%nat -> encode_api md5 version fuel st o cols data pr m = Some (concat fs, res)) /\
    (List.length fs <= frame_count n m)%nat /\
    (forall i f, nth_error fs i = Some f -> enc i = Ok f) /\
    (List.length fs = frame_count n m -> res = Ok tt) /\
    ((List.length fs < frame_count n m)%nat -> is_ok (enc (List.length fs)) = false /\ res = failure (enc (List.length fs))).
Proof.
  intros md5 version st o cols data pr n m Hm (R1 & R2 & R3) enc.
  assert (G : forall fuel, encode_api md5 version fuel st o cols data pr m =
     if (n <=? m)%nat then match enc 0%nat with Ok b => Some (b, Ok tt) | Throw e => Some ([], Throw e) | UB => Some ([], UB) end
     else encode_slices md5 version fuel st o cols data pr m n 0).
  { intros fuel. unfold encode_api. rewrite R1, Nat.eqb_refl. destruct data as [|d data]; [congruence|]. cbn [List.length negb orb Nat.eqb].
    inversion R3 as [|? ? D1 D2]; subst n.
    replace (forallb (fun d0 => (List.length (cd_cells d0) =? List.length (cd_cells d))%nat) (d :: data)) with true.
    2:{ symmetry. apply forallb_forall. intros y Hy. apply Nat.eqb_eq. rewrite Forall_forall in R3. auto. }
    cbn [negb]. destruct (Nat.leb_spec (List.length (cd_cells d)) m) as [L|L]; [|reflexivity].
    assert (P : piece m 0 (d :: data) = d :: data).
    { unfold piece. rewrite <- (map_id (d :: data)) at 2. apply map_ext_in. intros y Hy. rewrite Forall_forall in R3. cbn [Nat.mul]. rewrite skipn_O.
      rewrite firstn_all2 by (rewrite R3 by assumption; lia). destruct y; reflexivity. }
    unfold enc. rewrite P. reflexivity. }
  unfold frame_count. destruct (Nat.leb_spec n m) as [L|L].
  - destruct (enc 0%nat) as [b|e|] eqn:E.
    + exists [b], (Ok tt). split; [intros fuel _; rewrite G; cbn [concat]; now rewrite app_nil_r|]. cbn [List.length]. split; [lia|].
      split; [intros [|[|i]] f H; try discriminate; injection H as <-; exact E|]. split; [auto|lia].
    + exists [], (Throw e). split; [intros fuel _; now rewrite G|]. cbn [List.length]. rewrite E. split; [lia|]. split; [intros [|i]; discriminate|]. split; [lia|]. split; reflexivity.
    + exists [], UB. split; [intros fuel _; now rewrite G|]. cbn [List.length]. rewrite E. split; [lia|]. split; [intros [|i]; discriminate|]. split; [lia|]. split; reflexivity.
  - destruct (slices_spec md5 version st o cols pr m data n Hm R3 ((n + m - 1) / m) 0 ltac:(lia) ltac:(lia)) as (fs & res & A1 & A2 & A3 & A4 & A5).
    cbn [Nat.mul Nat.add] in *. rewrite Nat.min_0_r in A1.
    exists fs, res. split; [|auto]. intros fuel Hf. rewrite G. apply A1.
    assert ((n + m - 1) / m <= n)%nat; [|lia]. apply Nat.div_le_upper_bound; [lia|]. nia.
Qed.
Print Assumptions C46_frames.

(** ** C24: termination *)

Theorem C24_terminates : forall md5 version st o cols data pr m, (0 < m)%nat ->
  exists fuel0 r, forall fuel, (fuel0 <= fuel)%nat -> encode_api md5 version fuel st o cols data pr m = Some r.
Proof.
  intros md5 version st o cols data pr m Hm. set (n := match data with d :: _ => List.length (cd_cells d) | [] => O end).
  destruct (negb (List.length cols =? List.length data)%nat || (List.length data =? 0)%nat) eqn:E1.
  { exists 0%nat. eexists. intros fuel _. unfold encode_api. rewrite E1. reflexivity. }
  destruct (forallb (fun d => (List.length (cd_cells d) =? n)%nat) data) eqn:E2.
  2:{ exists 0%nat. eexists. intros fuel _. unfold encode_api. rewrite E1. fold n. rewrite E2. reflexivity. }
  assert (R : rectangular n cols data).
  { apply orb_false_iff in E1 as [A B]. apply negb_false_iff, Nat.eqb_eq in A. apply Nat.eqb_neq in B. split; [exact A|]. split; [intros ->; now apply B|].
    apply Forall_forall. intros d Hd. rewrite forallb_forall in E2. specialize (E2 d Hd). now apply Nat.eqb_eq. }
  destruct (C46_frames md5 version st o cols data pr n m Hm R) as (fs & res & H & _). exists n, (concat fs, res). exact H.
Qed.
Print Assumptions C24_terminates.

(** With a maximum of 0 rows per frame the call does not end when there are rows: it
    keeps writing empty frames. *)
Theorem C24_zero_refuted : forall md5 version st o cols data pr n f, rectangular n cols data -> (0 < n)%nat ->
  encode_frame md5 version st o cols (piece 0 0 data) pr = Ok f ->
  forall fuel, encode_api md5 version fuel st o cols data pr 0 = None.
Proof.
  intros md5 version st o cols data pr n f (R1 & R2 & R3) Hn E fuel. unfold encode_api. rewrite R1, Nat.eqb_refl.
  destruct data as [|d data]; [congruence|]. cbn [List.length negb orb Nat.eqb]. inversion R3 as [|? ? D1 D2]; subst n.
  replace (forallb (fun d0 => (List.length (cd_cells d0) =? List.length (cd_cells d))%nat) (d :: data)) with true.
  2:{ symmetry. apply forallb_forall. intros y Hy. apply Nat.eqb_eq. rewrite Forall_forall in R3. auto. }
  cbn [negb]. rewrite (proj2 (Nat.leb_gt _ 0) Hn).
  assert (P : map (slice_col 0 0) (d :: data) = piece 0 0 (d :: data)) by reflexivity.
  induction fuel as [|fuel IH]; cbn [encode_slices]; rewrite (proj2 (Nat.leb_gt _ 0) Hn); [reflexivity|].
  rewrite Nat.min_0_r, P, E. cbn [Nat.add]. now rewrite IH.
Qed.
Print Assumptions C24_zero_refuted.

(** ** C23: reading back *)

(** If the format can hold every piece, encoding succeeds; the file read with any settings
    consists of one table per piece, in order, and decoding the i-th table gives the rows
    of the i-th piece. *)
Theorem C23_roundtrip : forall md5 st st' o version cols data pr n m, digest md5 -> (0 < m)%nat -> rectangular n cols data ->
  let count := frame_count n m in
  let rows i := (if (S i <? count)%nat then m else n - i * m)%nat in
  (forall i, (i < count)%nat -> valid_table st version (rows i) cols (piece m i data) pr) ->
  exists fs, (forall fuel, (n <= fuel)%nat -> encode_api md5 version fuel st o cols data pr m = Some (concat fs, Ok tt)) /\
    List.length fs = count /\ frames md5 st' fs /\
    exists tables, tables_of md5 st' fs tables /\
      (forall est fuel, estimate est (concat fs) -> (count < fuel)%nat -> read_tables md5 st' est (concat fs) fuel [] = (tables, Clean)) /\
      forall i t, nth_error tables i = Some t ->
        t_rows t = Z.of_nat (rows i) /\ t_order t = o /\ t_props t = mset pr (str "encoder"%string) version /\
        Forall2 (fun ci c => col_name c = ci_name ci /\ col_type c = ci_type ci /\
                   combine (col_bfnames c) (col_bfsizes c) = (if ci_type ci =? ty_BITFIELD then ci_bits ci else [])) cols (t_cols t) /\
        forall names ps facs,
          Forall2 (fun nm p => select (map ci_name cols) nm = Some p) names ps -> NoDup ps ->
          Forall2 (fun p f => forall c, nth_error (t_cols t) p = Some c -> can_hold (rows i) (col_bytes c) f) ps facs ->
          exists outs, decode_target (concat fs) t names facs = Ok (map Some outs) /\
            List.length outs = List.length names /\
            forall k p f out ci d c,
              nth_error ps k = Some p -> nth_error facs k = Some f -> nth_error outs k = Some out ->
              nth_error cols p = Some ci -> nth_error (piece m i data) p = Some d -> nth_error (t_cols t) p = Some c ->
              received st st' (ci_type ci) (col_bytes c) (cd_cells d) f out.
Proof.
  intros md5 st st' o version cols data pr n m Hd Hm R count rows V.
  destruct (C46_frames md5 version st o cols data pr n m Hm R) as (fs & res & H1 & H2 & H3 & H4 & H5). fold count in H2, H4, H5.
  assert (L : List.length fs = count).
  { destruct (Nat.eq_dec (List.length fs) count) as [L|L]; [assumption|]. exfalso. destruct (H5 ltac:(lia)) as [N _].
    destruct (C19_roundtrip st st' o version md5 _ _ _ _ Hd (V (List.length fs) ltac:(lia))) as (f & E & _). rewrite E in N. discriminate. }
  rewrite (H4 L) in *. exists fs. split; [exact H1|]. split; [exact L|].
  assert (FR : frames md5 st' fs).
  { apply Forall_forall. intros f Hf. apply In_nth_error in Hf as (i & Hi). assert (i < count)%nat by (rewrite <- L; apply nth_error_Some; congruence).
    destruct (C27_encoded md5 st st' o version _ _ _ _ f Hd (V i ltac:(lia)) (H3 i f Hi)) as (t & Ft & _). eauto. }
  split; [exact FR|].
  destruct (C27_concat md5 st' fs 0 FR (or_introl eq_refl)) as (tables & T & _). exists tables. split; [exact T|]. split.
  { intros est fuel He Hf. destruct (C27_concat md5 st' fs est FR He) as (tables' & T' & RT).
    assert (tables' = tables); [|subst; apply RT; lia]. destruct T as [T1 T2], T' as [T1' T2']. apply nth_ext_error. intros j.
    destruct (nth_error fs j) as [f|] eqn:Ef.
    - destruct (T2 j f Ef) as (t1 & (A1 & _) & B1). destruct (T2' j f Ef) as (t2 & (A2 & _) & B2). congruence.
    - apply nth_error_None in Ef. rewrite !(proj2 (nth_error_None _ _)) by lia. reflexivity. }
  intros i t Ht. destruct T as [T1 T2].
  assert (Hi : (i < count)%nat) by (rewrite <- L, <- T1; apply nth_error_Some; congruence).
  destruct (nth_error fs i) as [f|] eqn:Ef; [|apply nth_error_None in Ef; lia].
  destruct (T2 i f Ef) as (t0 & Ft & Et). rewrite Ht in Et. apply (f_equal (fun x => match x with Some y => y | None => t end)) in Et. cbn beta iota in Et.
  destruct (C19_roundtrip st st' o version md5 _ _ _ _ Hd (V i Hi)) as (f' & E' & R19). rewrite (H3 i f Ef) in E'. injection E' as <-.
  (* the file around frame i *)
  assert (SP : concat fs = concat (firstn i fs) ++ f ++ concat (skipn (S i) fs)).
  { rewrite <- (firstn_skipn i fs) at 1. rewrite concat_app. f_equal.
    assert (X : skipn i fs = f :: skipn (S i) fs).
    { clear -Ef. revert i Ef. induction fs as [|x fs IH]; intros [|i] E; try discriminate; [injection E as ->; reflexivity|]. cbn [skipn]. now apply IH. }
    rewrite X. reflexivity. }
  destruct (R19 [] [] 0 (or_introl eq_refl)) as (ta & Ra & _). cbn [app List.length] in Ra. rewrite app_nil_r in Ra.
  destruct Ft as [Ft1 Ft2]. change (Z.of_nat 0) with 0 in Ra. rewrite Ft1 in Ra. injection Ra as <-.
  destruct (R19 (concat (firstn i fs)) (concat (skipn (S i) fs)) 0 (or_introl eq_refl)) as (tb & Rb & Rb2 & Rb3 & Rb4 & Rb5 & Rb6 & Rb7 & Rb8 & Rb9).
  rewrite <- SP in Rb, Rb8, Rb9.
  assert (t = tb).
  { destruct (frame_shape md5 st' f t0 (conj Ft1 Ft2)) as (hb & body & h & Q).
    assert (RT : read_table md5 st' 0 (concat fs) (Z.of_nat (List.length (concat (firstn i fs)))) = Ok (Some t)).
    { rewrite SP. destruct (C27_concat md5 st' fs 0 FR (or_introl eq_refl)) as (tables' & T' & RT').
      rewrite Et. rewrite (read_table_at md5 st' f t0 (concat (firstn i fs)) (concat (skipn (S i) fs)) 0 (conj Ft1 Ft2) (or_introl eq_refl)). reflexivity. }
    rewrite RT in Rb. congruence. }
  subst tb. split; [exact Rb5|]. split; [exact Rb4|]. split; [exact Rb6|]. split; [|exact Rb9].
  eapply FrameDecode.Forall2_weaken; [|exact Rb7]. intros ci c (A & B & _ & D & _). auto.
Qed.
Print Assumptions C23_roundtrip.
