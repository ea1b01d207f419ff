(** C50: what is encoded through the C API is read back. *)
From Coq Require Import String.
From Verif Require Import Spec Base Fp Stream StreamProofs StreamLocal Codec Meta Header Encoder Table TableProofs FrameDecode Reader ReadSpec P_Frame P_Decode Strided P_Strided
  MemDecode Frame ColumnInfo P_ColumnInfo CDecoder P_CApi P_CApiRoundtrip CEncoder CEncSpec Through P_Reader P_Encode P_CEncode.
Open Scope Z_scope.
Local Notation length := List.length.

Lemma values_rectangular m e : configured e -> rectangular (Z.to_nat (ce_nrows e)) (map described (ce_infos e)) (table_values m e).
Proof.
  intros (_ & _ & C3 & _). unfold rectangular, table_values. split; [rewrite !map_length, combine_length, seq_length; lia|]. split.
  - destruct (ce_infos e); [congruence|discriminate].
  - apply Forall_forall. intros d Hd. apply in_map_iff in Hd as (ic & <- & _). unfold values. cbn [cd_cells]. now rewrite map_length, seq_length.
Qed.

Lemma Forall2_map_r {A B C} (P : A -> C -> Prop) (f : B -> C) la lb : Forall2 P la (map f lb) <-> Forall2 (fun a b => P a (f b)) la lb.
Proof.
  revert la. induction lb as [|b lb IH]; intros la; cbn [map]; (split; intros H; inversion H; subst; constructor; try assumption; now apply IH).
Qed.

(** The file has one table per [rows_per_frame] rows, and decoding any columns of a table
    gives the values that were in memory when the call was made. *)
Theorem C50_roundtrip : forall md5 version st st' calls m, digest md5 -> let e := reached md5 version st calls in readable e -> configured e ->
  let n := Z.to_nat (ce_nrows e) in let cols := map described (ce_infos e) in let count := frame_count n (Z.to_nat (ce_max e)) in
  let rows i := (if (S i <? count)%nat then Z.to_nat (ce_max e) else n - i * Z.to_nat (ce_max e))%nat in
  let part i := piece (Z.to_nat (ce_max e)) i (table_values m e) in
  (forall i, (i < count)%nat -> valid_table st version (rows i) cols (part i) (ce_props e)) ->
  exists fs, snd (encode_stream md5 version st m e) = (concat fs, Ok (len (concat fs))) /\ length fs = count /\ frames md5 st' fs /\
    exists tables, tables_of md5 st' fs tables /\
      (forall est fuel, estimate est (concat fs) -> (count < fuel)%nat -> read_tables md5 st' est (concat fs) fuel [] = (tables, Clean)) /\
      forall i t, nth_error tables i = Some t -> t_rows t = Z.of_nat (rows i) /\ t_props t = mset (ce_props e) (str "encoder"%string) version /\
        Forall2 (fun ci c => col_name c = ci_name ci /\ col_type c = ci_type ci /\
                   combine (col_bfnames c) (col_bfsizes c) = (if ci_type ci =? ty_BITFIELD then ci_bits ci else [])) (ce_infos e) (t_cols t) /\
        forall names ps facs,
          Forall2 (fun nm p => select (map ci_name (ce_infos e)) nm = Some p) names ps -> NoDup ps ->
          Forall2 (fun p f => forall c, nth_error (t_cols t) p = Some c -> can_hold (rows i) (col_bytes c) f) ps facs ->
          exists outs, decode_target (concat fs) t names facs = Ok (map Some outs) /\ length outs = length names /\
            forall k p f out ci c, nth_error ps k = Some p -> nth_error facs k = Some f -> nth_error outs k = Some out ->
              nth_error (ce_infos e) p = Some ci -> nth_error (t_cols t) p = Some c ->
              forall r, (r < rows i)%nat ->
                same_value st st' (ci_type ci)
                  (map (fun b => m (value_byte e p (i * Z.to_nat (ce_max e) + r) (Z.of_nat b))) (seq 0 (Z.to_nat (value_size ci))))
                  (firstn (Z.to_nat (col_bytes c)) (nth r (f_elems out) [])).
Proof.
  intros md5 version st st' calls m Hd e R C n cols count rows part V. pose proof C as (C1 & C2 & C3 & _).
  destruct (C23_roundtrip md5 st st' LE version cols (table_values m e) (ce_props e) n (Z.to_nat (ce_max e)) Hd ltac:(lia) (values_rectangular m e C) V) as (fs & E & L & F & tables & T & RT & H).
  destruct (C50_encode md5 version st calls m n R ltac:(fold e; subst n; lia)) as [Q _]. fold e in Q. specialize (Q C). fold cols in Q. rewrite (E n ltac:(lia)) in Q.
  exists fs. split.
  { unfold encode_stream. destruct (encode_handle md5 version st m e) as [e1 [b res]]. cbn [snd] in Q. inversion Q; subst b res. reflexivity. }
  split; [exact L|]. split; [exact F|]. exists tables. split; [exact T|]. split; [exact RT|]. intros i t Ht. destruct (H i t Ht) as (H1 & _ & HP & H2 & H3). split; [exact H1|]. split; [exact HP|].
  assert (NM : map ci_name cols = map ci_name (ce_infos e)) by (unfold cols; rewrite map_map; reflexivity). split.
  { unfold cols in H2. clear -H2. revert H2. generalize (t_cols t). induction (ce_infos e) as [|ci infos IH]; intros l H2; inversion H2; subst; constructor; auto. }
  intros names ps facs P1 P2 P3. destruct (H3 names ps facs ltac:(now rewrite NM) P2 P3) as (outs & O1 & O2 & O3). exists outs. split; [exact O1|]. split; [exact O2|].
  intros k p f out ci c K1 K2 K3 K4 K5 r Hr.
  assert (Hc : nth_error cols p = Some (described ci)) by (unfold cols; rewrite nth_error_map, K4; reflexivity).
  assert (Hv : nth_error (table_values m e) p = Some (values m e p ci)).
  { unfold table_values. rewrite nth_error_map. assert (Lp : (p < length (ce_infos e))%nat) by (apply nth_error_Some; congruence).
    rewrite (P_Threads.nth_error_combine (seq 0 (length (ce_infos e))) (ce_infos e) p p ci); [reflexivity| |exact K4].
    rewrite (nth_error_nth' _ 0%nat) by (rewrite seq_length; lia). now rewrite seq_nth. }
  assert (Hp : nth_error (piece (Z.to_nat (ce_max e)) i (table_values m e)) p = Some {| cd_size := value_size ci; cd_cells := firstn (Z.to_nat (ce_max e)) (skipn (i * Z.to_nat (ce_max e)) (cd_cells (values m e p ci))) |}).
  { unfold piece. rewrite nth_error_map, Hv. reflexivity. }
  destruct (O3 k p f out _ _ c K1 K2 K3 Hc Hp K5) as (_ & _ & RV & _). cbn [cd_cells described ci_type] in RV.
  assert (Li : (i < count)%nat). { assert (i < length tables)%nat by (apply nth_error_Some; congruence). destruct T as [T _]. unfold count. clear - H0 T L. lia. }
  assert (Bd : (i * Z.to_nat (ce_max e) + r < n)%nat).
  { destruct (C23_pieces n (Z.to_nat (ce_max e)) i (values m e p ci)) as (cc & PC & _ & PL & PM & _); [lia| |lia|exact Li|].
    { unfold values. cbn [cd_cells]. now rewrite map_length, seq_length. }
    cbn [piece map] in PC. inversion PC; subst cc. cbn [cd_cells] in PL. rewrite firstn_length, skipn_length in PL.
    unfold values in PL. cbn [cd_cells] in PL. rewrite map_length, seq_length in PL. unfold rows, count in Hr. fold n in PL. clearbody n.
    destruct (S i <? frame_count n (Z.to_nat (ce_max e)))%nat; lia. }
  assert (Lr : (r < Z.to_nat (ce_max e))%nat).
  { unfold rows in Hr. destruct (Nat.ltb_spec (S i) count) as [Q1|Q1]; [exact Hr|].
    destruct (C23_pieces n (Z.to_nat (ce_max e)) i (values m e p ci)) as (cc & PC & _ & PL & PM & _); [lia| |lia|exact Li|].
    { unfold values. cbn [cd_cells]. now rewrite map_length, seq_length. }
    fold count in PL. rewrite (proj2 (Nat.ltb_ge _ _) Q1) in PL. lia. }
  destruct (RV r) as [_ SV].
  { rewrite firstn_length, skipn_length. unfold values. cbn [cd_cells]. rewrite map_length, seq_length. fold n. lia. }
  rewrite nth_firstn, nth_skipn in SV by lia. unfold values in SV. cbn [cd_cells] in SV. rewrite (nth_map_seq _ _ (i * Z.to_nat (ce_max e) + r)) in SV by (fold n; lia). exact SV.
Qed.
Print Assumptions C50_roundtrip.

(** Encoded and decoded through the C API: every value is found again, in both layouts. *)
Theorem C50_through : forall md5 version st st' calls m, digest md5 -> Forall int_call calls -> let e := reached md5 version st calls in readable e -> configured e ->
  ce_nrows e <= ce_max e -> let n := Z.to_nat (ce_nrows e) in
  valid_table st version n (map described (ce_infos e)) (table_values m e) (ce_props e) ->
  exists file t infos d, snd (encode_stream md5 version st m e) = (file, Ok (len file)) /\ read_table md5 st' 0 file 0 = Ok (Some t) /\
    column_infos [t] = Ok infos /\ map i_name infos = map ci_name (ce_infos e) /\
    Forall2 (fun i ci => 8 <= i_size i <= value_size ci /\ i_size i mod 8 = 0) infos (ce_infos e) /\ defaults_from_frame [t] new_decoder = Ok d /\
    forall major heap tmp nthreads m1, 1 <= nthreads -> temporaries_apart tmp heap infos n ->
      (exists r m2, c_decode nthreads heap tmp file [t] (set_column_major major d) m1 r m2) /\
      forall r m2, c_decode nthreads heap tmp file [t] (set_column_major major d) m1 r m2 ->
        (exists d', r = Ok (d', Z.of_nat n) /\ cd_owned d' = Some heap /\ cd_width d' = row_width infos /\ cd_height d' = Z.of_nat n /\ cd_major d' = major) /\
        forall i row ci info, nth_error (ce_infos e) i = Some ci -> nth_error infos i = Some info -> (row < n)%nat ->
          same_value st st' (ci_type ci)
            (map (fun b => m (value_byte e i row (Z.of_nat b))) (seq 0 (Z.to_nat (value_size ci))))
            (value_in m2 major heap infos n i row (i_size info)).
Proof.
  intros md5 version st st' calls m Hd IC e R C Hm n V. pose proof C as (C1 & C2 & C3 & _).
  destruct (C40_roundtrip st st' LE version md5 n (map described (ce_infos e)) (table_values m e) (ce_props e) Hd V) as (file & t & infos & d & E1 & E2 & E3 & E4 & E5 & E6 & E7).
  { rewrite Forall_map. pose proof (C50_bitfields md5 version st calls IC) as B. fold e in B. eapply Forall_impl; [|exact B]. intros ci [_ Q]. cbn [described ci_bits].
    eapply Forall_impl; [|exact Q]. intros b Hb. cbv beta in Hb. unfold small_size. lia. }
  { destruct R as [R0 _]. fold e in R0. unfold n. rewrite Z2Nat.id by lia. lia. }
  exists file, t, infos, d. destruct (C50_encode md5 version st calls m n R ltac:(fold e; subst n; lia)) as [Q _]. fold e in Q. specialize (Q C).
  assert (QE : encode_api md5 version n st LE (map described (ce_infos e)) (table_values m e) (ce_props e) (Z.to_nat (ce_max e)) = Some (file, Ok tt)).
  { destruct (values_rectangular m e C) as (L1 & L2 & L3). unfold encode_api. rewrite L1, Nat.eqb_refl. destruct (table_values m e) as [|dd data] eqn:ET; [congruence|]. cbn [List.length negb orb Nat.eqb].
    inversion L3 as [|? ? D1 D2]; subst.
    replace (forallb (fun d0 => (length (cd_cells d0) =? length (cd_cells dd))%nat) (dd :: data)) with true.
    2:{ symmetry. apply forallb_forall. intros y Hy. apply Nat.eqb_eq. rewrite Forall_forall in L3. rewrite (L3 y Hy). symmetry. exact D1. }
    cbn [negb]. rewrite D1. assert (NM : (n <=? Z.to_nat (ce_max e))%nat = true) by (apply Nat.leb_le; unfold n; lia). fold n. rewrite NM, E1. reflexivity. }
  rewrite QE in Q. split.
  { unfold encode_stream. destruct (encode_handle md5 version st m e) as [e1 [b res]]. cbn [snd] in Q. inversion Q; subst b res. reflexivity. }
  split; [exact E2|]. split; [exact E3|]. split; [rewrite E4, map_map; reflexivity|]. split; [now apply (proj1 (Forall2_map_r _ described _ _)) in E5|]. split; [exact E6|].
  intros major heap tmp nthreads m1 Hn Ht. destruct (E7 major heap tmp nthreads m1 Hn Ht) as [X1 X2]. split; [exact X1|]. intros r m2 Hr. destruct (X2 r m2 Hr) as [Y Y2]. split; [exact Y|].
  intros i row ci info Hi Hinf Hrow.
  assert (Hv : nth_error (table_values m e) i = Some (values m e i ci)).
  { unfold table_values. rewrite nth_error_map. assert (Lp : (i < length (ce_infos e))%nat) by (apply nth_error_Some; congruence).
    rewrite (P_Threads.nth_error_combine (seq 0 (length (ce_infos e))) (ce_infos e) i i ci); [reflexivity| |exact Hi].
    rewrite (nth_error_nth' _ 0%nat) by (rewrite seq_length; lia). now rewrite seq_nth. }
  specialize (Y2 i row (described ci) (values m e i ci) info ltac:(rewrite nth_error_map, Hi; reflexivity) Hv Hinf Hrow). cbn [described ci_type] in Y2.
  unfold values in Y2. cbn [cd_cells] in Y2. rewrite nth_map_seq in Y2 by (fold n; lia). exact Y2.
Qed.
Print Assumptions C50_through.

(** ** Using an encoder again *)

(** After an array has been encoded, encoding again is refused until an array is given
    again. *)
Theorem C50_again_refuted : forall md5 version st calls m m2, let e := reached md5 version st calls in readable e -> configured e -> ce_array e <> None ->
  let e1 := fst (encode_handle md5 version st m e) in readable e1 ->
  exists x, snd (encode_handle md5 version st m2 e1) = ([], Throw x).
Proof.
  intros md5 version st calls m m2 e R C A e1 R1. pose proof (reached_sound md5 version st calls) as S0. fold e in S0.
  destruct (handle_spec md5 version st m2 e1 (handle_state md5 version st m e S0) R1) as [[C' _]|[_ X]]; [exfalso|exact X].
  unfold e1, encode_handle in C'. pose proof C as (C1 & C2 & C3 & C4). destruct S0 as [S1 S2 _ _ _ _].
  rewrite (proj2 (Z.eqb_neq _ _)) in C' by lia. rewrite S1, Nat.eqb_refl in C'. cbn [negb orb] in C'. rewrite (proj2 (Z.eqb_neq _ _)) in C' by lia.
  destruct (ce_array e) as [base|] eqn:Ea; [|contradiction]. destruct C4 as (C4 & C5 & C6 & C7).
  unfold fill_in in C'. rewrite Ea in C'. rewrite (proj2 (Z.ltb_ge _ _)) in C' by lia.
  assert (W : fold_right Z.add 0 (map ci_size (map default_size (ce_infos e))) = bytes_per_row (ce_infos e)).
  { unfold bytes_per_row, sum. rewrite map_map. f_equal. apply map_ext. intros ci. rewrite default_described. reflexivity. }
  rewrite W in C'. rewrite (proj2 (Z.ltb_ge _ _)) in C' by lia. cbn [fst] in C'.
  destruct C' as (_ & _ & _ & C'). unfold release in C'. cbn [with_cols with_infos ce_array ce_cols] in C'. rewrite Ea in C'. destruct C' as (_ & _ & U & _).
  destruct (fill_array_spec m (ce_major e) (ce_width e) (ce_height e) base (map default_size (ce_infos e)) (ce_cols e) 0 ltac:(rewrite map_length; exact S1)) as (_ & F2 & F3).
  specialize (F3 C6). destruct (F2 (F3 ltac:(eapply Forall_impl; [|apply default_sizes; exact S2]; cbn; tauto) C7)) as (_ & _ & P).
  destruct (ce_infos e) as [|ci infos] eqn:Ei; [congruence|]. specialize (P 0%nat (default_size ci) eq_refl).
  set (fa := fst (fill_array m (ce_major e) (ce_width e) (ce_height e) base 0 (map default_size (ci :: infos)) (ce_cols e))) in *.
  destruct fa as [|c fa]; [discriminate|]. cbn [nth_error] in P. inversion P; subst c. cbn [map] in U. inversion U as [|? ? [U1 _] _]; subst. cbn [ec_data] in U1.
  unfold placed in U1. destruct (ce_major e =? 0); [discriminate|]. cbn [ec_data] in U1. destruct (ci_size (default_size ci) =? ce_major e); discriminate.
Qed.
Print Assumptions C50_again_refuted.

(** Giving an array again makes every column available again; the number of rows is that
    of before, whatever the height of the new array. *)
Theorem C50_reuse : forall e data w h major, ce_array e <> None -> Z.rem major 8 = 0 ->
  let e1 := fst (set_data_array data w h major e) in
  Forall unset (ce_cols e1) /\ ce_array e1 = data /\ ce_width e1 = to_size w /\ ce_height e1 = to_size h /\ ce_major e1 = major /\
  (ce_nrows e <> 0 -> ce_nrows e1 = ce_nrows e) /\ (ce_nrows e = 0 -> ce_nrows e1 = to_size h).
Proof.
  intros e data w h major A M e1. unfold e1, set_data_array. destruct (ce_array e) as [b|]; [|contradiction]. rewrite M, Z.eqb_refl. cbn [fst with_cols ce_cols ce_array ce_width ce_height ce_major ce_nrows].
  split; [rewrite Forall_map; apply Forall_forall; intros; split; reflexivity|]. split; [reflexivity|]. split; [reflexivity|]. split; [reflexivity|]. split; [reflexivity|].
  destruct (Z.eqb_spec (ce_nrows e) 0); split; congruence.
Qed.
Print Assumptions C50_reuse.
