(** C40: a frame encoded, read and decoded through the C API. *)
From Coq Require Import String.
From Verif Require Import Spec Base Fp Stream StreamProofs StreamLocal Codec Meta Header Encoder Table TableProofs FrameDecode P_Frame P_Decode Strided P_Strided
  MemDecode MemProofs P_Memory Frame ThreadProofs P_Threads ColumnInfo P_ColumnInfo CDecoder CutProofs CApiProofs P_CApi.
Open Scope Z_scope.
Local Notation length := List.length.

Definition plain : dcol := {| dc_data := None; dc_size := 0; dc_stride := 0; dc_transpose := false |}.

Lemma added_all : forall infos d, fold_left (fun d i => add_column (i_name i) d) infos d =
  {| cd_nrows := cd_nrows d; cd_names := cd_names d ++ map i_name infos; cd_cols := cd_cols d ++ map (fun _ => plain) infos; cd_width := cd_width d; cd_height := cd_height d;
     cd_ext := cd_ext d; cd_major := cd_major d; cd_owned := cd_owned d |}.
Proof.
  induction infos as [|i infos IH]; intros d; cbn [fold_left map]; [rewrite !app_nil_r; now destruct d|]. rewrite IH. unfold add_column. cbn [cd_nrows cd_names cd_cols cd_width cd_height cd_ext cd_major cd_owned].
  rewrite <- !app_assoc. reflexivity.
Qed.

(** bytes before column [i] in a row, and in a whole row *)
Definition before (infos : list cinfo) (i : nat) : Z := fold_right Z.add 0 (firstn i (map i_size infos)).
Definition row_width (infos : list cinfo) : Z := fold_right Z.add 0 (map i_size infos).

(** the address of byte [b] of the value in row [r] and column [i] of an array at [base] for [n] rows *)
Definition value_at (major : bool) (base : Z) (infos : list cinfo) (n : nat) (i r : nat) (b : Z) : Z :=
  if major then base + 8 * ((before infos i / 8 + b / 8) * Z.of_nat n + Z.of_nat r) + b mod 8
  else base + Z.of_nat r * row_width infos + before infos i + b.

(** the [w] bytes of the value in memory *)
Definition value_in (m : mem) (major : bool) (base : Z) (infos : list cinfo) (n i r : nat) (w : Z) : list Z :=
  map (fun b => m (value_at major base infos n i r (Z.of_nat b))) (seq 0 (Z.to_nat w)).

(** temporary arrays overlap neither each other nor the array decoded into *)
Definition temporaries_apart (tmp : nat -> Z) (base : Z) (infos : list cinfo) (n : nat) : Prop :=
  (forall i j f f' x, nth_error infos i = Some f -> nth_error infos j = Some f' -> i <> j ->
     tmp i <= x < tmp i + Z.of_nat n * i_size f -> tmp j <= x < tmp j + Z.of_nat n * i_size f' -> False) /\
  (forall i f x, nth_error infos i = Some f -> tmp i <= x < tmp i + Z.of_nat n * i_size f -> base <= x < base + row_width infos * Z.of_nat n -> False).

Lemma sum_plain p (infos : list cinfo) : p plain = true -> forall ws, List.length ws = length infos -> sum_if p (map (fun _ => plain) infos) ws = fold_right Z.add 0 ws.
Proof. intros Hp. induction infos as [|i infos IH]; intros [|w ws] L; try discriminate; [reflexivity|]. cbn [map sum_if fold_right]. rewrite Hp, IH by (cbn in L; lia). reflexivity. Qed.

(** The values given to the encoder are found at their positions, in both layouts, whatever
    the number of threads and their schedule. *)
Theorem C40_roundtrip : forall st st' o version (md5 : list Z -> list Z) n cols data pr,
  (forall l, length (md5 l) = 32%nat) -> valid_table st version n cols data pr ->
  Forall (fun ci => Forall (fun b => small_size (snd b)) (ci_bits ci)) cols -> 0 < Z.of_nat n < 2 ^ 31 ->
  exists frame t infos d, encode_frame md5 version st o cols data pr = Ok frame /\ read_table md5 st' 0 frame 0 = Ok (Some t) /\
    column_infos [t] = Ok infos /\ map i_name infos = map ci_name cols /\ Forall2 (fun i ci => 8 <= i_size i <= ci_size ci /\ i_size i mod 8 = 0) infos cols /\ defaults_from_frame [t] new_decoder = Ok d /\
    forall major heap tmp nthreads m, 1 <= nthreads -> temporaries_apart tmp heap infos n ->
      (exists r m', c_decode nthreads heap tmp frame [t] (set_column_major major d) m r m') /\
      forall r m', c_decode nthreads heap tmp frame [t] (set_column_major major d) m r m' ->
        (exists d', r = Ok (d', Z.of_nat n) /\ cd_owned d' = Some heap /\ cd_width d' = row_width infos /\ cd_height d' = Z.of_nat n /\ cd_major d' = major) /\
        forall i row ci cd info, nth_error cols i = Some ci -> nth_error data i = Some cd -> nth_error infos i = Some info -> (row < n)%nat ->
          same_value st st' (ci_type ci) (nth row (cd_cells cd) []) (value_in m' major heap infos n i row (i_size info)).
Proof.
  intros st st' o version md5 n cols data pr Hmd V HB Hn. destruct (C19_roundtrip st st' o version md5 n cols data pr Hmd V) as (frame & E & R).
  destruct (R [] [] 0 (or_introl eq_refl)) as (t & R1 & _ & _ & _ & Rn & _ & R2 & _ & RD). cbn [app List.length] in R1, RD. rewrite app_nil_r in R1, RD. change (Z.of_nat 0) with 0 in R1.
  assert (CM : forall (f : list (list Z)) (g : list Z) l, List.length f = List.length g -> combine f g = l -> f = map fst l /\ g = map snd l).
  { clear. induction f as [|a f IH]; intros [|b g] l L Q; try discriminate; subst l; [auto|]. cbn [combine map fst snd]. destruct (IH g (combine f g)) as [Q1 Q2]; [cbn in L; lia|reflexivity|].
    rewrite <- Q1, <- Q2. auto. }
  destruct (C41_offsets t []) as (infos & Ei & F).
  { clear -R2 HB CM. induction R2 as [|ci c cols cs (_ & _ & L & C & _) R2 IH]; [constructor|]. inversion HB as [|? ? H1 H2]; subst. constructor; [|exact (IH H2)].
    split; [exact L|]. destruct (CM _ _ _ L C) as [_ ->]. destruct (_ =? _); [|constructor]. rewrite Forall_map. exact H1. }
  assert (SZ : Forall2 (fun c i => i_size i = col_bytes c) (t_cols t) infos /\ Forall2 (fun i ci => i_name i = ci_name ci /\ 8 <= i_size i <= ci_size ci /\ i_size i mod 8 = 0) infos cols).
  { assert (B : Forall (fun ci => 0 <= ci_size ci < 2 ^ 63) cols).
    { pose proof (vt_size _ _ _ _ _ _ V) as Vs. assert (P : Forall (fun ci => 8 <= ci_size ci) cols) by (clear -R2; induction R2 as [|ci c cols cs (_ & _ & _ & _ & W) R2 IH]; constructor; [lia|exact IH]).
      assert (Q : fold_right Z.add 0 (map ci_size cols) < 2 ^ 63) by nia. clear -P Q. revert Q. induction P as [|ci cols H P IH]; intros Q; constructor; cbn [map fold_right] in Q.
      - assert (0 <= fold_right Z.add 0 (map ci_size cols)) by (clear -P; induction P; cbn [map fold_right]; lia). lia.
      - apply IH. lia. }
    clear -R2 F B. revert infos F. induction R2 as [|ci c cols cs (A1 & A2 & L & C & W) R2 IH]; intros infos F; inversion F as [|? i ? is' (B1 & B2 & B3 & _) F']; subst; [split; constructor|].
    inversion B as [|? ? Bc B']; subst. destruct (IH B' _ F') as [Q1 Q2]. assert (Es : i_size i = col_bytes c) by (unfold col_bytes in *; rewrite B3; apply Z.mod_small; lia).
    split; constructor; auto. split; [congruence|]. split; [lia|]. rewrite Es. unfold col_bytes. rewrite Z.mul_comm. apply Z.mod_mul. lia. }
  destruct SZ as [SZ1 SZ2].
  assert (Names : map i_name infos = map ci_name cols) by (clear -SZ2; induction SZ2 as [|i ci l l' (A & _) S IH]; cbn [map]; congruence).
  exists frame, t, infos, {| cd_nrows := Z.of_nat n; cd_names := map i_name infos; cd_cols := map (fun _ => plain) infos; cd_width := 0; cd_height := 0; cd_ext := None; cd_major := false; cd_owned := None |}.
  split; [exact E|]. split; [exact R1|]. split; [exact Ei|]. split; [exact Names|]. split; [clear -SZ2; induction SZ2 as [|i ci l l' (_ & A) S IH]; constructor; auto|].
  assert (FR : frame_rows [t] = Z.of_nat n) by (unfold frame_rows; cbn [fold_right]; lia).
  split. { unfold defaults_from_frame. rewrite Ei. cbn [bind]. rewrite added_all, FR. reflexivity. }
  intros major heap tmp nthreads m Hth [TA1 TA2]. set (d := set_column_major major _). set (ws := map i_size infos).
  assert (Lw : List.length ws = List.length (map (fun _ : cinfo => plain) infos)) by (unfold ws; now rewrite !map_length).
  assert (Need : needed (cd_cols d) ws = row_width infos).
  { unfold needed. cbn [d set_column_major cd_cols]. rewrite sum_plain; [reflexivity|reflexivity|unfold ws; now rewrite map_length]. }
  assert (Cnt : counted (cd_cols d) ws = row_width infos).
  { unfold counted. cbn [d set_column_major cd_cols]. rewrite sum_plain; [reflexivity|reflexivity|unfold ws; now rewrite map_length]. }
  assert (Wd : array_width d ws = row_width infos) by (unfold array_width; cbn [d set_column_major cd_ext]; exact Cnt).
  assert (AC : forall i c w, at_col d ws i c w -> exists f, c = plain /\ nth_error infos i = Some f /\ w = i_size f /\ 8 <= w /\ w mod 8 = 0).
  { intros i c w [A B]. cbn [d set_column_major cd_cols] in A. rewrite nth_error_map in A. unfold ws in B. rewrite nth_error_map in B. destruct (nth_error infos i) as [f|] eqn:Ef; [|discriminate]. exists f. cbn in A, B.
    pose proof (Forall2_nth_error _ _ _ i SZ2) as Q. rewrite Ef in Q. destruct (nth_error cols i); [|contradiction]. destruct Q as (_ & Q1 & Q2). injection A as <-. injection B as <-. split; [reflexivity|]. split; [reflexivity|]. split; [reflexivity|]. split; [lia|exact Q2]. }
  assert (Pos : Forall (fun w => 0 < w) ws).
  { unfold ws. rewrite Forall_map. clear -SZ2. induction SZ2 as [|i ci l l' (_ & A & _) S IH]; constructor; [lia|exact IH]. }
  assert (RW : 0 < row_width infos < 2 ^ 64).
  { pose proof (vt_size _ _ _ _ _ _ V) as Vs. pose proof (vt_some _ _ _ _ _ _ V) as Vn.
    assert (0 <= fold_right Z.add 0 (map ci_size cols)) by (clear -SZ2; induction SZ2 as [|i ci l l' (_ & A & _) S IH]; cbn [map fold_right]; lia).
    assert (row_width infos <= fold_right Z.add 0 (map ci_size cols)).
    { unfold row_width. clear -SZ2. induction SZ2 as [|i ci l l' (_ & A & _) S IH]; cbn [map fold_right]; lia. }
    split; [|nia]. unfold row_width. fold ws. destruct ws as [|w l] eqn:Ew; [|]. 
    - destruct infos; [|discriminate Ew]. inversion SZ2; subst; congruence.
    - inversion Pos; subst. cbn [fold_right]. assert (0 <= fold_right Z.add 0 l) by (clear -H4; induction H4; cbn [fold_right]; lia). lia. }
  assert (Sv : servable heap tmp [t] d infos ws).
  { constructor.
    - exact Ei.
    - rewrite Names. apply (vt_names _ _ _ _ _ _ V).
    - cbn [d set_column_major cd_names cd_cols]. unfold ws. now rewrite !map_length.
    - cbn [d set_column_major cd_names]. now rewrite map_length.
    - intros i nm c w Hnm At. destruct (AC i c w At) as (f & -> & Hf & -> & H8 & Hm). split; [|lia]. cbn [d set_column_major cd_names] in Hnm. rewrite nth_error_map, Hf in Hnm. cbn in Hnm. injection Hnm as <-.
      apply (sz_frame _ _ _ f); [reflexivity|reflexivity|eapply nth_error_In; exact Hf|reflexivity|lia|exact Hm].
    - cbn [d set_column_major cd_cols]. rewrite Forall_map. apply Forall_forall. reflexivity.
    - constructor; [lia|constructor].
    - rewrite FR. cbn [d set_column_major cd_nrows]. lia.
    - rewrite Cnt. lia.
    - left. rewrite Cnt. lia.
    - rewrite Need, Cnt, Wd. lia.
    - unfold array_height. cbn [d set_column_major cd_ext]. lia.
    - intros i c w At Sh. destruct (AC i c w At) as (f & -> & _). discriminate.
    - intros i c w At _ _. destruct (AC i c w At) as (f & -> & Hf & -> & H8 & Hm). split; [exact Hm|]. intros _. reflexivity.
    - intros i j c c' w w' x At _ _ (a & r & b & Q & _). destruct (AC i c w At) as (f & -> & _). discriminate.
    - intros i c w x At (a & r & b & Q & _). destruct (AC i c w At) as (f & -> & _). discriminate.
    - intros i j c c' w w' x At _ (a & r & b & Q & _). destruct (AC i c w At) as (f & -> & _). discriminate.
    - intros i j c c' w w' x At At' N (_ & _ & _ & X) (_ & _ & _ & X'). destruct (AC i c w At) as (f & -> & Hf & -> & _). destruct (AC j c' w' At') as (f' & -> & Hf' & -> & _).
      rewrite FR in X, X'. exact (TA1 i j f f' x Hf Hf' N X X').
    - intros i c w x At (_ & _ & _ & X) Y. destruct (AC i c w At) as (f & -> & Hf & -> & _). rewrite FR in X. unfold shared_array in Y. rewrite Wd in Y.
      exact (TA2 i f x Hf X Y). }
  (* decoding by the C++ API *)
  assert (ND : NoDup (map ci_name cols)) by apply (vt_names _ _ _ _ _ _ V).
  assert (SE : Forall2 (fun nm p => select (map ci_name cols) nm = Some p) (map i_name infos) (seq 0 (length infos))).
  { rewrite Names. assert (Li : length infos = length cols) by (apply (Forall2_length _ _ _ SZ2)). rewrite Li. apply Forall2_nth; [now rewrite map_length, seq_length|].
    intros k nm p Hk Hp. apply C22_select; [exact ND|]. left. assert (k < length cols)%nat by (apply nth_error_lt in Hp; now rewrite seq_length in Hp).
    rewrite (nth_error_nth' _ 0%nat) in Hp by (rewrite seq_length; lia). injection Hp as <-. rewrite seq_nth by lia. exact Hk. }
  assert (CH : forall facs, arrays_for ws (t_rows t) facs -> Forall2 (fun p f => forall c, nth_error (t_cols t) p = Some c -> can_hold n (col_bytes c) f) (seq 0 (length infos)) facs).
  { intros facs Fa. apply Forall2_nth; [rewrite seq_length; rewrite <- (Forall2_length _ _ _ Fa); unfold ws; now rewrite map_length|]. intros k p f Hp Hf c Hc.
    assert (k < length infos)%nat by (apply nth_error_lt in Hp; now rewrite seq_length in Hp). rewrite (nth_error_nth' _ 0%nat) in Hp by (rewrite seq_length; lia). injection Hp as <-. rewrite seq_nth in Hc by lia. cbn [Nat.add] in Hc.
    pose proof (Forall2_nth_error _ _ _ k Fa) as Q. rewrite Hf in Q. unfold ws in Q. rewrite nth_error_map in Q. destruct (nth_error infos k) as [inf|] eqn:Ek; cbn [option_map] in Q; [|contradiction].
    pose proof (Forall2_nth_error _ _ _ k SZ1) as Q'. rewrite Ek, Hc in Q'. destruct Q as (Q1 & Q2 & Q3). split; [lia|]. split; [lia|]. eapply Forall_impl; [|exact Q3]. cbn beta. intros e He.
    assert (0 <= i_size inf) by (pose proof (Forall2_nth_error _ _ _ k SZ2) as Q4; rewrite Ek in Q4; destruct (nth_error cols k); [|contradiction]; lia). lia. }
  assert (De : all_decodable frame (cd_names d) ws [t]).
  { intros t' facs [<-|[]] Fa. destruct (RD (cd_names d) (seq 0 (length infos)) facs SE (seq_NoDup _ _) (CH facs Fa)) as (outs & Q & _). rewrite Q. reflexivity. }
  destruct (C40_decode nthreads heap tmp frame [t] d infos ws m Sv De Hth) as (d1 & (m0 & X0) & Rep & All). rewrite FR in *.
  split; [exists (Ok (d1, Z.of_nat n)), m0; exact X0|].
  intros r m' Hrun. destruct (All r m' Hrun) as (Er & Dec & _). split.
  { exists d1. split; [exact Er|]. destruct (Rep ltac:(rewrite Cnt; lia)) as (P1 & P2 & P3 & P4). rewrite Wd in P1. split; [|auto].
    destruct (filled_in heap tmp [t] d infos ws Sv) as (d2 & FI & _). destruct (done_prepared nthreads heap tmp frame [t] d m d1 (Z.of_nat n) m' ltac:(rewrite Er in Hrun; exact Hrun)) as (a & PD).
    unfold prepare_decode in PD. do 3 apply bind_ok in PD as (? & ? & PD). apply bind_ok in PD as (d3 & FI3 & PD). apply bind_ok in PD as (arrs & _ & PD). assert (d3 = d1) by congruence. subst d3.
    unfold fill_in in FI3. rewrite Ei in FI3. cbn [bind] in FI3. apply bind_ok in FI3 as ((cs & wd) & FS & FI3). cbn [d set_column_major cd_nrows cd_ext] in FI3.
    replace (Z.of_nat n =? 0) with false in FI3 by (symmetry; apply Z.eqb_neq; lia). cbn [cd_nrows] in FI3. replace (Z.of_nat n =? 0) with false in FI3 by (symmetry; apply Z.eqb_neq; lia). rewrite orb_false_r in FI3.
    assert (wd = row_width infos).
    { rewrite (fill_sizes_ok infos (sv_unique _ _ _ _ _ _ Sv) (cd_cols d) (cd_names d) ws 0) in FS; [rewrite Z.add_0_l, Cnt in FS; congruence|apply (sv_lengths _ _ _ _ _ _ Sv)|apply (sv_lengths _ _ _ _ _ _ Sv)|exact Pos| |lia|rewrite Cnt; lia].
      intros i nm c w A B C. exact (proj1 (sv_sizes _ _ _ _ _ _ Sv i nm c w A (conj B C))). }
    subst wd. replace (row_width infos =? 0) with false in FI3 by (symmetry; apply Z.eqb_neq; lia). cbn [orb] in FI3. injection FI3 as FI3'. rewrite <- FI3'. reflexivity. }
  intros i row ci cd info Hci Hcd Hinfo Hrow. destruct (Dec 0%nat t eq_refl) as (facs & outs & Fa & Dt & Pl).
  assert (At : at_col d ws i plain (i_size info)) by (split; [cbn [d set_column_major cd_cols]; now rewrite nth_error_map, Hinfo|unfold ws; now rewrite nth_error_map, Hinfo]).
  destruct (Pl i plain (i_size info) At) as (f & Hf & Fs & Fl & Fb).
  destruct (RD (cd_names d) (seq 0 (length infos)) facs SE (seq_NoDup _ _) (CH facs Fa)) as (outs' & Q & Lo & Rec). rewrite Q in Dt. injection Dt as <-.
  rewrite nth_error_map in Hf. destruct (nth_error outs' i) as [out|] eqn:Eo; [|discriminate]. cbn in Hf. injection Hf as ->.
  destruct (nth_error (t_cols t) i) as [c|] eqn:Ec; [|exfalso; pose proof (Forall2_nth_error _ _ _ i SZ1) as Q'; rewrite Ec, Hinfo in Q'; exact Q'].
  assert (Hp : nth_error (seq 0 (length infos)) i = Some i) by (rewrite (nth_error_nth' _ 0%nat) by (rewrite seq_length; eapply nth_error_lt; exact Hinfo); rewrite seq_nth by (eapply nth_error_lt; exact Hinfo); reflexivity).
  pose proof (Forall2_nth_error _ _ _ i Fa) as Q1. destruct (nth_error facs i) as [f0|] eqn:Ef0; [|unfold ws in Q1; rewrite nth_error_map, Hinfo in Q1; contradiction].
  destruct (Rec i i f0 f ci cd c Hp Ef0 Eo Hci Hcd Ec) as (G1 & G2 & G3 & _). pose proof (Forall2_nth_error _ _ _ i SZ1) as Q2. rewrite Ec, Hinfo in Q2.
  assert (Lr : (row < length (cd_cells cd))%nat).
  { pose proof (vt_data _ _ _ _ _ _ V) as Vd. pose proof (Forall2_nth_error _ _ _ i Vd) as Q3. rewrite Hci, Hcd in Q3. destruct Q3 as (_ & Q3 & _). lia. }
  destruct (G3 row Lr) as [K1 K2]. rewrite <- Q2 in K2.
  replace (value_in m' major heap infos n i row (i_size info)) with (firstn (Z.to_nat (i_size info)) (nth row (f_elems f) [])); [exact K2|].
  assert (Lf : f_size f0 = i_size info) by (unfold ws in Q1; rewrite nth_error_map, Hinfo in Q1; cbn in Q1; tauto).
  rewrite firstn_all2 by lia. unfold value_in. apply (nth_ext_list _ _ 0); [rewrite map_length, seq_length; lia|]. intros b Hb.
  assert (NM : forall (f : nat -> Z) w b, (b < w)%nat -> nth b (map f (seq 0 w)) 0 = f b).
  { clear. intros f w b H. rewrite (nth_indep _ 0 (f 0%nat)) by (rewrite map_length, seq_length; lia). rewrite map_nth, seq_nth by lia. reflexivity. }
  rewrite (NM (fun b => m' (value_at major heap infos n i row (Z.of_nat b)))) by lia.
  specialize (Fb (Z.of_nat row) (Z.of_nat b) ltac:(lia) ltac:(lia)). rewrite !Nat2Z.id in Fb. rewrite <- Fb. f_equal. unfold rows_before, position, value_at. cbn [firstn total_rows plain dc_data].
  rewrite Z.add_0_l. unfold array_height, array_at. cbn [d set_column_major cd_major cd_ext cd_nrows cd_cols]. rewrite Wd.
  assert (Off : offset (map (fun _ : cinfo => plain) infos) ws i = before infos i).
  { unfold offset, needed, before. rewrite firstn_map. rewrite sum_plain; [reflexivity|reflexivity|]. unfold ws. rewrite !firstn_length, map_length. lia. }
  fold ws. rewrite Off. reflexivity.
Qed.
Print Assumptions C40_roundtrip.
