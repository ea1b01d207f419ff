(** C60: arrays of the Fortran interface. *)
From Coq Require Import String.
From Verif Require Import Spec Base Fp Stream StreamProofs Codec Meta Header Encoder Table Strided MemDecode Frame ColumnInfo CDecoder P_CApi P_CApiRoundtrip CEncoder CEncSpec Through P_CEncode P_CEncodeRead
  Fortran FortranSpec P_Fortran.
Open Scope Z_scope.
From Verif Require CsvRows.
Local Notation length := List.length.

Lemma latest_unique {A} (passes : fcall -> option A) d p v v' : latest passes d p v -> latest passes d p v' -> v = v'.
Proof.
  revert v v'. induction p as [|c p IH] using rev_ind; intros v v' H H'.
  - destruct H as [(q & c & r & E & _)|[_ ->]]; [destruct q; discriminate|]. destruct H' as [(q & c & r & E & _)|[_ ->]]; [destruct q; discriminate|reflexivity].
  - assert (K : forall w, latest passes d (p ++ [c]) w -> match passes c with Some x => w = x | None => latest passes d p w end).
    { clear. intros w [(q & c1 & r & E & E1 & F)|[F ->]].
      - destruct r as [|c2 r] using rev_ind.
        + apply app_inj_tail in E as [_ ->]. now rewrite E1.
        + rewrite app_comm_cons, app_assoc in E. apply app_inj_tail in E as [-> ->]. apply Forall_app in F as [F F2]. inversion F2; subst. rewrite H1. left. eauto 6.
      - apply Forall_app in F as [F F2]. inversion F2; subst. rewrite H1. now right. }
    apply K in H, H'. destruct (passes c); [congruence|]. now apply IH.
Qed.

(** ** Encoding from an array *)

(** The calls of a program on encoder [e] since [e] was initialised or given an array. *)
Definition others_e (e : nat) (c : fcall) : Prop := match c with EInit e' | ESetData e' _ _ => e' <> e | _ => True end.

Section Enc.
Variables (md5 : list Z -> list Z) (version : list Z) (st : settings).
Let reached := P_CEncode.reached md5 version st.

Definition set_array (E : cencoder) (base w h major : Z) : Prop := ce_array E = Some base /\ ce_width E = w /\ ce_height E = h /\ ce_major E = major.

Lemma after_array E base w h major c : (match c with SetDataArray _ _ _ _ => False | _ => True end) -> set_array E base w h major -> set_array (after md5 version st E c) base w h major.
Proof.
  intros N (A1 & A2 & A3 & A4). destruct c; cbn [after] in *; try contradiction; try (repeat split; assumption).
  - unfold column_set_data_size, col_at. destruct (0 <=? col); [|repeat split; assumption]. destruct (nth_error (ce_infos E) (Z.to_nat col)); [|repeat split; assumption]. cbn [bind].
    destruct (whole_doubles size); cbn [assert bind kept]; repeat split; assumption.
  - unfold column_set_data_array, col_at. destruct (0 <=? col); [|repeat split; assumption]. destruct (nth_error (ce_infos E) (Z.to_nat col)); [|repeat split; assumption]. cbn [bind].
    destruct (whole_doubles size); cbn [assert bind kept]; [|repeat split; assumption]. destruct (whole_doubles stride); cbn [assert bind kept]; repeat split; assumption.
  - unfold column_add_bitfield, col_at. destruct (0 <=? col); [|repeat split; assumption]. destruct (nth_error (ce_infos E) (Z.to_nat col)); [|repeat split; assumption]. cbn [bind].
    destruct (_ <=? 32); cbn [assert bind kept]; repeat split; assumption.
  - unfold encode_handle. destruct (_ || _ || _); [repeat split; assumption|]. destruct (fill_in m E) as [E1 r] eqn:F. cbn [fst release with_cols].
    assert (K : ce_array E1 = ce_array E /\ ce_width E1 = ce_width E /\ ce_height E1 = ce_height E /\ ce_major E1 = ce_major E).
    { unfold fill_in in F. destruct (ce_array E) eqn:Q; [destruct (_ <? _); [|destruct (_ <? _)]|]; inversion F; subst E1; cbn; repeat split; congruence. }
    destruct K as (K1 & K2 & K3 & K4). repeat split; cbn; congruence.
Qed.

Definition step_e (e : nat) (acc : list CEncoder.call) (c : ccall) : list CEncoder.call :=
  match c with CEncNew e' => if Nat.eqb e e' then [] else acc | CEnc e' x => if Nat.eqb e e' then acc ++ [x] else acc | _ => acc end.

Lemma kept_array e base w h major : forall p s acc, Forall (others_e e) p -> set_array (reached acc) base w h major -> set_array (reached (fold_left (step_e e) (issued s p) acc)) base w h major.
Proof.
  induction p as [|c p IH]; intros s acc F A; [exact A|]. inversion F as [|? ? F1 F2]; subst. cbn [issued]. rewrite fold_left_app. apply IH; [exact F2|].
  assert (K : forall e' x, (match x with SetDataArray _ _ _ _ => False | _ => True end) -> set_array (reached (step_e e acc (CEnc e' x))) base w h major).
  { intros e' x N. cbn [step_e]. destruct (Nat.eqb e e'); [|exact A]. unfold reached, P_CEncode.reached. rewrite fold_left_app. cbn [fold_left]. now apply after_array. }
  destruct c; cbn [issue snd fold_left others_e] in *; try exact A; try (apply K; exact Logic.I).
  - cbn [step_e]. destruct (Nat.eqb_spec e e0); [congruence|exact A].
  - cbn [step_e]. destruct (Nat.eqb_spec e e0); [congruence|exact A].
Qed.

(** After an array has been given, the encoder takes its values from it. *)
Lemma array_given e p0 a cm p1 major : Forall (others_e e) p1 -> latest passes_edata true (p0 ++ [ESetData e a cm]) major ->
  set_array (reached (encoder_calls e (p0 ++ ESetData e a cm :: p1))) (a_base a) (to_size (width a major)) (to_size (height a major)) (if major then 8 else 0).
Proof.
  intros F L. unfold encoder_calls, on_encoder. rewrite issued_app, fold_left_app. cbn [issued]. rewrite fold_left_app. apply kept_array; [exact F|].
  change (fold_left (fun s c => fst (issue s c)) p0 start) with (saved_after p0). cbn [issue snd fold_left]. rewrite Nat.eqb_refl.
  replace (assign cm (edata_major (saved_after p0))) with major.
  2:{ pose proof (latest_snoc passes_edata true p0 _ (ESetData e a cm) (r_edata _ _ (remembered_after p0))) as L'. rewrite (latest_unique _ _ _ _ _ L L'). reflexivity. }
  unfold reached, P_CEncode.reached. rewrite fold_left_app. cbn [fold_left after]. unfold set_data_array.
  replace (Z.rem (if major then 8 else 0) 8 =? 0) with true by (destruct major; reflexivity). repeat split.
Qed.

End Enc.

Lemma before_whole infos i : Forall (fun ci => 0 <= ci_size ci /\ ci_size ci mod 8 = 0) infos -> bytes_before infos i mod 8 = 0 /\ 0 <= bytes_before infos i.
Proof.
  intros F. unfold bytes_before. revert i. induction F as [|ci infos [C1 C2] F IH]; intros [|i]; try (split; reflexivity || lia). cbn [firstn map sum fold_right].
  destruct (IH i) as [I1 I2]. unfold sum in *. assert (V : value_size ci mod 8 = 0 /\ 0 <= value_size ci) by (unfold value_size; destruct (_ =? 0); split; try reflexivity; lia). destruct V as [V1 V2].
  split; [|lia]. rewrite Z.add_mod, V1, I1 by lia. reflexivity.
Qed.

(** Row major and column major layouts of a contiguous array. *)
Lemma double_place a major base w h before row b : contiguous a -> base = a_base a -> w = width a major -> h = height a major -> before mod 8 = 0 ->
  (if major then base + before * h + (b / 8 * h + row) * 8 + b mod 8 else base + row * w + before + b) = double_at a major row (before / 8 + b / 8) + b mod 8.
Proof.
  intros [C1 C2] -> -> -> B. unfold double_at, element, width, height. rewrite C1, C2. pose proof (Z.div_mod before 8 ltac:(lia)) as Q. rewrite B, Z.add_0_r in Q.
  pose proof (Z.div_mod b 8 ltac:(lia)) as Q2. destruct major; [rewrite Q at 1|]; nia.
Qed.

(** What an encoder is given with set_data: the value in row [row] and column [i] is in the
    array's elements of that row, from the one after those of the columns before. *)
Theorem C60_array : forall md5 version st e p0 a cm p1 major m, Forall (others_e e) p1 -> latest passes_edata true (p0 ++ [ESetData e a cm]) major ->
  contiguous a -> 0 <= a_n1 a < 2 ^ 60 -> 0 <= a_n2 a < 2 ^ 60 ->
  let E := reached md5 version st (encoder_calls e (p0 ++ ESetData e a cm :: p1)) in
  forall i row w, map (fun b => m (value_byte E i row (Z.of_nat b))) (seq 0 w) = value_of m a major (Z.of_nat row) (bytes_before (ce_infos E) i / 8) w.
Proof.
  intros md5 version st e p0 a cm p1 major m F L C N1 N2 E i row w. destruct (array_given md5 version st e p0 a cm p1 major F L) as (A1 & A2 & A3 & A4). fold E in A1, A2, A3, A4.
  unfold value_of. apply map_ext. intros b. f_equal. unfold value_byte. rewrite A1. unfold array_byte. rewrite A4, A2, A3.
  assert (B : bytes_before (ce_infos E) i mod 8 = 0) by (apply before_whole; apply (reached_sound md5 version st)).
  assert (S1 : to_size (width a major) = width a major) by (unfold to_size, width; apply Z.mod_small; destruct major; lia).
  assert (S2 : to_size (height a major) = height a major) by (unfold to_size, height; apply Z.mod_small; destruct major; lia).
  rewrite S1, S2. rewrite <- (double_place a major (a_base a) (width a major) (height a major) (bytes_before (ce_infos E) i) (Z.of_nat row) (Z.of_nat b) C eq_refl eq_refl eq_refl B).
  destruct major; cbn [Z.eqb]; reflexivity.
Qed.
Print Assumptions C60_array.

(** ** Decoding into an array *)

Definition others_d (d : nat) (c : fcall) : Prop :=
  match c with
  | DInit d' _ | DDefaults d' _ | DSetRowCount d' _ | DSetData d' _ _ | DAddColumn d' _ | DColumnSetSize d' _ _ | DColumnSetArray d' _ _ _ _ | DDecode d' _ _ => d' <> d
  | _ => True
  end.

Lemma on_decoder_app d l l' : on_decoder d (l ++ l') = on_decoder d l ++ on_decoder d l'.
Proof. unfold on_decoder. now rewrite map_app, concat_app. Qed.
Lemma on_decoder_others d : forall p s, Forall (others_d d) p -> on_decoder d (issued s p) = [].
Proof.
  induction p as [|c p IH]; intros s F; [reflexivity|]. inversion F as [|? ? F1 F2]; subst. cbn [issued]. rewrite on_decoder_app, IH by exact F2. rewrite app_nil_r.
  destruct c; cbn [issue snd others_d] in *; try reflexivity; unfold on_decoder; cbn [map concat app]; destruct (Nat.eqb_spec d d0); congruence || reflexivity.
Qed.

(** initialise, then defaults_from_frame *)
Lemma decoder_ready shows d f q0 cm q1 q2 major : Forall (others_d d) q1 -> Forall (others_d d) q2 -> latest passes_init true (q0 ++ [DInit d cm]) major ->
  forall d0, defaults_from_frame (shows f) new_decoder = Ok d0 ->
  decoder_state shows d (q0 ++ DInit d cm :: q1 ++ DDefaults d f :: q2) = set_column_major major d0.
Proof.
  intros F1 F2 L d0 D. unfold decoder_state. rewrite issued_app, on_decoder_app. cbn [issued]. rewrite on_decoder_app, issued_app, on_decoder_app, (on_decoder_others d q1) by exact F1. cbn [issued app].
  rewrite on_decoder_app, (on_decoder_others d q2) by exact F2. rewrite app_nil_r, !fold_left_app.
  change (fold_left (fun s c => fst (issue s c)) q0 start) with (saved_after q0). cbn [issue snd on_decoder map concat app]. unfold on_decoder. cbn [map concat app]. rewrite !Nat.eqb_refl. cbn [app fold_left decoder_after decoder_call].
  replace (assign cm (init_major (saved_after q0))) with major.
  2:{ pose proof (latest_snoc passes_init true q0 _ (DInit d cm) (r_init _ _ (remembered_after q0))) as L'. rewrite (latest_unique _ _ _ _ _ L L'). reflexivity. }
  unfold decoder_after. cbn [decoder_call].
  unfold defaults_from_frame in *. destruct (column_infos (shows f)) as [infos| |]; cbn [bind] in *; try discriminate. inversion D; subst d0. rewrite !added_all. reflexivity.
Qed.

Lemma sum_whole (infos : list cinfo) cols : Forall2 (fun i ci => 8 <= i_size i <= value_size ci /\ i_size i mod 8 = 0) infos cols ->
  (0 <= row_width infos /\ row_width infos mod 8 = 0) /\ forall i, before infos i mod 8 = 0.
Proof.
  unfold row_width, before. induction 1 as [|x ci infos cols [H H8] F [[I1 I2] I3]]; cbn [map fold_right]; [repeat split; try lia; intros [|?]; reflexivity|]. split; [split; [lia|]|].
  - rewrite Z.add_mod, H8, I2 by lia. reflexivity.
  - intros [|k]; cbn [firstn fold_right]; [reflexivity|]. rewrite Z.add_mod, H8, I3 by lia. reflexivity.
Qed.

(** A table encoded from an array and decoded into an array: the same values in the same
    row, in the layouts asked for. *)
Theorem C60_roundtrip : forall md5 version st st' e p0 a cm p1 major m, digest md5 -> Forall (others_e e) p1 -> latest passes_edata true (p0 ++ [ESetData e a cm]) major ->
  contiguous a -> 0 <= a_n1 a < 2 ^ 60 -> 0 <= a_n2 a < 2 ^ 60 ->
  let calls := encoder_calls e (p0 ++ ESetData e a cm :: p1) in Forall int_call calls ->
  let E := reached md5 version st calls in readable E -> configured E -> ce_nrows E <= ce_max E -> let n := Z.to_nat (ce_nrows E) in
  valid_table st version n (map described (ce_infos E)) (table_values m E) (ce_props E) ->
  exists file t infos, snd (encode_stream md5 version st m E) = (file, Ok (len file)) /\ read_table md5 st' 0 file 0 = Ok (Some t) /\
    column_infos [t] = Ok infos /\ map i_name infos = map ci_name (ce_infos E) /\ Forall2 (fun i ci => 8 <= i_size i <= value_size ci /\ i_size i mod 8 = 0) infos (ce_infos E) /\
    forall shows d f q0 cm2 q1 q2 major2, shows f = [t] -> Forall (others_d d) q1 -> Forall (others_d d) q2 -> latest passes_init true (q0 ++ [DInit d cm2]) major2 ->
    forall heap tmp nthreads m1 r m2, 1 <= nthreads -> temporaries_apart tmp heap infos n ->
      let D := decoder_state shows d (q0 ++ DInit d cm2 :: q1 ++ DDefaults d f :: q2) in
      (exists r' m', c_decode nthreads heap tmp file [t] D m1 r' m') /\
      (c_decode nthreads heap tmp file [t] D m1 r m2 ->
       exists D' A, r = Ok (D', Z.of_nat n) /\ data_array D' = Ok (A, major2) /\ shaped A major2 (Z.of_nat n) (row_width infos / 8) /\ contiguous A /\
        forall i row ci info, nth_error (ce_infos E) i = Some ci -> nth_error infos i = Some info -> (row < n)%nat ->
          same_value st st' (ci_type ci)
            (value_of m a major (Z.of_nat row) (bytes_before (ce_infos E) i / 8) (Z.to_nat (value_size ci)))
            (value_of m2 A major2 (Z.of_nat row) (before infos i / 8) (Z.to_nat (i_size info)))).
Proof.
  intros md5 version st st' e p0 a cm p1 major m Hd F L C N1 N2 calls IC E R CF Hm n V.
  destruct (C50_through md5 version st st' calls m Hd IC R CF Hm V) as (file & t & infos & d0 & E1 & E2 & E3 & E4 & E5 & E6 & E7).
  exists file, t, infos. split; [exact E1|]. split; [exact E2|]. split; [exact E3|]. split; [exact E4|]. split; [exact E5|].
  intros shows d f q0 cm2 q1 q2 major2 Hf F1 F2 L2 heap tmp nthreads m1 r m2 Ht Htmp D.
  assert (DD : D = set_column_major major2 d0) by (unfold D; apply decoder_ready; try assumption; now rewrite Hf).
  rewrite DD. destruct (E7 major2 heap tmp nthreads m1 Ht Htmp) as [X1 X2]. split; [exact X1|]. intros Hr. destruct (X2 r m2 Hr) as [(D' & -> & O1 & O2 & O3 & O4) X3].
  destruct (sum_whole _ _ E5) as [[W W8] WB].
  exists D', (if major2 then {| a_base := heap; a_n1 := Z.of_nat n; a_n2 := row_width infos / 8; a_s1 := 8; a_s2 := 8 * Z.of_nat n |}
              else {| a_base := heap; a_n1 := row_width infos / 8; a_n2 := Z.of_nat n; a_s1 := 8; a_s2 := 8 * (row_width infos / 8) |}).
  split; [reflexivity|]. split.
  { unfold data_array. rewrite O1, O2, O3, O4, Z.quot_div_nonneg by lia. reflexivity. }
  split; [destruct major2; split; reflexivity|]. split; [destruct major2; split; reflexivity|].
  intros i row ci info Hi Hinf Hrow. specialize (X3 i row ci info Hi Hinf Hrow).
  pose proof (C60_array md5 version st e p0 a cm p1 major m F L C N1 N2 i row (Z.to_nat (value_size ci))) as CA. fold calls in CA. fold E in CA, X3. cbv zeta in CA. rewrite CA in X3.
  match goal with |- same_value _ _ _ _ (value_of m2 ?A _ _ _ _) => assert (Q : forall b, value_at major2 heap infos n i row b = double_at A major2 (Z.of_nat row) (before infos i / 8 + b / 8) + b mod 8) end.
  { intros b. match goal with |- _ = double_at ?A _ _ _ + _ => rewrite <- (double_place A major2 heap (row_width infos) (Z.of_nat n) (before infos i) (Z.of_nat row) b) end.
    - unfold value_at. destruct major2; [|reflexivity]. pose proof (Z.div_mod (before infos i) 8 ltac:(lia)) as Q. rewrite WB, Z.add_0_r in Q. nia.
    - destruct major2; split; reflexivity.
    - destruct major2; reflexivity.
    - pose proof (Z.div_mod (row_width infos) 8 ltac:(lia)) as Q. rewrite W8, Z.add_0_r in Q. unfold width. destruct major2; cbn [a_n1 a_n2]; lia.
    - destruct major2; reflexivity.
    - apply WB. }
  unfold value_in in X3. rewrite (map_ext _ _ (fun b => f_equal m2 (Q (Z.of_nat b)))) in X3. exact X3.
Qed.
Print Assumptions C60_roundtrip.

(** When every column is one double, columns are elements. *)
Lemma one_double infos i : Forall (fun ci => value_size ci = 8) infos -> (i <= length infos)%nat -> bytes_before infos i / 8 = Z.of_nat i.
Proof.
  intros F L. assert (Q : bytes_before infos i = 8 * Z.of_nat i).
  { unfold bytes_before. revert i L. induction F as [|ci infos C F IH]; intros [|i] L; try reflexivity; [cbn in L; lia|]. cbn [firstn map sum fold_right]. unfold sum in IH. rewrite IH by (cbn in L; lia). lia. }
  rewrite Q, Z.mul_comm, Z.div_mul; lia.
Qed.
Lemma one_double_infos infos cols i : Forall2 (fun i ci => 8 <= i_size i <= value_size ci /\ i_size i mod 8 = 0) infos cols -> Forall (fun ci => value_size ci = 8) cols -> (i <= length infos)%nat ->
  before infos i / 8 = Z.of_nat i.
Proof.
  intros F G L. assert (Q : before infos i = 8 * Z.of_nat i).
  { unfold before. revert i L. induction F as [|x ci infos cols [H _] F IH]; intros [|i] L; try reflexivity; [cbn in L; lia|]. inversion G; subst. cbn [firstn map fold_right]. rewrite IH by (assumption || (cbn in L; lia)). lia. }
  rewrite Q, Z.mul_comm, Z.div_mul; lia.
Qed.

(** the bytes of element (i, j) *)
Definition element_in (m : mem) (a : array) (i j : Z) : list Z := map (fun b => m (element a i j + Z.of_nat b)) (seq 0 8).
Lemma value_element m a major row k : value_of m a major row k 8 = if major then element_in m a (row + 1) (k + 1) else element_in m a (k + 1) (row + 1).
Proof.
  unfold value_of, element_in, double_at.
  assert (Q : forall b, In b (seq 0 8) -> Z.of_nat b / 8 = 0 /\ Z.of_nat b mod 8 = Z.of_nat b) by (intros b Hb; apply in_seq in Hb; split; [apply Z.div_small|apply Z.mod_small]; lia).
  destruct major; apply map_ext_in; intros b Hb; destruct (Q b Hb) as [-> ->]; now rewrite Z.add_0_r.
Qed.

(** Tables of one double per column: what was in data(r, c) is found in data(r, c), or in
    data(c, r) where the layout is row major. *)
Theorem C60_elements : forall md5 version st st' e p0 a cm p1 major m, digest md5 -> Forall (others_e e) p1 -> latest passes_edata true (p0 ++ [ESetData e a cm]) major ->
  contiguous a -> 0 <= a_n1 a < 2 ^ 60 -> 0 <= a_n2 a < 2 ^ 60 ->
  let calls := encoder_calls e (p0 ++ ESetData e a cm :: p1) in Forall int_call calls ->
  let E := reached md5 version st calls in readable E -> configured E -> ce_nrows E <= ce_max E -> let n := Z.to_nat (ce_nrows E) in
  valid_table st version n (map described (ce_infos E)) (table_values m E) (ce_props E) -> Forall (fun ci => value_size ci = 8) (ce_infos E) ->
  exists file t infos, snd (encode_stream md5 version st m E) = (file, Ok (len file)) /\ read_table md5 st' 0 file 0 = Ok (Some t) /\
    column_infos [t] = Ok infos /\ map i_name infos = map ci_name (ce_infos E) /\
    forall shows d f q0 cm2 q1 q2 major2, shows f = [t] -> Forall (others_d d) q1 -> Forall (others_d d) q2 -> latest passes_init true (q0 ++ [DInit d cm2]) major2 ->
    forall heap tmp nthreads m1 r m2, 1 <= nthreads -> temporaries_apart tmp heap infos n ->
      c_decode nthreads heap tmp file [t] (decoder_state shows d (q0 ++ DInit d cm2 :: q1 ++ DDefaults d f :: q2)) m1 r m2 ->
      exists D' A, r = Ok (D', Z.of_nat n) /\ data_array D' = Ok (A, major2) /\ shaped A major2 (Z.of_nat n) (Z.of_nat (length (ce_infos E))) /\
        forall i j ci, 1 <= i <= Z.of_nat n -> 1 <= j -> nth_error (ce_infos E) (Z.to_nat (j - 1)) = Some ci ->
          same_value st st' (ci_type ci) (if major then element_in m a i j else element_in m a j i) (if major2 then element_in m2 A i j else element_in m2 A j i).
Proof.
  intros md5 version st st' e p0 a cm p1 major m Hd F L C N1 N2 calls IC E R CF Hm n V O.
  destruct (C60_roundtrip md5 version st st' e p0 a cm p1 major m Hd F L C N1 N2 IC R CF Hm V) as (file & t & infos & E1 & E2 & E3 & E4 & E5 & E6).
  exists file, t, infos. fold calls E in E1, E4, E5, E6. split; [exact E1|]. split; [exact E2|]. split; [exact E3|]. split; [exact E4|].
  intros shows d f q0 cm2 q1 q2 major2 Hf F1 F2 L2 heap tmp nthreads m1 r m2 Ht Htmp Hc.
  destruct (E6 shows d f q0 cm2 q1 q2 major2 Hf F1 F2 L2 heap tmp nthreads m1 r m2 Ht Htmp) as [_ X]. destruct (X Hc) as (D' & A & X1 & X2 & X3 & X4 & X5). exists D', A. split; [exact X1|]. split; [exact X2|].
  assert (LI : length infos = length (ce_infos E)) by (eapply TableProofs.Forall2_length; exact E5).
  assert (W : row_width infos / 8 = Z.of_nat (length (ce_infos E))).
  { rewrite <- LI, <- (one_double_infos infos (ce_infos E) (length infos) E5 O (Nat.le_refl _)). unfold before, row_width. rewrite firstn_all2 by (now rewrite map_length). reflexivity. }
  rewrite W in X3. split; [exact X3|]. intros i j ci Hi Hj Hci.
  assert (Lj : (Z.to_nat (j - 1) < length (ce_infos E))%nat) by (apply nth_error_Some; congruence).
  destruct (nth_error infos (Z.to_nat (j - 1))) as [info|] eqn:Hinf; [|apply nth_error_None in Hinf; lia].
  specialize (X5 (Z.to_nat (j - 1)) (Z.to_nat (i - 1)) ci info Hci Hinf ltac:(lia)).
  assert (VS : value_size ci = 8) by (rewrite Forall_forall in O; apply O; eapply nth_error_In; exact Hci).
  assert (IS : i_size info = 8). { assert (Q := CsvRows.Forall2_at _ _ _ _ _ _ E5 Hinf Hci). cbv beta in Q. lia. }
  rewrite (one_double _ (Z.to_nat (j - 1)) O ltac:(lia)), (one_double_infos _ _ (Z.to_nat (j - 1)) E5 O ltac:(lia)), VS, IS in X5. change (Z.to_nat 8) with 8%nat in X5. rewrite !value_element in X5.
  rewrite !Z2Nat.id in X5 by lia. replace (i - 1 + 1) with i in X5 by lia. replace (j - 1 + 1) with j in X5 by lia. exact X5.
Qed.
Print Assumptions C60_elements.
