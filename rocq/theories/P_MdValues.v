(** C54: what a reader finds in the columns after "odc mdset". *)
From Coq Require Import String.
From Verif Require Import Spec Base Fp Stream StreamProofs StreamLocal Codec Meta Header Encoder Table Reader ReadSpec
  ColumnProofs HeaderProofs HeaderSize TableProofs LookupProofs FrameProofs FrameDecode Roundtrip P_Frame ReaderProofs P_Reader P_Tables Through MdDecode MdValues MdProofs P_MdSet.
From Verif Require Import MdSpec.
Open Scope Z_scope.
Local Notation length := List.length.

Lemma after_same chs c c' : column_after chs c c' -> said ch_value chs (col_name c) = None -> said ch_type chs (col_name c) = None ->
  same_decode (col_coder c) (col_coder c').
Proof.
  intros [C1 C2 C3 C4 C5 C6 C7 C8 C9 C10 C11 C12 C13] V T. rewrite V in C6. cbn [or_else] in C6.
  split; [exact C5|]. split; [exact C11|]. split; [exact (C13 T)|]. split; [exact C12|]. split; [exact C6|]. split; [exact C9|exact C10].
Qed.

Lemma after_valued chs c c' v : column_after chs c c' -> said ch_value chs (col_name c) = Some v -> said ch_type chs (col_name c) = None ->
  valued (col_coder c) v (col_coder c').
Proof.
  intros [C1 C2 C3 C4 C5 C6 C7 C8 C9 C10 C11 C12 C13] V T. rewrite V in C6. cbn [or_else] in C6. split; auto.
Qed.

Lemma before_at_called nm full : bytes_eqb nm (before_at full) = true -> calls nm full = true.
Proof.
  intros E. apply bytes_eqb_eq in E. revert full E. induction nm as [|a nm IH]; intros [|b full] E; cbn in *; try discriminate; auto.
  - destruct (b =? 64) eqn:Eb; [reflexivity|discriminate].
  - destruct (b =? 64); [discriminate|]. injection E as -> E. rewrite Z.eqb_refl. cbn. now apply IH.
Qed.

Lemma calls_self nm : calls nm nm = true.
Proof. induction nm as [|a nm IH]; cbn; [reflexivity|]. now rewrite Z.eqb_refl, IH. Qed.

Lemma select_calls cs nm p c : select (names_of cs) nm = Some p -> nth_error cs p = Some c -> calls nm (col_name c) = true.
Proof.
  intros E Hc. unfold select in E. assert (Hn : nth_error (names_of cs) p = Some (col_name c)) by (unfold names_of; now rewrite nth_error_map, Hc).
  destruct (first_pos (bytes_eqb nm) (names_of cs)) eqn:E1.
  - injection E as ->. apply first_pos_some in E1 as (x & Hx & Q & _). rewrite Hn in Hx. injection Hx as <-.
    apply bytes_eqb_eq in Q. subst nm. apply calls_self.
  - apply first_pos_some in E as (x & Hx & Q & _). rewrite Hn in Hx. injection Hx as <-. now apply before_at_called.
Qed.

Lemma bodies chs f t f' t' : frame_after chs f t f' t' -> body_of f' t' = body_of f t.
Proof. intros [_ _ _ _ D _]. exact D. Qed.

(** Columns about which nothing is said are read as before, wherever the two frames stand. *)
Theorem C54_untouched : forall md5 st chs f t f' t' pre post pre' post' names facs,
  frame md5 st f t -> frame md5 st f' t' -> frame_after chs f t f' t' ->
  (forall nm c, In nm names -> In c (t_cols t) -> calls nm (col_name c) = true ->
     said ch_value chs (col_name c) = None /\ said ch_type chs (col_name c) = None) ->
  decode_target (pre' ++ f' ++ post') (moved (Z.of_nat (length pre')) t') names facs =
  decode_target (pre ++ f ++ post) (moved (Z.of_nat (length pre)) t) names facs.
Proof.
  intros md5 st chs f t f' t' pre post pre' post' names facs F F' A H. apply decode_target_same.
  - apply A.
  - destruct (frame_body md5 st f t pre post F) as [-> _]. destruct (frame_body md5 st f' t' pre' post' F') as [-> _].
    now rewrite (bodies _ _ _ _ _ A).
  - cbn [moved t_cols]. eapply Forall2_weaken; [|apply A]. intros c c' C. split; [apply C|]. split; apply C.
  - cbn [moved t_cols]. intros nm p c c' Hin Es Hc Hc'. pose proof (select_calls _ _ _ _ Es Hc) as Ca.
    destruct (H nm c Hin (nth_error_In _ _ Hc) Ca) as [V T]. eapply after_same; eauto.
    destruct (Forall2_get _ _ _ _ _ (fa_cols _ _ _ _ _ A) Hc) as (x & Hx & Cx). rewrite Hx in Hc'. injection Hc' as <-. exact Cx.
Qed.
Print Assumptions C54_untouched.

(** ** The values given *)

Section Values.
Variables (st st' : settings) (o : order) (version : list Z) (md5 : list Z -> list Z).
Hypothesis Hmd : forall l, length (md5 l) = 32%nat.

(** [frame_reads] with the rows in sight *)
Lemma frame_rows nrows its pr f t : frame_ok st st' o version nrows its pr ->
  encode_frame md5 version st o (map i_ci its) (map i_data its) pr = Ok f -> frame md5 st' f t ->
  exists body, encode_rows (map i_k its) None (map (row_at (map i_cells its)) (seq 0 nrows)) = Ok body /\
    body_of f t = body /\ t_cols t = map read_column its /\ t_rows t = Z.of_nat nrows.
Proof using Hmd.
  intros H E F. destruct (frame_encodes_rows st st' o md5 Hmd version nrows its pr H) as (hdr & body & (Er & _) & E' & Lb & RS & R).
  assert (f = hdr ++ body) by congruence. subst f. exists body. split; [exact Er|].
  destruct (R []) as (s & R1 & R2). rewrite app_nil_r in R1, R2.
  assert (HB : Z.of_nat nrows < 2 ^ 63) by apply H. destruct F as [F1 F2].
  unfold read_table, from in F1. cbn [Z.to_nat skipn] in F1. rewrite R1 in F1. cbn [bind] in F1. rewrite R2 in F1.
  cbn [bind h_dataSize h_order h_props h_cols h_rows] in F1.
  rewrite andb_false_r in F1. match type of F1 with Ok (Some ?x) = _ => assert (Et : t = x) by congruence end.
  clear F1. rewrite Et. cbn [t_cols t_rows]. split; [|split; [reflexivity|rewrite Z.mod_small; lia]].
  unfold body_of. cbn [t_data]. rewrite app_length.
  replace (Z.to_nat (Z.of_nat (length hdr + length body) - Z.of_nat (length body))) with (length hdr) by lia.
  now apply skipn_app_exact.
Qed.

Lemma new_items chs its : forall cs',
  Forall (item_ok st st' o) its -> Forall (fun it => storable st (i_ci it) (i_cells it)) its ->
  Forall (fun it => Forall2 (same_value st st' (ci_type (i_ci it))) (i_cells it) (i_outs it)) its ->
  Forall2 (column_after chs) (map read_column its) cs' ->
  (forall it, In it its -> said ch_type chs (ci_name (i_ci it)) = None) ->
  (forall it v, In it its -> said ch_value chs (ci_name (i_ci it)) = Some v ->
     constant_kind (c_kind (i_k' it)) /\ value_for (ci_type (i_ci it)) v) ->
  exists its2, Forall2 (fun it it2 => i_ci it2 = i_ci it /\ i_k it2 = i_k it /\ i_cells it2 = i_cells it /\ item_rt it2 /\
      data_size_doubles (i_k' it2) = data_size_doubles (i_k' it) /\
      Forall2 (cell_now st st' chs (ci_name (i_ci it)) (ci_type (i_ci it)) (c_kind (i_k' it))) (i_cells it) (i_outs it2)) its its2 /\
    map i_k' its2 = map col_coder cs' /\ map (fun it => ci_name (i_ci it)) its2 = map col_name cs'.
Proof.
  induction its as [|it its IH]; intros cs' I S0 SV F T V; inversion F as [|? c' ? cs Hc F']; subst.
  - exists []. repeat split; constructor.
  - inversion I as [|? ? (I1 & I2 & I3 & I4) I']; inversion S0 as [|? ? S1 S']; inversion SV as [|? ? V1 V']; subst.
    destruct (IH cs I' S' V' F') as (its2 & G & Gk & Gn); [intros; apply T; now right|intros; apply V; [now right|assumption]|].
    assert (Hn : col_name (read_column it) = ci_name (i_ci it)) by reflexivity.
    assert (Hk : col_coder (read_column it) = i_k' it) by reflexivity.
    pose proof (T it (or_introl eq_refl)) as Tn.
    assert (X : exists outs2, Forall2 (cell_rt (i_k it) (col_coder c') (ci_size (i_ci it))) (i_cells it) outs2 /\
       Forall2 (cell_now st st' chs (ci_name (i_ci it)) (ci_type (i_ci it)) (c_kind (i_k' it))) (i_cells it) outs2).
    { unfold cell_now. destruct (said ch_value chs (ci_name (i_ci it))) as [v|] eqn:Ev.
      - destruct (V it v (or_introl eq_refl) Ev) as [K Vf].
        eapply item_value; try eassumption. rewrite <- Hk. eapply after_valued; eassumption.
      - exists (i_outs it). split; [|exact V1]. pose proof (after_same _ _ _ Hc Ev Tn) as SD. rewrite Hk in SD.
        eapply Forall2_weaken; [|exact I3]. intros a b (x & X1 & X2 & X3). exists x. split; [exact X1|]. split; [exact X2|].
        intros rest. now rewrite (decode_same _ _ _ SD). }
    destruct X as (outs2 & X1 & X2).
    exists ({| i_ci := i_ci it; i_k := i_k it; i_k' := col_coder c'; i_cells := i_cells it; i_outs := outs2 |} :: its2).
    split; [|split; cbn [map i_k' i_ci]; [now rewrite Gk|]].
    + constructor; [|exact G]. cbn [i_ci i_k i_cells i_outs i_k']. split; [reflexivity|]. split; [reflexivity|]. split; [reflexivity|].
      split; [exact X1|]. split; [|exact X2]. unfold data_size_doubles. rewrite <- Hk.
      rewrite (ca_kind _ _ _ Hc), (ca_width _ _ _ Hc). reflexivity.
    + rewrite Gn. f_equal. rewrite <- Hn. symmetry. apply Hc.
Qed.
End Values.

Lemma rt_width it : item_rt it -> 1 <= data_size_doubles (i_k' it) -> 8 * data_size_doubles (i_k' it) < 2 ^ 31 ->
  Forall (fun v => Z.of_nat (length v) = 8 * data_size_doubles (i_k' it)) (i_outs it).
Proof.
  intros F H1 H2. unfold item_rt in F. induction F as [|a b la lb (x & _ & _ & Dx) F IH]; constructor; [|exact IH].
  eapply decode_width; [| |apply (Dx [])]; lia.
Qed.

(** A frame that the encoder wrote, after "odc mdset" (with any settings [st']): its cells, in the columns
    that were given a value and in the others. *)
Theorem C54_values : forall st st' o version md5 n cols data pr chs f t f' t' pre post names ps facs,
  digest md5 -> valid_table st version n cols data pr -> encode_frame md5 version st o cols data pr = Ok f ->
  frame md5 st' f t -> frame md5 st' f' t' -> frame_after chs f t f' t' ->
  (forall c, In c (t_cols t) -> said ch_type chs (col_name c) = None) ->
  (forall c v, In c (t_cols t) -> said ch_value chs (col_name c) = Some v ->
     constant_kind (c_kind (col_coder c)) /\ value_for (col_type c) v) ->
  Forall2 (fun nm p => select (map ci_name cols) nm = Some p) names ps -> NoDup ps ->
  Forall2 (fun p f => forall c, nth_error (t_cols t) p = Some c -> can_hold n (col_bytes c) f) ps facs ->
  exists outs, decode_target (pre ++ f' ++ post) (moved (Z.of_nat (length pre)) t') names facs = Ok (map Some outs) /\
    length outs = length names /\
    forall k p fac out ci d c,
      nth_error ps k = Some p -> nth_error facs k = Some fac -> nth_error outs k = Some out ->
      nth_error cols p = Some ci -> nth_error data p = Some d -> nth_error (t_cols t) p = Some c ->
      received_as (cell_now st st' chs (ci_name ci) (ci_type ci) (c_kind (col_coder c))) (col_bytes c) (cd_cells d) fac out.
Proof.
  intros st st' o version md5 n cols data pr chs f t f' t' pre post names ps facs Hmd V Ef Ft Ft' A NT VV HF HN HT.
  pose proof V as [V1 V2 V3 V4 V5 V6 V8 V7].
  destruct (items_of st st' o n cols data V1) as (its & I1 & I2 & I3 & I4 & I5).
  assert (Hn : Z.of_nat n < 2 ^ 63).
  { assert (0 <= fold_right Z.add 0 (map ci_size cols)); [|nia].
    rewrite <- I1. clear -I3. induction its as [|it its IH]; cbn; [lia|].
    inversion I3 as [|? ? (_ & _ & _ & D) I3']; subst. specialize (IH I3'). lia. }
  pose proof (vt_frame_ok st st' o version n its data pr cols I1 I2 I3 I4 V Hn) as FO.
  rewrite <- I1, <- I2 in Ef.
  destruct (frame_rows st st' o version md5 Hmd n its pr f t FO Ef Ft) as (body & Er & Eb & Ec & Rt).
  assert (S0 : Forall (fun it => storable st (i_ci it) (i_cells it)) its).
  { rewrite <- I1, <- I2 in V1. clear -V1. induction its as [|it its IH]; constructor; cbn [map] in V1; inversion V1 as [|? ? ? ? (_ & _ & S1) V1']; subst; auto. }
  destruct (new_items st st' o chs its (t_cols t') I3 S0 I5) as (its2 & G & Gk & Gn).
  { rewrite <- Ec. apply A. }
  { intros it Hin. apply (NT (read_column it)). rewrite Ec. now apply in_map. }
  { intros it v Hin. apply (VV (read_column it)). rewrite Ec. now apply in_map. }
  assert (R2 : Forall item_rt its2).
  { clear -G. induction G as [|a b la lb (_ & _ & _ & H & _) G IH]; constructor; auto. }
  assert (L2 : Forall (fun it => length (i_cells it) = n) its2).
  { clear -G I4. induction G as [|a b la lb (_ & _ & E & _) G IH]; constructor; inversion I4; subst; [now rewrite E|auto]. }
  assert (Ek : map i_k its2 = map i_k its).
  { clear -G. induction G as [|a b la lb (_ & E & _) G IH]; cbn [map]; [reflexivity|]. now rewrite E, IH. }
  assert (Ecs : map i_cells its2 = map i_cells its).
  { clear -G. induction G as [|a b la lb (_ & _ & E & _) G IH]; cbn [map]; [reflexivity|]. now rewrite E, IH. }
  assert (Eci : map (fun it => ci_name (i_ci it)) its2 = map (fun it => ci_name (i_ci it)) its).
  { clear -G. induction G as [|a b la lb (E & _) G IH]; cbn [map]; [reflexivity|]. now rewrite E, IH. }
  assert (Ll : length its2 = length its) by (symmetry; eapply Forall2_length; exact G).
  destruct (encode_rows_ok its2 n R2 L2 ltac:(rewrite Ll; apply FO) n 0 eq_refl) as (body2 & Er2 & _ & RS).
  rewrite Ek, Ecs in Er2. assert (body2 = body) by congruence. subst body2.
  set (file := pre ++ f' ++ post). set (t2 := moved (Z.of_nat (length pre)) t').
  destruct (frame_body md5 st' f' t' pre post Ft') as [Bd _]. rewrite (bodies _ _ _ _ _ A), Eb in Bd. fold file t2 in Bd.
  assert (EN : map ci_name cols = map (fun it => ci_name (i_ci it)) its2) by (now rewrite Eci, <- I1, map_map).
  rewrite EN in HF.
  assert (Wd : forall it2, In it2 its2 -> Forall (fun v => Z.of_nat (length v) = 8 * data_size_doubles (i_k' it2)) (i_outs it2)).
  { intros it2 Hin. apply In_nth_error in Hin as (i & Hi). pose proof (nth_error_In _ _ Hi) as Hin.
    assert (exists it, nth_error its i = Some it) as (it & Hit).
    { destruct (nth_error its i) eqn:E; [eauto|]. apply nth_error_None in E. assert (nth_error its2 i <> None) as X by congruence. apply nth_error_Some in X. lia. }
    destruct (Forall2_get _ _ _ _ _ G Hit) as (y & Hy & _ & _ & _ & Rt2 & Ds & _). rewrite Hi in Hy. injection Hy as <-.
    rewrite Forall_forall in I3. destruct (I3 it (nth_error_In _ _ Hit)) as (_ & _ & _ & D). apply rt_width; [exact Rt2|rewrite Ds; lia|rewrite Ds; lia]. }
  assert (Col : forall p it2, nth_error its2 p = Some it2 -> exists it, nth_error its p = Some it /\
     nth_error (t_cols t) p = Some (read_column it) /\ i_ci it2 = i_ci it /\ i_cells it2 = i_cells it /\
     8 * data_size_doubles (i_k' it2) = col_bytes (read_column it) /\ 8 <= col_bytes (read_column it) /\
     Forall2 (cell_now st st' chs (ci_name (i_ci it)) (ci_type (i_ci it)) (c_kind (i_k' it))) (i_cells it) (i_outs it2)).
  { intros p it2 Hi. assert (exists it, nth_error its p = Some it) as (it & Hit).
    { destruct (nth_error its p) eqn:E; [eauto|]. apply nth_error_None in E. assert (nth_error its2 p <> None) as X by congruence. apply nth_error_Some in X. lia. }
    destruct (Forall2_get _ _ _ _ _ G Hit) as (y & Hy & E1 & E2 & E3 & Rt2 & Ds & Cn). rewrite Hi in Hy. injection Hy as <-.
    rewrite Forall_forall in I3. destruct (I3 it (nth_error_In _ _ Hit)) as (_ & _ & _ & D).
    exists it. split; [exact Hit|]. split; [rewrite Ec, nth_error_map, Hit; reflexivity|]. split; [exact E1|]. split; [exact E3|].
    split; [rewrite Ds; reflexivity|]. split; [unfold col_bytes; cbn [read_column reload_column col_coder]; lia|exact Cn]. }
  destruct (items_decode n its2 file t2 body names ps facs) as (outs & D1 & D2 & D3); auto.
  - rewrite Eci. apply FO.
  - unfold t2. cbn [moved t_rows]. rewrite (fa_rows _ _ _ _ _ A). exact Rt.
  - exists []. specialize (RS []). now rewrite app_nil_r in RS.
  - rewrite <- (Forall2_length _ _ _ HT). symmetry. apply (Forall2_length _ _ _ HF).
  - intros k p fac it2 Hp Hf Hi Hpos. destruct (Col p it2 Hi) as (it & Hit & Hc & E1 & E2 & Ds & D8 & _).
    assert (CH : can_hold n (col_bytes (read_column it)) fac).
    { clear -HT Hp Hf Hc. revert k Hp Hf. induction HT as [|p' f' ps facs H HT IH]; intros [|k] A B; try discriminate.
      - inversion A; inversion B; subst. auto.
      - eapply IH; eassumption. }
    destruct CH as (C1 & C2 & C3). split; [split; [lia|]; split; assumption|].
    eapply Forall_impl; [|apply Wd; eapply nth_error_In; exact Hi]. cbn beta. intros v Hv. lia.
  - exists outs. split; [exact D1|]. split; [exact D2|].
    intros k p fac out ci d c Hp Hf Ho Hci Hd Hc.
    assert (exists it2, nth_error its2 p = Some it2) as (it2 & Hi).
    { destruct (nth_error its2 p) eqn:E; [eauto|]. apply nth_error_None in E. assert (nth_error cols p <> None) as X by congruence. apply nth_error_Some in X.
      rewrite <- I1, map_length in X. lia. }
    destruct (Col p it2 Hi) as (it & Hit & Hc2 & E1 & E2 & Ds & D8 & Cn).
    assert (ci = i_ci it) by (rewrite <- I1, nth_error_map, Hit in Hci; cbn in Hci; congruence).
    assert (d = i_data it) by (rewrite <- I2, nth_error_map, Hit in Hd; cbn in Hd; congruence).
    assert (c = read_column it) by congruence. subst ci d c.
    specialize (D3 k p fac out it2 Hp Hf Ho Hi). destruct D3 as (A1 & A2 & A3 & A4).
    cbn [i_data cd_cells]. pose proof (Forall2_length _ _ _ Cn) as L. change (col_coder (read_column it)) with (i_k' it).
    pose proof (Wd it2 (nth_error_In _ _ Hi)) as W.
    split; [exact A1|]. split; [exact A2|]. split.
    + intros r Hr. destruct (A3 r ltac:(lia)) as [B1 B2]. split; [exact B2|].
      rewrite Forall_forall in W. specialize (W (nth r (i_outs it2) []) ltac:(apply nth_In; lia)). cbn beta in W.
      rewrite <- Ds, <- W, Nat2Z.id, B1. apply (Forall2_nth_default _ _ _ [] [] r Cn). lia.
    + intros r Hr. apply A4. lia.
Qed.
Print Assumptions C54_values.

Lemma table_fold ss : fold_left (fun d t => Z.max d ((Z.of_nat (length t) + 7) / 8)) ss 1 = StringProofs.table_doubles ss.
Proof.
  unfold StringProofs.table_doubles. enough (X : forall ss d, 1 <= d -> fold_left (fun d t => Z.max d ((Z.of_nat (length t) + 7) / 8)) ss d =
    fold_left (fun d t => Z.max d (string_doubles t)) ss d) by (apply X; lia).
  clear. induction ss as [|t ss IH]; intros d Hd; [reflexivity|]. cbn [fold_left]. unfold string_doubles at 2.
  replace (Z.max d (Z.max 1 ((Z.of_nat (length t) + 7) / 8))) with (Z.max d ((Z.of_nat (length t) + 7) / 8)) by lia.
  apply IH. lia.
Qed.

(** Frames that the encoder wrote are among the described ones. *)
Lemma storable_tidy st st' o ci cells k k' : storable st ci cells -> prepare st o ci cells = Ok k ->
  reloads st' o (ci_type ci) k k' -> tidy k'.
Proof.
  intros S0 P R. inversion S0 as [ns T Hs Hr Ec|bs T Hs Hn Hr Ec|bs T Hs Hn Hz Hi Ec|dsd cs T Z1 Z2 Z3 Z4 Z5 Z6 Z7 Ec]; clear S0; [subst cells|subst cells|subst cells|subst cs].
  - destruct (prepare_int st o ci ns T Hs (proj1 Hr)) as (h & lo & hi & _ & E). rewrite E in P. injection P as <-.
    destruct R as (_ & _ & Rk & _). intros K. exfalso. rewrite Rk in K. cbn [IntProofs.int_codec set_stats new_codec c_kind] in K.
    pose proof (IntProofs.int_kind_cases h (hi - lo)) as I. cbn [In] in I, K. destruct K as [K|[K|K]]; [rewrite <- K in I|rewrite <- K in I|exact K]; clear -I; intuition discriminate.
  - destruct (RealColumn.prepare_real st ci bs T Hs Hn) as (h & mn & mx & _ & Pr). rewrite Pr in P. destruct (_ && _) in P; [discriminate|]. injection P as <-.
    destruct R as (_ & _ & Rk & _). intros K. exfalso. rewrite Rk in K. cbn [RealProofs.real_codec set_stats new_codec c_kind] in K.
    pose proof (RealColumn.real_kind_in h mn mx (existsb (fun b => deq b (f2d flt_max)) bs)) as I. unfold RealProofs.real_kinds in I. cbn [In] in I, K. destruct K as [K|[K|K]]; [rewrite <- K in I|rewrite <- K in I|exact K]; clear -I; intuition discriminate.
  - destruct (gather_real st ci bs (or_intror T) Hs Hn) as (col & c1 & h & mn & mx & E1 & E2 & K1 & K2 & S1 & H1 & H2 & H3 & H4 & _).
    unfold prepare in P. rewrite E1 in P. cbn [bind] in P. rewrite E2 in P. cbn [bind] in P. rewrite T in P.
    rewrite (RealProofs.optimize_double_ok st o c1 bs h mn mx) in P by assumption. injection P as <-.
    destruct R as (_ & _ & Rk & _). intros K. exfalso. rewrite Rk in K. cbn [RealProofs.real_codec set_stats new_codec c_kind] in K.
    pose proof (double_kind_in h mn mx) as I. unfold RealProofs.real_kinds in I. cbn [In] in I, K. destruct K as [K|[K|K]]; [rewrite <- K in I|rewrite <- K in I|exact K]; clear -I; intuition discriminate.
  - destruct (gather_string st ci cells dsd T Z1 Z4 Z5) as (col & c1 & E1 & E2 & K1 & K2 & K3 & K4 & K5 & TT & Mn & M64).
    unfold prepare in P. rewrite E1 in P. cbn [bind] in P. rewrite E2 in P. cbn [bind] in P. rewrite T in P.
    pose proof (table_of_distinct _ _ _ TT) as Len.
    rewrite (StringProofs.optimize_string_ok st o c1 (c_strings c1) (c_lookup c1) dsd (c_min c1)) in P by (auto; rewrite Len; exact Z6).
    injection P as <-. rewrite T in R.
    set (kind := StringProofs.string_kind (long_strings st) (Z.of_nat (length (c_strings c1))) dsd) in *.
    assert (L31 : Forall len31 (c_strings c1)).
    { apply Forall_forall. intros s Hs. pose proof TT as [T1 T2 T3 T4]. apply T4 in Hs. apply in_map_iff in Hs as (x & <- & Hx).
      pose proof (StringProofs.until_nul_length x). rewrite Forall_forall in Z4. specialize (Z4 x Hx). unfold len31. lia. }
    assert (K' : k' = StringProofs.reload_string (iad st') o kind (c_strings c1) (c_min c1)).
    { eapply reloads_fun; [exact R|]. apply reloads_string; auto.
      - apply string_kind_in.
      - rewrite Len. exact Z6.
      - intros X E0. unfold kind, StringProofs.string_kind in X. rewrite E0 in X. cbn [length Z.of_nat] in X. destruct (dsd =? 1), (long_strings st); discriminate. }
    rewrite K'. intros K. destruct kind; cbn in K; try (clear -K; intuition discriminate); symmetry; apply table_fold.
Qed.

Theorem C54_encoded : forall st st' o version md5 n cols data pr chs f t,
  digest md5 -> valid_table st version n cols data pr -> encode_frame md5 version st o cols data pr = Ok f -> frame md5 st' f t ->
  Forall (fits (t_cols t)) chs -> readable st' chs (t_cols t) -> suits st' chs t.
Proof.
  intros st st' o version md5 n cols data pr chs f t Hmd V Ef Ft H1 H2.
  pose proof V as [V1 V2 V3 V4 V5 V6 V8 V7].
  destruct (items_of st st' o n cols data V1) as (its & I1 & I2 & I3 & I4 & I5).
  assert (Hn : Z.of_nat n < 2 ^ 63).
  { assert (0 <= fold_right Z.add 0 (map ci_size cols)); [|nia].
    rewrite <- I1. clear -I3. induction its as [|it its IH]; cbn; [lia|].
    inversion I3 as [|? ? (_ & _ & _ & D) I3']; subst. specialize (IH I3'). lia. }
  pose proof (vt_frame_ok st st' o version n its data pr cols I1 I2 I3 I4 V Hn) as FO.
  rewrite <- I1, <- I2 in Ef.
  destruct (frame_rows st st' o version md5 Hmd n its pr f t FO Ef Ft) as (body & Er & Eb & Ec & Rt).
  split; auto; [|lia]. rewrite Ec. apply Forall_map.
  rewrite <- I1, <- I2 in V1. clear -V1 I3. induction its as [|it its IH]; constructor; cbn [map] in V1; inversion V1 as [|? ? ? ? (_ & _ & S1) V1']; inversion I3 as [|? ? (P & R & _) I3']; subst; auto.
  change (col_coder (read_column it)) with (i_k' it). eapply storable_tidy; eassumption.
Qed.
Print Assumptions C54_encoded.
