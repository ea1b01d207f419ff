(** C18, C19: encoding a table and reading it back, in either byte order. *)
From Coq Require Import String.
From Verif Require Import Spec Base Fp FpProofs Stream StreamProofs StreamLocal Codec Meta Header Encoder Table
  IntProofs StringProofs ColumnProofs RealColumn HeaderProofs HeaderSize TableProofs DecodeProofs LookupProofs FrameProofs FrameDecode Roundtrip.
Open Scope Z_scope.

(** bytes of one element of a column of a read table: what Frame::columnInfo reports
    (Odb.cc:299) *)
Definition col_bytes (c : column) : Z := 8 * data_size_doubles (col_coder c).

Section P.
Variables (st st' : settings) (o : order) (version : list Z).

Lemma items_all n cols data :
  Forall2 (fun ci d => cd_size d = ci_size ci /\ List.length (cd_cells d) = n /\ storable st ci (cd_cells d)) cols data ->
  exists outss, List.length outss = List.length cols /\
  Forall2 (fun cd outs => Forall2 (same_value st st' (ci_type (fst cd))) (cd_cells (snd cd)) outs) (combine cols data) outss /\
  forall o, exists its, map i_ci its = cols /\ map i_data its = data /\ map i_outs its = outss /\ Forall (item_ok st st' o) its /\
    Forall (fun it => List.length (i_cells it) = n) its /\
    Forall (fun it => Forall2 (same_value st st' (ci_type (i_ci it))) (i_cells it) (i_outs it)) its.
Proof.
  induction 1 as [|ci d cols data (H1 & H2 & H3) F IH].
  - exists []. split; [reflexivity|]. split; [constructor|]. intros o0. exists []. repeat split; constructor.
  - destruct IH as (outss & L & SVs & IH).
    destruct (storable_rt st st' ci (cd_cells d) H3) as (outs & G & SV).
    exists (outs :: outss). split; [cbn; now rewrite L|]. split; [constructor; assumption|]. intros o0.
    destruct (IH o0) as (its & E1 & E2 & E0 & E3 & E4 & E5).
    destruct (G o0) as (k & k' & P & R & C & D).
    exists ({| i_ci := ci; i_k := k; i_k' := k'; i_cells := cd_cells d; i_outs := outs |} :: its).
    cbn [map i_ci i_outs]. rewrite E1, E0. split; [reflexivity|]. split.
    { unfold i_data at 1. cbn [i_ci i_cells]. rewrite E2, <- H1. now destruct d. }
    split; [reflexivity|].
    split; [constructor; [|assumption]; split; [exact P|]; split; [exact R|]; split; [exact C|exact D]|].
    split; constructor; assumption.
Qed.

Lemma items_of n cols data :
  Forall2 (fun ci d => cd_size d = ci_size ci /\ List.length (cd_cells d) = n /\ storable st ci (cd_cells d)) cols data ->
  exists its, map i_ci its = cols /\ map i_data its = data /\ Forall (item_ok st st' o) its /\
    Forall (fun it => List.length (i_cells it) = n) its /\
    Forall (fun it => Forall2 (same_value st st' (ci_type (i_ci it))) (i_cells it) (i_outs it)) its.
Proof.
  intros H. destruct (items_all n cols data H) as (outss & _ & _ & G). destruct (G o) as (its & A & B & _ & C). eauto.
Qed.

Lemma describable_ok it : int_type (ci_type (i_ci it)) \/ real_type (ci_type (i_ci it)) \/ ci_type (i_ci it) = ty_STRING ->
  describable (i_ci it) -> column_ok (final_column it).
Proof.
  intros T [D1 D2]. split; cbn [final_column col_name col_type col_bfnames col_bfsizes].
  - exact D1.
  - unfold int_type, real_type, ty_INTEGER, ty_BITFIELD, ty_REAL, ty_DOUBLE, ty_STRING in T. lia.
  - intros E. destruct (D2 E) as [L F]. rewrite !map_length. split; [reflexivity|].
    unfold len31 in *. rewrite map_length. split; [exact L|].
    split; apply Forall_map; eapply Forall_impl; try exact F; cbn beta; intros a [A B]; assumption.
Qed.

Lemma storable_type ci cells : storable st ci cells ->
  int_type (ci_type ci) \/ real_type (ci_type ci) \/ ci_type ci = ty_STRING.
Proof. intros [ns T|bs T|bs T|dsd cs T]; [left; exact T|right; left; now left|right; left; now right|right; right; exact T]. Qed.

Lemma item_room it : item_ok st st' o it -> storable st (i_ci it) (i_cells it) ->
  col_room (final_column it) <= column_room (i_ci it) (i_cells it).
Proof.
  intros (P & _) S0. unfold col_room, column_room. cbn [final_column col_name col_bfnames col_coder].
  rewrite total_map. fold text_room.
  assert (T : text_room (c_strings (i_k it)) <= (if ci_type (i_ci it) =? ty_STRING then text_room (nodup (list_eq_dec Z.eq_dec) (texts (i_cells it))) else 0)).
  { destruct (Z.eqb_spec (ci_type (i_ci it)) ty_STRING) as [E|E].
    - inversion S0 as [ns T|bs T|bs T|dsd cs T Z1 Z2 Z3 Z4 Z5 Z6 Z7].
      + exfalso. rewrite E in T. destruct T; discriminate.
      + exfalso. rewrite E in T. discriminate.
      + exfalso. rewrite E in T. discriminate.
      + eapply prepare_strings; eassumption.
    - rewrite (prepare_no_strings _ _ _ _ _ E P). reflexivity. }
  lia.
Qed.

Lemma items_room its : Forall (item_ok st st' o) its -> Forall (fun it => storable st (i_ci it) (i_cells it)) its ->
  total col_room (map final_column its) <= total (fun cd => column_room (fst cd) (cd_cells (snd cd))) (combine (map i_ci its) (map i_data its)).
Proof.
  induction its as [|it its IH]; intros H1 H2; [reflexivity|]. inversion H1; inversion H2; subst.
  cbn [map combine]. pose proof (item_room it ltac:(assumption) ltac:(assumption)) as A.
  specialize (IH ltac:(assumption) ltac:(assumption)). unfold total in *. cbn [fold_right fst snd i_data cd_cells]. lia.
Qed.

Lemma vt_frame_ok n its data pr cols : map i_ci its = cols -> map i_data its = data ->
  Forall (item_ok st st' o) its -> Forall (fun it => List.length (i_cells it) = n) its ->
  valid_table st version n cols data pr -> Z.of_nat n < 2 ^ 63 -> frame_ok st st' o version n its pr.
Proof.
  intros <- <- H1 H2 [V1 V2 V3 V4 V5 V6 V8 V7] Hn. split; auto.
  - intros ->. now apply V2.
  - rewrite map_length in V3. lia.
  - now rewrite map_map in V4.
  - clear -V1 V5. induction its as [|it its IH]; constructor.
    + cbn [map] in V1, V5. inversion V1 as [|? ? ? ? (_ & _ & S1) V1' ]; subst. inversion V5; subst.
      apply describable_ok; [|assumption]. eapply storable_type; eassumption.
    + cbn [map] in V1, V5. inversion V1; inversion V5; subst. auto.
  - assert (S0 : Forall (fun it => storable st (i_ci it) (i_cells it)) its).
    { clear -V1. induction its as [|it its IH]; constructor; cbn [map] in V1; inversion V1 as [|? ? ? ? (_ & _ & S1) V1']; subst; auto. }
    pose proof (items_room its H1 S0) as R. unfold header_room in V8. lia.
  - unfold body_bound, sizes. rewrite map_map in V7. exact V7.
Qed.

Lemma outs_width it : item_ok st st' o it ->
  Forall (fun v => Z.of_nat (List.length v) = 8 * data_size_doubles (i_k' it)) (i_outs it).
Proof.
  intros (_ & _ & F & D). induction F as [|a b la lb (x & _ & _ & Dx) F IH]; constructor; [|exact IH].
  eapply decode_width; [| |apply (Dx [])]; lia.
Qed.

(** Encoding succeeds, and the frame found at any place of any file is read back with the
    same description; decoding any selection of its columns, into arrays at least as wide
    as the frame announces, gives every cell back and leaves the rest of the arrays
    alone. *)
Theorem C19_roundtrip : forall (md5 : list Z -> list Z) n cols data pr,
  (forall l, List.length (md5 l) = 32%nat) ->
  valid_table st version n cols data pr ->
  exists frame,
    encode_frame md5 version st o cols data pr = Ok frame /\
    (forall pre post est,
     let file := pre ++ frame ++ post in
     let here := Z.of_nat (List.length pre) in
     let there := Z.of_nat (List.length (pre ++ frame)) in
     est = 0 \/ there <= est ->
     exists t, read_table md5 st' est file here = Ok (Some t) /\
       t_start t = here /\ t_next t = there /\ t_order t = o /\ t_rows t = Z.of_nat n /\
       t_props t = mset pr (str "encoder"%string) version /\
       Forall2 (fun ci c => col_name c = ci_name ci /\ col_type c = ci_type ci /\
                  List.length (col_bfnames c) = List.length (col_bfsizes c) /\
                  combine (col_bfnames c) (col_bfsizes c) = (if ci_type ci =? ty_BITFIELD then ci_bits ci else []) /\
                  8 <= col_bytes c <= ci_size ci) cols (t_cols t) /\
       read_encoded file true t = Ok frame /\
       (forall names ps facs,
          Forall2 (fun nm p => select (map ci_name cols) nm = Some p) names ps -> NoDup ps ->
          Forall2 (fun p f => forall c, nth_error (t_cols t) p = Some c -> can_hold n (col_bytes c) f) ps facs ->
          exists outs, decode_target file t names facs = Ok (map Some outs) /\
            List.length outs = List.length names /\
            forall k p f out ci d c,
              nth_error ps k = Some p -> nth_error facs k = Some f -> nth_error outs k = Some out ->
              nth_error cols p = Some ci -> nth_error data p = Some d -> nth_error (t_cols t) p = Some c ->
              received st st' (ci_type ci) (col_bytes c) (cd_cells d) f out)).
Proof.
  intros md5 n cols data pr Hmd V. pose proof V as [V1 V2 V3 V4 V5 V6 V8 V7].
  destruct (items_of n cols data V1) as (its & I1 & I2 & I3 & I4 & I5).
  assert (Hn : Z.of_nat n < 2 ^ 63).
  { assert (0 <= fold_right Z.add 0 (map ci_size cols)); [|nia].
    rewrite <- I1. clear -I3. induction its as [|it its IH]; cbn; [lia|].
    inversion I3 as [|? ? (_ & _ & _ & D) I3']; subst. specialize (IH I3'). lia. }
  pose proof (vt_frame_ok n its data pr cols I1 I2 I3 I4 V Hn) as FO.
  destruct (frame_reads st st' o md5 Hmd version n its pr FO) as (hdr & body & E & RS & R).
  rewrite I1, I2 in E. exists (hdr ++ body). split; [exact E|]. intros pre post est file here there He.
  assert (EF : file = pre ++ hdr ++ body ++ post) by (unfold file; rewrite <- (app_assoc hdr); reflexivity).
  destruct (R pre post est He) as (R1 & R2 & R3). rewrite <- EF in *. fold here in R1, R2, R3.
  set (t := frame_table o version here (List.length hdr) (List.length body) n its pr) in *.
  exists t. split; [exact R1|]. split; [reflexivity|]. split.
  { unfold t, frame_table, there, here. cbn [t_next]. rewrite !app_length. lia. }
  split; [reflexivity|]. split; [reflexivity|]. split; [reflexivity|]. split.
  { rewrite <- I1. unfold t, frame_table. cbn [t_cols]. clear -I3.
    induction its as [|it its IH]; cbn [map]; constructor; [|apply IH; now inversion I3].
    inversion I3 as [|? ? (_ & _ & _ & D) _]; subst.
    unfold read_column, reload_column. cbn [final_column col_name col_type col_bfnames col_bfsizes].
    split; [reflexivity|]. split; [reflexivity|]. split; [destruct (_ =? _); [now rewrite !map_length|reflexivity]|]. split.
    - destruct (_ =? _); [|reflexivity]. generalize (ci_bits (i_ci it)). clear.
      induction l as [|[a b] l IH]; cbn; [reflexivity|]. now rewrite IH.
    - unfold col_bytes. cbn [col_coder]. lia. }
  split; [exact R3|].
  intros names ps facs HF HN HT.
  assert (EN : map ci_name cols = map (fun it => ci_name (i_ci it)) its) by (now rewrite <- I1, map_map).
  rewrite EN in HF.
  destruct (frame_decodes st st' o version n its pr file t body names ps facs) as (outs & D1 & D2 & D3); auto.
  - exists []. specialize (RS []). now rewrite app_nil_r in RS.
  - rewrite <- (Forall2_length _ _ _ HT). symmetry. apply (Forall2_length _ _ _ HF).
  - intros k p f it Hp Hf Hi Hpos.
    assert (Hc : nth_error (t_cols t) p = Some (read_column it)).
    { unfold t, frame_table. cbn [t_cols]. now rewrite nth_error_map, Hi. }
    assert (CH : can_hold n (col_bytes (read_column it)) f).
    { clear -HT Hp Hf Hc. revert k Hp Hf. induction HT as [|p' f' ps facs H HT IH]; intros [|k] A B; try discriminate.
      - inversion A; inversion B; subst. auto.
      - eapply IH; eassumption. }
    destruct CH as (C1 & C2 & C3). unfold col_bytes in C1. cbn [read_column reload_column col_coder] in C1.
    rewrite Forall_forall in I3. pose proof (I3 it (nth_error_In _ _ Hi)) as Ok_it.
    pose proof Ok_it as (_ & _ & _ & D). split; [split; [lia|]; split; assumption|].
    eapply Forall_impl; [|apply outs_width, Ok_it]. cbn beta. intros v Hv. lia.
  - exists outs. split; [exact D1|]. split; [exact D2|].
    intros k p f out ci d c Hp Hf Ho Hci Hd Hc.
    assert (exists it, nth_error its p = Some it) as (it & Hi).
    { rewrite <- I1, nth_error_map in Hci. destruct (nth_error its p); [eauto|discriminate]. }
    assert (ci = i_ci it) by (rewrite <- I1, nth_error_map, Hi in Hci; cbn in Hci; congruence).
    assert (d = i_data it) by (rewrite <- I2, nth_error_map, Hi in Hd; cbn in Hd; congruence).
    assert (c = read_column it) by (unfold t, frame_table in Hc; cbn [t_cols] in Hc; rewrite nth_error_map, Hi in Hc; cbn in Hc; congruence).
    subst ci d c. specialize (D3 k p f out it Hp Hf Ho Hi). destruct D3 as (A1 & A2 & A3 & A4).
    rewrite Forall_forall in I3, I4, I5. pose proof (nth_error_In _ _ Hi) as Hin.
    pose proof (I3 it Hin) as Ok_it. pose proof (I5 it Hin) as SV. pose proof (outs_width it Ok_it) as W.
    cbn [i_data cd_cells]. pose proof (Forall2_length _ _ _ SV) as L.
    split; [exact A1|]. split; [exact A2|]. split.
    + intros r Hr. destruct (A3 r ltac:(lia)) as [B1 B2]. split; [exact B2|].
      rewrite Forall_forall in W. specialize (W (nth r (i_outs it) []) ltac:(apply nth_In; lia)). cbn beta in W.
      unfold col_bytes. cbn [read_column reload_column col_coder]. rewrite <- W, Nat2Z.id, B1.
      apply (Forall2_nth_default _ _ _ [] [] r SV). lia.
    + intros r Hr. apply A4. lia.
Qed.

(** If the target is as wide as the values, it is determined by them. *)
Definition overwrite (vals : list (list Z)) (f : facade) : facade :=
  {| f_size := f_size f; f_elems := vals ++ skipn (List.length vals) (f_elems f) |}.

Lemma holds_overwrite vals f out w : holds vals f out -> f_size f = w -> (List.length vals <= List.length (f_elems f))%nat ->
  Forall (fun v => Z.of_nat (List.length v) = w) vals -> out = overwrite vals f.
Proof.
  intros (A1 & A2 & A3 & A4) Ew L W. destruct out as [sz el]. unfold overwrite. cbn [f_size f_elems] in *.
  rewrite A1. f_equal. apply nth_ext with (d := []) (d' := []).
  - rewrite app_length, skipn_length. lia.
  - intros r Hr. destruct (Nat.lt_ge_cases r (List.length vals)) as [Q|Q].
    + destruct (A3 r Q) as [B1 B2]. rewrite app_nth1 by assumption. rewrite Forall_forall in W.
      specialize (W (nth r vals []) (nth_In _ _ Q)). cbn beta in W.
      rewrite firstn_all2 in B1 by lia. exact B1.
    + rewrite app_nth2 by assumption. rewrite nth_skipn. rewrite A4 by assumption. f_equal. lia.
Qed.
End P.
Print Assumptions C19_roundtrip.

(** The values decoded do not depend on the byte order the frame was written in, which is
    found in the frame itself: there is one list of columns [outss], made of faithful
    copies of the cells, that is what every decoding of either form gives. *)
Theorem C18_byte_order : forall (st st' : settings) (version : list Z) (md5 : list Z -> list Z) n cols data pr,
  (forall l, List.length (md5 l) = 32%nat) ->
  valid_table st version n cols data pr ->
  exists outss,
  Forall2 (fun cd outs => Forall2 (same_value st st' (ci_type (fst cd))) (cd_cells (snd cd)) outs) (combine cols data) outss /\
  forall o, exists frame,
    encode_frame md5 version st o cols data pr = Ok frame /\
    (forall pre post,
     let file := pre ++ frame ++ post in
     exists t, read_table md5 st' 0 file (Z.of_nat (List.length pre)) = Ok (Some t) /\ t_order t = o /\
       (forall names ps facs,
          Forall2 (fun nm p => select (map ci_name cols) nm = Some p) names ps -> NoDup ps ->
          Forall2 (fun p f => forall c, nth_error (t_cols t) p = Some c -> can_hold n (col_bytes c) f /\ f_size f = col_bytes c) ps facs ->
          decode_target file t names facs = Ok (map (fun pf => Some (overwrite (nth (fst pf) outss []) (snd pf))) (combine ps facs)))).
Proof.
  intros st st' version md5 n cols data pr Hmd V. pose proof V as [V1 V2 V3 V4 V5 V6 V8 V7].
  destruct (items_all st st' n cols data V1) as (outss & I0 & I & G). exists outss. split; [exact I|]. intros o.
  destruct (G o) as (its & I1 & I2 & I6 & I3 & I4 & I5).
  assert (Hn : Z.of_nat n < 2 ^ 63).
  { assert (0 <= fold_right Z.add 0 (map ci_size cols)); [|nia].
    rewrite <- I1. clear -I3. induction its as [|it its IH]; cbn; [lia|].
    inversion I3 as [|? ? (_ & _ & _ & D) I3']; subst. specialize (IH I3'). lia. }
  pose proof (vt_frame_ok st st' o version n its data pr cols I1 I2 I3 I4 V Hn) as FO.
  destruct (frame_reads st st' o md5 Hmd version n its pr FO) as (hdr & body & E & RS & R).
  rewrite I1, I2 in E. exists (hdr ++ body). split; [exact E|]. intros pre post file.
  assert (EF : file = pre ++ hdr ++ body ++ post) by (unfold file; rewrite <- (app_assoc hdr); reflexivity).
  destruct (R pre post 0 (or_introl eq_refl)) as (R1 & R2 & R3). rewrite <- EF in *.
  set (t := frame_table o version (Z.of_nat (List.length pre)) (List.length hdr) (List.length body) n its pr) in *.
  exists t. split; [exact R1|]. split; [reflexivity|].
  intros names ps facs HF HN HT.
  assert (EN : map ci_name cols = map (fun it => ci_name (i_ci it)) its) by (now rewrite <- I1, map_map).
  rewrite EN in HF.
  assert (Hcol : forall p it, nth_error its p = Some it -> nth_error (t_cols t) p = Some (read_column it)).
  { intros p it Hi. unfold t, frame_table. cbn [t_cols]. now rewrite nth_error_map, Hi. }
  assert (HT' : forall k p f it, nth_error ps k = Some p -> nth_error facs k = Some f -> nth_error its p = Some it ->
      can_hold n (col_bytes (read_column it)) f /\ f_size f = col_bytes (read_column it)).
  { intros k p f it Hp Hf Hi. apply Hcol in Hi. clear -HT Hp Hf Hi. revert k Hp Hf.
    induction HT as [|p' f' ps facs H HT IH]; intros [|k] A B; try discriminate.
    - inversion A; inversion B; subst. auto.
    - eapply IH; eassumption. }
  assert (Lpf : List.length ps = List.length facs) by apply (Forall2_length _ _ _ HT).
  destruct (frame_decodes st st' o version n its pr file t body names ps facs) as (outs & D1 & D2 & D3); auto.
  - exists []. specialize (RS []). now rewrite app_nil_r in RS.
  - rewrite <- Lpf. symmetry. apply (Forall2_length _ _ _ HF).
  - intros k p f it Hp Hf Hi Hpos. destruct (HT' k p f it Hp Hf Hi) as ((C1 & C2 & C3) & C4).
    unfold col_bytes in C1. cbn [read_column reload_column col_coder] in C1.
    rewrite Forall_forall in I3. pose proof (I3 it (nth_error_In _ _ Hi)) as Ok_it.
    pose proof Ok_it as (_ & _ & _ & D). split; [split; [lia|]; split; assumption|].
    eapply Forall_impl; [|eapply outs_width, Ok_it]. cbn beta. intros v Hv. lia.
  - rewrite D1. f_equal. apply nth_ext with (d := None) (d' := None).
    { rewrite !map_length, combine_length, D2, (Forall2_length _ _ _ HF). lia. }
    intros k Hk. rewrite map_length in Hk.
    destruct (nth_error outs k) as [out|] eqn:Ho; [|apply nth_error_None in Ho; lia].
    destruct (nth_error ps k) as [p|] eqn:Hp; [|apply nth_error_None in Hp; rewrite D2, (Forall2_length _ _ _ HF) in Hk; lia].
    destruct (nth_error facs k) as [f|] eqn:Hf; [|apply nth_error_None in Hf; rewrite D2, (Forall2_length _ _ _ HF) in Hk; lia].
    assert (Hit : exists it, nth_error its p = Some it).
    { assert (Hs : exists nm, select (map (fun it => ci_name (i_ci it)) its) nm = Some p).
      { clear -HF Hp. revert k Hp. induction HF; intros [|k] A; try discriminate; [inversion A; subst; eauto|eauto]. }
      destruct Hs as (nm & Hs). apply select_lt in Hs. rewrite map_length in Hs.
      destruct (nth_error its p) eqn:Q; [eauto|]. apply nth_error_None in Q. lia. }
    destruct Hit as (it & Hi). destruct (HT' k p f it Hp Hf Hi) as ((C1 & C2 & C3) & C4).
    rewrite Forall_forall in I3, I4, I5. pose proof (nth_error_In _ _ Hi) as Hin.
    pose proof (outs_width st st' o it (I3 it Hin)) as W.
    assert (Eo : nth p outss [] = i_outs it).
    { rewrite <- I6. apply nth_error_nth. now rewrite nth_error_map, Hi. }
    assert (Lo : List.length (i_outs it) = n).
    { rewrite <- (Forall2_length _ _ _ (I5 it Hin)). auto. }
    rewrite (nth_error_nth (map Some outs) k None (x := Some out)) by (now rewrite nth_error_map, Ho).
    rewrite (nth_error_nth _ k None (x := Some (overwrite (nth p outss []) f))).
    2:{ rewrite nth_error_map, (nth_error_combine ps facs k p f Hp Hf). reflexivity. }
    f_equal. rewrite Eo. eapply holds_overwrite; [eapply D3; eassumption|exact C4|lia|exact W].
Qed.
Print Assumptions C18_byte_order.

(** A concrete table meets the hypotheses: two rows of an INTEGER (one value missing), a
    BITFIELD, a REAL, a DOUBLE and a STRING column. *)
Definition wit_st : settings := {| iad := true; long_strings := false |}.
Definition wit_cols : list colinfo :=
  [ {| ci_name := str "lat@hdr"%string; ci_type := ty_INTEGER; ci_size := 8; ci_bits := [] |};
    {| ci_name := str "flags"%string; ci_type := ty_BITFIELD; ci_size := 8; ci_bits := [(str "f1"%string, 1); (str "f2"%string, 3)] |};
    {| ci_name := str "x"%string; ci_type := ty_REAL; ci_size := 8; ci_bits := [] |};
    {| ci_name := str "y"%string; ci_type := ty_DOUBLE; ci_size := 8; ci_bits := [] |};
    {| ci_name := str "s"%string; ci_type := ty_STRING; ci_size := 16; ci_bits := [] |} ].
Definition wit_texts : list (list Z) := [pad 16 (str "hello world"%string); pad 16 (str "x"%string)].
Definition wit_data : list coldata :=
  [ {| cd_size := 8; cd_cells := map (int_cell false) [-7; MDI] |};
    {| cd_size := 8; cd_cells := map (int_cell false) [3; 70000] |};
    {| cd_size := 8; cd_cells := map (le_bytes 8) [4607182418800017408; 4611686018427387905] |};
    {| cd_size := 8; cd_cells := map (le_bytes 8) [4607182418800017408; realMDI] |};
    {| cd_size := 16; cd_cells := wit_texts |} ].

Theorem C19_witness : valid_table wit_st (str "odc version 1.6.2"%string) 2 wit_cols wit_data [(str "key"%string, str "value"%string)].
Proof.
  assert (I32 : forall ns, forallb (fun n => (-2147483648 <=? n) && (n <? 2147483648)) ns = true -> int_representable ns).
  { intros ns H. rewrite forallb_forall in H. split; [|left]; apply Forall_forall; intros n Hn; specialize (H n Hn);
      unfold mid, int32; lia. }
  assert (Num : forall bs, forallb (fun b => (0 <=? b) && (b <? 2 ^ 64) && negb (is_nan f64 b)) bs = true -> Forall num bs).
  { intros bs H. rewrite forallb_forall in H. apply Forall_forall. intros b Hb. specialize (H b Hb).
    unfold num, is64. destruct (is_nan f64 b); cbn in H; split; try reflexivity; lia. }
  assert (Inf : forall bs, forallb (fun b => negb (is_inf f64 b)) bs = true -> ~ inf_with_missing bs).
  { intros bs H (_ & (v & Hv & Hi) & _). rewrite forallb_forall in H. specialize (H v Hv). now rewrite Hi in H. }
  split.
  - unfold wit_cols, wit_data. repeat apply Forall2_cons; try apply Forall2_nil; (split; [reflexivity|]); (split; [reflexivity|]).
    + apply (st_int wit_st); [now left|reflexivity|]. apply I32; reflexivity.
    + apply (st_int wit_st); [now right|reflexivity|]. apply I32; reflexivity.
    + apply st_real; [reflexivity|reflexivity|apply Num; vm_compute; reflexivity|].
      split; [apply Inf; vm_compute; reflexivity|]. right. intros v [<-|[<-|[]]] _; vm_compute; reflexivity.
    + apply st_double; [reflexivity|reflexivity|apply Num; vm_compute; reflexivity| |apply Inf; vm_compute; reflexivity].
      intros [H|[H|[]]]; vm_compute in H; discriminate.
    + apply st_string with (dsd := 2); try reflexivity; try lia.
      * repeat constructor.
      * assert (B : forall l, bytes_okb l = true -> bytes_ok l).
        { intros l H. unfold bytes_okb in H. rewrite forallb_forall in H. apply Forall_forall. intros b Hb.
          specialize (H b Hb). unfold is_byteb in H. unfold is_byte. lia. }
        unfold wit_texts. apply Forall_cons; [apply B; reflexivity|]. apply Forall_cons; [apply B; reflexivity|apply Forall_nil].
      * intros [Q _]. discriminate.
  - discriminate.
  - vm_compute. reflexivity.
  - cbn [map wit_cols ci_name]. repeat (constructor; [cbn [In]; intros Q; repeat destruct Q as [Q|Q]; vm_compute in Q; try discriminate; try tauto|]). constructor.
  - repeat apply Forall_cons; try apply Forall_nil; (split; [vm_compute; reflexivity|]); intros Q; try discriminate Q.
    split; [vm_compute; reflexivity|]. repeat apply Forall_cons; try apply Forall_nil; (split; [vm_compute; reflexivity|cbn; lia]).
  - split; [vm_compute; repeat split; reflexivity|]. split; [vm_compute; reflexivity|].
    repeat apply Forall_cons; try apply Forall_nil; split; vm_compute; reflexivity.
  - vm_compute. reflexivity.
  - vm_compute. reflexivity.
Qed.

(** and the model really computes the round trip on it, in both byte orders *)
Definition wit_md5 (l : list Z) : list Z := repeat 48 32.
Definition wit_fac (n : nat) (w : nat) : facade := {| f_size := Z.of_nat w; f_elems := repeat (repeat 0 w) n |}.
Theorem C19_computed : forall o,
  match encode_frame wit_md5 (str "v"%string) wit_st o wit_cols wit_data [] with
  | Ok b =>
      match read_table wit_md5 wit_st 0 ([1; 2; 3] ++ b ++ [9]) 3 with
      | Ok (Some t) =>
          decode_target ([1; 2; 3] ++ b ++ [9]) t [str "s"%string; str "lat"%string; str "y"%string] [wit_fac 2 16; wit_fac 3 8; wit_fac 2 8] =
          Ok (map Some [ {| f_size := 16; f_elems := wit_texts |};
                         {| f_size := 8; f_elems := map (int_cell false) [-7; MDI] ++ [repeat 0 8] |};
                         {| f_size := 8; f_elems := map (le_bytes 8) [4607182418800017408; realMDI] |} ])
      | _ => False
      end
  | _ => False
  end.
Proof. destruct o; vm_compute; reflexivity. Qed.
