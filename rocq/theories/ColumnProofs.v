(** One column: from the caller's cells through the codec to the decoded cells. *)
From Verif Require Import Spec Base Fp FpProofs Stream StreamProofs StreamLocal Codec Meta Header Encoder
  GatherProofs IntProofs RealProofs StringProofs.

(** The codec the encoder uses for a column (Encoder.cc:39-71 for one column). *)
Definition prepare (st : settings) (o : order) (ci : colinfo) (cells : list (list Z)) : outcome codec :=
  do c <- make_column st ci;
  do k <- gather_all (col_coder c) cells;
  optimize st o (ci_type ci) k.

(** [k'] is what a reader loads from the header written for [k]. *)
Definition reloads (st' : settings) (o : order) (ty : Z) (k k' : codec) : Prop :=
  c_ord k = o /\ c_ord k' = o /\ c_kind k' = c_kind k /\
  exists bytes, save k = Ok bytes /\
    forall rest, load (new_codec (iad st') o (c_kind k) ty) (bytes ++ rest) = Ok (k', rest).

Definition cell_rt (k k' : codec) (size : Z) (cell out : list Z) : Prop :=
  exists b, encode k cell = Ok b /\ Z.of_nat (length b) <= size /\
    forall rest, decode k' (b ++ rest) = Ok (out, rest).

Definition column_rt (st st' : settings) (o : order) (ci : colinfo) (cells outs : list (list Z)) : Prop :=
  exists k k', prepare st o ci cells = Ok k /\ reloads st' o (ci_type ci) k k' /\
    Forall2 (cell_rt k k' (ci_size ci)) cells outs /\
    1 <= data_size_doubles k' /\ 8 * data_size_doubles k' <= ci_size ci < 2 ^ 31.

Lemma dsd_num c ci : ci_size ci = 8 -> chars_based (c_kind c) = false ->
  1 <= data_size_doubles c /\ 8 * data_size_doubles c <= ci_size ci < 2 ^ 31.
Proof. unfold data_size_doubles. intros -> ->. lia. Qed.

Lemma kind_of_name_kname k : kind_of_name (kname k) = Some k.
Proof. destruct k; vm_compute; reflexivity. Qed.

(** ** Saving and loading numeric codecs *)

Definition numeric (k : ckind) : bool :=
  match k with
  | KConstantString | KLongConstantString | KChars | KInt8String | KInt16String => false
  | _ => true
  end.

Lemma load_base_ok c c0 rest : c_ord c0 = c_ord c ->
  - 2 ^ 31 <= c_hasMissing c < 2 ^ 31 -> is64 (c_min c) -> is64 (c_max c) -> is64 (c_missing c) ->
  load_base c0 (save_base c ++ rest) = Ok (set_stats c0 (c_hasMissing c) (c_min c) (c_max c) (c_missing c), rest).
Proof.
  intros Ho Hh H1 H2 H3. unfold load_base, save_base. rewrite Ho, <- !app_assoc.
  rewrite read_i32_app by assumption. cbn [bind].
  rewrite read_f64_app by assumption. cbn [bind].
  rewrite read_f64_app by assumption. cbn [bind].
  rewrite read_f64_app by assumption. reflexivity.
Qed.

Lemma reloads_numeric st' o ty k h mn mx ms i :
  numeric k = true -> - 2 ^ 31 <= h < 2 ^ 31 -> is64 mn -> is64 mx -> is64 ms ->
  check_cast (set_stats (new_codec (iad st') o k ty) h mn mx ms) ms = Ok tt ->
  reloads st' o ty (set_stats (new_codec i o k ty) h mn mx ms) (set_stats (new_codec (iad st') o k ty) h mn mx ms).
Proof.
  intros Hk Hh H1 H2 H3 Hc. split; [reflexivity|]. split; [reflexivity|]. split; [reflexivity|].
  exists (save_base (set_stats (new_codec i o k ty) h mn mx ms)). split.
  - unfold save. destruct k; try discriminate; reflexivity.
  - intros rest. unfold load.
    rewrite (load_base_ok (set_stats (new_codec i o k ty) h mn mx ms)) by (try reflexivity; assumption).
    cbn [bind]. change (c_kind (set_stats (new_codec i o k ty) h mn mx ms)) with k.
    change (c_kind (new_codec (iad st') o k ty)) with k.
    cbn [set_stats c_hasMissing c_min c_max c_missing].
    change (set_stats (new_codec (iad st') o k ty) (c_hasMissing _) (c_min _) (c_max _) (c_missing _))
      with (set_stats (new_codec (iad st') o k ty) h mn mx ms).
    destruct k; try discriminate; (rewrite Hc; reflexivity) || reflexivity.
Qed.

(** ** INTEGER / BITFIELD *)

Lemma make_num st ci : ci_size ci = 8 ->
  (forall k, working_codec st LE (ci_type ci) = Ok k -> chars_based (c_kind k) = false) ->
  make_column st ci = do k <- working_codec st LE (ci_type ci);
    Ok {| col_name := ci_name ci; col_type := ci_type ci; col_bfnames := map fst (ci_bits ci);
          col_bfsizes := map snd (ci_bits ci); col_coder := k |}.
Proof.
  intros Hs Hk. unfold make_column. rewrite Hs. destruct (working_codec st LE (ci_type ci)) as [k| |]; try reflexivity.
  specialize (Hk k eq_refl). cbn [bind]. change (8 mod 8 =? 0) with true. cbn [assert bind].
  change (8 / 8) with 1. unfold set_data_size. rewrite Hk. reflexivity.
Qed.

Lemma prepare_int st o ci ns : int_type (ci_type ci) -> ci_size ci = 8 -> Forall mid ns ->
  exists h lo hi, int_stats ns h lo hi /\
    prepare st o ci (map (int_cell (negb (iad st))) ns) =
      Ok (int_codec (iad st) o (ci_type ci) (int_kind h (hi - lo)) h lo hi).
Proof.
  intros Ht Hs Hm. unfold prepare. rewrite make_num; [|assumption|].
  2:{ intros k. rewrite working_int by assumption. intros [= <-]. reflexivity. }
  rewrite working_int by assumption. cbn [bind col_coder].
  set (c0 := new_codec (iad st) LE KInt32 (ci_type ci)).
  assert (I64 : c_int64 c0 = negb (iad st)) by (unfold c0; cbn; destruct Ht as [-> | ->]; reflexivity).
  replace (map (int_cell (negb (iad st))) ns) with (map (le_bytes 8) (map (int_bits (negb (iad st))) ns))
    by (rewrite map_map; apply map_ext; intros; now rewrite int_cell_bits).
  assert (Sv : seen_values c0 (map (int_bits (negb (iad st))) ns) = map z2d ns).
  { unfold seen_values. rewrite map_map, I64. apply map_ext_in. intros n Hn.
    apply as_double_int. rewrite Forall_forall in Hm. apply mid_small; auto. }
  destruct (gather_all_num integerMDI (map (int_bits (negb (iad st))) ns) c0 []) as (c1 & E1 & F1 & S1 & _).
  - apply z2d_nan. lia.
  - reflexivity.
  - discriminate.
  - apply Forall_forall. intros b Hb. apply in_map_iff in Hb. destruct Hb as (n & <- & Hn).
    apply int_bits_64. rewrite Forall_forall in Hm. apply mid_small; auto.
  - constructor.
  - rewrite Sv. apply Forall_forall. intros b Hb. apply in_map_iff in Hb. destruct Hb as (n & <- & Hn).
    apply z2d_nan. rewrite Forall_forall in Hm. apply mid_small; auto.
  - split; [reflexivity|]. split; [reflexivity|]. split; [auto|]. intros H; now destruct H.
  - rewrite E1. cbn [bind app] in *. rewrite Sv in S1.
    destruct (stats_int ns c1 Hm S1) as (h & lo & hi & K1 & K2 & K3 & K4 & K5).
    exists h, lo, hi. split; [exact K1|]. eapply optimize_int_ok; eassumption.
Qed.

Lemma int_width_le k : (int_width k <= 8)%nat.
Proof. destruct k; cbn; lia. Qed.

Lemma check_cast_int iad o k ty h mn mx : int_type ty ->
  check_cast (set_stats (new_codec iad o k ty) h mn mx integerMDI) integerMDI = Ok tt.
Proof.
  intros Ht. unfold check_cast. destruct (_ && _); [|reflexivity].
  unfold d2i64, integerMDI. rewrite d2int_z2d by (unfold small; lia). reflexivity.
Qed.


Lemma int_kind_32 h n : int_kind h n = KInt32 -> 65535 <= n \/ n < 0.
Proof.
  unfold int_kind. destruct (negb (h =? 0));
  repeat match goal with |- context [if ?b then _ else _] => destruct b eqn:? end; try discriminate; lia.
Qed.

Lemma representable_32 ns h lo hi n : int_representable ns -> int_stats ns h lo hi -> In n ns ->
  int_kind h (hi - lo) = KInt32 -> int32 n.
Proof.
  intros [Hm [H32|Hr]] Hs Hn Hk; [rewrite Forall_forall in H32; auto|].
  exfalso. apply int_kind_32 in Hk. destruct Hs as [_ _ _ Hle _ T].
  destruct T as [[-> ->]|(L & U & D1 & D2)]; [lia|].
  specialize (Hr hi lo U L D2 D1). lia.
Qed.

Theorem column_int st st' o ci ns : int_type (ci_type ci) -> ci_size ci = 8 -> int_representable ns ->
  column_rt st st' o ci (map (int_cell (negb (iad st))) ns) (map (int_cell (negb (iad st'))) ns).
Proof.
  intros Ht Hs Hr. pose proof Hr as [Hm _].
  destruct (prepare_int st o ci ns Ht Hs Hm) as (h & lo & hi & S & E).
  exists (int_codec (iad st) o (ci_type ci) (int_kind h (hi - lo)) h lo hi),
         (int_codec (iad st') o (ci_type ci) (int_kind h (hi - lo)) h lo hi).
  split; [exact E|]. pose proof S as [Sh Slo Shi _ _ _]. split.
  - unfold int_codec. apply reloads_numeric.
    + pose proof (int_kind_cases h (hi - lo)) as K. cbn [In] in K.
      repeat (destruct K as [<-|K]; [reflexivity|]). destruct K.
    + rewrite Sh. destruct (existsb _ ns); lia.
    + apply z2d_fin. now apply mid_small.
    + apply z2d_fin. now apply mid_small.
    + apply z2d_fin. lia.
    + now apply check_cast_int.
  - split; [|apply dsd_num; [exact Hs|]; pose proof (int_kind_cases h (hi - lo)) as K; cbn [In] in K; cbn [int_codec set_stats new_codec c_kind];
             repeat (destruct K as [<-|K]; [reflexivity|]); destruct K].
    clear E. assert (A : forall n, In n ns -> In n ns) by auto. revert A.
    generalize ns at 1 3 4. intros l A. induction l as [|n l IH]; cbn [map]; [constructor|].
    constructor; [|apply IH; intros; apply A; now right].
    assert (Hn : In n ns) by (apply A; now left).
    exists (int_code o (int_kind h (hi - lo)) lo n). split; [|split].
    + eapply int_encode; eauto. intros K. eapply representable_32; eauto.
    + rewrite Hs, int_code_length by apply int_kind_cases. pose proof (int_width_le (int_kind h (hi - lo))). lia.
    + intros rest. eapply int_decode; eauto. intros K. eapply representable_32; eauto.
Qed.

(** ** DOUBLE *)

Lemma gather_real st ci bs : real_type (ci_type ci) -> ci_size ci = 8 -> Forall num bs ->
  exists col c1 h mn mx, make_column st ci = Ok col /\
    gather_all (col_coder col) (map (le_bytes 8) bs) = Ok c1 /\
    c_kind c1 = KLongReal /\ c_ord c1 = LE /\
    real_stats bs h mn mx /\ c_hasMissing c1 = h /\ c_min c1 = mn /\ c_max c1 = mx /\ c_missing c1 = realMDI /\
    c_seenFltMin c1 = existsb (fun b => deq b (f2d flt_min)) bs /\
    c_seenFltMax c1 = existsb (fun b => deq b (f2d flt_max)) bs.
Proof.
  intros Ht Hs Hn. destruct realMDI_facts as (R1 & R2 & R3 & R4).
  rewrite make_num; [|assumption|].
  2:{ intros k. rewrite working_real by assumption. intros [= <-]. reflexivity. }
  rewrite working_real by assumption. cbn [bind]. eexists.
  set (c0 := new_codec (iad st) LE KLongReal (ci_type ci)).
  assert (I64 : c_int64 c0 = false) by reflexivity.
  assert (Sv : seen_values c0 bs = bs) by (unfold seen_values; rewrite I64; apply map_id).
  destruct (gather_all_num realMDI bs c0 []) as (c1 & E1 & F1 & S1 & S2); auto.
  - eapply Forall_impl; [|exact Hn]. intros b Hb. apply Hb.
  - rewrite Sv. eapply Forall_impl; [|exact Hn]. intros b Hb. apply Hb.
  - split; [reflexivity|]. split; [reflexivity|]. split; [auto|]. intros H; now destruct H.
  - rewrite Sv in S1. cbn [app] in S1. destruct (stats_real bs c1 Hn S1) as (h & mn & mx & K).
    destruct (S2 eq_refl) as [S3 S4]. destruct F1 as (G1 & G2 & G3 & _).
    exists c1, h, mn, mx. split; [reflexivity|]. split; [exact E1|]. split; [exact G1|]. split; [exact G3|].
    destruct K as (K1 & K2 & K3 & K4 & K5). do 5 (split; [assumption|]). exact (conj S3 S4).
Qed.

Lemma reloads_real st st' o ty k bs h mn mx : real_type ty -> In k real_kinds -> real_stats bs h mn mx ->
  reloads st' o ty (real_codec (iad st) o ty k h mn mx) (real_codec (iad st') o ty k h mn mx).
Proof.
  intros Ht Hk Hs. destruct Hs as [S1 [S2 _] [S3 _] _ _]. destruct realMDI_facts as (R1 & _).
  unfold real_codec. apply reloads_numeric; auto.
  - cbn [In real_kinds] in Hk. repeat (destruct Hk as [<-|Hk]; [reflexivity|]). destruct Hk.
  - rewrite S1. destruct (existsb _ bs); lia.
  - unfold check_cast. pose proof (real_int64 (iad st') o k ty h mn mx Ht) as E. unfold real_codec in E.
    rewrite E, andb_false_r. reflexivity.
Qed.

Lemma double_kind_in h mn mx : In (double_kind h mn mx) real_kinds.
Proof.
  unfold double_kind, real_kinds. repeat match goal with |- context [if ?b then _ else _] => destruct b end; cbn; tauto.
Qed.

Lemma Forall2_map {A B C} (P : B -> C -> Prop) (f : A -> B) (g : A -> C) l :
  (forall x, In x l -> P (f x) (g x)) -> Forall2 P (map f l) (map g l).
Proof.
  induction l as [|x l IH]; intros H; cbn; constructor; [apply H; now left|]. apply IH. intros; apply H; now right.
Qed.

Theorem column_double st st' o ci bs : ci_type ci = ty_DOUBLE -> ci_size ci = 8 -> Forall num bs ->
  ~ In negzero bs -> ~ inf_with_missing bs ->
  column_rt st st' o ci (map (le_bytes 8) bs) (map (le_bytes 8) bs).
Proof.
  intros Ht Hs Hn Hz Hi. assert (Hr : real_type (ci_type ci)) by (right; exact Ht).
  destruct (gather_real st ci bs Hr Hs Hn) as (col & c1 & h & mn & mx & E1 & E2 & K1 & K2 & S & H1 & H2 & H3 & H4 & _).
  exists (real_codec (iad st) o ty_DOUBLE (double_kind h mn mx) h mn mx),
         (real_codec (iad st') o ty_DOUBLE (double_kind h mn mx) h mn mx).
  split; [|split].
  - unfold prepare. rewrite E1. cbn [bind]. rewrite E2. cbn [bind]. rewrite Ht. eapply optimize_double_ok; eassumption.
  - rewrite Ht. eapply reloads_real; [now right|apply double_kind_in|eassumption].
  - split; [|apply dsd_num; [exact Hs|]; pose proof (double_kind_in h mn mx) as K; cbn [In real_kinds] in K; cbn [real_codec set_stats new_codec c_kind];
             repeat (destruct K as [<-|K]; [reflexivity|]); destruct K].
    apply Forall2_map. intros v Hv. exists (double_code o (double_kind h mn mx) v). split; [|split].
    + eapply double_encode; eassumption.
    + rewrite Hs. unfold double_code. destruct (double_kind h mn mx); rewrite ?w_int_length; cbn; lia.
    + intros rest. eapply double_decode; eassumption.
Qed.

(** ** STRING *)

Definition string_width (st : settings) (dsd : Z) (ss : list (list Z)) : Z :=
  match string_kind (long_strings st) (Z.of_nat (length ss)) dsd with
  | KConstantString => 1
  | KLongConstantString => match ss with t :: _ => (Z.of_nat (length t) + 7) / 8 | [] => 1 end
  | _ => table_doubles ss
  end.

Lemma le_val_64 l : length l = 8%nat -> bytes_ok l -> is64 (le_val l).
Proof. intros H1 H2. pose proof (le_val_bound l H2) as B. rewrite H1 in B. exact B. Qed.

Lemma le_bytes8 l : length l = 8%nat -> bytes_ok l -> le_bytes 8 (le_val l) = l.
Proof. intros <- H. now apply le_bytes_le_val. Qed.

Lemma swap8_swap o b : is64 b -> le_val (swap o (le_bytes 8 (le_val (swap o (le_bytes 8 b))))) = b.
Proof.
  intros H. set (l := swap o (le_bytes 8 b)).
  assert (L : length l = 8%nat) by (unfold l; rewrite swap_length; apply le_bytes_length).
  rewrite <- L at 1. rewrite le_bytes_le_val by (apply swap_ok, le_bytes_ok).
  unfold l. rewrite swap_swap. apply le_val_small. exact H.
Qed.

Lemma is64_swap o b : is64 (le_val (swap o (le_bytes 8 b))).
Proof. apply le_val_64; [rewrite swap_length; apply le_bytes_length|apply swap_ok, le_bytes_ok]. Qed.

(** loading what was saved for a string codec *)
Lemma reloads_string st' o k ss lk dsd mn i :
  In k [KConstantString; KLongConstantString; KInt8String; KInt16String] ->
  is64 mn -> Z.of_nat (length ss) < 65536 -> Forall len31 ss -> (k = KLongConstantString -> ss <> []) ->
  reloads st' o ty_STRING (string_codec i o k ss lk dsd mn) (reload_string (iad st') o k ss mn).
Proof.
  intros Hk Hm Hn Hl Hne. destruct realMDI_facts as (R1 & _).
  split; [cbn [In] in Hk; repeat (destruct Hk as [<-|Hk]; [reflexivity|]); destruct Hk|].
  split; [cbn [In] in Hk; repeat (destruct Hk as [<-|Hk]; [reflexivity|]); destruct Hk|].
  split; [cbn [In] in Hk; repeat (destruct Hk as [<-|Hk]; [reflexivity|]); destruct Hk|].
  assert (IntS : forall k, k = KInt8String \/ k = KInt16String ->
    exists bytes, save (string_codec i o k ss lk dsd mn) = Ok bytes /\
    forall rest, load (new_codec (iad st') o (c_kind (string_codec i o k ss lk dsd mn)) ty_STRING) (bytes ++ rest)
      = Ok (reload_string (iad st') o k ss mn, rest)).
  { intros k0 Hk0. eexists. split.
    - destruct Hk0 as [-> | ->]; reflexivity.
    - intros rest. unfold load.
      change (c_ord (string_codec i o k0 ss lk dsd mn)) with o || idtac.
      rewrite <- !app_assoc.
      rewrite (load_base_ok (string_codec i o k0 ss lk dsd mn)).
      2:{ destruct Hk0 as [-> | ->]; reflexivity. }
      2:{ destruct Hk0 as [-> | ->]; cbn; lia. }
      2:{ destruct Hk0 as [-> | ->]; exact Hm. }
      2:{ destruct Hk0 as [-> | ->]; exact R1. }
      2:{ destruct Hk0 as [-> | ->]; exact R1. }
      cbn [bind].
      assert (Body : forall c1 : codec, c_ord c1 = o -> c_lookup c1 = [] ->
        (do (n, s2) <- read_i32 o (w_int o 4 (Z.of_nat (length ss)) ++ save_strings o 0 ss ++ rest);
         do _ <- assert (0 <=? n);
         do (r, s3) <- load_entries o n (S (length s2)) n (repeat [] (Z.to_nat (Z.min n (Z.of_nat (length s2))))) 1 s2;
         do _ <- assert (length (c_lookup c1) =? 0)%nat;
         Ok (set_strings c1 (fst r) (c_lookup c1) (snd r), s3))
        = Ok (set_strings c1 ss [] (table_doubles ss), rest)).
      { intros c1 O1 L1. rewrite read_i32_app by lia. cbn [bind].
        replace (0 <=? Z.of_nat (length ss)) with true by lia. cbn [assert bind].
        pose proof (save_strings_length o 0 ss) as SL.
        replace (Z.to_nat _) with (length ss) by (rewrite app_length; lia).
        pose proof (load_entries_ok o (Z.of_nat (length ss)) ss [] (S (length (save_strings o 0 ss ++ rest))) 1 rest) as HLE.
        cbn [app length] in HLE. change (Z.of_nat 0) with 0 in HLE. rewrite HLE; [|lia|assumption|rewrite app_length; lia|lia].
        cbn [bind fst snd]. rewrite L1. reflexivity. }
      destruct Hk0 as [-> | ->]; cbn [c_kind string_codec set_stats set_strings new_codec c_ord c_strings];
      rewrite Body; reflexivity. }
  cbn [In] in Hk. destruct Hk as [<-|[<-|[<-|[<-|[]]]]]; [| |apply IntS; auto|apply IntS; auto].
  - eexists. split; [reflexivity|]. intros rest. cbn [c_kind string_codec set_stats new_codec].
    unfold load. cbn [c_kind new_codec c_ord]. rewrite <- !app_assoc.
    cbn [string_codec c_hasMissing set_stats c_min c_max c_missing c_ord new_codec].
    (* the eight bytes of min and max are written unswapped and swapped back after the read *)
    assert (W : forall b, is64 b -> le_bytes 8 b = w_int o 8 (le_val (swap o (le_bytes 8 b)))).
    { intros b Hb. unfold w_int.
      assert (L : length (swap o (le_bytes 8 b)) = 8%nat) by (rewrite swap_length; apply le_bytes_length).
      rewrite (le_bytes8 _ L) by (apply swap_ok, le_bytes_ok). now rewrite swap_swap. }
    rewrite (W mn Hm), (W realMDI R1).
    unfold load_base. cbn [c_ord new_codec]. rewrite read_i32_app by lia. cbn [bind].
    rewrite read_f64_app by apply is64_swap. cbn [bind].
    rewrite read_f64_app by apply is64_swap. cbn [bind].
    rewrite read_f64_app by exact R1. cbn [bind set_stats c_hasMissing c_min c_max c_missing c_kind].
    unfold swap8. rewrite !swap8_swap by assumption. reflexivity.
  - destruct ss as [|t ss]; [now destruct (Hne eq_refl)|]. inversion Hl; subst.
    eexists. split; [reflexivity|]. intros rest. unfold load.
    rewrite <- !app_assoc.
    rewrite (load_base_ok (string_codec i o KLongConstantString (t :: ss) lk dsd mn)); try reflexivity; try assumption.
    cbn [bind c_kind string_codec set_stats set_strings new_codec c_ord].
    rewrite read_string_app by assumption. cbn [bind]. reflexivity.
Qed.


Lemma table_of_distinct cells ss lk : table_of (texts cells) ss lk -> Z.of_nat (length ss) = distinct cells.
Proof.
  intros [_ _ N I]. unfold distinct. f_equal. apply Nat.le_antisymm; apply NoDup_incl_length; auto.
  - intros s Hs. apply nodup_In, I, Hs.
  - apply NoDup_nodup.
  - intros s Hs. apply nodup_In in Hs. apply I, Hs.
Qed.

Lemma gather_str_min64 dsd : forall cells c c',
  c_kind c = KChars -> c_dsd c = dsd -> Forall (fun cell => Z.of_nat (length cell) = 8 * dsd) cells ->
  Forall bytes_ok cells -> is64 (c_min c) -> gather_all c cells = Ok c' -> is64 (c_min c').
Proof.
  induction cells as [|x cells IH]; intros c c' Hk Hd Hc Hb Hm; cbn [gather_all].
  - intros [= <-]. exact Hm.
  - inversion Hc as [|? ? Hx Hc']; subst. inversion Hb as [|? ? Hx' Hb']; subst.
    assert (G : gather c x = chars_gather c x) by (unfold gather; rewrite Hk; reflexivity).
    rewrite G. unfold chars_gather. rewrite cell_string_ok by assumption. cbn [bind].
    intros E. eapply IH; [| |exact Hc'|exact Hb'| |exact E].
    + destruct (mget _ _); exact Hk.
    + destruct (mget _ _); reflexivity.
    + destruct (mget _ _); cbn [c_min set_stats]; (apply le_val_64; [apply pad_length|apply pad_ok, until_nul_ok, Hx']).
Qed.

Lemma gather_string st ci cells dsd : ci_type ci = ty_STRING -> ci_size ci = 8 * dsd ->
  Forall (fun cell => Z.of_nat (length cell) = 8 * dsd) cells -> Forall bytes_ok cells ->
  exists col c1, make_column st ci = Ok col /\ gather_all (col_coder col) cells = Ok c1 /\
    c_kind c1 = KChars /\ c_dsd c1 = dsd /\ c_hasMissing c1 = 0 /\ c_max c1 = realMDI /\ c_missing c1 = realMDI /\
    table_of (texts cells) (c_strings c1) (c_lookup c1) /\
    (forall s, In s (c_strings c1) -> length (c_strings c1) = 1%nat -> c_min c1 = le_val (pad 8 s)) /\ is64 (c_min c1).
Proof.
  intros Ht Hs Hc Hb.
  set (c0 := set_strings (new_codec (iad st) LE KChars ty_STRING) [] [] dsd).
  assert (M : make_column st ci = Ok {| col_name := ci_name ci; col_type := ty_STRING;
     col_bfnames := map fst (ci_bits ci); col_bfsizes := map snd (ci_bits ci); col_coder := c0 |}).
  { unfold make_column. rewrite Ht, Hs. change (working_codec st LE ty_STRING) with (Ok (new_codec (iad st) LE KChars ty_STRING)).
    cbn [bind]. replace (8 * dsd mod 8 =? 0) with true by lia. cbn [assert bind].
    replace (8 * dsd / 8) with dsd by lia. reflexivity. }
  eexists. destruct (gather_all_str dsd cells c0 []) as (c1 & E & K); auto.
  - apply table_of_nil.
  - cbn. tauto.
  - exists c1. split; [exact M|]. cbn [col_coder]. split; [exact E|].
    destruct K as (K1 & K2 & K3 & K4 & K5 & K6 & K7 & K8 & K9). do 6 (split; [assumption|]). split; [exact K9|]. eapply (gather_str_min64 dsd cells c0); eauto. apply realMDI_facts.
Qed.

Lemma string_kind_in ls n dsd : In (string_kind ls n dsd) [KConstantString; KLongConstantString; KInt8String; KInt16String].
Proof. unfold string_kind. repeat match goal with |- context [if ?b then _ else _] => destruct b end; cbn; tauto. Qed.

Lemma enc_string_ok i o k ss lk dsd mn cell (w : nat) cells :
  (k = KInt8String /\ w = 1%nat) \/ (k = KInt16String /\ w = 2%nat) ->
  table_of (texts cells) ss lk -> In cell cells -> Z.of_nat (length cell) = 8 * dsd ->
  Z.of_nat (length ss) < 256 ^ Z.of_nat w ->
  exists n, (n < length ss)%nat /\ nth n ss [] = until_nul cell /\
    encode (string_codec i o k ss lk dsd mn) cell = Ok (w_int o w (Z.of_nat n)).
Proof.
  intros Hk [A B C D] Hin Hl Hn.
  assert (Hs : In (until_nul cell) ss) by (apply D, in_map, Hin).
  apply In_nth_error in Hs. destruct Hs as [n Hn'].
  assert (L : (n < length ss)%nat) by (apply nth_error_Some; congruence).
  exists n. split; [assumption|]. split; [now apply nth_error_nth|].
  assert (G : mget lk (until_nul cell) = Some (Z.of_nat n)) by (apply B; rewrite Nat2Z.id; split; [lia|assumption]).
  assert (S : small (Z.of_nat n)).
  { unfold small. assert (256 ^ Z.of_nat w <= 65536) by (destruct Hk as [[_ ->]|[_ ->]]; cbn; lia). lia. }
  assert (E : enc_string (string_codec i o k ss lk dsd mn) w cell = Ok (w_int o w (Z.of_nat n))).
  { unfold enc_string.
    replace (c_dsd (string_codec i o k ss lk dsd mn)) with dsd by (destruct Hk as [[-> _]|[-> _]]; reflexivity).
    replace (c_lookup (string_codec i o k ss lk dsd mn)) with lk by (destruct Hk as [[-> _]|[-> _]]; reflexivity).
    replace (c_ord (string_codec i o k ss lk dsd mn)) with o by (destruct Hk as [[-> _]|[-> _]]; reflexivity).
    rewrite cell_string_ok by assumption. cbn [bind]. rewrite G.
    change (i64_bits (Z.of_nat n)) with (int_bits true (Z.of_nat n)).
    rewrite enc_offset_int; [now rewrite Z.sub_0_r|unfold mid; lia| |lia].
    assert (256 ^ Z.of_nat w <= 65536) by (destruct Hk as [[_ ->]|[_ ->]]; cbn; lia). unfold mid. lia. }
  destruct Hk as [[-> ->]|[-> ->]]; exact E.
Qed.

Lemma dec_string_ok o c (ss : list (list Z)) (dsd : Z) w n rest :
  c_ord c = o -> c_strings c = ss -> 0 < w -> (n < length ss)%nat -> Z.of_nat (length ss) <= 256 ^ w ->
  dec_string c w (w_int o (Z.to_nat w) (Z.of_nat n) ++ rest) =
    Ok (pad (Z.to_nat (8 * c_dsd c)) (nth n ss []), rest).
Proof.
  intros Ho Hs Hw Hn Hb. unfold dec_string. rewrite Ho.
  replace w with (Z.of_nat (Z.to_nat w)) at 1 by lia.
  rewrite read_uint_app by (rewrite Z2Nat.id by lia; lia). cbn [bind]. rewrite Hs.
  destruct (Z.leb_spec (Z.of_nat (length ss)) (Z.of_nat n)); [lia|]. rewrite Nat2Z.id. reflexivity.
Qed.

Theorem column_string st st' ci cells dsd :
  ci_type ci = ty_STRING -> ci_size ci = 8 * dsd -> 1 <= dsd -> 8 * dsd < 2 ^ 31 ->
  Forall (fun cell => Z.of_nat (length cell) = 8 * dsd) cells -> Forall bytes_ok cells ->
  distinct cells < 65536 ->
  ~ (long_strings st = true /\ dsd > 1 /\ In [] (texts cells) /\ distinct cells = 1) ->
  exists w, 1 <= w <= dsd /\ (forall s, In s (texts cells) -> Z.of_nat (length s) <= 8 * w) /\
    forall o, column_rt st st' o ci cells (map (fun cell => pad (Z.to_nat (8 * w)) (until_nul cell)) cells).
Proof.
  intros Ht Hs Hd Hd2 Hc Hb Hn Hx.
  destruct (gather_string st ci cells dsd Ht Hs Hc Hb) as (col & c1 & E1 & E2 & K1 & K2 & K3 & K4 & K5 & T & Mn & M64).
  set (ss := c_strings c1) in *. set (lk := c_lookup c1) in *.
  pose proof (table_of_distinct _ _ _ T) as Len. rewrite <- Len in Hn, Hx.
  pose proof T as [T1 T2 T3 T4].
  assert (Text : forall s, In s ss -> exists cell, In cell cells /\ s = until_nul cell).
  { intros s Hin. apply T4 in Hin. apply in_map_iff in Hin. destruct Hin as (x & <- & ?). eauto. }
  rewrite Forall_forall in Hc, Hb.
  assert (SL : forall s, In s ss -> Z.of_nat (length s) <= 8 * dsd).
  { intros s Hin. destruct (Text s Hin) as (x & Hx1 & ->). pose proof (until_nul_length x). rewrite <- (Hc x Hx1). lia. }
  assert (SN : forall s, In s ss -> Forall (fun b => b <> 0) s).
  { intros s Hin. destruct (Text s Hin) as (x & _ & ->). apply until_nul_no_nul. }
  assert (SB : forall s, In s ss -> bytes_ok s).
  { intros s Hin. destruct (Text s Hin) as (x & Hx1 & ->). apply until_nul_ok; auto. }
  set (k := string_kind (long_strings st) (Z.of_nat (length ss)) dsd).
  set (w := string_width st dsd ss).
  assert (Prep : forall o, prepare st o ci cells = Ok (string_codec (iad st) o k ss lk dsd (c_min c1))).
  { intros o. unfold prepare. rewrite E1. cbn [bind]. rewrite E2. cbn [bind]. rewrite Ht.
    apply optimize_string_ok; auto. }
  assert (One : Z.of_nat (length ss) = 1 -> exists s, ss = [s]).
  { intros H. destruct ss as [|s [|? ?]]; cbn in H; try lia. eauto. }
  assert (Hk : In k [KConstantString; KLongConstantString; KInt8String; KInt16String]) by apply string_kind_in.
  assert (LNE : k = KLongConstantString -> exists t, ss = [t] /\ t <> [] /\ 1 < dsd).
  { unfold k, string_kind. destruct (Z.eqb_spec (Z.of_nat (length ss)) 1) as [Q|Q]; cbn.
    2:{ destruct (_ <? 256); discriminate. }
    destruct (One Q) as [t Et]. destruct (Z.eqb_spec dsd 1); [discriminate|].
    destruct (long_strings st) eqn:LS; [|destruct (_ <? 256); discriminate]. intros _.
    exists t. split; [assumption|]. split; [|lia]. intros ->. apply Hx.
    split; [reflexivity|]. split; [lia|]. split; [|assumption]. apply T4. rewrite Et. now left. }
  assert (TD : 1 <= table_doubles ss <= dsd).
  { split; [apply fold_max_ge|]. apply table_doubles_le; [assumption|].
    intros t Hin. apply string_doubles_bound; [assumption|]. auto. }
  assert (W1 : 1 <= w <= dsd).
  { unfold w, string_width. fold k. destruct k eqn:Ek; try exact TD; try lia.
    destruct (LNE eq_refl) as (t & Et & Ne & Hd1). rewrite Et.
    assert (Z.of_nat (length t) <= 8 * dsd) by (apply SL; rewrite Et; now left).
    destruct t; [congruence|]. cbn [length] in *. lia. }
  assert (W2 : forall s, In s ss -> Z.of_nat (length s) <= 8 * w).
  { intros s Hin. unfold w, string_width. fold k.
    assert (D : Z.of_nat (length s) <= 8 * table_doubles ss).
    { pose proof (table_doubles_in ss s 1 Hin) as H. fold (table_doubles ss) in H.
      pose proof (string_doubles_fits s). lia. }
    destruct k eqn:Ek; try exact D.
    - assert (dsd = 1); [|specialize (SL s Hin); lia].
      unfold k, string_kind in Ek. destruct (Z.eqb_spec dsd 1); [assumption|].
      rewrite andb_false_r in Ek. destruct (_ && _); [discriminate|]. destruct (_ <? 256); discriminate.
    - destruct (LNE eq_refl) as (t & Et & Ne & Hd1). rewrite Et in Hin |- *. destruct Hin as [<-|[]]. lia. }
  exists w. split; [exact W1|]. split; [intros s Hin; apply W2, T4, Hin|]. intros o.
  exists (string_codec (iad st) o k ss lk dsd (c_min c1)), (reload_string (iad st') o k ss (c_min c1)).
  split; [apply Prep|]. split.
  - rewrite Ht. apply reloads_string; auto.
    + apply Forall_forall. intros s Hin. unfold len31. specialize (SL s Hin). lia.
    + intros Ek. destruct (LNE Ek) as (t & Et & _). rewrite Et. discriminate.
  - assert (W8 : 8 <= 8 * dsd) by lia.
    assert (DS : data_size_doubles (reload_string (iad st') o k ss (c_min c1)) = w).
    { unfold w, string_width, data_size_doubles. fold k.
      destruct k eqn:Ek; cbn [In] in Hk; try solve [exfalso; repeat (destruct Hk as [Hk|Hk]; [discriminate|]); destruct Hk].
      - reflexivity.
      - destruct (LNE eq_refl) as (t & Et & Ne & Hd1). rewrite Et. destruct t as [|b t]; [congruence|]. reflexivity.
      - reflexivity.
      - reflexivity. }
    split; [|rewrite DS; lia].
    replace cells with (map (fun x : list Z => x) cells) at 1 by apply map_id.
    apply Forall2_map. intros cell Hin.
    assert (Hts : In (until_nul cell) ss) by (apply T4, in_map, Hin).
    rewrite Hs. unfold cell_rt.
    destruct k eqn:Ek; cbn [In] in Hk; try solve [exfalso; repeat (destruct Hk as [Hk|Hk]; [discriminate|]); destruct Hk].
    + exists []. split; [reflexivity|]. split; [cbn [length]; lia|]. intros rest.
      cbn [decode c_kind reload_string set_stats new_codec c_min app]. f_equal. f_equal.
      assert (N1 : Z.of_nat (length ss) = 1).
      { unfold k, string_kind in Ek. destruct (Z.eqb_spec (Z.of_nat (length ss)) 1); [assumption|].
        cbn in Ek. destruct (_ <? 256); discriminate. }
      unfold w, string_width. fold k. rewrite Ek.
      rewrite (Mn (until_nul cell)) by (auto; lia).
      change (Z.to_nat (8 * 1)) with 8%nat. apply le_bytes8; [apply pad_length|apply pad_ok, SB, Hts].
    + exists []. split; [reflexivity|]. split; [cbn [length]; lia|]. intros rest.
      destruct (LNE eq_refl) as (t & Et & Ne & Hd1). rewrite Et in Hts. destruct Hts as [Hts|[]]. rewrite <- Hts.
      unfold decode. cbn [c_kind reload_string set_stats set_strings new_codec c_min app].
      unfold w, string_width. fold k. rewrite Ek, Et.
      cbn [firstn set_strings c_strings c_dsd]. destruct t as [|b t]; [congruence|]. cbn [length Nat.eqb].
      rewrite Z.mod_small; [reflexivity|].
      assert (Z.of_nat (length (b :: t)) <= 8 * dsd) by (apply SL; rewrite Et; now left). change (c_dsd _) with ((Z.of_nat (length (b :: t)) + 7) / 8). cbn [length] in *. lia.
    + destruct (enc_string_ok (iad st) o KInt8String ss lk dsd (c_min c1) cell 1 cells) as (n & Hn1 & Hn2 & He); auto.
      { cbn. unfold k, string_kind in Ek. destruct (_ && _); [discriminate|]. destruct (_ && _); [discriminate|].
        destruct (Z.ltb_spec (Z.of_nat (length ss)) 256); [assumption|discriminate]. }
      exists (w_int o 1 (Z.of_nat n)). split; [exact He|]. split; [rewrite w_int_length; lia|]. intros rest.
      unfold decode. cbn [c_kind reload_string set_stats set_strings new_codec].
      assert (N8 : Z.of_nat (length ss) < 256).
      { unfold k, string_kind in Ek. destruct (_ && _); [discriminate|]. destruct (_ && _); [discriminate|].
        destruct (Z.ltb_spec (Z.of_nat (length ss)) 256); [assumption|discriminate]. }
      rewrite (dec_string_ok o _ ss dsd 1 n) by (try reflexivity; auto; lia).
      cbn [c_dsd c_strings set_stats set_strings]. rewrite Hn2. unfold w, string_width. fold k. rewrite Ek. reflexivity.
    + destruct (enc_string_ok (iad st) o KInt16String ss lk dsd (c_min c1) cell 2 cells) as (n & Hn1 & Hn2 & He); auto.
      exists (w_int o 2 (Z.of_nat n)). split; [exact He|]. split; [rewrite w_int_length; lia|]. intros rest.
      unfold decode. cbn [c_kind reload_string set_stats set_strings new_codec].
      rewrite (dec_string_ok o _ ss dsd 2 n) by (try reflexivity; auto; lia).
      cbn [c_dsd c_strings set_stats set_strings]. rewrite Hn2. unfold w, string_width. fold k. rewrite Ek. reflexivity.
Qed.
