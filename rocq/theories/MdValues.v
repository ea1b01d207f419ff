(** The cells of a constant column that was given another value. *)
From Coq Require Import String.
From Verif Require Import Spec Base Fp FpProofs Stream StreamProofs StreamLocal Codec Meta Header Encoder Table
  IntProofs RealProofs StringProofs ColumnProofs RealColumn HeaderProofs TableProofs FrameProofs FrameDecode Roundtrip MdDecode.
From Verif Require Import MdSpec.
Open Scope Z_scope.
Local Notation length := List.length.

(** [k2] is [k'] with the value [v]. *)
Record valued (k' : codec) (v : Z) (k2 : codec) : Prop := {
  vd_kind : c_kind k2 = c_kind k'; vd_int64 : c_int64 k2 = c_int64 k'; vd_ord : c_ord k2 = c_ord k';
  vd_missing : c_missing k2 = c_missing k'; vd_strings : c_strings k2 = c_strings k'; vd_dsd : c_dsd k2 = c_dsd k';
  vd_min : c_min k2 = v
}.

Lemma reloads_fun st' o ty k k1 k2 : reloads st' o ty k k1 -> reloads st' o ty k k2 -> k1 = k2.
Proof.
  intros (_ & _ & _ & b1 & S1 & L1) (_ & _ & _ & b2 & S2 & L2). rewrite S1 in S2. injection S2 as <-.
  specialize (L1 []). specialize (L2 []). congruence.
Qed.

Lemma app_id {A} (b rest : list A) : b ++ rest = rest -> b = [].
Proof. intros E. apply (f_equal (@List.length A)) in E. rewrite app_length in E. destruct b; [reflexivity|cbn in E; lia]. Qed.

(** a constant codec writes nothing *)
Lemma constant_empty k k' size cell out b : c_kind k' = KConstant \/ c_kind k' = KConstantString \/ c_kind k' = KLongConstantString ->
  (encode k cell = Ok b /\ Z.of_nat (length b) <= size /\ forall rest, decode k' (b ++ rest) = Ok (out, rest)) -> b = [].
Proof.
  intros K (_ & _ & D). specialize (D []). unfold decode in D. destruct K as [K|[K|K]]; rewrite K in D.
  - apply bind_ok in D as (x & _ & D). apply (app_id b []). congruence.
  - apply (app_id b []). congruence.
  - destruct (c_strings k'); [discriminate|]. apply (app_id b []). congruence.
Qed.

Lemma constant_cell k k' k2 v size cell out out2 : c_kind k' = KConstant -> valued k' v k2 ->
  cell_rt k k' size cell out -> store_value (c_int64 k') v = Ok out2 -> cell_rt k k2 size cell out2.
Proof.
  intros K [V1 V2 V3 V4 V5 V6 V7] (b & H) E. pose proof (constant_empty k k' size cell out b (or_introl K) H) as ->.
  destruct H as (H1 & H2 & _). exists []. split; [exact H1|]. split; [exact H2|]. intros rest. cbn [app].
  unfold decode. rewrite V1, K, V2, V7, E. reflexivity.
Qed.

Lemma text_cell k k' k2 v size cell out : c_kind k' = KConstantString -> valued k' v k2 ->
  cell_rt k k' size cell out -> cell_rt k k2 size cell (le_bytes 8 v).
Proof.
  intros K [V1 V2 V3 V4 V5 V6 V7] (b & H). pose proof (constant_empty k k' size cell out b (or_intror (or_introl K)) H) as ->.
  destruct H as (H1 & H2 & _). exists []. split; [exact H1|]. split; [exact H2|]. intros rest. cbn [app].
  unfold decode. rewrite V1, K, V7. reflexivity.
Qed.

Lemma long_cell k k' k2 v size cell out : c_kind k' = KLongConstantString -> valued k' v k2 ->
  cell_rt k k' size cell out -> cell_rt k k2 size cell out.
Proof.
  intros K [V1 V2 V3 V4 V5 V6 V7] (b & H1 & H2 & H3). exists b. split; [exact H1|]. split; [exact H2|]. intros rest.
  rewrite <- (H3 rest). unfold decode. rewrite V1, K, V5, V6. reflexivity.
Qed.

Lemma dec_zero o i w rest : mid w -> dec_missing o 1 i (z2d w) integerMDI (w_int o 1 0 ++ rest) = Ok (int_cell i w, rest).
Proof.
  intros M. unfold dec_missing. change 1 with (Z.of_nat 1) at 1. rewrite read_uint_app by (cbn; lia). cbn [bind].
  destruct (Z.eqb_spec 0 (256 ^ 1 - 1)); [discriminate|]. unfold mid in *. rewrite dadd_z2d by (unfold small; lia).
  rewrite Z.add_0_l. rewrite store_value_int by (unfold small; lia). reflexivity.
Qed.

Section Item.
Variables (st st' : settings) (o : order) (ci : colinfo).

Lemma int_item ns k k' k2 v : int_type (ci_type ci) -> ci_size ci = 8 -> int_representable ns ->
  prepare st o ci (map (int_cell (negb (iad st))) ns) = Ok k -> reloads st' o (ci_type ci) k k' ->
  constant_kind (c_kind k') -> valued k' v k2 -> value_for (ci_type ci) v ->
  exists outs2, Forall2 (cell_rt k k2 (ci_size ci)) (map (int_cell (negb (iad st))) ns) outs2 /\
    Forall2 (cell_after st st' (ci_type ci) (c_kind k') v) (map (int_cell (negb (iad st))) ns) outs2.
Proof.
  intros Ht Hs Hr P R K V [Vf _]. destruct (Vf Ht) as (w & Mw & Ev). clear Vf. pose proof Hr as [Hm _].
  destruct (prepare_int st o ci ns Ht Hs Hm) as (h & lo & hi & S1 & E).
  assert (Ek : k = int_codec (iad st) o (ci_type ci) (int_kind h (hi - lo)) h lo hi) by congruence. clear E.
  destruct (column_int st st' o ci ns Ht Hs Hr) as (k0 & k0' & E0 & R0 & C0 & _).
  assert (k0 = k) by congruence. subst k0. assert (k0' = k') by (eapply reloads_fun; eassumption). subst k0'. clear R0 E0.
  assert (Kk : c_kind k' = int_kind h (hi - lo)).
  { destruct R as (_ & _ & -> & _). rewrite Ek. reflexivity. }
  assert (Ek' : k' = int_codec (iad st') o (ci_type ci) (int_kind h (hi - lo)) h lo hi).
  { eapply reloads_fun; [exact R|]. rewrite Ek. unfold int_codec. destruct S1 as [Sh Slo Shi _ _ _]. apply reloads_numeric.
    + pose proof (int_kind_cases h (hi - lo)) as K1. cbn [In] in K1.
      repeat (destruct K1 as [<-|K1]; [reflexivity|]). destruct K1.
    + rewrite Sh. destruct (existsb _ ns); lia.
    + apply z2d_fin. now apply mid_small.
    + apply z2d_fin. now apply mid_small.
    + apply z2d_fin. lia.
    + now apply check_cast_int. }
  exists (map (fun n => int_cell (negb (iad st')) (if n =? MDI then MDI else w)) ns). split.
  2:{ apply Forall2_map. intros n Hn. constructor; auto. rewrite Forall_forall in Hm. auto. }
  assert (KK : int_kind h (hi - lo) = KConstant /\ h = 0 \/ int_kind h (hi - lo) = KConstantOrMissing /\ hi = lo).
  { rewrite Kk in K. unfold int_kind in *. unfold constant_kind in K. cbn [In] in K.
    destruct (Z.eqb_spec h 0); cbn [negb] in *.
    - destruct (hi - lo =? 0); [now left|]. exfalso. destruct (_ <=? 255); [|destruct (_ <=? 65535)]; intuition discriminate.
    - destruct (Z.eqb_spec (hi - lo) 0); [right; split; [reflexivity|lia]|]. exfalso.
      destruct (_ <? 255); [|destruct (_ <? 65535)]; intuition discriminate. }
  assert (I64 : c_int64 k' = negb (iad st')).
  { rewrite Ek'. destruct KK as [[-> _]|[-> _]]; cbn; destruct Ht as [-> | ->]; reflexivity. }
  assert (C1 : forall n, In n ns -> exists out, cell_rt k k' (ci_size ci) (int_cell (negb (iad st)) n) out).
  { intros n Hn. apply (in_map (int_cell (negb (iad st)))) in Hn. apply In_nth_error in Hn as (i & Hi).
    destruct (Forall2_get _ _ _ _ _ C0 Hi) as (x & _ & Hx). eauto. }
  apply Forall2_map. intros n Hn. destruct (C1 n Hn) as (out & Hout). pose proof S1 as [Sh Slo Shi Sle Sin _].
  destruct KK as [[KK Eh]|[KK Eh]].
  - eapply constant_cell; [rewrite Kk; exact KK|exact V|exact Hout|]. rewrite I64, Ev.
    destruct (Z.eqb_spec n MDI) as [->|N].
    + exfalso. rewrite Sh in Eh. assert (existsb (fun n => n =? MDI) ns = true) as X; [|rewrite X in Eh; discriminate].
      apply existsb_exists. exists MDI. split; [exact Hn|reflexivity].
    + apply store_value_int. now apply mid_small.
  - exists (int_code o KConstantOrMissing lo n). assert (Mn : mid n) by (rewrite Forall_forall in Hm; auto). split; [|split].
    + rewrite Ek. rewrite <- KK. eapply int_encode; eauto. rewrite KK. discriminate.
    + cbn [int_code]. rewrite w_int_length, Hs. cbn; lia.
    + intros rest. destruct V as [V1 V2 V3 V4 V5 V6 V7]. unfold decode. rewrite V1, Kk, KK, V2, V3, V4, V7, I64.
      replace (c_ord k') with o by (rewrite Ek'; reflexivity). replace (c_missing k') with integerMDI by (rewrite Ek'; reflexivity).
      rewrite Ev. cbn [int_code]. destruct (Z.eqb_spec n MDI) as [->|N].
      * pose proof (dec_missing_int o 1 (negb (iad st')) w MDI rest Mw Mn ltac:(lia) ltac:(intros X; contradiction)) as D.
        cbn [Z.eqb] in D. rewrite Z.eqb_refl in D. exact D.
      * replace (n - lo) with 0 by (specialize (Sin n Hn N); lia). now apply dec_zero.
Qed.

Lemma real_codec_item bs kind h mn mx k2 v : real_type (ci_type ci) -> ci_size ci = 8 -> Forall num bs ->
  ~ inf_with_missing bs -> real_stats bs h mn mx ->
  kind = (if deq mx mn then (if negb (h =? 0) then KRealConstantOrMissing else KConstant) else kind) ->
  constant_kind kind -> (kind = KConstant \/ kind = KRealConstantOrMissing -> deq mx mn = true) ->
  valued (real_codec (iad st') o (ci_type ci) kind h mn mx) v k2 -> num v -> v <> negzero -> In kind real_kinds ->
  Forall2 (cell_rt (real_codec (iad st) o (ci_type ci) kind h mn mx) k2 (ci_size ci)) (map (le_bytes 8) bs)
     (map (fun b => le_bytes 8 (if deq b realMDI then realMDI else v)) bs).
Proof.
  intros Ht Hs Hn Hi S1 Ekind K Kd V Nv Nz Rk. pose proof Hn as Hn'. rewrite Forall_forall in Hn'.
  assert (KK : kind = KConstant \/ kind = KRealConstantOrMissing).
  { unfold constant_kind, real_kinds in *. cbn [In] in *. clear -K Rk. intuition (subst; try discriminate; auto). }
  pose proof (Kd KK) as D. rewrite D in Ekind. apply Forall2_map. intros b Hb. pose proof (Hn' b Hb) as Nb.
  destruct V as [V1 V2 V3 V4 V5 V6 V7].
  assert (I64 : c_int64 k2 = false) by (rewrite V2; apply real_int64; exact Ht).
  destruct (Z.eqb_spec h 0) as [Eh|Eh]; cbn [negb] in Ekind; subst kind.
  - exists []. split; [reflexivity|]. split; [cbn; lia|]. intros rest. cbn [app].
    rewrite (const_no_missing _ _ _ _ b S1 Eh Hb). unfold decode. rewrite V1. cbn [c_kind real_codec set_stats new_codec].
    rewrite I64, V7. reflexivity.
  - exists (w_int o 1 (if deq b realMDI then 255 else 0)). split; [|split; [rewrite w_int_length, Hs; cbn; lia|]].
    + apply enc_rcom; [exact Ht|exact Nb|apply S1|]. intros M. split; [eapply real_const; eassumption|eapply mn_finite; eassumption].
    + intros rest. pose proof (dec_rcom (iad st') o (ci_type ci) h v v (deq b realMDI) rest Ht Nv Nz) as Dc.
      rewrite <- Dc. apply decode_same. unfold same_decode. rewrite V1, V2, V3, V4, V5, V6, V7. repeat split; reflexivity.
Qed.
End Item.

Theorem item_value st st' o ci cells k k' k2 v outs :
  storable st ci cells -> prepare st o ci cells = Ok k -> reloads st' o (ci_type ci) k k' ->
  Forall2 (cell_rt k k' (ci_size ci)) cells outs -> Forall2 (same_value st st' (ci_type ci)) cells outs ->
  constant_kind (c_kind k') -> valued k' v k2 -> value_for (ci_type ci) v ->
  exists outs2, Forall2 (cell_rt k k2 (ci_size ci)) cells outs2 /\
    Forall2 (cell_after st st' (ci_type ci) (c_kind k') v) cells outs2.
Proof.
  intros S0 P R C SV K V Vf. pose proof S0 as S0'. inversion S0' as [ns T Hs Hr Ec|bs T Hs Hn Hr Ec|bs T Hs Hn Hz Hi Ec|dsd cs T Z1 Z2 Z3 Z4 Z5 Z6 Z7 Ec]; clear S0'; [subst cells|subst cells|subst cells|subst cs].
  - eapply int_item; eassumption.
  - destruct Vf as [_ Vf]. destruct (Vf (or_introl T)) as [Nv Nz].
    destruct (prepare_real st ci bs T Hs Hn) as (h & mn & mx & S1 & Pr). rewrite Pr in P.
    destruct (_ && _) in P; [discriminate|]. set (kind := real_kind h mn mx (existsb (fun b => deq b (f2d flt_max)) bs)) in *.
    assert (Ek : k = real_codec (iad st) o ty_REAL kind h mn mx) by congruence.
    assert (Ek' : k' = real_codec (iad st') o ty_REAL kind h mn mx).
    { eapply reloads_fun; [exact R|]. rewrite Ek, T. eapply reloads_real; [now left|apply real_kind_in|eassumption]. }
    rewrite Ek' in K, V. rewrite Ek, Ek'. rewrite <- T in *. change (c_kind _) with kind in K |- *.
    exists (map (fun b => le_bytes 8 (if deq b realMDI then realMDI else v)) bs). split.
    + eapply real_codec_item; try eassumption.
      * left. exact T.
      * apply Hr.
      * unfold kind, real_kind. destruct (deq mx mn); reflexivity.
      * unfold kind, real_kind. destruct (deq mx mn); [reflexivity|]. destruct (existsb _ bs); intros [X|X]; discriminate.
      * unfold kind. apply real_kind_in.
    + apply Forall2_map. intros b Hb. constructor; [left; exact T|]. rewrite Forall_forall in Hn. apply Hn, Hb.
  - destruct Vf as [_ Vf]. destruct (Vf (or_intror T)) as [Nv Nz].
    destruct (gather_real st ci bs (or_intror T) Hs Hn) as (col & c1 & h & mn & mx & E1 & E2 & K1 & K2 & S1 & H1 & H2 & H3 & H4 & _).
    set (kind := double_kind h mn mx) in *.
    assert (Ek : k = real_codec (iad st) o ty_DOUBLE kind h mn mx).
    { unfold prepare in P. rewrite E1 in P. cbn [bind] in P. rewrite E2 in P. cbn [bind] in P. rewrite T in P.
      rewrite (optimize_double_ok st o c1 bs h mn mx) in P by assumption. injection P as <-. reflexivity. }
    assert (Ek' : k' = real_codec (iad st') o ty_DOUBLE kind h mn mx).
    { eapply reloads_fun; [exact R|]. rewrite Ek, T. eapply reloads_real; [now right|apply double_kind_in|eassumption]. }
    rewrite Ek' in K, V. rewrite Ek, Ek'. rewrite <- T in *. change (c_kind _) with kind in K |- *.
    exists (map (fun b => le_bytes 8 (if deq b realMDI then realMDI else v)) bs). split.
    + eapply real_codec_item; try eassumption.
      * right. exact T.
      * unfold kind, double_kind. destruct (deq mx mn); reflexivity.
      * unfold kind, double_kind. destruct (deq mx mn); [reflexivity|]. intros [X|X]; discriminate.
      * unfold kind. apply double_kind_in.
    + apply Forall2_map. intros b Hb. constructor; [right; exact T|]. rewrite Forall_forall in Hn. apply Hn, Hb.
  - destruct (column_string st st' ci cells dsd T Z1 Z2 Z3 Z4 Z5 Z6 Z7) as (w & _ & _ & Co).
    assert (KS : c_kind k' = KConstantString \/ c_kind k' = KLongConstantString).
    { destruct (gather_string st ci cells dsd T Z1 Z4 Z5) as (col & c1 & E1 & E2 & K1 & K2 & K3 & K4 & K5 & TT & Mn & M64).
      unfold prepare in P. rewrite E1 in P. cbn [bind] in P. rewrite E2 in P. cbn [bind] in P. rewrite T in P.
      destruct R as (_ & _ & Rk & _). rewrite Rk in *.
      assert (Kin : exists x y z, c_kind k = string_kind x y z).
      { rewrite (optimize_string_ok st o c1 (c_strings c1) (c_lookup c1) dsd (c_min c1)) in P by (auto; rewrite (table_of_distinct _ _ _ TT); exact Z6).
        injection P as <-. exists (long_strings st), (Z.of_nat (length (c_strings c1))), dsd. unfold string_codec.
        destruct (string_kind _ _ _); reflexivity. }
      destruct Kin as (x & y & z & Kin). rewrite Kin in *. pose proof (string_kind_in x y z) as I. unfold constant_kind in K. cbn [In] in *.
      clear -I K. intuition (try congruence). }
    destruct KS as [KS|KS].
    + exists (map (fun _ => le_bytes 8 v) cells). split.
      * clear -C KS V. induction C as [|a b la lb H C IH]; cbn [map]; constructor; [|exact IH]. eapply text_cell; eassumption.
      * clear -KS T. induction cells as [|a l IH]; cbn [map]; constructor; [|exact IH]. now apply af_text.
    + exists outs. split.
      * eapply Forall2_weaken; [|exact C]. intros a b H. eapply long_cell; eassumption.
      * eapply Forall2_weaken; [|exact SV]. intros a b H. apply af_long; auto.
        rewrite T in H. destruct H as [(H & _)|[(H & _)|[(H & _)|(_ & H)]]]; try discriminate; auto. destruct H; discriminate.
Qed.
