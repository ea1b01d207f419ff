(** C08, C12 - C15, C47: REAL and DOUBLE columns. *)
From Coq Require Import String.
From Verif Require Import Spec Base Fp FpProofs FpNearest Stream StreamProofs StreamLocal Codec Meta Header Encoder Table
  GatherProofs RealProofs ColumnProofs RealColumn NanProofs Md5 Api Through.
Open Scope Z_scope.

Definition nan (v : Z) : Prop := is_nan f64 v = true.
Definition missing (v : Z) : Prop := deq v realMDI = true.
Definition present (v : Z) : Prop := deq v realMDI = false.

Lemma not_nan_b v : ~ nan v <-> negb (nanb v) = true.
Proof. unfold nan, nanb. destruct (is_nan f64 v); cbn; split; congruence. Qed.

(** the patterns of a column as cells *)
Definition real_cells (bs : list Z) : list (list Z) := map (le_bytes 8) bs.

Lemma real_cells_inj a b : Forall is64 a -> Forall is64 b -> real_cells a = real_cells b -> a = b.
Proof.
  unfold real_cells. intros Ha; revert b; induction Ha as [|x a Hx Ha IH]; intros [|y b] Hb E; cbn [map] in E; try discriminate; [reflexivity|].
  assert (le_bytes 8 x = le_bytes 8 y /\ map (le_bytes 8) a = map (le_bytes 8) b) as [E1 E2] by (split; congruence).
  inversion Hb; subst. f_equal; [|now apply IH].
  rewrite <- (le_val_small 8 x), <- (le_val_small 8 y) by assumption. now rewrite E1.
Qed.

(** A constant codec decodes every cell as the recorded minimum. *)
Lemma const_cell i i' o h mn mx v : is64 mn ->
  cell_rt (real_codec i o ty_DOUBLE KConstant h mn mx) (real_codec i' o ty_DOUBLE KConstant h mn mx) 8 (le_bytes 8 v) (le_bytes 8 mn).
Proof.
  intros Hm. exists []. split; [reflexivity|]. split; [cbn; lia|]. intros rest. cbn [app].
  reflexivity.
Qed.

Section Double.
Variables (md5 : list Z -> list Z) (tag : list Z) (st st' : settings) (o : order) (ci : colinfo) (bs : list Z).
Hypotheses (Hd : digest md5) (Ht : ci_type ci = ty_DOUBLE) (Hs : ci_size ci = 8) (Hb : Forall is64 bs)
  (Hf : fits tag ci (real_cells bs)).

Lemma double_trip outs h mn mx :
  (forall o, prepare st o ci (real_cells bs) = Ok (real_codec (iad st) o ty_DOUBLE (double_kind h mn mx) h mn mx)) ->
  (h = 0 \/ h = 1) -> is64 mn -> is64 mx ->
  Forall2 (cell_rt (real_codec (iad st) o ty_DOUBLE (double_kind h mn mx) h mn mx)
             (real_codec (iad st') o ty_DOUBLE (double_kind h mn mx) h mn mx) 8) (real_cells bs) outs ->
  trip md5 tag st st' o ci (real_cells bs) = Ok outs.
Proof using Hd Ht Hs Hf.
  intros P Hh H1 H2 F. apply (trip_ok md5 tag st st' o Hd ci _ _ 1); [right; left; right; exact Ht|exact Hf|].
  eexists _, _. split; [apply P|]. split; [|split; [rewrite Hs; exact F|]].
  - rewrite Ht. destruct realMDI_facts as (R1 & _). unfold real_codec. apply reloads_numeric; auto.
    + destruct (double_kind_in h mn mx) as [<-|[<-|[<-|[<-|[<-|[]]]]]]; reflexivity.
    + lia.
    + unfold check_cast. pose proof (real_int64 (iad st') o (double_kind h mn mx) ty_DOUBLE h mn mx ltac:(now right)) as E.
      unfold real_codec in E. rewrite E, andb_false_r. reflexivity.
  - apply dsd_num; [exact Hs|]. cbn [c_kind real_codec set_stats new_codec].
    destruct (double_kind_in h mn mx) as [<-|[<-|[<-|[<-|[<-|[]]]]]]; reflexivity.
Qed.

Lemma double_exact h mn mx :
  (forall o, prepare st o ci (real_cells bs) = Ok (real_codec (iad st) o ty_DOUBLE (double_kind h mn mx) h mn mx)) ->
  (h = 0 \/ h = 1) -> is64 mn -> is64 mx -> deq mx mn = false ->
  trip md5 tag st st' o ci (real_cells bs) = Ok (real_cells bs).
Proof using Hd Ht Hs Hf Hb.
  intros P Hh H1 H2 D. eapply double_trip; eauto. unfold double_kind. rewrite D. apply Forall2_map.
  intros v Hv. apply long_cell; [now right|]. rewrite Forall_forall in Hb. auto.
Qed.

Lemma stats_differ (fs : list Z) h mn mx : real_stats fs h mn mx -> deq mx mn = false ->
  In mn fs /\ In mx fs /\ present mn /\ present mx.
Proof.
  intros [_ _ _ _ [(-> & -> & _)|(A & B & C & D)]] E; [|auto].
  rewrite (deq_refl realMDI) in E by (vm_compute; reflexivity). discriminate.
Qed.

Theorem C08_exact : (exists v, In v bs /\ nan v) ->
  (trip md5 tag st st' o ci (real_cells bs) = Ok (real_cells bs) <->
   (exists v, first_value bs = Some v /\ nan v) \/
   (exists a b, In a bs /\ In b bs /\ present a /\ present b /\ ~ nan a /\ ~ nan b /\ deq a b = false)).
Proof using Hd Ht Hs Hf Hb.
  intros (x & Hx & Nx). destruct (prepare_double st ci bs Ht Hs Hb) as (h & mn & mx & Hh & H1 & H2 & P & C).
  destruct (deq mx mn) eqn:D.
  - split.
    + intros T. exfalso. destruct C as [(v & _ & _ & N1 & N2)|[F S]]; [now rewrite deq_nan in D by assumption|].
      assert (K : double_kind h mn mx = if h =? 0 then KConstant else KRealConstantOrMissing).
      { unfold double_kind. rewrite D. destruct Hh as [-> | ->]; reflexivity. }
      pose proof S as [_ [_ Nmn] _ _ _].
      destruct Hh as [-> | ->]; cbn [Z.eqb] in K.
      * assert (T' : trip md5 tag st st' o ci (real_cells bs) = Ok (real_cells (map (fun _ => mn) bs))).
        { eapply double_trip; eauto. unfold real_cells. rewrite map_map, K. apply Forall2_map. intros v Hv. now apply const_cell. }
        rewrite T in T'. inversion T' as [E]. apply real_cells_inj in E; auto.
        -- assert (In x (map (fun _ => mn) bs)) as Q by (rewrite <- E; exact Hx). apply in_map_iff in Q as (y & -> & _).
           unfold nan in Nx. congruence.
        -- apply Forall_forall. intros y Hy. apply in_map_iff in Hy as (? & <- & _). exact H1.
      * assert (Q : exists b, encode_frame md5 tag st o [ci] [{| cd_size := ci_size ci; cd_cells := real_cells bs |}] [] = Ok b).
        { unfold trip in T. destruct (encode_frame _ _ _ _ _ _ _); try discriminate. eauto. }
        destruct Q as [b Q]. apply encode_frame_inv in Q. inversion Q as [|? ? ? ? (k & Pk & A) _]; subst. cbn [cd_cells] in *.
        rewrite P in Pk. inversion Pk; subst k. clear Pk. specialize (A (le_bytes 8 x) (in_map _ _ _ Hx)). rewrite K in A.
        unfold encode in A. cbn [c_kind real_codec set_stats new_codec c_int64 c_min c_missing c_ord] in A.
        rewrite cell_bits_le in A by (rewrite Forall_forall in Hb; auto). cbn [bind] in A.
        unfold enc_missing in A. change (int_built _ && _ && _) with false in A. cbn [as_double] in A. rewrite deq_nan in A by assumption.
        assert (Z1 : dsub x mn = qnan). { unfold dsub, dadd. unfold nan in Nx. now rewrite Nx. }
        rewrite Z1 in A. vm_compute in A. discriminate.
    + intros E. exfalso. destruct C as [(v & _ & _ & N1 & N2)|[F S]]; [now rewrite deq_nan in D by assumption|].
      destruct E as [(v & E1 & E2)|(a & b & Ia & Ib & Pa & Pb & Na & Nb & E)].
      * specialize (F v E1). unfold nanb, nan in *. congruence.
      * set (fs := filter (fun v => negb (nanb v)) bs) in *.
        assert (In a fs /\ In b fs) as [Fa Fb].
        { split; apply filter_In; split; auto; now apply not_nan_b. }
        assert (Nf : Forall num fs).
        { apply Forall_forall. intros v Hv. apply filter_In in Hv as [Hv1 Hv2]. rewrite Forall_forall in Hb. split; [auto|].
          unfold nanb in Hv2. now destruct (is_nan f64 v). }
        assert (real_same fs) as R by (eapply real_same_stats; eauto). specialize (R a b Fa Fb Pa Pb). congruence.
  - split; [|intros _; eapply double_exact; eauto]. intros _.
    destruct C as [(v & A & B & _)|[F S]]; [left; eauto|]. right.
    destruct (stats_differ _ _ _ _ S D) as (A1 & A2 & A3 & A4). apply filter_In in A1 as [A1 A1'], A2 as [A2 A2'].
    exists mx, mn. repeat split; auto; now apply not_nan_b.
Qed.

Theorem C15_exact : (forall v, In v bs -> ~ nan v) -> ~ inf_with_missing bs -> In negzero bs ->
  (trip md5 tag st st' o ci (real_cells bs) = Ok (real_cells bs) <->
   (exists a b, In a bs /\ In b bs /\ present a /\ present b /\ deq a b = false) \/ (forall v, In v bs -> v = negzero)).
Proof using Hd Ht Hs Hf Hb.
  intros Nb Hi Hz. assert (Nn : Forall num bs).
  { apply Forall_forall. intros v Hv. rewrite Forall_forall in Hb. split; [auto|]. specialize (Nb v Hv). unfold nan in Nb. now destruct (is_nan f64 v). }
  destruct (prepare_double st ci bs Ht Hs Hb) as (h & mn & mx & Hh & H1 & H2 & P & C).
  assert (Ff : filter (fun v => negb (nanb v)) bs = bs).
  { apply forallb_filter_id, forallb_forall. intros v Hv. specialize (Nb v Hv). unfold nanb, nan in *. now destruct (is_nan f64 v). }
  rewrite Ff in C. assert (S : real_stats bs h mn mx).
  { destruct C as [(v & A & B & _)|[_ S]]; [|exact S]. exfalso. apply find_some in A as [A _]. now apply (Nb v). }
  clear C. assert (Zp : present negzero) by (vm_compute; reflexivity).
  destruct (deq mx mn) eqn:D.
  2:{ split; [|intros _; eapply double_exact; eauto]. intros _. left.
      destruct (stats_differ _ _ _ _ S D) as (A1 & A2 & A3 & A4). exists mx, mn. auto. }
  assert (Same : real_same bs) by (eapply real_same_stats; eauto).
  assert (G : (exists a b, In a bs /\ In b bs /\ present a /\ present b /\ deq a b = false) -> False).
  { intros (a & b & Ia & Ib & Pa & Pb & E). specialize (Same a b Ia Ib Pa Pb). congruence. }
  assert (K : double_kind h mn mx = if h =? 0 then KConstant else KRealConstantOrMissing).
  { unfold double_kind. rewrite D. destruct Hh as [-> | ->]; reflexivity. }
  assert (Mz : mn = negzero \/ mn = 0).
  { pose proof (real_const _ _ _ _ negzero S D Hz) as Q. assert (Nz : num negzero) by (rewrite Forall_forall in Nn; auto).
    specialize (Q Nz Zp). pose proof (rs_mn _ _ _ _ S) as [I1 I2]. rewrite deq_key in Q by (apply Nz || assumption).
    assert (key f64 negzero = 0) by (vm_compute; reflexivity). assert (key f64 mn = 0) as Kz by lia.
    unfold key, mag, negb_ in Kz. rewrite sign64 in Kz. unfold is64 in I1. unfold negzero. destruct (Z.leb_spec (2 ^ 63) mn); lia. }
  assert (Pm : present mn) by (destruct Mz as [-> | ->]; vm_compute; reflexivity).
  destruct Hh as [-> | ->]; cbn [Z.eqb] in K.
  - (* constant: everything comes back as the first value *)
    assert (T' : trip md5 tag st st' o ci (real_cells bs) = Ok (real_cells (map (fun _ => mn) bs))).
    { eapply double_trip; eauto. unfold real_cells. rewrite map_map, K. apply Forall2_map. intros v Hv. now apply const_cell. }
    rewrite T'. split.
    + intros E. inversion E as [E1]. apply real_cells_inj in E1; auto.
      2:{ apply Forall_forall. intros y Hy. apply in_map_iff in Hy as (? & <- & _). exact H1. }
      right. assert (A : forall y, In y bs -> y = mn).
      { intros y Hy. rewrite <- E1 in Hy. apply in_map_iff in Hy as (? & <- & _). reflexivity. }
      intros v Hv. rewrite (A v Hv). now rewrite (A negzero Hz).
    + intros [E|E]; [now apply G in E|]. f_equal. unfold real_cells. f_equal.
      assert (M : mn = negzero).
      { destruct S as [_ _ _ _ [(Q & _)|(Q & _)]]; [rewrite Q in Pm; vm_compute in Pm; discriminate|]. now apply E. }
      rewrite M. clear -E. induction bs as [|v l IH]; [reflexivity|]. cbn [map]. rewrite (E v) by now left. f_equal. apply IH. intros; apply E; now right.
  - (* with missing values: zero is rebuilt as 0 + min *)
    assert (T' : trip md5 tag st st' o ci (real_cells bs) = Ok (real_cells (map (fun v => if deq v realMDI then realMDI else 0) bs))).
    { eapply double_trip; eauto. unfold real_cells. rewrite map_map, K. apply Forall2_map. intros v Hv.
      exists (w_int o 1 (if deq v realMDI then 255 else 0)). split; [|split].
      - apply enc_rcom; [now right|rewrite Forall_forall in Nn; auto|exact (rs_mn _ _ _ _ S)|].
        intros Pv. split; [eapply real_const; eauto; rewrite Forall_forall in Nn; auto|]. destruct Mz as [-> | ->]; vm_compute; reflexivity.
      - rewrite w_int_length. lia.
      - intros rest. destruct (dec_rcom_any (iad st') ty_DOUBLE 1 mn mx (deq v realMDI) ltac:(now right) (rs_mn _ _ _ _ S)) as (w & Nw & Dw & Q).
        rewrite Q. destruct (deq v realMDI) eqn:Dv; [reflexivity|]. do 3 f_equal.
        specialize (Q LE []). change (w_int LE 1 0 ++ []) with [0] in Q.
        assert (Q0 : decode (real_codec (iad st') LE ty_DOUBLE KRealConstantOrMissing 1 mn mx) [0] = Ok (repeat 0 8, [])).
        { clear Q. destruct Mz as [-> | ->]; vm_compute; reflexivity. }
        rewrite Q0 in Q. assert (repeat 0 8 = le_bytes 8 w) as Q1 by congruence.
        rewrite <- (le_val_small 8 w) by apply Nw. now rewrite <- Q1. }
    rewrite T'. split.
    + intros E. exfalso. inversion E as [E1]. apply real_cells_inj in E1; auto.
      2:{ apply Forall_forall. intros y Hy. apply in_map_iff in Hy as (v & <- & _). destruct (deq v realMDI); [apply realMDI_facts|unfold is64; lia]. }
      rewrite <- E1 in Hz. apply in_map_iff in Hz as (v & Hv & _). destruct (deq v realMDI); [|discriminate].
      assert (Q : (realMDI =? negzero) = false) by (vm_compute; reflexivity). lia.
    + intros [E|E]; [now apply G in E|]. exfalso. destruct S as [Q _ _ _ _].
      destruct (existsb (fun v => deq v realMDI) bs) eqn:X; [|discriminate]. apply existsb_exists in X as (v & Hv & Dv).
      rewrite (E v Hv) in Dv. unfold present in Zp. congruence.
Qed.

(** DOUBLE columns without NaN and without negative zero. *)
Theorem C14_double : (forall v, In v bs -> ~ nan v) -> ~ In negzero bs -> ~ inf_with_missing bs ->
  trip md5 tag st st' o ci (real_cells bs) = Ok (real_cells bs).
Proof using Hd Ht Hs Hf Hb.
  intros Nb Hz Hi. apply (trip_ok md5 tag st st' o Hd ci _ _ 1); [right; left; right; exact Ht|exact Hf|].
  apply column_double; auto. apply Forall_forall. intros v Hv. rewrite Forall_forall in Hb. split; [auto|].
  specialize (Nb v Hv). unfold nan in Nb. now destruct (is_nan f64 v).
Qed.

End Double.
Print Assumptions C08_exact.
Print Assumptions C15_exact.
Print Assumptions C14_double.

(** ** REAL columns *)

Section Real.
Variables (md5 : list Z -> list Z) (tag : list Z) (st st' : settings) (o : order) (ci : colinfo) (bs : list Z).
Hypotheses (Hd : digest md5) (Ht : ci_type ci = ty_REAL) (Hs : ci_size ci = 8) (Hb : Forall num bs)
  (Hf : fits tag ci (real_cells bs)).

Definition encoded (ci : colinfo) (cells : list (list Z)) : outcome (list Z) :=
  encode_frame md5 tag st o [ci] [{| cd_size := ci_size ci; cd_cells := cells |}] [].

Lemma encoded_encodable b : encoded ci (real_cells bs) = Ok b -> real_encodable bs.
Proof using Ht Hs Hb.
  intros Q. apply encode_frame_inv in Q. inversion Q as [|? ? ? ? (k & Pk & A) _]; subst. cbn [cd_cells] in *.
  apply (real_encodable_iff st ci bs Ht Hs Hb o). exists k. split; [exact Pk|]. intros v Hv. apply A. now apply in_map.
Qed.

(** Whenever encoding succeeds, decoding gives every value back as itself or rounded to
    single precision. *)
Theorem C12_rounding : forall b, encoded ci (real_cells bs) = Ok b ->
  exists ws, Forall is64 ws /\ Forall2 real_result bs ws /\ trip md5 tag st st' o ci (real_cells bs) = Ok (real_cells ws).
Proof using Hd Ht Hs Hb Hf.
  intros b E. destruct (column_real st ci bs Ht Hs Hb st' (encoded_encodable b E)) as (ws & W1 & W2 & W3).
  exists ws. split; [assumption|]. split; [assumption|].
  apply (trip_ok md5 tag st st' o Hd ci _ _ 1); [right; left; left; exact Ht|exact Hf|apply W3].
Qed.

(** Encoding succeeds exactly for the columns described by [real_encodable]. *)
Theorem C13_exact : (exists b, encoded ci (real_cells bs) = Ok b) <-> real_encodable bs.
Proof using Hd Ht Hs Hb Hf.
  split; [intros [b E]; eapply encoded_encodable; eauto|]. intros H.
  destruct (column_real st ci bs Ht Hs Hb st H) as (ws & W1 & W2 & W3).
  assert (T : trip md5 tag st st o ci (real_cells bs) = Ok (real_cells ws))
    by (apply (trip_ok md5 tag st st o Hd ci _ _ 1); [right; left; left; exact Ht|exact Hf|apply W3]).
  unfold trip in T. unfold encoded. destruct (encode_frame _ _ _ _ _ _ _); try discriminate. eauto.
Qed.
End Real.
Print Assumptions C12_rounding.
Print Assumptions C13_exact.

(** What [real_result] allows: missing values, and only they, come back as the missing
    value; another value comes back equal, or as a nearest single-precision number,
    infinity only if it lies at least half a unit beyond the largest one. *)
Lemma deq_trans a b c : deq a b = true -> deq b c = true -> deq a c = true.
Proof.
  unfold deq, feq. intros H1 H2. apply andb_true_iff in H1 as [H1 K1], H2 as [H2 K2].
  apply andb_true_iff in H1 as [H1 H3], H2 as [H2 H4]. rewrite H1, H4. cbn. lia.
Qed.

Theorem C12_meaning : forall v w, num v -> is64 w -> real_result v w ->
  (missing w <-> missing v) /\
  (missing v -> w = realMDI) /\
  (present v -> deq w v = true \/
     w = as_single v /\
     (is_fin f64 v = true -> is_fin f32 (d2f v) = true -> forall y, is32 y -> is_fin f32 y = true ->
        Z.abs (val f64 v - val f64 w) <= Z.abs (val f64 v - val f64 (f2d y))) /\
     (is_fin f64 v = true -> is_fin f32 (d2f v) = false -> 2 ^ 1202 - 2 ^ 1177 <= Z.abs (val f64 v))).
Proof.
  intros v w Nv Hw R. unfold real_result in R. unfold missing, present. destruct (deq v realMDI) eqn:D.
  - subst w. split; [|split; [auto|discriminate]]. rewrite (deq_refl realMDI) by (vm_compute; reflexivity). tauto.
  - split; [|split; [discriminate|]].
    + split; [|discriminate]. intros E. destruct R as [R| ->]; [|now rewrite (as_single_not_missing v Nv) in E].
      rewrite deq_sym in R. rewrite (deq_trans _ _ _ R E) in D. discriminate.
    + intros _. destruct R as [R| ->]; [now left|right]. split; [reflexivity|]. split.
      * intros F1 F2 y Hy Fy. now apply as_single_nearest.
      * intros F1 F2. now apply as_single_overflow.
Qed.
Print Assumptions C12_meaning.

(** ** Concrete cases *)

Definition d_fltmax : Z := f2d flt_max.
Definition d_negfltmax : Z := f2d neg_flt_max.
Definition d_fltmin : Z := f2d flt_min.
Definition d_tenth : Z := 0x3FB999999999999A.

Ltac column_facts := split; [repeat constructor; vm_compute; congruence|apply fits_x; vm_compute; reflexivity].

(** {1.0, NaN}: every value is decoded as 1.0.  {1.0, missing, NaN}: converting NaN to an
    unsigned byte, undefined. *)
Theorem C08_refuted :
  through1 doubles doubles ty_DOUBLE 8 (real_cells [d_one; d_nan]) = Ok (real_cells [d_one; d_one]) /\
  through1 doubles doubles ty_DOUBLE 8 (real_cells [d_one; realMDI; d_nan]) = UB /\
  through1 doubles doubles ty_DOUBLE 8 (real_cells [d_nan; d_one; realMDI]) = Ok (real_cells [d_nan; d_one; realMDI]).
Proof. repeat split; vm_compute; reflexivity. Qed.
Theorem C08_witness : (Forall is64 [d_one; d_nan; 0] /\ fits odc_tag (col_x ty_DOUBLE 8) (real_cells [d_one; d_nan; 0])) /\
  (exists v, In v [d_one; d_nan; 0] /\ nan v).
Proof. split; [column_facts|]. exists d_nan. split; [cbn; tauto|vm_compute; reflexivity]. Qed.

(** {0.0, -0.0} comes back as {0.0, 0.0}; {-0.0, missing} as {0.0, missing}. *)
Theorem C15_refuted :
  through1 doubles doubles ty_DOUBLE 8 (real_cells [0; negzero]) = Ok (real_cells [0; 0]) /\
  through1 doubles doubles ty_DOUBLE 8 (real_cells [negzero; realMDI]) = Ok (real_cells [0; realMDI]) /\
  through1 doubles doubles ty_DOUBLE 8 (real_cells [negzero; d_one]) = Ok (real_cells [negzero; d_one]).
Proof. repeat split; vm_compute; reflexivity. Qed.
Theorem C15_witness : (Forall is64 [negzero; d_one; 0] /\ fits odc_tag (col_x ty_DOUBLE 8) (real_cells [negzero; d_one; 0])) /\
  In negzero [negzero; d_one; 0] /\ (forall v, In v [negzero; d_one; 0] -> ~ nan v) /\ ~ inf_with_missing [negzero; d_one; 0].
Proof.
  split; [column_facts|]. split; [now left|]. split; [intros v [<-|[<-|[<-|[]]]]; vm_compute; discriminate|].
  intros ((v & [<-|[<-|[<-|[]]]] & D) & _); vm_compute in D; discriminate.
Qed.

Theorem C14_witness : (Forall is64 [d_one; d_inf; 1; realMDI; d_tenth] /\ fits odc_tag (col_x ty_DOUBLE 8) (real_cells [d_one; d_inf; 1; realMDI; d_tenth])) /\
  ~ inf_with_missing [d_one; d_inf; 1; realMDI; d_tenth] /\
  through1 doubles doubles ty_DOUBLE 8 (real_cells [d_one; d_inf; 1; realMDI; d_tenth]) = Ok (real_cells [d_one; d_inf; 1; realMDI; d_tenth]).
Proof.
  split; [column_facts|]. split; [|vm_compute; reflexivity]. intros (_ & _ & Q).
  assert (deq d_one d_inf = true) as E by (apply Q; cbn; tauto || (vm_compute; reflexivity)). vm_compute in E. discriminate.
Qed.

(** C47: infinity together with missing values and nothing else: undefined. *)
Theorem C47_refuted :
  through1 doubles doubles ty_DOUBLE 8 (real_cells [d_inf; realMDI]) = UB /\
  through1 doubles doubles ty_REAL 8 (real_cells [d_inf; realMDI]) = UB.
Proof. repeat split; vm_compute; reflexivity. Qed.

(** In general: no such column can be encoded. *)
Theorem C47_never : forall md5 tag st o ci bs, real_type (ci_type ci) -> ci_size ci = 8 -> Forall num bs ->
  inf_with_missing bs -> forall b, encoded md5 tag st o ci (real_cells bs) <> Ok b.
Proof.
  intros md5 tag st o ci bs [Ht|Ht] Hs Hn I b E.
  { now destruct (encoded_encodable md5 tag st o ci bs Ht Hs Hn b E) as [N _]. }
  apply encode_frame_inv in E. inversion E as [|? ? ? ? (k & Pk & En) _]; subst. cbn [cd_cells] in *. clear E.
  assert (Hb : Forall is64 bs) by (eapply Forall_impl; [|exact Hn]; now intros ? []).
  destruct (prepare_double st ci bs Ht Hs Hb) as (h & mn & mx & Hh & H1 & H2 & P & C).
  unfold real_cells in Pk. rewrite P in Pk. inversion Pk; subst k. clear P Pk. pose proof Hn as Hn'. rewrite Forall_forall in Hn'.
  assert (Ff : filter (fun v => negb (nanb v)) bs = bs).
  { apply forallb_filter_id, forallb_forall. intros v Hv. unfold nanb. destruct (Hn' v Hv) as [_ ->]. reflexivity. }
  rewrite Ff in C. assert (S : real_stats bs h mn mx).
  { destruct C as [(v & A & B & _)|[_ S]]; [|exact S]. exfalso. apply find_some in A as [A _].
    destruct (Hn' v A) as [_ N]. unfold nanb in B. congruence. }
  pose proof S as [S1 S2 S3 S4 S5]. destruct I as ((m & M1 & M2) & (v & V1 & V2) & Same).
  assert (Eh : h = 1). { rewrite S1. assert (X : existsb (fun v => deq v realMDI) bs = true) by (apply existsb_exists; eauto). now rewrite X. }
  assert (D : deq mx mn = true) by (apply (proj1 (real_same_stats bs h mn mx S Hn)); exact Same).
  assert (Mv : deq v realMDI = false).
  { destruct (deq v realMDI) eqn:Q; [|reflexivity]. exfalso.
    pose proof (is_inf_eq v realMDI (Hn' v V1)) as I. destruct realMDI_facts as (R1 & R2 & R3 & _).
    rewrite I in V2; auto; [|now split]. assert (Q2 : is_inf f64 realMDI = false) by (vm_compute; reflexivity). congruence. }
  pose proof (real_const _ _ _ _ v S D V1 (Hn' v V1) Mv) as Ev.
  specialize (En _ (in_map (le_bytes 8) _ _ V1)). unfold double_kind in En. rewrite D, Eh in En. cbn [negb Z.eqb Pos.eqb] in En.
  unfold encode in En. cbn [c_kind real_codec set_stats new_codec] in En.
  rewrite cell_bits_le in En by apply (Hn' v V1). cbn [bind] in En.
  change (c_int64 _) with (c_int64 (real_codec (iad st) o ty_DOUBLE KRealConstantOrMissing 1 mn mx)) in En.
  rewrite real_int64 in En by (now right). unfold enc_missing in En. cbn [as_double] in En.
  change (c_missing _) with realMDI in En. change (c_min _) with mn in En. change (c_ord _) with o in En.
  rewrite Mv in En.
  assert (I2 : is_inf f64 mn = true) by (rewrite <- (is_inf_eq v mn); auto).
  assert (dsub v mn = qnan) as X.
  { assert (Q2 : is_inf f64 negzero = false) by (vm_compute; reflexivity).
    assert (v = mn) as ->.
    { apply deq_eq; [apply (Hn' v V1)|apply S2|intros ->; congruence|intros ->; congruence|exact Ev]. }
    assert (mn = inf_mag f64 \/ mn = 2 ^ 63 + inf_mag f64) as [-> | ->]; [|vm_compute; reflexivity|vm_compute; reflexivity].
    unfold is_inf, mag in I2. destruct S2 as [S2 _]. unfold negb_ in I2. rewrite sign64 in I2.
    destruct (2 ^ 63 <=? mn); lia. }
  rewrite X in En. vm_compute in En. discriminate.
Qed.
Print Assumptions C47_never.
Theorem C47_witness : Forall num [d_inf; realMDI; d_inf] /\ inf_with_missing [d_inf; realMDI; d_inf].
Proof.
  split; [repeat constructor; vm_compute; congruence|]. split; [|split].
  - exists realMDI. split; [cbn; tauto|vm_compute; reflexivity].
  - exists d_inf. split; [cbn; tauto|vm_compute; reflexivity].
  - intros v w [<-|[<-|[<-|[]]]] [<-|[<-|[<-|[]]]] A B; vm_compute in A, B |- *; congruence.
Qed.

(** Single-precision numbers the encoder refuses. *)
Theorem C13_refuted :
  through1 doubles doubles ty_REAL 8 (real_cells [d_one; d_negfltmax]) = Throw AssertFailed /\
  through1 doubles doubles ty_REAL 8 (real_cells [d_fltmax; d_fltmin]) = Throw AssertFailed.
Proof. repeat split; vm_compute; reflexivity. Qed.

Theorem C13_witness : Forall num [d_tenth; realMDI; d_one] /\ real_encodable [d_tenth; realMDI; d_one] /\
  ~ real_encodable [d_one; d_negfltmax].
Proof.
  split; [repeat constructor; vm_compute; congruence|]. split.
  - split; [|right; intros v [<-|[<-|[<-|[]]]] A; vm_compute in A |- *; congruence].
    intros (_ & (v & [<-|[<-|[<-|[]]]] & B) & _); vm_compute in B; discriminate.
  - intros [_ [A|A]].
    + assert (deq d_one d_negfltmax = true) as E by (apply A; cbn; tauto || (vm_compute; reflexivity)). vm_compute in E. discriminate.
    + assert (feq f32 (d2f d_negfltmax) (real_marker [d_one; d_negfltmax]) = false) as E by (apply A; [cbn; tauto|vm_compute; reflexivity]). vm_compute in E. discriminate.
Qed.

Theorem C12_witness : (Forall num [d_tenth; realMDI; d_one] /\ fits odc_tag (col_x ty_REAL 8) (real_cells [d_tenth; realMDI; d_one])) /\
  (exists b, encoded md5 odc_tag doubles LE (col_x ty_REAL 8) (real_cells [d_tenth; realMDI; d_one]) = Ok b) /\
  through1 doubles doubles ty_REAL 8 (real_cells [d_tenth; realMDI; d_one]) = Ok (real_cells [as_single d_tenth; realMDI; d_one]).
Proof.
  split; [split; [repeat constructor; vm_compute; congruence|apply fits_x; vm_compute; reflexivity]|].
  split; [eexists; vm_compute; reflexivity|vm_compute; reflexivity].
Qed.
