(** REAL columns: when encoding succeeds, and what is decoded. *)
From Verif Require Import Spec Base Fp FpProofs Stream StreamProofs StreamLocal Codec Meta Header Encoder
  GatherProofs IntProofs RealProofs StringProofs ColumnProofs.

Lemma real_same_stats bs h mn mx : real_stats bs h mn mx -> Forall num bs -> (real_same bs <-> deq mx mn = true).
Proof.
  intros Hs Hn. rewrite Forall_forall in Hn. split.
  - intros S. destruct Hs as [_ N1 N2 _ [(-> & -> & _)|(A & B & C & D)]]; [reflexivity|]. apply S; assumption.
  - intros D a b Ha Hb Ma Mb.
    pose proof (real_const _ _ _ _ a Hs D Ha (Hn a Ha) Ma) as Ea.
    pose proof (real_const _ _ _ _ b Hs D Hb (Hn b Hb) Mb) as Eb.
    pose proof (proj2 (rs_mn _ _ _ _ Hs)). destruct (Hn _ Ha), (Hn _ Hb). rewrite deq_key in * by assumption. lia.
Qed.

Lemma real_kind_in h mn mx b : In (real_kind h mn mx b) real_kinds.
Proof. unfold real_kind, real_kinds. repeat match goal with |- context [if ?b then _ else _] => destruct b end; cbn; tauto. Qed.

Lemma deq_sym a b : deq a b = deq b a.
Proof. unfold deq, feq. rewrite (andb_comm (negb (is_nan f64 a))). now rewrite Z.eqb_sym. Qed.

(** decoding the constant of real_constant_or_missing, whatever its sign of zero *)
Lemma dec_rcom_any i ty h mn mx (ms : bool) : real_type ty -> num mn ->
  exists w, num w /\ deq w mn = true /\ forall o rest,
  decode (real_codec i o ty KRealConstantOrMissing h mn mx) (w_int o 1 (if ms then 255 else 0) ++ rest)
  = Ok (le_bytes 8 (if ms then realMDI else w), rest).
Proof.
  intros Ht Nm. destruct (Z.eq_dec mn negzero) as [->|Ne].
  2:{ exists mn. split; [assumption|]. split; [apply deq_refl, Nm|]. intros. apply dec_rcom; auto. }
  exists 0. split; [split; [unfold is64; lia|reflexivity]|]. split; [vm_compute; reflexivity|]. intros o rest.
  unfold decode. cbn [c_kind real_codec set_stats new_codec].
  change (c_int64 _) with (c_int64 (real_codec i o ty KRealConstantOrMissing h negzero mx)).
  rewrite real_int64 by assumption. unfold dec_missing.
  change (c_missing _) with realMDI. change (c_min _) with negzero. change (c_ord _) with o.
  change 1 with (Z.of_nat 1) at 1. rewrite read_uint_app by (destruct ms; cbn; lia). cbn [bind].
  destruct ms; reflexivity.
Qed.

Lemma is_inf_eq a b : num a -> num b -> deq a b = true -> is_inf f64 a = is_inf f64 b.
Proof.
  intros [A1 A2] [B1 B2] D. rewrite deq_key in D by assumption.
  destruct (key_inj a b A1 B1 ltac:(lia)) as [->|K]; [reflexivity|].
  assert (K' : key f64 b = 0) by lia. unfold is_inf, key in *. rewrite inf64. destruct (negb_ f64 a), (negb_ f64 b); lia.
Qed.

Lemma d2f_not_nan v : num v -> is_nan f32 (d2f v) = false.
Proof.
  intros [H N]. unfold d2f. rewrite N.
  assert (I32 : inf_mag f32 = 2139095040) by reflexivity. assert (S32 : sign_bit f32 = 2 ^ 31) by reflexivity.
  assert (M : 0 <= mag f64 v) by (unfold is64, mag, negb_ in *; rewrite sign64; destruct (Z.leb_spec (2^63) v); lia).
  pose proof (round_mag32_bound (mag_val f64 (mag f64 v)) (mag_val_nonneg f64 _ ltac:(cbn; lia) M)) as B.
  rewrite I32 in *. set (q := round_mag _ _ _) in *. clearbody q.
  assert (G : forall s r, s = 0 \/ s = 2 ^ 31 -> 0 <= r <= 2139095040 -> is_nan f32 (s + r) = false).
  { intros s r Hs' Hr. unfold is_nan, mag, negb_. rewrite S32, I32. destruct (Z.leb_spec (2 ^ 31) (s + r)); lia. }
  destruct (is_inf f64 v); apply G; try lia; destruct (negb_ f64 v); auto.
Qed.

Lemma f2d_64 y : is32 y -> is_nan f32 y = false -> is64 (f2d y).
Proof.
  intros Hy N. unfold f2d. rewrite N. unfold is32 in Hy. assert (S32 : sign_bit f32 = 2 ^ 31) by reflexivity.
  unfold is64. destruct (is_inf f32 y) eqn:I.
  - rewrite inf64. destruct (negb_ f32 y); lia.
  - assert (M : 0 <= mag f32 y < inf_mag f32).
    { unfold is_nan, is_inf, mag, negb_ in *. rewrite S32, inf32 in *. destruct (Z.leb_spec (2 ^ 31) y); lia. }
    destruct (f2d_mag _ M) as [_ B]. rewrite inf64 in B. destruct (negb_ f32 y); lia.
Qed.

Section Col.
Variables (st : settings) (ci : colinfo) (bs : list Z).
Hypothesis Ht : ci_type ci = ty_REAL.
Hypothesis Hs : ci_size ci = 8.
Hypothesis Hn : Forall num bs.

Lemma prepare_real : exists h mn mx, real_stats bs h mn mx /\ forall o,
  prepare st o ci (map (le_bytes 8) bs) =
    (if negb (deq mx mn) && existsb (fun b => deq b (f2d flt_max)) bs && existsb (fun b => deq b (f2d flt_min)) bs
     then Throw AssertFailed
     else Ok (real_codec (iad st) o ty_REAL
                (real_kind h mn mx (existsb (fun b => deq b (f2d flt_max)) bs)) h mn mx)).
Proof using Ht Hs Hn.
  destruct (gather_real st ci bs (or_introl Ht) Hs Hn)
    as (col & c1 & h & mn & mx & E1 & E2 & K1 & K2 & S & H1 & H2 & H3 & H4 & H5 & H6).
  exists h, mn, mx. split; [exact S|]. intros o. unfold prepare. rewrite E1. cbn [bind]. rewrite E2. cbn [bind]. rewrite Ht.
  rewrite (optimize_real_ok st o c1 bs h mn mx) by assumption. rewrite H5, H6. reflexivity.
Qed.

Lemma const_no_missing h mn mx v : real_stats bs h mn mx -> h = 0 -> In v bs -> deq v realMDI = false.
Proof.
  intros [H1 _ _ _ _] Eh Hv. rewrite H1 in Eh. destruct (existsb _ bs) eqn:E; [discriminate|].
  destruct (deq v realMDI) eqn:M; [|reflexivity].
  assert (existsb (fun v => deq v realMDI) bs = true); [|congruence]. apply existsb_exists. eauto.
Qed.

Lemma rt_lists (k k' : order -> codec) (l : list Z) :
  (forall v, In v l -> exists w, is64 w /\ real_result v w /\ forall o, cell_rt (k o) (k' o) 8 (le_bytes 8 v) (le_bytes 8 w)) ->
  exists outs, Forall is64 outs /\ Forall2 real_result l outs /\
    forall o, Forall2 (cell_rt (k o) (k' o) 8) (map (le_bytes 8) l) (map (le_bytes 8) outs).
Proof.
  induction l as [|v l IH]; intros H.
  - exists []. repeat split; constructor.
  - destruct IH as (outs & A & B & C); [intros; apply H; now right|].
    destruct (H v (or_introl eq_refl)) as (w & W0 & W1 & W2).
    exists (w :: outs). split; [constructor; assumption|]. split; [constructor; assumption|]. intros o. constructor; auto.
Qed.

Theorem column_real st' : real_encodable bs -> exists outs, Forall is64 outs /\ Forall2 real_result bs outs /\
  forall o, column_rt st st' o ci (map (le_bytes 8) bs) (map (le_bytes 8) outs).
Proof using Ht Hs Hn.
  intros [Hi Hc]. destruct prepare_real as (h & mn & mx & S & P). pose proof Hn as Hn'. rewrite Forall_forall in Hn'.
  set (fm := existsb (fun b => deq b (f2d flt_max)) bs) in *.
  set (k := fun o => real_codec (iad st) o ty_REAL (real_kind h mn mx fm) h mn mx).
  set (k' := fun o => real_codec (iad st') o ty_REAL (real_kind h mn mx fm) h mn mx).
  assert (P' : forall o, prepare st o ci (map (le_bytes 8) bs) = Ok (k o)).
  { intros o. rewrite P. destruct (deq mx mn) eqn:D; [reflexivity|]. cbn [negb andb].
    destruct fm eqn:F; [|reflexivity]. cbn [andb].
    destruct (existsb (fun b => deq b (f2d flt_min)) bs) eqn:E; [|reflexivity]. exfalso.
    destruct Hc as [Hc|Hc]; [apply (proj1 (real_same_stats bs h mn mx S Hn)) in Hc; congruence|].
    apply existsb_exists in E. destruct E as (v & Hv & E).
    assert (v = f2d flt_min).
    { apply deq_eq; auto; [apply Hn'; assumption|vm_compute; split; congruence| |vm_compute; congruence].
      intros ->. assert (Q : deq negzero (f2d flt_min) = false) by (vm_compute; reflexivity). congruence. }
    subst v. specialize (Hc _ Hv eq_refl). unfold real_marker in Hc. fold fm in Hc. rewrite F in Hc.
    assert (Q : feq f32 (d2f (f2d flt_min)) flt_min = true) by (vm_compute; reflexivity). congruence. }
  destruct (rt_lists k k' bs) as (outs & O1 & O2 & O3).
  2:{ exists outs. split; [assumption|]. split; [assumption|]. intros o. exists (k o), (k' o). split; [apply P'|].
      split; [rewrite Ht; eapply reloads_real; [now left|apply real_kind_in|eassumption]|]. split; [rewrite Hs; apply O3|].
      apply dsd_num; [exact Hs|]. unfold k'. cbn [real_codec set_stats new_codec c_kind]. pose proof (real_kind_in h mn mx fm) as K.
      cbn [In real_kinds] in K. repeat (destruct K as [<-|K]; [reflexivity|]). destruct K. }
  intros v Hv. pose proof (Hn' v Hv) as Nv. destruct realMDI_facts as (R1 & R2 & R3 & R4).
  pose proof S as [S1 S2 S3 S4 S5].
  destruct (deq mx mn) eqn:D.
  - destruct (Z.eqb_spec h 0) as [Eh|Eh].
    + exists mn. split; [apply S2|]. pose proof (const_no_missing _ _ _ v S Eh Hv) as M.
      split; [unfold real_result; rewrite M; left; rewrite deq_sym; eapply real_const; eassumption|]. intros o.
      exists []. assert (E : real_kind h mn mx fm = KConstant) by (unfold real_kind; rewrite D, Eh; reflexivity).
      unfold k, k'. rewrite E. split; [reflexivity|]. split; [cbn; lia|]. intros rest. cbn [app].
      unfold decode. cbn [c_kind real_codec set_stats new_codec].
      change (c_int64 _) with (c_int64 (real_codec (iad st') o ty_REAL KConstant h mn mx)).
      rewrite real_int64 by (now left). reflexivity.
    + assert (E : real_kind h mn mx fm = KRealConstantOrMissing).
      { unfold real_kind. rewrite D. destruct (Z.eqb_spec h 0); [congruence|reflexivity]. }
      unfold k, k'. rewrite E.
      destruct (dec_rcom_any (iad st') ty_REAL h mn mx (deq v realMDI) ltac:(now left) S2) as (w & W1 & W2 & W3).
      exists (if deq v realMDI then realMDI else w). split; [destruct (deq v realMDI); [assumption|apply W1]|].
      assert (Em : deq v realMDI = false -> deq v mn = true) by (intros; eapply real_const; eassumption).
      split.
      { unfold real_result. destruct (deq v realMDI) eqn:M; [reflexivity|]. left. specialize (Em eq_refl).
        destruct W1, Nv, S2. rewrite deq_key in * by assumption. lia. }
      intros o. exists (w_int o 1 (if deq v realMDI then 255 else 0)). split; [|split; [rewrite w_int_length; cbn; lia|apply W3]].
      apply enc_rcom; [now left|assumption|assumption|]. intros M. split; [auto|]. eapply mn_finite; eassumption.
  - assert (E : real_kind h mn mx fm = KShortReal \/ real_kind h mn mx fm = KShortReal2).
    { unfold real_kind. rewrite D. destruct fm; auto. }
    destruct Hc as [Hc|Hc]; [apply (proj1 (real_same_stats bs h mn mx S Hn)) in Hc; congruence|].
    assert (Mk : marker_of (real_kind h mn mx fm) = real_marker bs).
    { unfold real_kind, real_marker. rewrite D. fold fm. destruct fm; reflexivity. }
    assert (En : forall o, exists b, encode (k o) (le_bytes 8 v) = Ok b).
    { intros o. assert (E' : encode (k o) (le_bytes 8 v) = enc_short_real o (marker_of (real_kind h mn mx fm)) realMDI v).
      { unfold k, encode. cbn [c_kind real_codec set_stats new_codec].
        destruct E as [-> | ->]; rewrite cell_bits_le by apply Nv; reflexivity. }
      rewrite E', Mk. unfold enc_short_real. destruct (deq v realMDI) eqn:M; [eauto|].
      rewrite (Hc v Hv M). cbn. eauto. }
    exists (if deq v realMDI then realMDI else as_single v). split; [|split].
    + destruct (deq v realMDI); [assumption|]. unfold as_single. apply f2d_64; [apply d2f_32; apply Nv|now apply d2f_not_nan].
    + unfold real_result. destruct (deq v realMDI); auto.
    + intros o. destruct (En o) as [b Eb]. exists b. split; [exact Eb|].
      assert (Lb : length b = 4%nat).
      { destruct (short_real_rt _ _ _ _ _ _ v b [] E Nv Eb) as [-> _]. apply w_int_length. }
      split; [rewrite Lb; lia|]. intros rest.
      pose proof (short_real_rt (iad st) o _ h mn mx v b rest E Nv Eb) as [Bb _].
      assert (Eb' : encode (k' o) (le_bytes 8 v) = Ok b).
      { rewrite <- Eb. unfold k, k', encode. cbn [c_kind real_codec set_stats new_codec].
        destruct E as [-> | ->]; rewrite cell_bits_le by apply Nv; reflexivity. }
      apply (short_real_rt (iad st') o _ h mn mx v b rest E Nv Eb').
Qed.

(** Exactly the encodable columns are encoded. *)
Theorem real_encodable_iff o :
  real_encodable bs <->
  exists k, prepare st o ci (map (le_bytes 8) bs) = Ok k /\ forall v, In v bs -> is_ok (encode k (le_bytes 8 v)) = true.
Proof using Ht Hs Hn.
  split.
  - intros H. destruct (column_real st H) as (outs & _ & _ & G). destruct (G o) as (k & k' & P & _ & F & _).
    exists k. split; [exact P|]. intros v Hv. apply (in_map (le_bytes 8)) in Hv.
    revert Hv. generalize (map (le_bytes 8) outs), F. clear. intros l F. induction F as [|x y xs ys (b & E & _) F IH]; cbn; [tauto|].
    intros [<-|Hv]; [now rewrite E|auto].
  - intros (k & P & En). destruct prepare_real as (h & mn & mx & S & P'). pose proof Hn as Hn'. rewrite Forall_forall in Hn'.
    rewrite (P' o) in P. symmetry in P. clear P'. rename P into P'. pose proof S as [S1 S2 S3 S4 S5].
    destruct (deq mx mn) eqn:D; cbn [negb andb] in P'.
    + assert (Same : real_same bs) by (apply (real_same_stats bs h mn mx S Hn); exact D).
      split; [|now left]. intros (W1 & (v & V1 & V2) & _).
      destruct W1 as (m & M1 & M2). inversion P'; subst k. clear P'.
      assert (Eh : h = 1). { rewrite S1. assert (X : existsb (fun v => deq v realMDI) bs = true) by (apply existsb_exists; eauto). now rewrite X. }
      assert (Mv : deq v realMDI = false).
      { destruct (deq v realMDI) eqn:Q; [|reflexivity]. exfalso.
        pose proof (is_inf_eq v realMDI (Hn' v V1)) as I. destruct realMDI_facts as (R1 & R2 & R3 & _).
        rewrite I in V2; auto; [|now split]. assert (Q2 : is_inf f64 realMDI = false) by (vm_compute; reflexivity). congruence. }
      pose proof (real_const _ _ _ _ v S D V1 (Hn' v V1) Mv) as Ev.
      specialize (En v V1). unfold real_kind in En. rewrite D, Eh in En. cbn [negb Z.eqb Pos.eqb] in En.
      unfold encode in En. cbn [c_kind real_codec set_stats new_codec] in En.
      rewrite cell_bits_le in En by apply (Hn' v V1). cbn [bind] in En.
      change (c_int64 _) with (c_int64 (real_codec (iad st) o ty_REAL KRealConstantOrMissing 1 mn mx)) in En.
      rewrite real_int64 in En by (now left). unfold enc_missing in En. cbn [as_double] in En.
      change (c_missing _) with realMDI in En. change (c_min _) with mn in En. change (c_ord _) with o in En.
      rewrite Mv in En.
      assert (I2 : is_inf f64 mn = true) by (rewrite <- (is_inf_eq v mn); auto).
      assert (dsub v mn = qnan) as X.
      { assert (Q2 : is_inf f64 negzero = false) by (vm_compute; reflexivity).
        assert (v = mn) as ->.
        { apply deq_eq; [apply (Hn' v V1)|apply S2|intros ->; congruence|intros ->; congruence|exact Ev]. }
        assert (mn = inf_mag f64 \/ mn = 2 ^ 63 + inf_mag f64) as [-> | ->]; [|vm_compute; reflexivity|vm_compute; reflexivity].
        unfold is_inf, mag in I2. destruct S2 as [S2 _]. unfold negb_ in I2. rewrite sign64 in I2.
        destruct (2 ^ 63 <=? mn); lia. }
      rewrite X in En. vm_compute in En. discriminate.
    + destruct (_ && _) eqn:B in P'; [discriminate|]. inversion P'; subst k. clear P'.
      assert (Ns : ~ real_same bs) by (intros Q; apply (proj1 (real_same_stats bs h mn mx S Hn)) in Q; congruence).
      split; [intros (_ & _ & Q); apply Ns; exact Q|]. right. intros v Hv Mv.
      specialize (En v Hv).
      set (fm := existsb (fun b => deq b (f2d flt_max)) bs) in *.
      assert (E : real_kind h mn mx fm = KShortReal \/ real_kind h mn mx fm = KShortReal2).
      { unfold real_kind. rewrite D. destruct fm; auto. }
      assert (Mk : marker_of (real_kind h mn mx fm) = real_marker bs).
      { unfold real_kind, real_marker. rewrite D. fold fm. destruct fm; reflexivity. }
      assert (E' : encode (real_codec (iad st) o ty_REAL (real_kind h mn mx fm) h mn mx) (le_bytes 8 v)
                   = enc_short_real o (marker_of (real_kind h mn mx fm)) realMDI v).
      { unfold encode. cbn [c_kind real_codec set_stats new_codec].
        destruct E as [-> | ->]; rewrite cell_bits_le by apply (Hn' v Hv); reflexivity. }
      rewrite E', Mk in En. unfold enc_short_real in En. rewrite Mv in En.
      destruct (feq f32 (d2f v) (real_marker bs)); [discriminate|reflexivity].
Qed.
End Col.
