(** REAL and DOUBLE columns. *)
From Verif Require Import Spec Base Fp FpProofs Stream StreamProofs StreamLocal Codec Meta GatherProofs.


Lemma realMDI_facts : is64 realMDI /\ is_nan f64 realMDI = false /\ is_fin f64 realMDI = true /\ realMDI <> negzero.
Proof. vm_compute. repeat split; congruence. Qed.

Lemma working_real st ty : real_type ty -> working_codec st LE ty = Ok (new_codec (iad st) LE KLongReal ty).
Proof. intros [-> | ->]; reflexivity. Qed.

Definition real_codec (iad : bool) (o : order) (ty : Z) (k : ckind) (h mn mx : Z) : codec :=
  set_stats (new_codec iad o k ty) h mn mx realMDI.

Definition real_kinds : list ckind := [KConstant; KRealConstantOrMissing; KLongReal; KShortReal; KShortReal2].

Lemma set_missing_real i o k ty : real_type ty -> In k real_kinds ->
  set_missing_value (new_codec i o k ty) realMDI =
  Ok (set_stats (new_codec i o k ty) 0 realMDI realMDI realMDI).
Proof.
  intros Ht Hk. destruct Ht as [-> | ->]; cbn [In real_kinds] in Hk;
  repeat (destruct Hk as [<-|Hk]; [destruct i, o; vm_compute; reflexivity|]); destruct Hk.
Qed.

Lemma real_int64 i o k ty h mn mx : real_type ty -> c_int64 (real_codec i o ty k h mn mx) = false.
Proof. intros [-> | ->]; cbn; now rewrite andb_false_r. Qed.

(** statistics of a real column [bs] *)
Record real_stats (bs : list Z) (h mn mx : Z) : Prop := {
  rs_h : h = if existsb (fun v => deq v realMDI) bs then 1 else 0;
  rs_mn : num mn; rs_mx : num mx;
  rs_in : forall v, In v bs -> deq v realMDI = false -> dlt v mn = false /\ dlt mx v = false;
  rs_tight : (mn = realMDI /\ mx = realMDI /\ forall v, In v bs -> deq v realMDI = true)
             \/ (In mn bs /\ In mx bs /\ deq mn realMDI = false /\ deq mx realMDI = false)
}.

Lemma stats_real bs c : Forall num bs -> stats_inv realMDI bs c ->
  exists h mn mx, real_stats bs h mn mx /\
    c_hasMissing c = h /\ c_min c = mn /\ c_max c = mx /\ c_missing c = realMDI.
Proof.
  intros Hn (I1 & I2 & I3 & I4). exists (c_hasMissing c), (c_min c), (c_max c). split; [|auto].
  rewrite Forall_forall in Hn. destruct realMDI_facts as (R1 & R2 & _).
  destruct (non_missing realMDI bs) as [|x xs] eqn:E.
  - destruct (I3 eq_refl) as [J1 J2]. rewrite J1, J2.
    assert (A : forall v, In v bs -> deq v realMDI = true).
    { intros v Hv. destruct (deq v realMDI) eqn:D; [reflexivity|].
      assert (In v (non_missing realMDI bs)) by (apply filter_In; rewrite D; auto). rewrite E in *. contradiction. }
    split; auto; try (split; assumption).
    intros v Hv D. rewrite A in D by assumption. discriminate.
  - rewrite <- E in *. destruct (I4 ltac:(rewrite E; discriminate)) as (J1 & J2 & J3).
    destruct (non_missing_in _ _ _ J1), (non_missing_in _ _ _ J2).
    split; auto 10. intros v Hv D. rewrite Forall_forall in J3. apply J3. apply filter_In. rewrite D. auto.
Qed.

(** [mx == mn]: every non-missing value is numerically that constant *)
Lemma real_const bs h mn mx v : real_stats bs h mn mx -> deq mx mn = true -> In v bs -> num v ->
  deq v realMDI = false -> deq v mn = true.
Proof.
  intros [H1 [_ N1] [_ N2] H4 _] D Hv [_ Nv] M. destruct (H4 v Hv M) as [A B].
  rewrite dlt_key in A, B by assumption. rewrite deq_key in * by assumption. lia.
Qed.

(** ** DOUBLE *)

Definition double_kind (h mn mx : Z) : ckind :=
  if deq mx mn then (if negb (h =? 0) then KRealConstantOrMissing else KConstant) else KLongReal.

Lemma h_bit bs h mn mx : real_stats bs h mn mx -> (if h =? 0 then 0 else 1) = h.
Proof. intros [H _ _ _ _]. rewrite H. destruct (existsb _ bs); reflexivity. Qed.

Lemma optimize_double_ok st o c bs h mn mx : real_stats bs h mn mx ->
  c_hasMissing c = h -> c_min c = mn -> c_max c = mx -> c_missing c = realMDI ->
  optimize st o ty_DOUBLE c = Ok (real_codec (iad st) o ty_DOUBLE (double_kind h mn mx) h mn mx).
Proof.
  intros Hs H1 H2 H3 H4. change (optimize st o ty_DOUBLE c) with (optimize_double st o c).
  unfold optimize_double, has_missing. rewrite H1, H2, H3.
  change (if deq mx mn then _ else _) with (double_kind h mn mx).
  unfold adopt. rewrite H4, set_missing_real.
  - cbn [bind]. rewrite H1, H2, H3, (h_bit _ _ _ _ Hs). reflexivity.
  - now right.
  - unfold double_kind, real_kinds. repeat match goal with |- context [if ?b then _ else _] => destruct b end; cbn; tauto.
Qed.

(** Subtracting a finite number from an equal one converts to 0. *)
Lemma d2int_sub_equal v mn hi : 0 <= hi -> num v -> num mn -> is_fin f64 mn = true -> deq v mn = true ->
  d2int 0 hi (dsub v mn) = Ok 0.
Proof.
  intros Hh [Iv Nv] [Im Nm] F D.
  assert (K : key f64 v = key f64 mn) by (rewrite deq_key in D by assumption; lia).
  assert (Fv : is_fin f64 v = true).
  { destruct (key_inj v mn Iv Im K) as [->|K0]; [assumption|].
    unfold is_fin, key in *. rewrite inf64. destruct (negb_ f64 v); lia. }
  assert (V : val f64 v = val f64 mn).
  { assert (A : ~ key f64 v < key f64 mn) by lia. assert (B : ~ key f64 mn < key f64 v) by lia.
    rewrite key_val in A, B; try (cbn; lia); try (unfold is64 in *; lia). }
  destruct (dsub_self v mn Iv Im Fv F V) as [-> | ->]; unfold d2int.
  - change (d2z_trunc 0) with (Some 0). cbv iota beta; rewrite (proj2 (Z.leb_le 0 hi) Hh); reflexivity.
  - change (d2z_trunc negzero) with (Some 0). cbv iota beta; rewrite (proj2 (Z.leb_le 0 hi) Hh); reflexivity.
Qed.

(** the byte of real_constant_or_missing *)
Lemma enc_rcom i o ty h mn mx v : real_type ty -> num v -> num mn ->
  (deq v realMDI = false -> deq v mn = true /\ is_fin f64 mn = true) ->
  encode (real_codec i o ty KRealConstantOrMissing h mn mx) (le_bytes 8 v)
  = Ok (w_int o 1 (if deq v realMDI then 255 else 0)).
Proof.
  intros Ht [Iv Nv] Nm H. unfold encode. cbn [c_kind real_codec set_stats new_codec].
  rewrite cell_bits_le by assumption. cbn [bind].
  change (c_int64 _) with (c_int64 (real_codec i o ty KRealConstantOrMissing h mn mx)).
  rewrite real_int64 by assumption. unfold enc_missing. cbn [as_double].
  change (c_missing _) with realMDI. change (c_min _) with mn. change (c_ord _) with o.
  destruct (deq v realMDI) eqn:D; [reflexivity|]. destruct (H eq_refl) as [E F].
  rewrite d2int_sub_equal; [reflexivity|cbn; lia|now split|assumption|assumption|assumption].
Qed.

Lemma dec_rcom i o ty h mn mx (ms : bool) rest : real_type ty -> num mn -> mn <> negzero ->
  decode (real_codec i o ty KRealConstantOrMissing h mn mx) (w_int o 1 (if ms then 255 else 0) ++ rest)
  = Ok (le_bytes 8 (if ms then realMDI else mn), rest).
Proof.
  intros Ht [Im Nm] Z0. unfold decode. cbn [c_kind real_codec set_stats new_codec].
  change (c_int64 _) with (c_int64 (real_codec i o ty KRealConstantOrMissing h mn mx)).
  rewrite real_int64 by assumption. unfold dec_missing.
  change (c_missing _) with realMDI. change (c_min _) with mn. change (c_ord _) with o.
  change 1 with (Z.of_nat 1) at 1. rewrite read_uint_app by (destruct ms; cbn; lia). cbn [bind].
  destruct ms; [reflexivity|]. change (0 =? 256 ^ 1 - 1) with false. cbn iota.
  change (z2d 0) with 0. rewrite dadd_0_l by assumption. reflexivity.
Qed.

(** the encoding of a double value *)
Definition double_code (o : order) (k : ckind) (v : Z) : list Z :=
  match k with
  | KConstant => []
  | KRealConstantOrMissing => w_int o 1 (if deq v realMDI then 255 else 0)
  | _ => w_int o 8 v
  end.


Lemma nan_inf_fin v : is_nan f64 v = false -> is_inf f64 v = false -> is_fin f64 v = true.
Proof. unfold is_nan, is_inf, is_fin. lia. Qed.

Lemma mn_finite bs h mn mx v : real_stats bs h mn mx -> Forall num bs -> deq mx mn = true -> h <> 0 ->
  ~ inf_with_missing bs -> In v bs -> deq v realMDI = false -> is_fin f64 mn = true.
Proof.
  intros Hs Hn D Hh Hi Hv M. pose proof Hs as [H1 [I1 N1] [_ N2] H4 H5].
  destruct (is_inf f64 mn) eqn:I; [exfalso|now apply nan_inf_fin].
  apply Hi. split; [|split].
  - rewrite H1 in Hh. destruct (existsb _ bs) eqn:E; [|congruence].
    apply existsb_exists in E. destruct E as (x & X1 & X2). eauto.
  - destruct H5 as [(A & _ & B)|(A & _)]; [|eauto]. rewrite B in M by assumption. discriminate.
  - intros a b Ha Hb Ma Mb. rewrite Forall_forall in Hn.
    pose proof (real_const _ _ _ _ a Hs D Ha (Hn _ Ha) Ma) as Ea.
    pose proof (real_const _ _ _ _ b Hs D Hb (Hn _ Hb) Mb) as Eb.
    destruct (Hn _ Ha), (Hn _ Hb). rewrite deq_key in * by assumption. lia.
Qed.

Lemma double_encode iad o bs h mn mx v : real_stats bs h mn mx -> Forall num bs -> ~ inf_with_missing bs ->
  In v bs ->
  encode (real_codec iad o ty_DOUBLE (double_kind h mn mx) h mn mx) (le_bytes 8 v)
  = Ok (double_code o (double_kind h mn mx) v).
Proof.
  intros Hs Hn Hi Hv. unfold double_kind. pose proof Hs as [H1 N1 N2 H4 H5].
  assert (Nv : num v) by (rewrite Forall_forall in Hn; auto).
  destruct (deq mx mn) eqn:D.
  - destruct (Z.eqb_spec h 0) as [Eh|Eh]; cbn [negb]; [reflexivity|].
    apply enc_rcom; [now right|assumption|assumption|].
    intros M. split; [eapply real_const; eassumption|]. eapply mn_finite; eassumption.
  - unfold encode. cbn [c_kind real_codec set_stats new_codec]. rewrite cell_bits_le by apply Nv. reflexivity.
Qed.

Lemma double_decode iad o bs h mn mx v rest : real_stats bs h mn mx -> Forall num bs ->
  In v bs -> ~ In negzero bs ->
  decode (real_codec iad o ty_DOUBLE (double_kind h mn mx) h mn mx)
    (double_code o (double_kind h mn mx) v ++ rest) = Ok (le_bytes 8 v, rest).
Proof.
  intros Hs Hn Hv Hz. pose proof Hs as [H1 N1 N2 H4 H5]. destruct realMDI_facts as (R1 & R2 & R3 & R4).
  assert (Nv : num v) by (rewrite Forall_forall in Hn; auto).
  assert (Zv : v <> negzero) by (intros ->; auto).
  assert (Zm : mn <> negzero) by (destruct H5 as [(-> & _)|(A & _)]; [assumption|intros ->; auto]).
  unfold double_kind. destruct (deq mx mn) eqn:D.
  - destruct (Z.eqb_spec h 0) as [Eh|Eh]; cbn [negb double_code].
    + cbn [app]. unfold decode. cbn [c_kind real_codec set_stats new_codec].
      change (c_int64 _) with (c_int64 (real_codec iad o ty_DOUBLE KConstant h mn mx)).
      rewrite real_int64 by (now right). change (c_min _) with mn. cbn [store_value bind].
      assert (M : deq v realMDI = false).
      { rewrite H1 in Eh. destruct (existsb _ bs) eqn:E; [discriminate|].
        destruct (deq v realMDI) eqn:M; [|reflexivity].
        assert (existsb (fun v => deq v realMDI) bs = true); [|congruence]. apply existsb_exists. eauto. }
      pose proof (real_const _ _ _ _ v Hs D Hv Nv M) as E.
      rewrite (deq_eq v mn); auto; try apply Nv. apply N1.
    + rewrite dec_rcom; [|now right|assumption|assumption].
      destruct (deq v realMDI) eqn:M.
      * rewrite (deq_eq v realMDI); auto. apply Nv.
      * rewrite (deq_eq v mn); auto; [apply Nv|apply N1|]. eapply real_const; eassumption.
  - cbn [double_code]. unfold decode. cbn [c_kind real_codec set_stats new_codec c_ord].
    rewrite read_f64_app by apply Nv. reflexivity.
Qed.

(** ** REAL *)

Definition real_kind (h mn mx : Z) (fltmax : bool) : ckind :=
  if deq mx mn then (if negb (h =? 0) then KRealConstantOrMissing else KConstant)
  else if fltmax then KShortReal else KShortReal2.

Lemma optimize_real_ok st o c bs h mn mx : real_stats bs h mn mx ->
  c_kind c = KLongReal -> c_ord c = LE ->
  c_hasMissing c = h -> c_min c = mn -> c_max c = mx -> c_missing c = realMDI ->
  optimize st o ty_REAL c =
    if negb (deq mx mn) && c_seenFltMax c && c_seenFltMin c then Throw AssertFailed
    else Ok (real_codec (iad st) o ty_REAL (real_kind h mn mx (c_seenFltMax c)) h mn mx).
Proof.
  intros Hs K1 K2 H1 H2 H3 H4. change (optimize st o ty_REAL c) with (optimize_real st o c).
  unfold optimize_real, has_missing. rewrite K1, K2, H1, H2, H3.
  assert (A : forall k, In k real_kinds -> adopt c (new_codec (iad st) o k ty_REAL) =
                Ok (real_codec (iad st) o ty_REAL k h mn mx)).
  { intros k Hk. unfold adopt. rewrite H4, set_missing_real; [|now left|assumption].
    cbn [bind]. rewrite H1, H2, H3, (h_bit _ _ _ _ Hs). reflexivity. }
  unfold real_kind. destruct (deq mx mn); cbn [negb andb].
  - destruct (h =? 0); cbn [negb bind]; apply A; cbn; tauto.
  - destruct (c_seenFltMax c); cbn [andb].
    + destruct (c_seenFltMin c); cbn [negb assert bind]; [reflexivity|]. apply A; cbn; tauto.
    + destruct (c_seenFltMin c); cbn [negb assert bind]; apply A; cbn; tauto.
Qed.


Lemma rne_nonneg m k : 0 <= m -> 0 <= rne m k.
Proof.
  intros H. unfold rne. pose proof (Z.div_pos m (2 ^ k) H) as P.
  destruct (Z_lt_le_dec 0 (2 ^ k)) as [Hk|Hk].
  - specialize (P Hk). repeat match goal with |- context [if ?b then _ else _] => destruct b end; lia.
  - assert (2 ^ k = 0) as -> by (pose proof (Z.pow_nonneg 2 k); lia).
    rewrite Zdiv_0_r. repeat match goal with |- context [if ?b then _ else _] => destruct b end; lia.
Qed.

Lemma round_mag32_bound x : 0 <= x -> 0 <= round_mag f32 x (-1074) <= inf_mag f32.
Proof.
  intros Hx. unfold round_mag. destruct (x =? 0); [vm_compute; split; discriminate|].
  split; [|apply Z.le_min_r]. apply Z.min_glb; [|vm_compute; discriminate].
  set (e' := Z.max _ _). assert (H1 : emin f32 <= e') by (apply Z.le_max_r).
  assert (emin f32 = -149) as E by reflexivity. rewrite E in H1.
  destruct (Z.leb_spec e' (-1074)); [lia|]. rewrite E. pose proof (rne_nonneg x (e' - -1074) Hx).
  assert (0 < 2 ^ mb f32) by (cbn; lia). nia.
Qed.

Lemma d2f_32 v : is64 v -> is_nan f64 v = false -> is32 (d2f v).
Proof.
  intros H N. unfold d2f, is32, is64 in *. rewrite N.
  assert (I32 : inf_mag f32 = 2139095040) by reflexivity.
  assert (M : 0 <= mag f64 v) by (unfold mag, negb_; rewrite sign64; destruct (Z.leb_spec (2^63) v); lia).
  pose proof (round_mag32_bound (mag_val f64 (mag f64 v)) (mag_val_nonneg f64 _ ltac:(cbn; lia) M)) as B.
  rewrite I32 in *. destruct (is_inf f64 v), (negb_ f64 v); lia.
Qed.

Definition marker_of (k : ckind) : Z := match k with KShortReal => flt_min | _ => neg_flt_max end.

(** Any successful encoding of a value by a short_real codec decodes to that value
    rounded to single precision, or to the missing value if it was missing. *)
Lemma short_real_rt i o k h mn mx v b rest : k = KShortReal \/ k = KShortReal2 -> num v ->
  encode (real_codec i o ty_REAL k h mn mx) (le_bytes 8 v) = Ok b ->
  b = w_int o 4 (if deq v realMDI then marker_of k else d2f v) /\
  decode (real_codec i o ty_REAL k h mn mx) (b ++ rest) =
    Ok (le_bytes 8 (if deq v realMDI then realMDI else as_single v), rest).
Proof.
  intros Hk [Iv Nv] E.
  assert (E' : encode (real_codec i o ty_REAL k h mn mx) (le_bytes 8 v) = enc_short_real o (marker_of k) realMDI v).
  { unfold encode. cbn [c_kind real_codec set_stats new_codec].
    destruct Hk as [-> | ->]; rewrite cell_bits_le by assumption; reflexivity. }
  rewrite E' in E. clear E'. unfold enc_short_real in E.
  assert (M32 : is32 (marker_of k)) by (destruct Hk as [-> | ->]; vm_compute; split; congruence).
  assert (MM : feq f32 (marker_of k) (marker_of k) = true) by (destruct Hk as [-> | ->]; reflexivity).
  assert (Dec : forall f, is32 f -> decode (real_codec i o ty_REAL k h mn mx) (w_int o 4 f ++ rest) =
                Ok (le_bytes 8 (if feq f32 f (marker_of k) then realMDI else f2d f), rest)).
  { intros f Hf. unfold decode. cbn [c_kind real_codec set_stats new_codec].
    destruct Hk as [-> | ->]; unfold dec_short_real; change 4 with (Z.of_nat 4) at 1; cbn [c_ord];
    rewrite read_uint_app by exact Hf; reflexivity. }
  destruct (deq v realMDI) eqn:D.
  - inversion E; subst b. split; [reflexivity|]. rewrite Dec by assumption. now rewrite MM.
  - destruct (feq f32 (d2f v) (marker_of k)) eqn:F; [discriminate|].
    cbn in E. inversion E; subst b. split; [reflexivity|]. rewrite Dec by (apply d2f_32; assumption). now rewrite F.
Qed.
