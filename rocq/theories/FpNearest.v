(** Narrowing a double to single precision picks a nearest single-precision number. *)
From Verif Require Import Base Fp FpProofs Codec Spec RealProofs RealColumn.
Open Scope Z_scope.

Lemma rne_near m k j : 0 < k -> Z.abs (m - rne m k * 2 ^ k) <= Z.abs (m - j * 2 ^ k).
Proof.
  intros Hk. unfold rne. assert (P : 2 ^ k = 2 * 2 ^ (k - 1)).
  { replace k with (1 + (k - 1)) at 1 by lia. rewrite pow2_split by lia. reflexivity. }
  pose proof (pow2_pos (k - 1) ltac:(lia)) as H0. set (h := 2 ^ (k - 1)) in *. rewrite P. clearbody h.
  pose proof (Z.div_mod m (2 * h) ltac:(lia)) as D. pose proof (Z.mod_pos_bound m (2 * h) ltac:(lia)) as B.
  set (q := m / (2 * h)) in *. set (r := m mod (2 * h)) in *. clearbody q r. clear P.
  assert (C : j <= q \/ q + 1 <= j) by lia.
  assert (J : (j <= q -> m - j * (2 * h) >= r) /\ (q + 1 <= j -> m - j * (2 * h) <= r - 2 * h)).
  { split; intros Q; nia. }
  replace (m - q * (2 * h)) with r in * by lia. replace (m - (q + 1) * (2 * h)) with (r - 2 * h) in * by lia.
  destruct (Z.ltb_spec r h); [|destruct (Z.ltb_spec h r); [|destruct (Z.even q)]];
    try replace (m - q * (2 * h)) with r by lia; try replace (m - (q + 1) * (2 * h)) with (r - 2 * h) by lia;
    destruct C as [C|C]; [apply J in C| apply J in C|..]; try (apply J in C); lia.
Qed.

Lemma mag_val32_at E q : 0 <= E -> 0 <= q <= 2 ^ 24 -> E = 0 \/ 2 ^ 23 <= q -> mag_val f32 (E * 2 ^ 23 + q) = q * 2 ^ E.
Proof.
  intros HE Hq HC. unfold mag_val. change (mb f32) with 23.
  assert (P24 : 2 ^ 24 = 2 * 2 ^ 23) by reflexivity. rewrite P24 in *.
  assert (P : 0 < 2 ^ 23) by reflexivity.
  set (M := 2 ^ 23) in *. clearbody M. 
  assert (Cs : q < M \/ (M <= q < 2 * M) \/ q = 2 * M) by lia. destruct Cs as [C|[C|C]].
  - assert (E = 0) by lia. subst E. rewrite Z.mul_0_l, Z.add_0_l. rewrite (Z.div_small q M), (Z.mod_small q M) by lia. cbn [Z.eqb]. rewrite Z.pow_0_r. lia.
  - assert (D : (E * M + q) / M = E + 1) by (symmetry; apply (Z.div_unique _ M _ (q - M)); lia).
    assert (R : (E * M + q) mod M = q - M) by (symmetry; apply (Z.mod_unique _ M (E + 1)); lia).
    rewrite D, R. destruct (Z.eqb_spec (E + 1) 0); [lia|]. replace (E + 1 - 1) with E by lia. f_equal. lia.
  - subst q. assert (D : (E * M + 2 * M) / M = E + 2) by (symmetry; apply (Z.div_unique _ M _ 0); lia).
    assert (R : (E * M + 2 * M) mod M = 0) by (symmetry; apply (Z.mod_unique _ M (E + 2)); lia).
    rewrite D, R. destruct (Z.eqb_spec (E + 2) 0); [lia|]. replace (E + 2 - 1) with (1 + E) by lia.
    rewrite pow2_split by lia. change (2 ^ 1) with 2. lia.
Qed.

(** the values of single-precision magnitudes relative to an exponent *)
Lemma mag_val32_grid E m : 0 <= E -> 0 <= m ->
  mag_val f32 m < 2 ^ 23 * 2 ^ E \/ exists j, mag_val f32 m = j * 2 ^ E.
Proof.
  intros HE Hm. unfold mag_val. change (mb f32) with 23.
  assert (M0 : 0 < 2 ^ 23) by reflexivity. set (M := 2 ^ 23) in *. clearbody M.
  pose proof (Z.mod_pos_bound m M M0) as B. assert (D : 0 <= m / M) by (apply Z.div_pos; lia).
  set (e := m / M) in *. set (q := m mod M) in *. clearbody e q. pose proof (pow2_pos E HE) as PE.
  destruct (Z.eqb_spec e 0).
  - destruct (Z.eq_dec E 0) as [->|]; [right; exists q; rewrite Z.pow_0_r; lia|]. left. nia.
  - destruct (Z_lt_le_dec (e - 1) E) as [L|L].
    + left. assert (2 ^ E = 2 ^ (e - 1) * 2 ^ (E - (e - 1))) as -> by (rewrite <- pow2_split by lia; f_equal; lia).
      pose proof (pow2_pos (e - 1) ltac:(lia)). 
      assert (2 <= 2 ^ (E - (e - 1))).
      { replace (E - (e - 1)) with (1 + (E - e)) by lia. rewrite pow2_split by lia. pose proof (pow2_pos (E - e) ltac:(lia)). change (2 ^ 1) with 2. lia. }
      nia.
    + right. exists ((q + M) * 2 ^ (e - 1 - E)). rewrite <- Z.mul_assoc, <- pow2_split by lia. f_equal. f_equal. lia.
Qed.

Lemma rne_bounds m k lo hi : 0 < k -> lo * 2 ^ k <= m <= hi * 2 ^ k -> lo <= rne m k <= hi.
Proof.
  intros Hk H. assert (P : 2 ^ k = 2 * 2 ^ (k - 1)).
  { replace k with (1 + (k - 1)) at 1 by lia. rewrite pow2_split by lia. reflexivity. }
  pose proof (pow2_pos (k - 1) ltac:(lia)) as H0. unfold rne. set (h := 2 ^ (k - 1)) in *. rewrite P in *. clearbody h.
  pose proof (Z.div_mod m (2 * h) ltac:(lia)) as D. pose proof (Z.mod_pos_bound m (2 * h) ltac:(lia)) as B.
  set (q := m / (2 * h)) in *. set (r := m mod (2 * h)) in *. clearbody q r. clear P.
  assert (lo <= q) by nia. assert (q <= hi) by nia. assert (q = hi -> r = 0) by nia.
  destruct (Z.ltb_spec r h); [|destruct (Z.ltb_spec h r); [|destruct (Z.even q)]]; try lia;
    destruct (Z.eq_dec q hi); try lia.
Qed.

(** the rounded magnitude is nearest *)
Lemma round_mag32_near X m : 0 <= X -> 0 <= m -> round_mag f32 X (-1074) < inf_mag f32 ->
  Z.abs (X - mag_val f32 (round_mag f32 X (-1074)) * 2 ^ 925) <= Z.abs (X - mag_val f32 m * 2 ^ 925).
Proof.
  intros HX Hm. unfold round_mag. destruct (Z.eqb_spec X 0) as [->|NX].
  { intros _. change (mag_val f32 0) with 0. pose proof (mag_val_nonneg f32 m ltac:(cbn; lia) Hm).
    pose proof (pow2_pos 925 ltac:(lia)). nia. }
  rewrite emin32. change (mb f32) with 23. cbv zeta.
  pose proof (Z.log2_spec X ltac:(lia)) as L. pose proof (Z.log2_nonneg X) as L0. set (l := Z.log2 X) in *. clearbody l.
  set (e' := Z.max (-1074 + l - 23) (-149)). destruct (Z.leb_spec e' (-1074)); [lia|].
  set (E := e' - -149). assert (HE : 0 <= E) by lia.
  replace (e' - -1074) with (E + 925) by lia. set (k := E + 925).
  assert (HXk : X <= 2 ^ 24 * 2 ^ k).
  { rewrite <- pow2_split by lia. apply Z.le_trans with (2 ^ Z.succ l); [lia|]. apply Z.pow_le_mono_r; lia. }
  assert (HXk' : E = 0 \/ 2 ^ 23 * 2 ^ k <= X).
  { destruct (Z.eq_dec E 0); [now left|right]. rewrite <- pow2_split by lia.
    apply Z.le_trans with (2 ^ l); [|lia]. apply Z.pow_le_mono_r; lia. }
  assert (Pk : 0 < 2 ^ k) by (apply pow2_pos; lia).
  assert (Hq : 0 <= rne X k <= 2 ^ 24) by (apply rne_bounds; lia).
  assert (Hq' : E = 0 \/ 2 ^ 23 <= rne X k).
  { destruct HXk' as [?|?]; [now left|right]. apply (rne_bounds X k (2 ^ 23) (2 ^ 24)); lia. }
  intros Hinf. destruct (Z.min_spec (E * 2 ^ 23 + rne X k) (inf_mag f32)) as [[_ Q]|[_ Q]]; [|rewrite Q in Hinf; lia].
  rewrite Q. rewrite mag_val32_at by assumption.
  rewrite <- Z.mul_assoc, <- pow2_split by lia. fold k.
  destruct (mag_val32_grid E m HE Hm) as [G|(j & G)].
  - pose proof (rne_near X k (2 ^ 23) ltac:(lia)) as N.
    assert (GG : mag_val f32 m * 2 ^ 925 <= 2 ^ 23 * 2 ^ k).
    { unfold k. rewrite pow2_split by lia. pose proof (pow2_pos 925 ltac:(lia)). rewrite Z.mul_assoc. apply Z.mul_le_mono_nonneg_r; lia. }
    destruct HXk' as [E0|HX']; [|lia].
    (* all single-precision numbers are on the grid of the smallest exponent *)
    assert (Gr : mag_val f32 m = mag_val f32 m * 2 ^ E) by (rewrite E0, Z.pow_0_r; lia).
    rewrite Gr, <- Z.mul_assoc, <- pow2_split by lia. fold k. apply rne_near. lia.
  - rewrite G, <- Z.mul_assoc, <- pow2_split by lia. fold k. apply rne_near. lia.
Qed.

Lemma abs_sign (s t : bool) (a b c : Z) : 0 <= a -> 0 <= b -> 0 <= c -> Z.abs (a - b) <= Z.abs (a - c) ->
  Z.abs ((if s then - a else a) - (if s then - b else b)) <= Z.abs ((if s then - a else a) - (if t then - c else c)).
Proof. destruct s, t; lia. Qed.

(** Value of a finite double, in units of 2^-1074. *)
Theorem as_single_nearest v y : num v -> is_fin f64 v = true -> is_fin f32 (d2f v) = true ->
  is32 y -> is_fin f32 y = true ->
  Z.abs (val f64 v - val f64 (as_single v)) <= Z.abs (val f64 v - val f64 (f2d y)).
Proof.
  intros [Hv Nv] Fv Fr Hy Fy.
  assert (S32 : sign_bit f32 = 2 ^ 31) by reflexivity.
  assert (Wide : forall y, is32 y -> is_fin f32 y = true -> 0 <= mag f32 y /\
            val f64 (f2d y) = if negb_ f32 y then - (mag_val f32 (mag f32 y) * 2 ^ 925) else mag_val f32 (mag f32 y) * 2 ^ 925).
  { clear. intros y Hy F. assert (S32 : sign_bit f32 = 2 ^ 31) by reflexivity.
    assert (M : 0 <= mag f32 y < inf_mag f32).
    { unfold is_fin in F. unfold is32, mag, negb_ in *. rewrite S32 in *. destruct (Z.leb_spec (2 ^ 31) y); lia. }
    split; [lia|]. unfold f2d. rewrite (fin_not_nan _ _ F), (fin_not_inf _ _ F).
    destruct (f2d_mag _ M) as [V B]. set (p := round_mag f64 (mag_val f32 (mag f32 y)) (-149)) in *. rewrite <- V.
    clearbody p. rewrite inf64 in B. unfold val. rewrite <- inf64 in B.
    assert (N : forall s, s = 0 \/ s = 2 ^ 63 -> negb_ f64 (s + p) = negb (s =? 0) /\ mag f64 (s + p) = p).
    { intros s Hs. rewrite inf64 in B. unfold mag, negb_. rewrite sign64. destruct (Z.leb_spec (2 ^ 63) (s + p)), (Z.eqb_spec s 0); cbn; lia. }
    destruct (negb_ f32 y).
    - destruct (N (2 ^ 63) (or_intror eq_refl)) as [-> ->]. reflexivity.
    - destruct (N 0 (or_introl eq_refl)) as [-> ->]. reflexivity. }
  destruct (Wide y Hy Fy) as [M1 ->]. unfold as_single.
  destruct (Wide (d2f v) (d2f_32 v Hv Nv) Fr) as [M2 ->].
  assert (Mv : 0 <= mag f64 v) by (unfold is64, mag, negb_ in *; rewrite sign64; destruct (Z.leb_spec (2^63) v); lia).
  pose proof (mag_val_nonneg f64 _ ltac:(cbn; lia) Mv) as V0.
  assert (Dn : d2f v = (if negb_ f64 v then 2 ^ 31 else 0) + round_mag f32 (mag_val f64 (mag f64 v)) (-1074)).
  { unfold d2f. now rewrite Nv, (fin_not_inf _ _ Fv). }
  pose proof (round_mag32_bound _ V0) as RB. set (r := round_mag f32 (mag_val f64 (mag f64 v)) (-1074)) in *.
  assert (Sr : negb_ f32 (d2f v) = negb_ f64 v /\ mag f32 (d2f v) = r).
  { rewrite Dn. rewrite inf32 in RB. clearbody r. clear Dn. destruct (negb_ f64 v); unfold mag, negb_; rewrite S32.
    - destruct (Z.leb_spec (2 ^ 31) (2 ^ 31 + r)); split; try reflexivity; lia.
    - destruct (Z.leb_spec (2 ^ 31) (0 + r)); split; try reflexivity; lia. }
  destruct Sr as [Sr1 Sr2]. rewrite Sr1, Sr2.
  assert (Rf : r < inf_mag f32). { unfold is_fin in Fr. rewrite Sr2 in Fr. lia. }
  unfold val at 1 2. pose proof (mag_val_nonneg f32 r ltac:(cbn; lia) ltac:(lia)).
  pose proof (mag_val_nonneg f32 (mag f32 y) ltac:(cbn; lia) ltac:(lia)).
  apply abs_sign; try lia; try (pose proof (pow2_pos 925 ltac:(lia)); nia).
  apply round_mag32_near; assumption || lia.
Qed.

(** No single-precision number is the missing value. *)
Lemma as_single_not_missing v : num v -> deq (as_single v) realMDI = false.
Proof.
  intros Hv. destruct (deq (as_single v) realMDI) eqn:D; [|reflexivity]. exfalso.
  pose proof (d2f_not_nan v Hv) as N. pose proof (d2f_32 v (proj1 Hv) (proj2 Hv)) as I.
  assert (W : num (as_single v)).
  { split; [apply f2d_64; assumption|]. destruct (is_nan f64 (as_single v)) eqn:Q; [|reflexivity].
    unfold deq, feq in D. rewrite Q in D. discriminate. }
  destruct realMDI_facts as (R1 & R2 & R3 & R4).
  assert (E : as_single v = realMDI).
  { apply deq_eq; auto; [apply W|]. intros Q. rewrite Q in D. vm_compute in D. discriminate. }
  assert (E2 : d2f (as_single v) = d2f v) by (apply d2f_f2d; assumption).
  rewrite E in E2. unfold as_single in E. rewrite <- E2 in E.
  assert (Q : f2d (d2f realMDI) =? realMDI = false) by (vm_compute; reflexivity). lia.
Qed.

(** Only doubles half a unit beyond the largest single overflow to infinity. *)
Lemma rne_below m k hi : 0 < k -> m < hi * 2 ^ k + 2 ^ (k - 1) -> rne m k <= hi.
Proof.
  intros Hk H. assert (P : 2 ^ k = 2 * 2 ^ (k - 1)).
  { replace k with (1 + (k - 1)) at 1 by lia. rewrite pow2_split by lia. reflexivity. }
  pose proof (pow2_pos (k - 1) ltac:(lia)) as H0. unfold rne. set (h := 2 ^ (k - 1)) in *. rewrite P in *. clearbody h.
  pose proof (Z.div_mod m (2 * h) ltac:(lia)) as D. pose proof (Z.mod_pos_bound m (2 * h) ltac:(lia)) as B.
  set (q := m / (2 * h)) in *. set (r := m mod (2 * h)) in *. clearbody q r. clear P.
  assert (q <= hi) by nia.
  destruct (Z.ltb_spec r h); [lia|]. assert (q < hi) by nia.
  destruct (Z.ltb_spec h r); [lia|]. destruct (Z.even q); lia.
Qed.

Lemma round_mag32_overflow X : 0 <= X < 2 ^ 1202 - 2 ^ 1177 -> round_mag f32 X (-1074) < inf_mag f32.
Proof.
  intros [H0 H1]. unfold round_mag. destruct (Z.eqb_spec X 0) as [->|N]; [vm_compute; reflexivity|].
  assert (L : Z.log2 X <= 1201).
  { assert (Z.log2 X < 1202); [|lia]. apply Z.log2_lt_pow2; [lia|]. pose proof (pow2_pos 1177 ltac:(lia)). lia. }
  pose proof (Z.log2_spec X ltac:(lia)) as [_ LS]. rewrite emin32. change (mb f32) with 23. cbv zeta.
  set (e := Z.max (-1074 + Z.log2 X - 23) (-149)). assert (He : -149 <= e <= 104) by lia.
  destruct (Z.leb_spec e (-1074)); [lia|]. rewrite inf32. apply Z.min_lt_iff. left.
  assert (XL : X <= 2 ^ 24 * 2 ^ (e - -1074)).
  { rewrite <- pow2_split by lia. apply Z.lt_le_incl. eapply Z.lt_le_trans; [exact LS|]. apply Z.pow_le_mono_r; lia. }
  assert (C : e <= 103 \/ e = 104) by lia. destruct C as [C| ->].
  - pose proof (rne_bounds X (e - -1074) 0 (2 ^ 24) ltac:(lia) ltac:(lia)). change (2 ^ 23) with 8388608. change (2 ^ 24) with 16777216 in *. lia.
  - assert (rne X (104 - -1074) <= 2 ^ 24 - 1).
    { apply rne_below; [lia|]. change (104 - -1074) with 1178. change (1178 - 1) with 1177.
      assert (2 ^ 1202 = 2 ^ 24 * 2 ^ 1178) by (rewrite <- pow2_split by lia; reflexivity).
      assert (2 ^ 1178 = 2 * 2 ^ 1177) by (change 1178 with (1 + 1177); rewrite pow2_split by lia; reflexivity). lia. }
    change (2 ^ 23) with 8388608. change (2 ^ 24) with 16777216 in *. lia.
Qed.

Theorem as_single_overflow v : num v -> is_fin f64 v = true -> is_fin f32 (d2f v) = false ->
  2 ^ 1202 - 2 ^ 1177 <= Z.abs (val f64 v).
Proof.
  intros [Hv Nv] Fv Fr.
  assert (Mv : 0 <= mag f64 v) by (unfold is64, mag, negb_ in *; rewrite sign64; destruct (Z.leb_spec (2^63) v); lia).
  pose proof (mag_val_nonneg f64 _ ltac:(cbn; lia) Mv) as V0.
  assert (A : Z.abs (val f64 v) = mag_val f64 (mag f64 v)) by (unfold val; destruct (negb_ f64 v); lia).
  rewrite A. destruct (Z.le_gt_cases (2 ^ 1202 - 2 ^ 1177) (mag_val f64 (mag f64 v))) as [C|C]; [assumption|exfalso].
  pose proof (round_mag32_overflow _ (conj V0 C)) as R. clear C A.
  assert (Dn : d2f v = (if negb_ f64 v then 2 ^ 31 else 0) + round_mag f32 (mag_val f64 (mag f64 v)) (-1074)).
  { unfold d2f. now rewrite Nv, (fin_not_inf _ _ Fv). }
  pose proof (round_mag32_bound _ V0) as RB. set (r := round_mag f32 (mag_val f64 (mag f64 v)) (-1074)) in *.
  assert (S32 : sign_bit f32 = 2 ^ 31) by reflexivity.
  rewrite Dn in Fr. clear Dn V0 Mv. clearbody r. rewrite inf32 in R.
  assert (mag f32 ((if negb_ f64 v then 2 ^ 31 else 0) + r) = r) as E.
  { destruct (negb_ f64 v); unfold mag, negb_; rewrite S32.
    - destruct (Z.leb_spec (2 ^ 31) (2 ^ 31 + r)); lia.
    - destruct (Z.leb_spec (2 ^ 31) (0 + r)); lia. }
  unfold is_fin in Fr. rewrite E, inf32 in Fr. lia.
Qed.
