(** Lemmas about the floating-point model. *)
From Verif Require Import Spec Base Fp Stream Codec Meta Encoder.

Lemma pow2_pos k : 0 <= k -> 0 < 2 ^ k.
Proof. intros; apply Z.pow_pos_nonneg; lia. Qed.

Lemma pow2_split a b : 0 <= a -> 0 <= b -> 2 ^ (a + b) = 2 ^ a * 2 ^ b.
Proof. intros; apply Z.pow_add_r; lia. Qed.

Lemma div_mul_pow m k j : 0 <= j -> 0 <= k -> (m * 2 ^ (k + j)) / 2 ^ k = m * 2 ^ j.
Proof.
  intros Hj Hk. rewrite pow2_split by lia.
  replace (m * (2 ^ k * 2 ^ j)) with ((m * 2 ^ j) * 2 ^ k) by ring.
  apply Z.div_mul. pose proof (pow2_pos k Hk); lia.
Qed.

Lemma mod_mul_pow m k j : 0 <= j -> 0 <= k -> (m * 2 ^ (k + j)) mod 2 ^ k = 0.
Proof.
  intros Hj Hk. rewrite pow2_split by lia.
  replace (m * (2 ^ k * 2 ^ j)) with ((m * 2 ^ j) * 2 ^ k) by ring.
  apply Z.mod_mul. pose proof (pow2_pos k Hk); lia.
Qed.

Lemma rne_exact m k j : 0 <= j -> 0 < k -> rne (m * 2 ^ (k + j)) k = m * 2 ^ j.
Proof.
  intros Hj Hk. unfold rne. rewrite div_mul_pow, mod_mul_pow by lia.
  pose proof (pow2_pos (k - 1)). destruct (Z.ltb_spec 0 (2 ^ (k - 1))); [reflexivity|lia].
Qed.

Lemma rne_shift m k j : 0 <= j -> 0 < k -> rne (m * 2 ^ j) (k + j) = rne m k.
Proof.
  intros Hj Hk. unfold rne.
  pose proof (pow2_pos j Hj) as Pj. pose proof (pow2_pos k ltac:(lia)) as Pk.
  rewrite (pow2_split k j) by lia.
  replace (k + j - 1) with ((k - 1) + j) by lia. rewrite (pow2_split (k - 1) j) by lia.
  rewrite Z.div_mul_cancel_r, Z.mul_mod_distr_r by lia.
  set (r := m mod 2 ^ k). set (h := 2 ^ (k - 1)).
  assert (E1 : (r * 2 ^ j <? h * 2 ^ j) = (r <? h)).
  { destruct (Z.ltb_spec r h), (Z.ltb_spec (r * 2 ^ j) (h * 2 ^ j)); auto; nia. }
  assert (E2 : (h * 2 ^ j <? r * 2 ^ j) = (h <? r)).
  { destruct (Z.ltb_spec h r), (Z.ltb_spec (h * 2 ^ j) (r * 2 ^ j)); auto; nia. }
  now rewrite E1, E2.
Qed.

Lemma round_mag_shift f m e k : 0 < m -> 0 <= k ->
  round_mag f (m * 2 ^ k) (e - k) = round_mag f m e.
Proof.
  intros Hm Hk. unfold round_mag.
  pose proof (pow2_pos k Hk).
  destruct (Z.eqb_spec (m * 2 ^ k) 0); [nia|]. destruct (Z.eqb_spec m 0); [lia|].
  rewrite Z.log2_mul_pow2 by lia.
  replace (e - k + (k + Z.log2 m) - mb f) with (e + Z.log2 m - mb f) by lia.
  set (e' := Z.max (e + Z.log2 m - mb f) (emin f)).
  f_equal. f_equal.
  destruct (Z.leb_spec e' (e - k)), (Z.leb_spec e' e); try lia.
  - rewrite <- Z.mul_assoc, <- pow2_split by lia. f_equal. f_equal. lia.
  - replace (2 ^ k) with (2 ^ ((e' - (e - k)) + (e - e'))) by (f_equal; lia).
    apply rne_exact; lia.
  - replace (e' - (e - k)) with ((e' - e) + k) by lia. apply rne_shift; lia.
Qed.

(** Exactness: if the value fits, the rounded pattern has exactly that value. *)
Lemma round_mag_exact f m e :
  0 < m -> emin f <= e -> 1 <= mb f ->
  e + Z.log2 m - mb f <= e ->
  (Z.max (e + Z.log2 m - mb f) (emin f) - emin f + 2) * 2 ^ mb f <= inf_mag f ->
  mag_val f (round_mag f m e) = m * 2 ^ (e - emin f)
  /\ 0 < round_mag f m e < inf_mag f.
Proof.
  intros Hm He Hmb Hl Hov. unfold round_mag.
  destruct (Z.eqb_spec m 0); [lia|].
  set (e' := Z.max (e + Z.log2 m - mb f) (emin f)) in *.
  destruct (Z.leb_spec e' e); [|lia].
  set (q := m * 2 ^ (e - e')).
  pose proof (Z.log2_spec m Hm) as [L1 L2]. pose proof (Z.log2_nonneg m) as Hln.
  pose proof (pow2_pos (e - e') ltac:(lia)) as P1.
  pose proof (pow2_pos (mb f) ltac:(lia)) as P2.
  assert (Hq : 0 < q) by (unfold q; nia).
  assert (Hq2 : q < 2 * 2 ^ mb f).
  { unfold q. apply Z.lt_le_trans with (2 ^ Z.succ (Z.log2 m) * 2 ^ (e - e')).
    - nia.
    - rewrite <- pow2_split by lia. replace (2 * 2 ^ mb f) with (2 ^ (mb f + 1)).
      + apply Z.pow_le_mono_r; lia.
      + rewrite pow2_split by lia. change (2 ^ 1) with 2. lia. }
  assert (Hq3 : emin f < e' -> 2 ^ mb f <= q).
  { intros. assert (e' = e + Z.log2 m - mb f) by lia. unfold q.
    replace (e - e') with (mb f - Z.log2 m) by lia.
    replace (2 ^ mb f) with (2 ^ (Z.log2 m + (mb f - Z.log2 m))) by (f_equal; lia).
    rewrite pow2_split by lia. pose proof (pow2_pos (mb f - Z.log2 m) ltac:(lia)). nia. }
  rewrite Z.min_l by nia.
  split; [|nia].
  unfold mag_val.
  assert (Hval : q * 2 ^ (e' - emin f) = m * 2 ^ (e - emin f)).
  { unfold q. rewrite <- Z.mul_assoc, <- pow2_split by lia. f_equal. f_equal. lia. }
  destruct (Z.ltb_spec q (2 ^ mb f)) as [Hs|Hs].
  - assert (e' = emin f) by lia.
    replace (e' - emin f) with 0 in * by lia.
    rewrite Z.mul_0_l, Z.add_0_l, Z.div_small, Z.mod_small by lia. cbn [Z.eqb].
    change (2 ^ 0) with 1 in Hval. lia.
  - replace ((e' - emin f) * 2 ^ mb f + q) with ((q - 2 ^ mb f) + (e' - emin f + 1) * 2 ^ mb f) by ring.
    rewrite Z.div_add, Z.mod_add by lia.
    rewrite Z.div_small, Z.mod_small by lia.
    destruct (Z.eqb_spec (0 + (e' - emin f + 1)) 0); [lia|].
    replace (q - 2 ^ mb f + 2 ^ mb f) with q by lia.
    replace (0 + (e' - emin f + 1) - 1) with (e' - emin f) by lia. exact Hval.
Qed.

Lemma round_mag_mag_val f x : 1 <= mb f -> 2 <= eb f ->
  0 <= x < inf_mag f -> round_mag f (mag_val f x) (emin f) = x.
Proof.
  intros Hmb Heb Hx. unfold mag_val.
  pose proof (pow2_pos (mb f) ltac:(lia)) as P.
  set (E := x / 2 ^ mb f). set (F := x mod 2 ^ mb f).
  assert (HF : 0 <= F < 2 ^ mb f) by (apply Z.mod_pos_bound; lia).
  assert (HE : x = E * 2 ^ mb f + F) by (unfold E, F; pose proof (Z.div_mod x (2 ^ mb f)); lia).
  assert (HE0 : 0 <= E) by (apply Z.div_pos; lia).
  destruct (Z.eqb_spec E 0) as [E0|E0].
  - unfold round_mag. destruct (Z.eqb_spec F 0); [nia|].
    assert (Z.log2 F < mb f) by (apply Z.log2_lt_pow2; lia).
    rewrite Z.max_r by lia. rewrite Z.leb_refl, !Z.sub_diag. change (2 ^ 0) with 1.
    rewrite Z.min_l by nia. nia.
  - replace (emin f) with ((emin f + (E - 1)) - (E - 1)) at 1 by lia.
    rewrite round_mag_shift by lia.
    unfold round_mag. destruct (Z.eqb_spec (F + 2 ^ mb f) 0); [lia|].
    assert (HL : Z.log2 (F + 2 ^ mb f) = mb f).
    { apply Z.log2_unique; [lia|]. replace (Z.succ (mb f)) with (mb f + 1) by lia.
      rewrite pow2_split by lia. change (2 ^ 1) with 2. lia. }
    rewrite HL. rewrite Z.max_l by lia.
    replace (emin f + (E - 1) + mb f - mb f) with (emin f + (E - 1)) by lia.
    rewrite Z.leb_refl, Z.sub_diag. change (2 ^ 0) with 1.
    rewrite Z.min_l by nia. nia.
Qed.

(** mag_val is strictly monotone, so the bit-pattern order is the value order. *)
Lemma mag_val_nonneg f m : 1 <= mb f -> 0 <= m -> 0 <= mag_val f m.
Proof.
  intros Hmb Hm. unfold mag_val. pose proof (pow2_pos (mb f) ltac:(lia)).
  pose proof (Z.mod_pos_bound m (2 ^ mb f) ltac:(lia)).
  destruct (Z.eqb_spec (m / 2 ^ mb f) 0); [lia|].
  pose proof (Z.div_pos m (2 ^ mb f) ltac:(lia) ltac:(lia)).
  pose proof (pow2_pos (m / 2 ^ mb f - 1) ltac:(lia)). nia.
Qed.

Lemma mag_val_succ f m : 1 <= mb f -> 0 <= m -> mag_val f m < mag_val f (m + 1).
Proof.
  intros Hmb Hm. unfold mag_val.
  pose proof (pow2_pos (mb f) ltac:(lia)) as P.
  set (M := 2 ^ mb f) in *.
  assert (HF : 0 <= m mod M < M) by (apply Z.mod_pos_bound; lia).
  pose proof (Z.div_mod m M ltac:(lia)) as HD.
  pose proof (Z.div_pos m M ltac:(lia) P) as HP.
  set (E := m / M) in *. set (F := m mod M) in *.
  destruct (Z.eq_dec F (M - 1)) as [Hc|Hc].
  - assert (E1 : (m + 1) / M = E + 1) by (symmetry; apply Z.div_unique with 0; lia).
    assert (F1 : (m + 1) mod M = 0) by (symmetry; apply Z.mod_unique with (E + 1); lia).
    rewrite E1, F1. destruct (Z.eqb_spec (E + 1) 0); [lia|].
    destruct (Z.eqb_spec E 0) as [->|].
    + change (0 + 1 - 1) with 0. change (2 ^ 0) with 1. lia.
    + replace (E + 1 - 1) with ((E - 1) + 1) by lia. rewrite pow2_split by lia.
      change (2 ^ 1) with 2. pose proof (pow2_pos (E - 1) ltac:(lia)). nia.
  - assert (E1 : (m + 1) / M = E) by (symmetry; apply Z.div_unique with (F + 1); lia).
    assert (F1 : (m + 1) mod M = F + 1) by (symmetry; apply Z.mod_unique with E; lia).
    rewrite E1, F1. destruct (Z.eqb_spec E 0); [lia|].
    pose proof (pow2_pos (E - 1) ltac:(lia)). nia.
Qed.

Lemma mag_val_mono f a b : 1 <= mb f -> 0 <= a -> a < b -> mag_val f a < mag_val f b.
Proof.
  intros Hmb Ha Hab. replace b with (a + 1 + Z.of_nat (Z.to_nat (b - a - 1))) by lia.
  induction (Z.to_nat (b - a - 1)) as [|n IH].
  - rewrite Z.add_0_r. now apply mag_val_succ.
  - eapply Z.lt_trans; [exact IH|].
    replace (a + 1 + Z.of_nat (S n)) with ((a + 1 + Z.of_nat n) + 1) by lia.
    apply mag_val_succ; lia.
Qed.

Lemma mag_val_0 f : 1 <= mb f -> mag_val f 0 = 0.
Proof. intros. unfold mag_val. rewrite Z.div_0_l, Z.mod_0_l; [reflexivity| |]; pose proof (pow2_pos (mb f)); lia. Qed.

(** For finite patterns the order key compares like the exact value. *)
Lemma key_val f x y : 1 <= mb f -> 0 <= eb f -> 0 <= x -> 0 <= y ->
  (key f x < key f y <-> val f x < val f y).
Proof.
  intros Hmb Heb Hx Hy. unfold key, val.
  assert (P : 0 < sign_bit f) by (apply pow2_pos; lia).
  assert (Mx : 0 <= mag f x) by (unfold mag, negb_; destruct (Z.leb_spec (sign_bit f) x); lia).
  assert (My : 0 <= mag f y) by (unfold mag, negb_; destruct (Z.leb_spec (sign_bit f) y); lia).
  pose proof (mag_val_nonneg f _ Hmb Mx). pose proof (mag_val_nonneg f _ Hmb My).
  pose proof (mag_val_0 f Hmb) as V0.
  assert (MM : forall a b, 0 <= a -> 0 <= b -> (a < b <-> mag_val f a < mag_val f b)).
  { intros a b Ha Hb. split; intros; [now apply mag_val_mono|].
    destruct (Z.lt_trichotomy a b) as [|[->|]]; [easy|lia|].
    pose proof (mag_val_mono f b a Hmb Hb ltac:(lia)). lia. }
  pose proof (MM (mag f x) (mag f y) Mx My). pose proof (MM (mag f y) (mag f x) My Mx).
  pose proof (MM 0 (mag f x) ltac:(lia) Mx). pose proof (MM 0 (mag f y) ltac:(lia) My).
  rewrite V0 in *.
  destruct (negb_ f x), (negb_ f y); lia.
Qed.

(** ** Doubles holding integers *)

Lemma rt64 x : 0 <= x < inf_mag f64 -> round_mag f64 (mag_val f64 x) (-1074) = x.
Proof. intros H. apply (round_mag_mag_val f64); [cbn; lia|cbn; lia|exact H]. Qed.
Lemma rt32 x : 0 <= x < inf_mag f32 -> round_mag f32 (mag_val f32 x) (-149) = x.
Proof. intros H. apply (round_mag_mag_val f32); [cbn; lia|cbn; lia|exact H]. Qed.

Lemma emin64 : emin f64 = -1074. Proof. reflexivity. Qed.
Lemma emin32 : emin f32 = -149. Proof. reflexivity. Qed.
Lemma sign64 : sign_bit f64 = 2 ^ 63. Proof. reflexivity. Qed.
Lemma inf64 : inf_mag f64 = 9218868437227405312. Proof. reflexivity. Qed.
Lemma inf32 : inf_mag f32 = 2139095040. Proof. reflexivity. Qed.

Lemma z2d_mag n : 0 < n <= 2 ^ 53 ->
  mag_val f64 (round_mag f64 n 0) = n * 2 ^ 1074 /\ 0 < round_mag f64 n 0 < inf_mag f64.
Proof.
  intros [H1 H2].
  destruct (Z.eq_dec n (2 ^ 53)) as [->|Hn].
  - split; [vm_compute; reflexivity | vm_compute; split; reflexivity].
  - assert (Z.log2 n < 53) by (apply Z.log2_lt_pow2; lia).
    pose proof (Z.log2_nonneg n).
    replace (n * 2 ^ 1074) with (n * 2 ^ (0 - emin f64)) by reflexivity.
    apply round_mag_exact; try lia; try (rewrite emin64; lia).
    + cbn [mb f64]; lia.
    + cbn [mb f64]; lia.
    + rewrite emin64, inf64. cbn [mb f64].
      apply Z.le_trans with (1076 * 2 ^ 52); [|lia].
      apply Z.mul_le_mono_nonneg_r; lia.
Qed.

Lemma z2d_0 : z2d 0 = 0. Proof. reflexivity. Qed.

(** Shape of the pattern of an exactly representable integer. *)
Lemma z2d_val n : - 2 ^ 53 <= n <= 2 ^ 53 -> val f64 (z2d n) = n * 2 ^ 1074.
Proof.
  intros H. unfold z2d, round.
  destruct (Z.ltb_spec n 0).
  - destruct (z2d_mag (- n) ltac:(lia)) as [V B]. rewrite inf64 in B.
    unfold val, mag, negb_. rewrite sign64.
    destruct (Z.leb_spec (2 ^ 63) (2 ^ 63 + round_mag f64 (- n) 0)); [|lia].
    replace (2 ^ 63 + round_mag f64 (- n) 0 - 2 ^ 63) with (round_mag f64 (- n) 0) by lia.
    rewrite V. lia.
  - destruct (Z.eq_dec n 0) as [->|]; [reflexivity|].
    destruct (z2d_mag n ltac:(lia)) as [V B]. rewrite inf64 in B.
    unfold val, mag, negb_. rewrite sign64.
    destruct (Z.leb_spec (2 ^ 63) (round_mag f64 n 0)); [lia|]. exact V.
Qed.

Lemma z2d_fin n : - 2 ^ 53 <= n <= 2 ^ 53 -> is_fin f64 (z2d n) = true /\ is64 (z2d n) /\ z2d n <> 2 ^ 63.
Proof.
  intros H. unfold z2d, round, is_fin, mag, negb_, is64. rewrite sign64, inf64.
  destruct (Z.ltb_spec n 0).
  - destruct (z2d_mag (- n) ltac:(lia)) as [_ B]. rewrite inf64 in B.
    destruct (Z.leb_spec (2 ^ 63) (2 ^ 63 + round_mag f64 (- n) 0)); lia.
  - destruct (Z.eq_dec n 0) as [->|].
    + change (round_mag f64 0 0) with 0. destruct (Z.leb_spec (2 ^ 63) 0); lia.
    + destruct (z2d_mag n ltac:(lia)) as [_ B]. rewrite inf64 in B.
      destruct (Z.leb_spec (2 ^ 63) (round_mag f64 n 0)); lia.
Qed.

Lemma fin_not_nan f x : is_fin f x = true -> is_nan f x = false.
Proof. unfold is_fin, is_nan. lia. Qed.
Lemma fin_not_inf f x : is_fin f x = true -> is_inf f x = false.
Proof. unfold is_fin, is_inf. lia. Qed.

Lemma z2d_nan n : - 2 ^ 53 <= n <= 2 ^ 53 -> is_nan f64 (z2d n) = false.
Proof. intros H. apply fin_not_nan. now apply z2d_fin. Qed.

Lemma flt_val f x y : 1 <= mb f -> 0 <= eb f -> 0 <= x -> 0 <= y ->
  is_nan f x = false -> is_nan f y = false ->
  flt f x y = (val f x <? val f y).
Proof.
  intros A B C D E F. unfold flt. rewrite E, F. cbn [negb andb].
  pose proof (key_val f x y A B C D).
  destruct (Z.ltb_spec (key f x) (key f y)), (Z.ltb_spec (val f x) (val f y)); tauto || lia.
Qed.

Lemma feq_val f x y : 1 <= mb f -> 0 <= eb f -> 0 <= x -> 0 <= y ->
  is_nan f x = false -> is_nan f y = false ->
  feq f x y = (val f x =? val f y).
Proof.
  intros A B C D E F. unfold feq. rewrite E, F. cbn [negb andb].
  pose proof (key_val f x y A B C D). pose proof (key_val f y x A B D C).
  destruct (Z.eqb_spec (key f x) (key f y)), (Z.eqb_spec (val f x) (val f y)); try reflexivity; lia.
Qed.

Definition small (n : Z) : Prop := - 2 ^ 53 <= n <= 2 ^ 53.

Lemma dlt_z2d a b : small a -> small b -> dlt (z2d a) (z2d b) = (a <? b).
Proof.
  intros Ha Hb. destruct (z2d_fin a Ha) as (_ & Ia & _), (z2d_fin b Hb) as (_ & Ib & _).
  unfold dlt. rewrite flt_val; try (apply z2d_nan; assumption); try (unfold is64 in *; cbn; lia).
  rewrite !z2d_val by assumption.
  pose proof (pow2_pos 1074 ltac:(lia)) as P. set (K := 2 ^ 1074) in *. clearbody K.
  destruct (Z.ltb_spec a b), (Z.ltb_spec (a * K) (b * K)); auto; nia.
Qed.

Lemma deq_z2d a b : small a -> small b -> deq (z2d a) (z2d b) = (a =? b).
Proof.
  intros Ha Hb. destruct (z2d_fin a Ha) as (_ & Ia & _), (z2d_fin b Hb) as (_ & Ib & _).
  unfold deq. rewrite feq_val; try (apply z2d_nan; assumption); try (unfold is64 in *; cbn; lia).
  rewrite !z2d_val by assumption.
  pose proof (pow2_pos 1074 ltac:(lia)) as P. set (K := 2 ^ 1074) in *. clearbody K.
  destruct (Z.eqb_spec a b), (Z.eqb_spec (a * K) (b * K)); auto; nia.
Qed.

Lemma z2d_inj a b : small a -> small b -> z2d a = z2d b -> a = b.
Proof.
  intros Ha Hb E. pose proof (deq_z2d a b Ha Hb) as H. rewrite E in H.
  rewrite (deq_z2d b b Hb Hb) in H. lia.
Qed.

Lemma round_scaled n : round f64 (n * 2 ^ 1074) (-1074) = z2d n.
Proof.
  unfold z2d, round.
  pose proof (pow2_pos 1074 ltac:(lia)) as P.
  assert (K : forall m, 0 < m -> round_mag f64 (m * 2 ^ 1074) (-1074) = round_mag f64 m 0).
  { intros m Hm. change (-1074) with (0 - 1074) at 1. apply round_mag_shift; lia. }
  destruct (Z.ltb_spec n 0).
  - destruct (Z.ltb_spec (n * 2 ^ 1074) 0); [|nia].
    replace (- (n * 2 ^ 1074)) with ((- n) * 2 ^ 1074) by lia. rewrite K by lia. reflexivity.
  - destruct (Z.ltb_spec (n * 2 ^ 1074) 0); [nia|].
    destruct (Z.eq_dec n 0) as [->|]; [reflexivity|]. apply K; lia.
Qed.

Lemma dneg_z2d n : small n -> n <> 0 -> dneg (z2d n) = z2d (- n).
Proof.
  intros H Hn. unfold small in H. unfold dneg, z2d, round, negb_. rewrite sign64.
  destruct (Z.ltb_spec n 0).
  - destruct (z2d_mag (- n) ltac:(lia)) as [_ B]. rewrite inf64 in B.
    destruct (Z.ltb_spec (- n) 0); [lia|].
    destruct (Z.leb_spec (2 ^ 63) (2 ^ 63 + round_mag f64 (- n) 0)); lia.
  - destruct (z2d_mag n ltac:(lia)) as [_ B]. rewrite inf64 in B.
    destruct (Z.ltb_spec (- n) 0); [|lia]. rewrite Z.opp_involutive.
    destruct (Z.leb_spec (2 ^ 63) (round_mag f64 n 0)); lia.
Qed.

Lemma z2d_neg_iff n : small n -> negb_ f64 (z2d n) = (n <? 0).
Proof.
  intros H. unfold small in H. unfold z2d, round, negb_. rewrite sign64.
  destruct (Z.ltb_spec n 0).
  - destruct (z2d_mag (- n) ltac:(lia)) as [_ B]. lia.
  - destruct (Z.eq_dec n 0) as [->|]; [reflexivity|].
    destruct (z2d_mag n ltac:(lia)) as [_ B]. rewrite inf64 in B. lia.
Qed.

Lemma dadd_z2d a b : small a -> small b -> dadd (z2d a) (z2d b) = z2d (a + b).
Proof.
  intros Ha Hb. unfold dadd.
  destruct (z2d_fin a Ha) as (Fa & _), (z2d_fin b Hb) as (Fb & _).
  rewrite !(fin_not_nan _ _ Fa), !(fin_not_nan _ _ Fb), !(fin_not_inf _ _ Fa), !(fin_not_inf _ _ Fb).
  cbn [orb]. rewrite !z2d_val, !z2d_neg_iff by assumption.
  rewrite <- Z.mul_add_distr_r.
  pose proof (pow2_pos 1074 ltac:(lia)) as P.
  destruct (Z.eqb_spec ((a + b) * 2 ^ 1074) 0) as [E|E].
  - assert (a + b = 0) by nia. destruct (Z.ltb_spec a 0), (Z.ltb_spec b 0); cbn [andb]; try lia;
      replace (a + b) with 0 by lia; reflexivity.
  - apply round_scaled.
Qed.

Lemma dsub_z2d a b : small a -> small b -> dsub (z2d a) (z2d b) = z2d (a - b).
Proof.
  intros Ha Hb. unfold dsub. destruct (Z.eq_dec b 0) as [->|Hn].
  - rewrite Z.sub_0_r. change (dneg (z2d 0)) with (2 ^ 63). unfold dadd.
    destruct (z2d_fin a Ha) as (Fa & _ & _).
    rewrite (fin_not_nan _ _ Fa), (fin_not_inf _ _ Fa).
    change (is_nan f64 (2 ^ 63)) with false. change (is_inf f64 (2 ^ 63)) with false. cbn [orb].
    change (val f64 (2 ^ 63)) with 0. rewrite Z.add_0_r, z2d_val, z2d_neg_iff by assumption.
    pose proof (pow2_pos 1074 ltac:(lia)) as P.
    destruct (Z.eqb_spec (a * 2 ^ 1074) 0) as [E|E].
    + assert (a = 0) as -> by nia. reflexivity.
    + apply round_scaled.
  - rewrite dneg_z2d by assumption. rewrite dadd_z2d; [reflexivity|assumption|unfold small in *; lia].
Qed.

Lemma d2z_trunc_z2d n : small n -> d2z_trunc (z2d n) = Some n.
Proof.
  intros H. unfold d2z_trunc. destruct (z2d_fin n H) as (F & _). rewrite F, z2d_val by assumption.
  rewrite Z.quot_mul; [reflexivity|]. pose proof (pow2_pos 1074 ltac:(lia)). lia.
Qed.

Lemma d2int_z2d lo hi n : small n -> lo <= n <= hi -> d2int lo hi (z2d n) = Ok n.
Proof.
  intros H B. unfold d2int. rewrite d2z_trunc_z2d by assumption.
  destruct (Z.leb_spec lo n), (Z.leb_spec n hi); cbn [andb]; lia || reflexivity.
Qed.

(** ** Equality of patterns from equality of values *)

Lemma key_inj x y : is64 x -> is64 y -> key f64 x = key f64 y -> x = y \/ (key f64 x = 0).
Proof.
  unfold is64, key, mag, negb_. rewrite sign64. intros.
  destruct (Z.leb_spec (2 ^ 63) x), (Z.leb_spec (2 ^ 63) y); lia.
Qed.

Lemma deq_refl x : is_nan f64 x = false -> deq x x = true.
Proof. intros H. unfold deq, feq. rewrite H, Z.eqb_refl. reflexivity. Qed.


Lemma deq_eq x y : is64 x -> is64 y -> x <> negzero -> y <> negzero -> deq x y = true -> x = y.
Proof.
  unfold deq, feq, negzero. intros Hx Hy Nx Ny H.
  apply andb_prop in H as [_ H]. apply Z.eqb_eq in H.
  destruct (key_inj x y Hx Hy H) as [|K]; [assumption|].
  unfold is64, key, mag, negb_ in *. rewrite sign64 in *.
  destruct (Z.leb_spec (2 ^ 63) x), (Z.leb_spec (2 ^ 63) y); lia.
Qed.

(** ** Adding zero *)

Lemma round_val x : is64 x -> is_fin f64 x = true -> x <> negzero -> round f64 (val f64 x) (-1074) = x.
Proof.
  intros Hx F N. unfold is_fin, val, mag, negb_, negzero, is64 in *. rewrite sign64 in *.
  destruct (Z.leb_spec (2 ^ 63) x).
  - pose proof (mag_val_nonneg f64 (x - 2 ^ 63) ltac:(cbn; lia) ltac:(lia)).
    pose proof (mag_val_mono f64 0 (x - 2 ^ 63) ltac:(cbn; lia) ltac:(lia) ltac:(lia)) as M.
    rewrite mag_val_0 in M by (cbn; lia).
    unfold round. destruct (Z.ltb_spec (- mag_val f64 (x - 2 ^ 63)) 0); [|lia].
    rewrite Z.opp_involutive, rt64 by (rewrite inf64 in *; lia). rewrite sign64. lia.
  - pose proof (mag_val_nonneg f64 x ltac:(cbn; lia) ltac:(lia)).
    unfold round. destruct (Z.ltb_spec (mag_val f64 x) 0); [lia|].
    apply rt64. rewrite inf64 in *; lia.
Qed.

(** [0 + x], as computed when decoding an offset of zero. *)
Lemma dadd_0_l x : is64 x -> is_nan f64 x = false -> x <> negzero -> dadd 0 x = x.
Proof.
  intros Hx Nx Z0. unfold dadd. rewrite Nx. change (is_nan f64 0) with false. cbn [orb].
  change (is_inf f64 0) with false. destruct (is_inf f64 x) eqn:I; [reflexivity|].
  change (val f64 0) with 0. rewrite Z.add_0_l. change (negb_ f64 0) with false. cbn [andb].
  assert (F : is_fin f64 x = true) by (unfold is_fin, is_inf, is_nan in *; lia).
  destruct (Z.eqb_spec (val f64 x) 0) as [E|E].
  - rewrite <- (round_val x Hx F Z0), E. reflexivity.
  - now apply round_val.
Qed.

Lemma val_dneg x : is64 x -> val f64 (dneg x) = - val f64 x.
Proof.
  unfold is64, val, dneg, mag, negb_. rewrite sign64. intros.
  destruct (Z.leb_spec (2 ^ 63) x).
  - destruct (Z.leb_spec (2 ^ 63) (x - 2 ^ 63)); [lia|]. lia.
  - destruct (Z.leb_spec (2 ^ 63) (x + 2 ^ 63)); [|lia].
    replace (x + 2 ^ 63 - 2 ^ 63) with x by lia. reflexivity.
Qed.

Lemma dneg_fin x : is64 x -> is_fin f64 (dneg x) = is_fin f64 x.
Proof.
  unfold is64, is_fin, dneg, mag, negb_. rewrite sign64. intros.
  destruct (Z.leb_spec (2 ^ 63) x).
  - destruct (Z.leb_spec (2 ^ 63) (x - 2 ^ 63)); [lia|]. lia.
  - destruct (Z.leb_spec (2 ^ 63) (x + 2 ^ 63)); [|lia]. lia.
Qed.

(** [x - y] is zero exactly when the (finite) values are equal. *)
Lemma dsub_self x y : is64 x -> is64 y -> is_fin f64 x = true -> is_fin f64 y = true ->
  val f64 x = val f64 y -> dsub x y = 0 \/ dsub x y = negzero.
Proof.
  intros Hx Hy Fx Fy E. unfold dsub, dadd.
  pose proof (dneg_fin y Hy) as Fn. rewrite Fy in Fn.
  rewrite (fin_not_nan _ _ Fx), (fin_not_nan _ _ Fn), (fin_not_inf _ _ Fx), (fin_not_inf _ _ Fn).
  cbn [orb]. rewrite val_dneg, E by assumption. rewrite Z.add_opp_diag_r. cbn [Z.eqb].
  destruct (negb_ f64 x && negb_ f64 (dneg y)); [right|left]; reflexivity.
Qed.

(** ** float <-> double *)

Definition is_f32 (y : Z) : Prop := is32 y.

Lemma mag_val_f32_log2 m : 0 < m < inf_mag f32 ->
  exists q k, 0 < q < 2 ^ 24 /\ 0 <= k <= 253 /\ mag_val f32 m = q * 2 ^ k.
Proof.
  intros H. rewrite inf32 in H. unfold mag_val. cbn [mb f32].
  pose proof (Z.mod_pos_bound m (2 ^ 23) ltac:(lia)).
  destruct (Z.eqb_spec (m / 2 ^ 23) 0).
  - exists (m mod 2 ^ 23), 0. change (2 ^ 0) with 1. rewrite Z.mul_1_r.
    change (2 ^ 24) with 16777216. change (2 ^ 23) with 8388608 in *. lia.
  - exists (m mod 2 ^ 23 + 2 ^ 23), (m / 2 ^ 23 - 1).
    change (2 ^ 24) with 16777216. change (2 ^ 23) with 8388608 in *. repeat split; lia.
Qed.

Lemma f2d_mag m : 0 <= m < inf_mag f32 ->
  let p := round_mag f64 (mag_val f32 m) (-149) in
  mag_val f64 p = mag_val f32 m * 2 ^ 925 /\ 0 <= p < inf_mag f64.
Proof.
  intros H. cbv zeta. destruct (Z.eq_dec m 0) as [->|Hm].
  - change (round_mag f64 (mag_val f32 0) (-149)) with 0.
    split; [reflexivity|rewrite inf64; lia].
  - assert (Hm' : 0 < m < inf_mag f32) by lia.
    destruct (mag_val_f32_log2 m Hm') as (q & k & Hq & Hk & E).
    rewrite E.
    replace (-149) with ((-149 + k) - k) by lia.
    rewrite round_mag_shift by lia.
    assert (L : Z.log2 q < 24) by (apply Z.log2_lt_pow2; lia). pose proof (Z.log2_nonneg q).
    destruct (round_mag_exact f64 q (-149 + k)) as [V B]; try lia.
    + rewrite emin64; lia.
    + cbn; lia.
    + cbn [mb f64]; lia.
    + rewrite emin64, inf64. cbn [mb f64]. rewrite Z.max_l by lia.
      apply Z.le_trans with (1200 * 2 ^ 52); [|lia]. apply Z.mul_le_mono_nonneg_r; lia.
    + split; [|lia]. rewrite V, emin64.
      rewrite <- Z.mul_assoc, <- pow2_split by lia. f_equal. f_equal. lia.
Qed.

(** Narrowing what was widened gives the same float back. *)
Lemma d2f_f2d y : is32 y -> is_nan f32 y = false -> d2f (f2d y) = y.
Proof.
  intros Hy N. unfold f2d. rewrite N.
  unfold is32 in Hy. assert (S32 : sign_bit f32 = 2 ^ 31) by reflexivity.
  destruct (is_inf f32 y) eqn:I.
  - unfold is_inf, mag, negb_ in *. rewrite S32, inf32 in *.
    destruct (Z.leb_spec (2 ^ 31) y) as [L|L]; apply Z.eqb_eq in I.
    + replace y with (2 ^ 31 + 2139095040) by lia. reflexivity.
    + subst y. reflexivity.
  - assert (M : 0 <= mag f32 y < inf_mag f32).
    { unfold is_nan, is_inf, mag, negb_ in *. rewrite S32, inf32 in *.
      destruct (Z.leb_spec (2 ^ 31) y); lia. }
    destruct (f2d_mag _ M) as [V B]. set (p := round_mag f64 (mag_val f32 (mag f32 y)) (-149)) in *.
    assert (K : round_mag f32 (mag_val f64 p) (-1074) = mag f32 y).
    { rewrite V. destruct (Z.eq_dec (mag f32 y) 0) as [E|E].
      - rewrite E, mag_val_0 by (cbn; lia). reflexivity.
      - change (-1074) with (-149 - 925). rewrite round_mag_shift; try lia.
        + apply rt32; lia.
        + pose proof (mag_val_mono f32 0 (mag f32 y) ltac:(cbn; lia) ltac:(lia) ltac:(lia)) as Q.
          rewrite mag_val_0 in Q by (cbn; lia). lia. }
    clearbody p. rewrite inf64 in B.
    assert (D : forall s, s = 0 \/ s = 2 ^ 63 ->
              d2f (s + p) = (if s =? 0 then 0 else 2 ^ 31) + round_mag f32 (mag_val f64 p) (-1074)).
    { intros s Hs. assert (HM : mag f64 (s + p) = p).
      { unfold mag, negb_. rewrite sign64. destruct (Z.leb_spec (2 ^ 63) (s + p)); lia. }
      unfold d2f, is_nan, is_inf. rewrite HM. unfold negb_. rewrite sign64, inf64.
      destruct (Z.ltb_spec 9218868437227405312 p); [lia|].
      destruct (Z.eqb_spec p 9218868437227405312); [lia|].
      destruct (Z.leb_spec (2 ^ 63) (s + p)), (Z.eqb_spec s 0); lia. }
    rewrite D by (destruct (negb_ f32 y); auto). rewrite K.
    unfold mag, negb_. rewrite S32. destruct (Z.leb_spec (2 ^ 31) y).
    + change (2 ^ 63 =? 0) with false. cbv iota. lia.
    + change (0 =? 0) with true. cbv iota. lia.
Qed.

(** keep the simplifier away from big numbers *)
Global Arguments z2d _ : simpl never.
Global Arguments f2d _ : simpl never.
Global Arguments d2f _ : simpl never.
Global Arguments dadd _ _ : simpl never.
Global Arguments dsub _ _ : simpl never.
Global Arguments deq _ _ : simpl never.
Global Arguments dlt _ _ : simpl never.
Global Arguments feq _ _ _ : simpl never.
Global Arguments flt _ _ _ : simpl never.
Global Arguments d2int _ _ _ : simpl never.
