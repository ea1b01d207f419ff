(** Rounding is monotone; subtraction and division of doubles in the comparator. *)
From Verif Require Import Base Fp FpProofs FpNearest Comparator.
Open Scope Z_scope.

(** ** Rounding is monotone *)

Definition rnd (m k : Z) : Z := if k =? 0 then m else rne m k.

Lemma rne_mono a b k : 0 < k -> a <= b -> rne a k <= rne b k.
Proof.
  intros Hk H. unfold rne. assert (P : 2 ^ k = 2 * 2 ^ (k - 1)).
  { replace k with (1 + (k - 1)) at 1 by lia. rewrite pow2_split by lia. reflexivity. }
  pose proof (pow2_pos (k - 1) ltac:(lia)) as H0. set (h := 2 ^ (k - 1)) in *. rewrite P. clearbody h. clear P.
  pose proof (Z.div_mod a (2 * h) ltac:(lia)) as D1. pose proof (Z.mod_pos_bound a (2 * h) ltac:(lia)) as B1.
  pose proof (Z.div_mod b (2 * h) ltac:(lia)) as D2. pose proof (Z.mod_pos_bound b (2 * h) ltac:(lia)) as B2.
  set (qa := a / (2 * h)) in *. set (ra := a mod (2 * h)) in *. set (qb := b / (2 * h)) in *. set (rb := b mod (2 * h)) in *.
  clearbody qa ra qb rb.
  assert (C : qa = qb /\ ra <= rb \/ qa + 1 <= qb) by nia.
  destruct C as [[-> C]|C].
  - destruct (Z.ltb_spec ra h), (Z.ltb_spec rb h), (Z.ltb_spec h ra), (Z.ltb_spec h rb), (Z.even qb); lia.
  - destruct (Z.ltb_spec ra h), (Z.ltb_spec rb h), (Z.ltb_spec h ra), (Z.ltb_spec h rb), (Z.even qa), (Z.even qb); lia.
Qed.

Lemma rnd_mono a b k : 0 <= k -> a <= b -> rnd a k <= rnd b k.
Proof. intros Hk H. unfold rnd. destruct (Z.eqb_spec k 0); [exact H|]. apply rne_mono; lia. Qed.

Local Notation R := (round_mag f64).
Local Notation V := (mag_val f64).

Definition e' (m e : Z) : Z := Z.max (e + Z.log2 m - 52) (-1074).

Lemma round_mag_form m e : 0 < m -> e <= -1074 ->
  R m e = Z.min ((e' m e + 1074) * 2 ^ 52 + rnd m (e' m e - e)) (inf_mag f64).
Proof.
  intros Hm He. unfold round_mag, rnd, e'. rewrite emin64. change (mb f64) with 52. destruct (Z.eqb_spec m 0); [lia|]. cbv zeta.
  set (x := Z.max (e + Z.log2 m - 52) (-1074)). assert (-1074 <= x) by lia.
  replace (x - -1074) with (x + 1074) by lia.
  destruct (Z.leb_spec x e) as [H1|H1], (Z.eqb_spec (x - e) 0) as [H2|H2]; try lia.
  replace (e - x) with 0 by lia. now rewrite Z.mul_1_r.
Qed.

Lemma rnd_bounds m k lo hi : 0 <= k -> lo * 2 ^ k <= m <= hi * 2 ^ k -> lo <= rnd m k <= hi.
Proof.
  intros Hk H. unfold rnd. destruct (Z.eqb_spec k 0) as [->|]; [rewrite !Z.mul_1_r in H; exact H|].
  apply rne_bounds; [lia|exact H].
Qed.

Lemma round_mag_nonneg m e : 0 <= m -> e <= -1074 -> 0 <= R m e <= inf_mag f64.
Proof.
  intros Hm He. destruct (Z.eq_dec m 0) as [->|N]; [unfold round_mag; cbn; lia|].
  rewrite round_mag_form by lia. assert (0 <= rnd m (e' m e - e)).
  { apply (rnd_bounds m (e' m e - e) 0 m); [unfold e'; lia|]. pose proof (pow2_pos (e' m e - e) ltac:(unfold e'; lia)). nia. }
  rewrite inf64. unfold e' in *. pose proof (pow2_pos 52 ltac:(lia)). nia.
Qed.

Lemma round_mag_mono a b e : e <= -1074 -> 0 <= a <= b -> R a e <= R b e.
Proof.
  intros He [Ha Hab]. destruct (Z.eq_dec a 0) as [->|Na].
  - unfold round_mag at 1. cbn [Z.eqb]. apply round_mag_nonneg; lia.
  - rewrite !round_mag_form by lia.
    assert (L : Z.log2 a <= Z.log2 b) by (apply Z.log2_le_mono; lia).
    pose proof (Z.log2_spec a ltac:(lia)) as [La1 La2]. pose proof (Z.log2_spec b ltac:(lia)) as [Lb1 Lb2].
    assert (C : e' a e = e' b e \/ e' a e < e' b e /\ e' b e = e + Z.log2 b - 52) by (unfold e'; lia).
    destruct C as [->|[C1 C2]].
    + pose proof (rnd_mono a b (e' b e - e) ltac:(unfold e'; lia) Hab). lia.
    + assert (Ka : 0 <= e' a e - e) by (unfold e'; lia).
      assert (X1 : 0 <= rnd a (e' a e - e) <= 2 ^ 53).
      { apply rnd_bounds; [exact Ka|]. split; [lia|].
        rewrite <- pow2_split by lia. assert (2 ^ Z.succ (Z.log2 a) <= 2 ^ (53 + (e' a e - e))); [|lia].
        apply Z.pow_le_mono_r; [lia|]. unfold e'. lia. }
      assert (X2 : 2 ^ 52 <= rnd b (e' b e - e)).
      { apply (rnd_bounds b (e' b e - e) (2 ^ 52) b); [lia|]. split.
        - rewrite <- pow2_split by lia. replace (52 + (e' b e - e)) with (Z.log2 b) by lia. exact Lb1.
        - pose proof (pow2_pos (e' b e - e) ltac:(lia)). nia. }
      change (2 ^ 53) with (2 * 2 ^ 52) in X1. pose proof (pow2_pos 52 ltac:(lia)). set (M := 2 ^ 52) in *. clearbody M.
      set (u := rnd a (e' a e - e)) in *. set (v := rnd b (e' b e - e)) in *. clearbody u v. nia.
Qed.

(** Rounding does not cross a representable number [p]. *)
Lemma round_at p d : 0 <= p < inf_mag f64 -> 0 <= d -> R (V p * 2 ^ d) (-1074 - d) = p.
Proof.
  intros Hp Hd. destruct (Z.eq_dec (V p) 0) as [E|N].
  - rewrite E, Z.mul_0_l. rewrite <- (rt64 p Hp), E. reflexivity.
  - pose proof (mag_val_nonneg f64 p ltac:(cbn; lia) ltac:(lia)). rewrite round_mag_shift by lia. apply rt64, Hp.
Qed.

Lemma round_le m d p : 0 <= p < inf_mag f64 -> 0 <= d -> 0 <= m -> m <= V p * 2 ^ d -> R m (-1074 - d) <= p.
Proof. intros Hp Hd Hm H. rewrite <- (round_at p d Hp Hd) at 1. apply round_mag_mono; lia. Qed.

Lemma round_ge m d p : 0 <= p < inf_mag f64 -> 0 <= d -> V p * 2 ^ d <= m -> p <= R m (-1074 - d).
Proof.
  intros Hp Hd H. rewrite <- (round_at p d Hp Hd) at 1. apply round_mag_mono; [lia|].
  pose proof (mag_val_nonneg f64 p ltac:(cbn; lia) ltac:(lia)). pose proof (pow2_pos d Hd). nia.
Qed.

(** ** Subtraction and division *)

Lemma mag_sign r (s : bool) : 0 <= r <= inf_mag f64 -> mag f64 ((if s then 2 ^ 63 else 0) + r) = r.
Proof.
  rewrite inf64. intros H. unfold mag, negb_. rewrite sign64.
  destruct s; [destruct (Z.leb_spec (2 ^ 63) (2 ^ 63 + r))|destruct (Z.leb_spec (2 ^ 63) (0 + r))]; lia.
Qed.

Lemma dsub_mag x y : is64 x -> is64 y -> is_fin f64 x = true -> is_fin f64 y = true ->
  dabs (dsub x y) = R (Z.abs (val f64 x - val f64 y)) (-1074).
Proof.
  intros Hx Hy Fx Fy. assert (Fn : is_fin f64 (dneg y) = true) by (now rewrite dneg_fin).
  unfold dabs, dsub, dadd. rewrite (fin_not_nan _ _ Fx), (fin_not_nan _ _ Fn), (fin_not_inf _ _ Fx), (fin_not_inf _ _ Fn).
  cbn [orb]. rewrite val_dneg by assumption. cbv zeta.
  destruct (Z.eqb_spec (val f64 x + - val f64 y) 0) as [E|N].
  - replace (val f64 x - val f64 y) with 0 by lia. destruct (negb_ f64 x && negb_ f64 (dneg y)); reflexivity.
  - unfold round. destruct (Z.ltb_spec (val f64 x + - val f64 y) 0) as [L|L].
    + rewrite (mag_sign _ true); [f_equal; lia|]. apply round_mag_nonneg; lia.
    + replace (round_mag f64 (val f64 x + - val f64 y) (-1074)) with (0 + R (val f64 x + - val f64 y) (-1074)) by lia.
      rewrite (mag_sign _ false); [f_equal; lia|]. apply round_mag_nonneg; lia.
Qed.

(** The magnitude of a quotient. *)
Definition divmag (a b : Z) : Z :=
  let k := 1200 + Z.log2 b in
  R (2 * (a * 2 ^ k / b) + (if a * 2 ^ k mod b =? 0 then 0 else 1)) (- (k + 1)).

Lemma divmag_nonneg a b : 0 <= a -> 0 < b -> 0 <= divmag a b <= inf_mag f64.
Proof.
  intros Ha Hb. unfold divmag. pose proof (Z.log2_nonneg b). apply round_mag_nonneg; [|lia].
  pose proof (pow2_pos (1200 + Z.log2 b) ltac:(lia)) as P.
  assert (0 <= a * 2 ^ (1200 + Z.log2 b) / b) by (apply Z.div_pos; [apply Z.mul_nonneg_nonneg|]; lia).
  destruct (_ =? 0); lia.
Qed.

Lemma ddiv_mag x y : is_fin f64 x = true -> is_fin f64 y = true -> val f64 y <> 0 ->
  dabs (ddiv x y) = divmag (Z.abs (val f64 x)) (Z.abs (val f64 y)).
Proof.
  intros Fx Fy N. unfold dabs, ddiv. rewrite (fin_not_nan _ _ Fx), (fin_not_nan _ _ Fy), (fin_not_inf _ _ Fx), (fin_not_inf _ _ Fy).
  cbn [orb]. cbv zeta. destruct (Z.eqb_spec (Z.abs (val f64 y)) 0) as [E|_]; [lia|].
  apply mag_sign. apply (divmag_nonneg (Z.abs (val f64 x)) (Z.abs (val f64 y))); lia.
Qed.

Section DivBounds.
Variables a b p : Z.
Hypothesis Ha : 0 <= a.
Hypothesis Hb : 0 < b.
Hypothesis Hp : 0 <= p < inf_mag f64.

Lemma div_parts (A L : Z) : 0 < b -> 0 < L ->
  let m := 2 * (A / b) + (if A mod b =? 0 then 0 else 1) in
  (2 * L * b <= 2 * A -> 2 * L <= m) /\ (2 * A <= 2 * L * b -> m <= 2 * L).
Proof using Type.
  clear Hb. intros Hb0 HL. cbv zeta. pose proof (Z.div_mod A b ltac:(lia)) as D. pose proof (Z.mod_pos_bound A b ltac:(lia)) as B.
  set (q := A / b) in *. set (r := A mod b) in *. clearbody q r.
  destruct (Z.eqb_spec r 0); split; intros H; nia.
Qed.

Lemma div_scale : exists d k, d = 127 + Z.log2 b /\ k = 1200 + Z.log2 b /\ 0 <= d /\ 0 <= k /\
  - (k + 1) = -1074 - d /\ 2 ^ (k + 1) = 2 ^ d * 2 ^ 1074 /\ 2 ^ d = 2 * 2 ^ (d - 1) /\ 0 < 2 ^ (d - 1).
Proof using Type.
  pose proof (Z.log2_nonneg b). eexists _, _. split; [reflexivity|]. split; [reflexivity|].
  split; [lia|]. split; [lia|]. split; [lia|]. split; [rewrite <- pow2_split by lia; f_equal; lia|].
  split; [|apply pow2_pos; lia]. replace (127 + Z.log2 b) with (1 + (127 + Z.log2 b - 1)) at 1 by lia. rewrite pow2_split by lia. reflexivity.
Qed.

Lemma divmag_ge : 0 < V p -> V p * b <= a * 2 ^ 1074 -> p <= divmag a b.
Proof using Ha Hb Hp.
  intros Hv H. unfold divmag. destruct div_scale as (d & k & Ed & Ek & D0 & K0 & E1 & E2 & E3 & P).
  rewrite <- Ek. cbv zeta. rewrite E1. apply round_ge; [exact Hp|exact D0|]. rewrite E3.
  replace (V p * (2 * 2 ^ (d - 1))) with (2 * (V p * 2 ^ (d - 1))) by ring.
  apply (div_parts (a * 2 ^ k) (V p * 2 ^ (d - 1)) Hb); [nia|].
  assert (2 * 2 ^ k = 2 * 2 ^ (d - 1) * 2 ^ 1074).
  { rewrite <- E3, <- E2. replace (k + 1) with (1 + k) by lia. rewrite pow2_split by lia. reflexivity. }
  set (u := 2 ^ (d - 1)) in *. set (w := 2 ^ k) in *. set (z := 2 ^ 1074) in *. clearbody u w z.
  replace (2 * (a * w)) with (a * (2 * w)) by ring. rewrite H0. nia.
Qed.

Lemma divmag_le : 0 < V p -> a * 2 ^ 1074 <= V p * b -> divmag a b <= p.
Proof using Ha Hb Hp.
  intros Hv H. unfold divmag. destruct div_scale as (d & k & Ed & Ek & D0 & K0 & E1 & E2 & E3 & P).
  rewrite <- Ek. cbv zeta. rewrite E1. 
  pose proof (pow2_pos k K0) as Pk.
  assert (0 <= a * 2 ^ k / b) by (apply Z.div_pos; [apply Z.mul_nonneg_nonneg|]; lia).
  apply round_le; [exact Hp|exact D0|destruct (_ =? 0); lia|]. rewrite E3.
  replace (V p * (2 * 2 ^ (d - 1))) with (2 * (V p * 2 ^ (d - 1))) by ring.
  apply (div_parts (a * 2 ^ k) (V p * 2 ^ (d - 1)) Hb); [nia|].
  assert (2 * 2 ^ k = 2 * 2 ^ (d - 1) * 2 ^ 1074).
  { rewrite <- E3, <- E2. replace (k + 1) with (1 + k) by lia. rewrite pow2_split by lia. reflexivity. }
  set (u := 2 ^ (d - 1)) in *. set (w := 2 ^ k) in *. set (z := 2 ^ 1074) in *. clearbody u w z.
  replace (2 * (a * w)) with (a * (2 * w)) by ring. rewrite H1. nia.
Qed.

End DivBounds.

(** ** The difference of two numbers close to each other is exact *)

Lemma grid64 E m : 0 <= E -> 0 <= m -> V m < 2 ^ 52 * 2 ^ E \/ exists j, V m = j * 2 ^ E.
Proof.
  intros HE Hm. unfold mag_val. change (mb f64) with 52.
  assert (M0 : 0 < 2 ^ 52) by reflexivity. set (M := 2 ^ 52) in *. clearbody M.
  pose proof (Z.mod_pos_bound m M M0) as B. assert (D : 0 <= m / M) by (apply Z.div_pos; lia).
  set (e := m / M) in *. set (q := m mod M) in *. clearbody e q. pose proof (pow2_pos E HE) as PE.
  destruct (Z.eqb_spec e 0).
  - left. nia.
  - destruct (Z.le_gt_cases E (e - 1)) as [L|L].
    + right. exists ((q + M) * 2 ^ (e - 1 - E)). replace (e - 1) with (e - 1 - E + E) at 1 by lia. rewrite pow2_split by lia. ring.
    + left. assert (P : 2 ^ E = 2 * 2 ^ (E - 1)).
      { replace E with (1 + (E - 1)) at 1 by lia. rewrite pow2_split by lia. reflexivity. }
      assert (2 ^ (e - 1) <= 2 ^ (E - 1)) by (apply Z.pow_le_mono_r; lia).
      pose proof (pow2_pos (e - 1) ltac:(lia)). nia.
Qed.

(** [v] is a double magnitude, not too small, and [w] another, closer than half of it. *)
Lemma exact_difference m n : 0 <= m < inf_mag f64 -> 0 <= n < inf_mag f64 -> 2 * 2 ^ 52 <= m ->
  2 * Z.abs (V m - V n) < V m -> V (R (Z.abs (V m - V n)) (-1074)) = Z.abs (V m - V n).
Proof.
  intros Hm Hn Big H. assert (M0 : 0 < 2 ^ 52) by reflexivity.
  assert (E : 2 <= m / 2 ^ 52) by (apply Z.div_le_lower_bound; lia).
  assert (F : V m = (m mod 2 ^ 52 + 2 ^ 52) * 2 ^ (m / 2 ^ 52 - 1)).
  { unfold mag_val. change (mb f64) with 52. cbv zeta. destruct (Z.eqb_spec (m / 2 ^ 52) 0); [lia|reflexivity]. }
  assert (U : m / 2 ^ 52 <= 2046). { rewrite inf64 in Hm. assert (m / 2 ^ 52 < 2047); [|lia]. apply Z.div_lt_upper_bound; lia. }
  pose proof (Z.mod_pos_bound m (2 ^ 52) ltac:(lia)) as B.
  set (e := m / 2 ^ 52) in *. set (q := m mod 2 ^ 52) in *. clearbody e q.
  assert (P : 2 ^ (e - 1) = 2 * 2 ^ (e - 2)).
  { replace (e - 1) with (1 + (e - 2)) by lia. rewrite pow2_split by lia. reflexivity. }
  pose proof (pow2_pos (e - 2) ltac:(lia)) as P2.
  destruct (grid64 (e - 2) n ltac:(lia) ltac:(lia)) as [G|[j G]].
  { exfalso. assert (V m = (q + 2 ^ 52) * 2 * 2 ^ (e - 2)) by (rewrite F, P; ring). nia. }
  set (dd := 2 * (q + 2 ^ 52) - j). assert (D : V m - V n = dd * 2 ^ (e - 2)) by (rewrite F, G, P; unfold dd; ring).
  rewrite D, Z.abs_mul, (Z.abs_eq (2 ^ (e - 2))) by lia.
  assert (X : Z.abs dd < 2 ^ 53).
  { rewrite D in H. rewrite Z.abs_mul, (Z.abs_eq (2 ^ (e - 2))) in H by lia. rewrite F, P in H.
    change (2 ^ 53) with (2 * 2 ^ 52). nia. }
  destruct (Z.eq_dec dd 0) as [->|N]; [reflexivity|].
  replace (-1074) with (e - 2 - 1074 - (e - 2)) by lia. rewrite round_mag_shift by lia.
  assert (L : Z.log2 (Z.abs dd) <= 52) by (assert (Z.log2 (Z.abs dd) < 53); [apply Z.log2_lt_pow2; lia|lia]).
  pose proof (Z.log2_nonneg (Z.abs dd)).
  destruct (round_mag_exact f64 (Z.abs dd) (e - 2 - 1074)) as [Q _].
  - lia.
  - rewrite emin64. lia.
  - cbn; lia.
  - change (mb f64) with 52. lia.
  - rewrite emin64, inf64. change (mb f64) with 52. nia.
  - rewrite Q, emin64. f_equal. f_equal. lia.
Qed.
