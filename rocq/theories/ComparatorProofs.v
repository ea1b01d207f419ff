(** The comparator: numbers. *)
From Verif Require Import Base Fp FpProofs FpNearest Comparator FpCompare ComparatorSpec.
Open Scope Z_scope.

Local Notation R := (round_mag f64).
Local Notation V := (mag_val f64).

Lemma tol_val : V tolerance = tol. Proof. reflexivity. Qed.
Lemma tol_below_val : V (tolerance - 1) = tol_below. Proof. reflexivity. Qed.
Lemma tol_range : 0 <= tolerance < inf_mag f64. Proof. split; [discriminate|reflexivity]. Qed.
Lemma tol_pos : 0 < tol. Proof. reflexivity. Qed.
Lemma tol_below_pos : 0 < tol_below. Proof. reflexivity. Qed.
Lemma tol_below_lt : tol_below < tol. Proof. reflexivity. Qed.
Lemma tol_half : 2 * tol < one. Proof. reflexivity. Qed.
Lemma one_pos : 0 < one. Proof. reflexivity. Qed.

Lemma mag_range x : is64 x -> 0 <= mag f64 x < 2 ^ 63.
Proof. unfold is64, mag, negb_. rewrite sign64. destruct (Z.leb_spec (2 ^ 63) x); lia. Qed.

Lemma abs_val x : is64 x -> Z.abs (val f64 x) = V (mag f64 x).
Proof.
  intros H. pose proof (mag_range x H). pose proof (mag_val_nonneg f64 (mag f64 x) ltac:(cbn; lia) ltac:(lia)).
  unfold val. destruct (negb_ f64 x); lia.
Qed.

Lemma key_pos x : 0 <= x < 2 ^ 63 -> key f64 x = x /\ mag f64 x = x.
Proof. intros H. unfold key, mag, negb_. rewrite sign64. destruct (Z.leb_spec (2 ^ 63) x); [lia|]. split; reflexivity. Qed.

Lemma V_lt p q : 0 <= p -> 0 <= q -> (V p < V q <-> p < q).
Proof.
  intros Hp Hq. split; intros H.
  - destruct (Z.lt_trichotomy p q) as [|[->|G]]; [assumption|lia|]. pose proof (mag_val_mono f64 q p ltac:(cbn; lia) Hq G). lia.
  - apply mag_val_mono; [cbn; lia|assumption..].
Qed.

Lemma fin_mag x : is64 x -> is_fin f64 x = true -> 0 <= mag f64 x < inf_mag f64.
Proof. intros H F. unfold is_fin in F. apply Z.ltb_lt in F. pose proof (mag_range x H). lia. Qed.

(** A magnitude is less than the tolerance. *)
Lemma below_tol r : 0 <= r <= inf_mag f64 -> dlt r tolerance = (r <? tolerance).
Proof.
  intros H. unfold dlt, flt. change (is_nan f64 tolerance) with false.
  assert (is_nan f64 r = false) as ->.
  { unfold is_nan. rewrite inf64 in *. destruct (key_pos r ltac:(lia)) as [_ ->]. lia. }
  cbn [negb andb]. rewrite inf64 in H. destruct (key_pos r ltac:(lia)) as [-> _]. reflexivity.
Qed.

Lemma dle_tol x : is64 x -> is_fin f64 x = true -> dle (dabs x) tolerance = (Z.abs (val f64 x) <=? tol).
Proof.
  intros H F. pose proof (fin_mag x H F) as B. rewrite abs_val, <- tol_val by exact H. unfold dle, dabs.
  change (is_nan f64 tolerance) with false.
  destruct (key_pos (mag f64 x) ltac:(rewrite inf64 in B; lia)) as [K M].
  assert (is_nan f64 (mag f64 x) = false) as -> by (unfold is_nan; rewrite M; lia).
  cbn [negb andb]. rewrite K. change (key f64 tolerance) with tolerance.
  pose proof (V_lt (mag f64 x) tolerance ltac:(lia) ltac:(discriminate)).
  pose proof (V_lt tolerance (mag f64 x) ltac:(discriminate) ltac:(lia)).
  destruct (Z.leb_spec (mag f64 x) tolerance), (Z.leb_spec (V (mag f64 x)) (V tolerance)); lia.
Qed.

Lemma dlt_abs x y : is64 x -> is64 y -> is_fin f64 x = true -> is_fin f64 y = true ->
  dlt (dabs x) (dabs y) = (Z.abs (val f64 x) <? Z.abs (val f64 y)).
Proof.
  intros H H' F F'. pose proof (fin_mag x H F) as B. pose proof (fin_mag y H' F') as B'.
  rewrite !abs_val by assumption. unfold dlt, flt, dabs.
  destruct (key_pos (mag f64 x) ltac:(rewrite inf64 in B; lia)) as [K M].
  destruct (key_pos (mag f64 y) ltac:(rewrite inf64 in B'; lia)) as [K' M'].
  assert (is_nan f64 (mag f64 x) = false) as -> by (unfold is_nan; rewrite M; lia).
  assert (is_nan f64 (mag f64 y) = false) as -> by (unfold is_nan; rewrite M'; lia).
  cbn [negb andb]. rewrite K, K'.
  pose proof (V_lt (mag f64 x) (mag f64 y) ltac:(lia) ltac:(lia)).
  destruct (Z.ltb_spec (mag f64 x) (mag f64 y)), (Z.ltb_spec (V (mag f64 x)) (V (mag f64 y))); lia.
Qed.

(** What the two values are compared by, for finite ones. *)
Definition err_of (a b : Z) : Z :=
  if (Z.abs a <=? tol) || (Z.abs b <=? tol) then R (Z.abs (a - b)) (-1074)
  else
    let d := R (Z.abs (a - b)) (-1074) in
    if d =? inf_mag f64 then inf_mag f64 else divmag (V d) (Z.max (Z.abs a) (Z.abs b)).

Lemma dsub_64 x y : is64 x -> is64 y -> is64 (dsub x y).
Proof.
  intros Hx Hy. unfold dsub, dadd.
  assert (Hn : is64 (dneg y)).
  { unfold is64, dneg, negb_ in *. rewrite sign64. destruct (Z.leb_spec (2 ^ 63) y); lia. }
  destruct (is_nan f64 x || is_nan f64 (dneg y)); [unfold is64, qnan; lia|].
  destruct (is_inf f64 x). { destruct (is_inf f64 (dneg y) && negb (x =? dneg y)); [unfold is64, qnan; lia|assumption]. }
  destruct (is_inf f64 (dneg y)); [assumption|]. cbv zeta.
  destruct (_ =? 0). { destruct (_ && _); unfold is64; lia. }
  unfold round. set (z := val f64 x + val f64 (dneg y)). destruct (Z.ltb_spec z 0) as [L|L].
  - pose proof (round_mag_nonneg (- z) (-1074) ltac:(lia) ltac:(lia)) as B. rewrite inf64 in B. rewrite sign64. unfold is64. lia.
  - pose proof (round_mag_nonneg z (-1074) ltac:(lia) ltac:(lia)) as B. rewrite inf64 in B. unfold is64. lia.
Qed.

Lemma dsub_not_nan x y : is64 x -> is64 y -> is_fin f64 x = true -> is_fin f64 y = true -> is_nan f64 (dsub x y) = false.
Proof.
  intros Hx Hy Fx Fy. unfold is_nan. fold (dabs (dsub x y)). rewrite dsub_mag by assumption.
  pose proof (round_mag_nonneg (Z.abs (val f64 x - val f64 y)) (-1074) ltac:(lia) ltac:(lia)). lia.
Qed.

Lemma quotient x y z : is64 x -> is64 y -> is64 z -> is_fin f64 x = true -> is_fin f64 y = true -> is_fin f64 z = true -> val f64 z <> 0 ->
  dabs (ddiv (dsub x y) z) =
    let d := R (Z.abs (val f64 x - val f64 y)) (-1074) in
    if d =? inf_mag f64 then inf_mag f64 else divmag (V d) (Z.abs (val f64 z)).
Proof.
  intros Hx Hy Hz Fx Fy Fz N. cbv zeta. rewrite <- dsub_mag by assumption. set (s := dsub x y).
  assert (N1 : is_nan f64 s = false) by now apply dsub_not_nan.
  assert (H1 : is64 s) by now apply dsub_64.
  unfold dabs at 2. destruct (Z.eqb_spec (mag f64 s) (inf_mag f64)) as [E|E].
  - unfold dabs, ddiv. rewrite N1, (fin_not_nan _ _ Fz). cbn [orb]. unfold is_inf. rewrite E, Z.eqb_refl.
    destruct (Z.eqb_spec (mag f64 z) (inf_mag f64)) as [E2|E2].
    + pose proof (fin_mag z Hz Fz). lia.
    + apply mag_sign. rewrite inf64. lia.
  - assert (F1 : is_fin f64 s = true). { unfold is_fin. unfold is_nan in N1. lia. }
    rewrite ddiv_mag by assumption. rewrite (abs_val s) by assumption. reflexivity.
Qed.

Lemma err_form x y : is64 x -> is64 y -> is_fin f64 x = true -> is_fin f64 y = true ->
  err x y = err_of (val f64 x) (val f64 y).
Proof.
  intros Hx Hy Fx Fy. unfold err, err_of. rewrite !dle_tol, dlt_abs by assumption.
  pose proof tol_pos. destruct (Z.leb_spec (Z.abs (val f64 x)) tol), (Z.leb_spec (Z.abs (val f64 y)) tol); cbn [orb]; try now apply dsub_mag.
  destruct (Z.ltb_spec (Z.abs (val f64 x)) (Z.abs (val f64 y))).
  - rewrite quotient by (assumption || lia). rewrite Z.max_r by lia. reflexivity.
  - rewrite quotient by (assumption || lia). rewrite Z.max_l by lia. reflexivity.
Qed.

Lemma err_range a b : 0 <= err_of a b <= inf_mag f64.
Proof.
  unfold err_of. assert (R0 : 0 <= R (Z.abs (a - b)) (-1074) <= inf_mag f64) by (apply round_mag_nonneg; lia).
  destruct (_ || _) eqn:E; [exact R0|]. cbv zeta. destruct (_ =? _); [rewrite inf64; lia|].
  apply divmag_nonneg; [|pose proof tol_pos; lia]. apply mag_val_nonneg; [cbn; lia|lia].
Qed.

(** not finite: never the same *)
Lemma not_small w : is64 w -> is_fin f64 w = false -> dlt (dabs w) tolerance = false.
Proof.
  intros H F. pose proof (mag_range w H) as B. destruct (key_pos (mag f64 w) B) as [K M]. unfold is_fin in F.
  unfold dlt, flt, dabs. rewrite K. change (key f64 tolerance) with tolerance. pose proof tol_range.
  destruct (Z.ltb_spec (mag f64 w) tolerance); [lia|]. apply andb_false_r.
Qed.

Lemma qnan_64 : is64 qnan. Proof. unfold is64, qnan. lia. Qed.

Lemma dsub_not_fin x y : is64 x -> is64 y -> is_fin f64 x && is_fin f64 y = false -> is_fin f64 (dsub x y) = false.
Proof.
  intros Hx Hy F. assert (Fn : is_fin f64 (dneg y) = is_fin f64 y) by now apply dneg_fin.
  unfold dsub, dadd. destruct (is_nan f64 x || is_nan f64 (dneg y)) eqn:N; [reflexivity|].
  destruct (is_inf f64 x) eqn:I.
  { destruct (is_inf f64 (dneg y) && negb (x =? dneg y)); [reflexivity|]. unfold is_fin, is_inf in *. lia. }
  destruct (is_inf f64 (dneg y)) eqn:J. { unfold is_fin, is_inf in *. lia. }
  exfalso. unfold is_fin, is_inf, is_nan in *. lia.
Qed.

Lemma not_fin_cases x : is_fin f64 x = false -> is_nan f64 x = true \/ is_inf f64 x = true.
Proof. unfold is_fin, is_nan, is_inf. lia. Qed.

Lemma ddiv_inf w z : is_fin f64 w = false -> is_nan f64 w = true \/ is_fin f64 z = false -> ddiv w z = qnan.
Proof.
  intros Fw C. unfold ddiv. destruct (is_nan f64 w) eqn:N; [reflexivity|]. destruct C as [C|C]; [discriminate|].
  destruct (not_fin_cases w Fw) as [Q|I]; [congruence|]. rewrite I. cbn [orb].
  destruct (not_fin_cases z C) as [->|J]; [reflexivity|]. rewrite J. now destruct (is_nan f64 z).
Qed.

Lemma inf_not_same x y : is64 x -> is64 y -> is_fin f64 x && is_fin f64 y = false -> same x y = false.
Proof.
  intros Hx Hy F. unfold same, err. pose proof (dsub_not_fin x y Hx Hy F) as S. pose proof (dsub_64 x y Hx Hy) as S64.
  destruct (_ || _) eqn:E1; [now apply not_small|].
  assert (Q : dlt (dabs qnan) tolerance = false) by reflexivity.
  destruct (is_nan f64 x) eqn:Nx.
  { assert (D : is_nan f64 (dsub x y) = true) by (unfold dsub, dadd; rewrite Nx; reflexivity).
    rewrite !ddiv_inf by auto. now destruct (dlt (dabs x) (dabs y)). }
  destruct (is_nan f64 y) eqn:Ny.
  { assert (D : is_nan f64 (dsub x y) = true).
    { unfold dsub, dadd. assert (is_nan f64 (dneg y) = true) as ->; [|rewrite orb_true_r; reflexivity].
      revert Ny. unfold is_nan, mag, dneg, negb_ in *. rewrite sign64. unfold is64 in Hy.
      destruct (Z.leb_spec (2 ^ 63) y); [destruct (Z.leb_spec (2 ^ 63) (y - 2 ^ 63))|destruct (Z.leb_spec (2 ^ 63) (y + 2 ^ 63))]; rewrite inf64; lia. }
    rewrite !ddiv_inf by auto. now destruct (dlt (dabs x) (dabs y)). }
  destruct (key_pos _ (mag_range x Hx)) as [Kx Mx]. destruct (key_pos _ (mag_range y Hy)) as [Ky My].
  assert (L : dlt (dabs x) (dabs y) = (mag f64 x <? mag f64 y)).
  { unfold dlt, flt, dabs. unfold is_nan in *. rewrite Mx, My, Nx, Ny, Kx, Ky. reflexivity. }
  rewrite L. unfold is_fin, is_nan in F, Nx, Ny. destruct (Z.ltb_spec (mag f64 x) (mag f64 y)).
  - rewrite ddiv_inf; [exact Q|exact S|]. right. unfold is_fin. lia.
  - rewrite ddiv_inf; [exact Q|exact S|]. right. unfold is_fin. lia.
Qed.

(** ** The two directions *)

Lemma V_mag_lt_inf r : 0 <= r < inf_mag f64 -> 0 <= V r.
Proof. intros. apply mag_val_nonneg; [cbn; lia|lia]. Qed.

(** the exact difference, when the two are close; [t] at most [tol] *)
Lemma exact_close x y t : is64 x -> is64 y -> is_fin f64 x = true -> is_fin f64 y = true -> 0 <= t <= tol ->
  tol < Z.abs (val f64 x) -> tol < Z.abs (val f64 y) ->
  let d := R (Z.abs (val f64 x - val f64 y)) (-1074) in
  let b := Z.max (Z.abs (val f64 x)) (Z.abs (val f64 y)) in
  (d < inf_mag f64 /\ V d * one <= t * b \/ Z.abs (val f64 x - val f64 y) * one <= t * b) ->
  d < inf_mag f64 /\ V d = Z.abs (val f64 x - val f64 y).
Proof.
  intros Hx Hy Fx Fy Ht Bx By d b C.
  pose proof (fin_mag x Hx Fx) as Mx. pose proof (fin_mag y Hy Fy) as My.
  pose proof (abs_val x Hx) as Ax. pose proof (abs_val y Hy) as Ay.
  assert (P : exists m n, 0 <= m < inf_mag f64 /\ 0 <= n < inf_mag f64 /\ V m = b /\ tol < V m /\
     Z.abs (val f64 x - val f64 y) = Z.abs (V m - V n) \/
     0 <= m < inf_mag f64 /\ V m = b /\ tol < V m /\ b < Z.abs (val f64 x - val f64 y)).
  { destruct (Z.le_gt_cases (Z.abs (val f64 x)) (Z.abs (val f64 y))) as [L|L].
    - exists (mag f64 y), (mag f64 x). unfold b. rewrite Z.max_r by lia. rewrite <- Ax, <- Ay. lia.
    - exists (mag f64 x), (mag f64 y). unfold b. rewrite Z.max_l by lia. rewrite <- Ax, <- Ay. lia. }
  assert (Half : forall m, 0 <= m < inf_mag f64 -> tol < V m -> V m = b -> 2 * 2 ^ 52 <= m /\ exists h, 0 <= h < inf_mag f64 /\ 2 * V h = V m).
  { intros m Hm Bm _. assert (tolerance < m) by (apply V_lt; [discriminate|lia|exact Bm]).
    assert (Big : 3 * 2 ^ 52 <= m) by (unfold tolerance in *; lia). split; [lia|].
    exists (m - 2 ^ 52). split; [lia|]. unfold mag_val. change (mb f64) with 52. cbv zeta.
    replace (m - 2 ^ 52) with (m + (-1) * 2 ^ 52) by lia. rewrite Z.div_add, Z.mod_add by discriminate.
    assert (3 <= m / 2 ^ 52) by (apply Z.div_le_lower_bound; lia). set (e := m / 2 ^ 52) in *. set (q := m mod 2 ^ 52). clearbody e q.
    destruct (Z.eqb_spec (e + -1) 0), (Z.eqb_spec e 0); try lia.
    replace (e - 1) with (1 + (e + -1 - 1)) by lia. rewrite pow2_split by lia. change (2 ^ 1) with 2. ring. }
  (* closer than half of b *)
  assert (Close : 2 * Z.abs (val f64 x - val f64 y) < b).
  { assert (B0 : tol < b) by (unfold b; lia). pose proof tol_half as TH. pose proof one_pos as O.
    assert (S : forall z, 0 <= z -> z * one <= t * b -> 2 * z < b) by (intros; nia).
    destruct C as [[C1 C2]|C]; [|apply S; [lia|exact C]].
    destruct (Z.lt_ge_cases (2 * Z.abs (val f64 x - val f64 y)) b) as [|G]; [assumption|exfalso].
    assert (exists m, 0 <= m < inf_mag f64 /\ tol < V m /\ V m = b) as (m & Hm & Bm & Em).
    { destruct P as (m & n & [P|P]); exists m; tauto. }
    destruct (Half m Hm Bm Em) as (_ & h & Hh & Eh).
    assert (h <= d).
    { unfold d. pose proof (round_ge (Z.abs (val f64 x - val f64 y)) 0 h Hh ltac:(lia)) as RG. change (-1074 - 0) with (-1074) in RG.
      apply RG. change (2 ^ 0) with 1. lia. }
    assert (V h <= V d).
    { destruct (Z.eq_dec h d) as [->|]; [lia|]. apply Z.lt_le_incl, V_lt; lia. }
    specialize (S (V d)). lia. }
  destruct P as (m & n & [(Hm & Hn & Em & Bm & E)|(_ & _ & _ & E)]); [|lia].
  destruct (Half m Hm Bm Em) as (Big & _).
  assert (X : V d = Z.abs (val f64 x - val f64 y)).
  { unfold d. rewrite E. apply exact_difference; try assumption. lia. }
  split; [|exact X].
  assert (d <= m).
  { unfold d. pose proof (round_le (Z.abs (val f64 x - val f64 y)) 0 m Hm ltac:(lia) ltac:(lia)) as RL. change (-1074 - 0) with (-1074) in RL.
    apply RL. change (2 ^ 0) with 1. lia. }
  lia.
Qed.

Theorem same_closer x y : is64 x -> is64 y -> same x y = true ->
  is_fin f64 x = true /\ is_fin f64 y = true /\ closer (val f64 x) (val f64 y).
Proof.
  intros Hx Hy S.
  destruct (is_fin f64 x && is_fin f64 y) eqn:F; [|rewrite inf_not_same in S by assumption; discriminate].
  apply andb_prop in F as [Fx Fy]. split; [exact Fx|]. split; [exact Fy|].
  unfold same in S. rewrite err_form, below_tol in S by (assumption || apply err_range). apply Z.ltb_lt in S.
  unfold err_of in S. set (a := val f64 x) in *. set (b := val f64 y) in *.
  assert (G : R (Z.abs (a - b)) (-1074) < tolerance -> Z.abs (a - b) < tol).
  { intros Q. destruct (Z.lt_ge_cases (Z.abs (a - b)) tol) as [|G]; [assumption|exfalso].
    pose proof (round_ge (Z.abs (a - b)) 0 tolerance tol_range ltac:(lia)) as RG. change (-1074 - 0) with (-1074) in RG.
    rewrite tol_val in RG. change (2 ^ 0) with 1 in RG. lia. }
  destruct (Z.leb_spec (Z.abs a) tol) as [L1|L1]; cbn [orb] in S; [left; auto|].
  destruct (Z.leb_spec (Z.abs b) tol) as [L2|L2]; cbn [orb] in S; [left; auto|]. clear G.
  right. split; [exact L1|]. split; [exact L2|].
  set (d := R (Z.abs (a - b)) (-1074)) in *. cbv zeta in S.
  destruct (Z.eqb_spec d (inf_mag f64)) as [E|E]. { rewrite inf64 in S. unfold tolerance in S. lia. }
  assert (D : 0 <= d <= inf_mag f64) by (apply round_mag_nonneg; lia).
  assert (Q : V d * one < tol * Z.max (Z.abs a) (Z.abs b)).
  { destruct (Z.lt_ge_cases (V d * one) (tol * Z.max (Z.abs a) (Z.abs b))) as [|G]; [assumption|exfalso].
    pose proof tol_pos. pose proof (divmag_ge (V d) (Z.max (Z.abs a) (Z.abs b)) tolerance) as DG.
    rewrite tol_val in DG. specialize (DG (V_mag_lt_inf d ltac:(lia)) ltac:(lia) tol_range tol_pos ltac:(exact G)). lia. }
  destruct (exact_close x y tol Hx Hy Fx Fy) as [_ X]; [pose proof tol_pos; lia|assumption..| |].
  - left. fold a b d. lia.
  - fold a b d in X. rewrite <- X. exact Q.
Qed.

Theorem near_same x y : is64 x -> is64 y -> is_fin f64 x = true -> is_fin f64 y = true ->
  near (val f64 x) (val f64 y) -> same x y = true.
Proof.
  intros Hx Hy Fx Fy N. unfold same. rewrite err_form, below_tol by (assumption || apply err_range). apply Z.ltb_lt.
  assert (TR : 0 <= tolerance - 1 < inf_mag f64) by (split; [discriminate|reflexivity]).
  assert (err_of (val f64 x) (val f64 y) <= tolerance - 1); [|lia].
  unfold err_of. set (a := val f64 x) in *. set (b := val f64 y) in *. destruct N as [[N1 N2]|(N1 & N2 & N3)].
  - assert ((Z.abs a <=? tol) || (Z.abs b <=? tol) = true) as -> by lia.
    pose proof (round_le (Z.abs (a - b)) 0 (tolerance - 1) TR ltac:(lia) ltac:(lia)) as RL. change (-1074 - 0) with (-1074) in RL.
    apply RL. rewrite tol_below_val. change (2 ^ 0) with 1. lia.
  - assert ((Z.abs a <=? tol) || (Z.abs b <=? tol) = false) as -> by lia.
    destruct (exact_close x y tol_below Hx Hy Fx Fy) as [D X]; [pose proof tol_below_pos; pose proof tol_below_lt; lia|assumption..|right; exact N3|].
    fold a b in D, X. cbv zeta. destruct (Z.eqb_spec (R (Z.abs (a - b)) (-1074)) (inf_mag f64)); [lia|]. rewrite X.
    pose proof tol_pos. apply divmag_le; [lia|lia|exact TR|rewrite tol_below_val; exact tol_below_pos|].
    rewrite tol_below_val. exact N3.
Qed.

Theorem same_refl x : is64 x -> is_fin f64 x = true -> same x x = true.
Proof.
  intros H F. apply near_same; try assumption. unfold near. rewrite Z.sub_diag. cbn [Z.abs].
  pose proof tol_below_pos. destruct (Z.le_gt_cases (Z.abs (val f64 x)) tol); [left|right]; lia.
Qed.

Theorem same_sym x y : is64 x -> is64 y -> same x y = same y x.
Proof.
  intros Hx Hy. destruct (is_fin f64 x && is_fin f64 y) eqn:F.
  - apply andb_prop in F as [Fx Fy]. unfold same. rewrite !err_form by assumption. f_equal. unfold err_of.
    rewrite (Z.max_comm (Z.abs (val f64 y))), (Bool.orb_comm (Z.abs (val f64 y) <=? tol)).
    replace (val f64 y - val f64 x) with (- (val f64 x - val f64 y)) by lia. rewrite Z.abs_opp. reflexivity.
  - rewrite !inf_not_same; try assumption; [reflexivity|]. now rewrite Bool.andb_comm.
Qed.
