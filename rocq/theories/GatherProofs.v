(** Column statistics: what gathering computes. *)
From Verif Require Import Spec Base Fp FpProofs Stream StreamProofs Codec.

(** the values a numeric codec sees in 8-byte cells *)
Definition seen_values (c : codec) (bs : list Z) : list Z := map (as_double (c_int64 c)) bs.

Definition non_missing (m : Z) (vs : list Z) : list Z := filter (fun v => negb (deq v m)) vs.

Lemma cell_bits_le b : is64 b -> cell_bits (le_bytes 8 b) = Ok b.
Proof.
  intros H. unfold cell_bits. rewrite le_bytes_length. cbn [Nat.ltb Nat.leb].
  rewrite <- (le_bytes_length 8 b) at 1. rewrite firstn_all. rewrite le_val_small; [reflexivity|exact H].
Qed.

(** the statistics after the values [vs] *)
Definition stats_inv (m : Z) (vs : list Z) (c : codec) : Prop :=
  c_missing c = m /\
  c_hasMissing c = (if existsb (fun v => deq v m) vs then 1 else 0) /\
  (non_missing m vs = [] -> c_min c = m /\ c_max c = m) /\
  (non_missing m vs <> [] ->
     In (c_min c) (non_missing m vs) /\ In (c_max c) (non_missing m vs) /\
     Forall (fun v => dlt v (c_min c) = false /\ dlt (c_max c) v = false) (non_missing m vs)).

Lemma existsb_snoc {A} (f : A -> bool) l x : existsb f (l ++ [x]) = existsb f l || f x.
Proof. rewrite existsb_app. cbn. now rewrite orb_false_r. Qed.

Lemma non_missing_snoc m vs v :
  non_missing m (vs ++ [v]) = non_missing m vs ++ (if deq v m then [] else [v]).
Proof. unfold non_missing. rewrite filter_app. cbn. destruct (deq v m); reflexivity. Qed.

Lemma non_missing_in m vs v : In v (non_missing m vs) -> In v vs /\ deq v m = false.
Proof. unfold non_missing. rewrite filter_In. intros [H1 H2]. split; [auto|]. now destruct (deq v m). Qed.

Lemma dlt_irrefl v : dlt v v = false.
Proof. unfold dlt, flt. rewrite Z.ltb_irrefl. now rewrite !andb_false_r. Qed.

Lemma dlt_key x y : is_nan f64 x = false -> is_nan f64 y = false -> dlt x y = (key f64 x <? key f64 y).
Proof. intros H1 H2. unfold dlt, flt. now rewrite H1, H2. Qed.

Lemma deq_key x y : is_nan f64 x = false -> is_nan f64 y = false -> deq x y = (key f64 x =? key f64 y).
Proof. intros H1 H2. unfold deq, feq. now rewrite H1, H2. Qed.

Lemma base_gather_inv m vs c v :
  is_nan f64 m = false -> is_nan f64 v = false -> Forall (fun v => is_nan f64 v = false) vs ->
  stats_inv m vs c -> stats_inv m (vs ++ [v]) (base_gather c v).
Proof.
  intros Nm Nv Nvs (I1 & I2 & I3 & I4). unfold base_gather. rewrite I1.
  assert (Hn : forall x, In x (non_missing m vs) -> is_nan f64 x = false).
  { intros x Hx. apply non_missing_in in Hx. rewrite Forall_forall in Nvs. apply Nvs, Hx. }
  destruct (deq v m) eqn:D.
  - unfold stats_inv. rewrite existsb_snoc, non_missing_snoc, D, app_nil_r, orb_true_r. cbn.
    repeat split; auto; apply I3 || apply I4; auto.
  - unfold stats_inv. rewrite existsb_snoc, non_missing_snoc, D, orb_false_r. cbn [c_missing c_hasMissing c_min c_max set_stats].
    split; [reflexivity|]. split; [exact I2|]. split.
    { intros E. destruct (non_missing m vs); discriminate. }
    intros _. destruct (non_missing m vs) as [|x xs] eqn:E.
    + destruct (I3 eq_refl) as [-> ->]. rewrite deq_refl by assumption.
      rewrite !orb_true_r. cbn [app]. repeat split; try (left; reflexivity).
      constructor; [|constructor]. rewrite dlt_irrefl. auto.
    + rewrite <- E in *. destruct (I4 ltac:(rewrite E; discriminate)) as (J1 & J2 & J3).
      pose proof (Hn _ J1) as N1. pose proof (Hn _ J2) as N2.
      destruct (non_missing_in _ _ _ J1) as [_ M1]. destruct (non_missing_in _ _ _ J2) as [_ M2].
      rewrite M1, M2, !orb_false_r. rewrite Forall_forall in J3.
      split; [|split].
      * destruct (dlt v (c_min c)); apply in_or_app; [right; left; reflexivity|left; exact J1].
      * destruct (dlt (c_max c) v); apply in_or_app; [right; left; reflexivity|left; exact J2].
      * apply Forall_forall. intros y Hy. apply in_app_or in Hy. destruct Hy as [Hy|[<-|[]]].
        { specialize (J3 _ Hy). pose proof (Hn _ Hy) as Ny. destruct J3 as [J3 J4].
          rewrite (dlt_key y (c_min c)) in J3 by assumption.
          rewrite (dlt_key (c_max c) y) in J4 by assumption.
          rewrite (dlt_key v (c_min c)), (dlt_key (c_max c) v) by assumption.
          destruct (Z.ltb_spec (key f64 v) (key f64 (c_min c)));
          destruct (Z.ltb_spec (key f64 (c_max c)) (key f64 v)); rewrite !dlt_key by assumption; lia. }
        { destruct (dlt v (c_min c)) eqn:E1, (dlt (c_max c) v) eqn:E2;
          rewrite ?dlt_irrefl; auto. }
Qed.

(** the fields gathering does not touch *)
Definition same_frame (c c' : codec) : Prop :=
  c_kind c' = c_kind c /\ c_int64 c' = c_int64 c /\ c_ord c' = c_ord c /\ c_dsd c' = c_dsd c /\
  c_strings c' = c_strings c /\ c_lookup c' = c_lookup c.

Lemma base_gather_frame c v : same_frame c (base_gather c v).
Proof. unfold base_gather. destruct (deq v (c_missing c)); repeat split. Qed.

Lemma stats_inv_set_seen m vs c a b : stats_inv m vs c -> stats_inv m vs (set_seen c a b).
Proof. intros H. exact H. Qed.

(** one numeric value *)
Lemma gather_num c b : chars_based (c_kind c) = false -> (c_kind c = KLongReal -> c_int64 c = false) ->
  is64 b -> exists c', gather c (le_bytes 8 b) = Ok c' /\ same_frame c c' /\
    (forall m vs, stats_inv m vs (base_gather c (as_double (c_int64 c) b)) -> stats_inv m vs c') /\
    (c_kind c = KLongReal -> c_seenFltMin c' = c_seenFltMin c || deq b (f2d flt_min) /\
                             c_seenFltMax c' = c_seenFltMax c || deq b (f2d flt_max)) /\
    (c_kind c <> KLongReal -> c' = base_gather c (as_double (c_int64 c) b)).
Proof.
  intros Hk Hl Hb. unfold gather. rewrite Hk, cell_bits_le by assumption. cbn [bind].
  destruct (c_kind c) eqn:K; try discriminate;
    try (eexists; split; [reflexivity|]; split; [apply base_gather_frame|]; split; [auto|]; split; [discriminate|reflexivity]).
  eexists; split; [reflexivity|]. rewrite Hl by reflexivity. cbn [as_double].
  pose proof (base_gather_frame c b) as (F1 & F2 & F3 & F4 & F5 & F6).
  split; [repeat split; cbn; congruence|]. split; [auto|]. split; [|congruence].
  intros _. unfold base_gather. destruct (deq b (c_missing c)); cbn [set_seen set_stats c_seenFltMin c_seenFltMax]; auto.
Qed.

Lemma same_frame_refl c : same_frame c c.
Proof. repeat split. Qed.
Lemma same_frame_trans a b c : same_frame a b -> same_frame b c -> same_frame a c.
Proof. unfold same_frame. intuition congruence. Qed.

(** gathering a whole numeric column *)
Lemma gather_all_num m : forall bs c vs0,
  is_nan f64 m = false ->
  chars_based (c_kind c) = false -> (c_kind c = KLongReal -> c_int64 c = false) ->
  Forall is64 bs ->
  Forall (fun v => is_nan f64 v = false) vs0 ->
  Forall (fun v => is_nan f64 v = false) (seen_values c bs) ->
  stats_inv m vs0 c ->
  exists c', gather_all c (map (le_bytes 8) bs) = Ok c' /\ same_frame c c' /\
    stats_inv m (vs0 ++ seen_values c bs) c' /\
    (c_kind c = KLongReal ->
       c_seenFltMin c' = c_seenFltMin c || existsb (fun b => deq b (f2d flt_min)) bs /\
       c_seenFltMax c' = c_seenFltMax c || existsb (fun b => deq b (f2d flt_max)) bs).
Proof.
  induction bs as [|b bs IH]; intros c vs0 Nm Hk Hl H64 N0 N1 I.
  - exists c. cbn. rewrite app_nil_r, !orb_false_r. split; [reflexivity|]. split; [apply same_frame_refl|]. auto.
  - inversion H64; subst. cbn [map seen_values] in N1. inversion N1; subst.
    destruct (gather_num c b Hk Hl ltac:(assumption)) as (c1 & E1 & F1 & S1 & S2 & _).
    cbn [map gather_all]. rewrite E1. cbn [bind].
    assert (I1 : stats_inv m (vs0 ++ [as_double (c_int64 c) b]) c1).
    { apply S1. apply base_gather_inv; assumption. }
    destruct F1 as (G1 & G2 & G3 & G4 & G5 & G6).
    assert (F1 : same_frame c c1) by (repeat split; assumption).
    destruct (IH c1 (vs0 ++ [as_double (c_int64 c) b])) as (c2 & E2 & F2 & I2 & S3).
    + assumption.
    + congruence.
    + rewrite G1, G2. assumption.
    + assumption.
    + apply Forall_app. split; [assumption|]. constructor; [assumption|constructor].
    + unfold seen_values. rewrite G2. assumption.
    + assumption.
    + exists c2. split; [exact E2|]. split; [eapply same_frame_trans; eassumption|]. split.
      * unfold seen_values in *. rewrite G2 in I2. rewrite <- app_assoc in I2. exact I2.
      * intros K. destruct (S2 K) as [U1 U2]. destruct (S3 ltac:(congruence)) as [V1 V2].
        rewrite V1, V2, U1, U2. cbn [existsb]. rewrite !orb_assoc. auto.
Qed.
