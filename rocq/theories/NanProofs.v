(** DOUBLE columns holding arbitrary 64-bit patterns: NaN and signed zeros. *)
From Verif Require Import Spec Base Fp FpProofs Stream StreamProofs StreamLocal Codec Meta Header Encoder
  GatherProofs RealProofs ColumnProofs RealColumn.
Open Scope Z_scope.

Definition nanb (v : Z) : bool := is_nan f64 v.

Lemma codec_eta_stats c : set_stats c (c_hasMissing c) (c_min c) (c_max c) (c_missing c) = c.
Proof. destruct c; reflexivity. Qed.
Lemma codec_eta_seen c : set_seen c (c_seenFltMin c) (c_seenFltMax c) = c.
Proof. destruct c; reflexivity. Qed.

Lemma gather_long c v : c_kind c = KLongReal -> is64 v ->
  gather c (le_bytes 8 v) = Ok (set_seen (base_gather c v) (c_seenFltMin c || deq v (f2d flt_min)) (c_seenFltMax c || deq v (f2d flt_max))).
Proof.
  intros K I. unfold gather. rewrite K. cbn [chars_based]. rewrite cell_bits_le by assumption. cbn [bind].
  unfold base_gather. destruct (deq v (c_missing c)); reflexivity.
Qed.

Lemma deq_nan v x : nanb v = true -> deq v x = false.
Proof. unfold deq, feq, nanb. now intros ->. Qed.
Lemma deq_nan_r v x : nanb v = true -> deq x v = false.
Proof. unfold deq, feq, nanb. intros ->. now rewrite andb_false_r. Qed.
Lemma dlt_nan v x : nanb v = true -> dlt v x = false.
Proof. unfold dlt, flt, nanb. now intros ->. Qed.
Lemma dlt_nan_r v x : nanb v = true -> dlt x v = false.
Proof. unfold dlt, flt, nanb. intros ->. now rewrite andb_false_r. Qed.

(** the statistics are settled: both bounds are non-missing *)
Definition settled (c : codec) : Prop := deq (c_min c) (c_missing c) = false /\ deq (c_max c) (c_missing c) = false.

Lemma settled_step c v a b : settled c -> settled (set_seen (base_gather c v) a b).
Proof.
  intros [S1 S2]. unfold base_gather. destruct (deq v (c_missing c)) eqn:E; [split; assumption|].
  unfold settled. cbn [set_seen set_stats c_min c_max c_missing]. rewrite S1, S2, !orb_false_r.
  destruct (dlt v (c_min c)), (dlt (c_max c) v); auto.
Qed.

(** once settled, NaN values have no influence on the statistics *)
Lemma settled_nan : forall bs c, c_kind c = KLongReal -> settled c -> Forall is64 bs ->
  gather_all c (map (le_bytes 8) bs) = gather_all c (map (le_bytes 8) (filter (fun v => negb (nanb v)) bs)).
Proof.
  induction bs as [|v bs IH]; intros c K S H; [reflexivity|]. inversion H as [|? ? Hv H']; subst.
  cbn [map gather_all filter]. rewrite gather_long by assumption. cbn [bind]. destruct (nanb v) eqn:N; cbn [negb].
  - assert (E : set_seen (base_gather c v) (c_seenFltMin c || deq v (f2d flt_min)) (c_seenFltMax c || deq v (f2d flt_max)) = c).
    { destruct S as [S1 S2]. unfold base_gather. rewrite !(deq_nan v) by assumption. rewrite (dlt_nan v) by assumption.
      rewrite (dlt_nan_r v) by assumption. rewrite S1, S2. cbn [orb]. rewrite !orb_false_r, codec_eta_stats. apply codec_eta_seen. }
    rewrite E. apply IH; auto.
  - cbn [map gather_all]. rewrite gather_long by assumption. cbn [bind]. apply IH; auto.
    + unfold base_gather. destruct (deq v (c_missing c)); assumption.
    + now apply settled_step.
Qed.

(** once the bounds are NaN they stay so *)
Lemma nan_stuck : forall bs c, c_kind c = KLongReal -> nanb (c_min c) = true -> nanb (c_max c) = true -> Forall is64 bs ->
  c_hasMissing c = 0 \/ c_hasMissing c = 1 ->
  exists c', gather_all c (map (le_bytes 8) bs) = Ok c' /\ c_kind c' = KLongReal /\ c_missing c' = c_missing c /\
    c_min c' = c_min c /\ c_max c' = c_max c /\ (c_hasMissing c' = 0 \/ c_hasMissing c' = 1).
Proof.
  induction bs as [|v bs IH]; intros c K N1 N2 H Hm.
  - exists c. auto 10.
  - inversion H as [|? ? Hv H']; subst. cbn [map gather_all]. rewrite gather_long by assumption. cbn [bind].
    set (c1 := set_seen _ _ _).
    assert (E : c_min c1 = c_min c /\ c_max c1 = c_max c /\ c_missing c1 = c_missing c /\ c_kind c1 = c_kind c /\
                (c_hasMissing c1 = 0 \/ c_hasMissing c1 = 1)).
    { unfold c1, base_gather. rewrite dlt_nan_r, (dlt_nan (c_max c)), !(deq_nan (c_min c)), !(deq_nan (c_max c)) by assumption.
      destruct (deq v (c_missing c)); cbn; auto 10. }
    destruct E as (E1 & E2 & E3 & E4 & E5).
    destruct (IH c1) as (c' & G & Q1 & Q2 & Q3 & Q4 & Q5); [congruence| | |assumption|assumption|]; [rewrite E1|rewrite E2|]; auto.
    exists c'. rewrite E1, E2, E3 in *. auto 10.
Qed.

(** gathering missing values only *)
Lemma gather_missing : forall bs c, c_kind c = KLongReal -> Forall is64 bs -> (forall v, In v bs -> deq v (c_missing c) = true) ->
  c_hasMissing c = 0 \/ c_hasMissing c = 1 ->
  exists c', gather_all c (map (le_bytes 8) bs) = Ok c' /\ c_kind c' = KLongReal /\ c_missing c' = c_missing c /\
    c_min c' = c_min c /\ c_max c' = c_max c /\ (c_hasMissing c' = 0 \/ c_hasMissing c' = 1).
Proof.
  induction bs as [|v bs IH]; intros c K H A Hm.
  - exists c. auto 10.
  - inversion H as [|? ? Hv H']; subst. cbn [map gather_all]. rewrite gather_long by assumption. cbn [bind].
    unfold base_gather. rewrite (A v) by now left. set (c1 := set_seen _ _ _).
    destruct (IH c1) as (c' & G & Q1 & Q2 & Q3 & Q4 & Q5); auto.
    + intros w Hw. apply A. now right.
    + exists c'. auto 10.
Qed.

Lemma gather_all_app c xs ys : gather_all c (xs ++ ys) = do c1 <- gather_all c xs; gather_all c1 ys.
Proof. revert c; induction xs as [|x xs IH]; intros c; cbn [app gather_all bind]; [reflexivity|]. destruct (gather c x); cbn [bind]; auto. Qed.

(** the first value that is not missing *)
Definition first_value (bs : list Z) : option Z := find (fun v => negb (deq v realMDI)) bs.

Lemma first_value_split bs v : first_value bs = Some v ->
  exists pre post, bs = pre ++ v :: post /\ deq v realMDI = false /\ forall w, In w pre -> deq w realMDI = true.
Proof.
  unfold first_value. induction bs as [|b bs IH]; cbn [find]; [discriminate|]. destruct (deq b realMDI) eqn:E; cbn [negb].
  - intros H. destruct (IH H) as (pre & post & -> & D & A). exists (b :: pre), post. split; [reflexivity|]. split; [assumption|].
    intros w [<-|Hw]; auto.
  - intros [= <-]. exists [], bs. split; [reflexivity|]. split; [assumption|]. intros w [].
Qed.

Lemma forallb_filter_id {A} (f : A -> bool) l : forallb f l = true -> filter f l = l.
Proof. induction l as [|x l IH]; cbn; [reflexivity|]. intros H. apply andb_true_iff in H as [-> H]. now rewrite IH. Qed.

Lemma gather_nan_free bs c : c_kind c = KLongReal -> c_missing c = realMDI -> c_min c = realMDI -> c_max c = realMDI ->
  c_hasMissing c = 0 -> Forall is64 bs -> (forall v, first_value bs = Some v -> nanb v = false) ->
  gather_all c (map (le_bytes 8) bs) = gather_all c (map (le_bytes 8) (filter (fun v => negb (nanb v)) bs)).
Proof.
  intros K M Mi Ma Hh H F. destruct (first_value bs) as [v|] eqn:E.
  - destruct (first_value_split _ _ E) as (pre & post & -> & D & A). specialize (F v eq_refl).
    apply Forall_app in H as [H1 H2]. inversion H2 as [|? ? Hv Hp]; subst.
    rewrite filter_app, !map_app, !gather_all_app.
    assert (P : filter (fun v => negb (nanb v)) pre = pre).
    { apply forallb_filter_id. apply forallb_forall. intros w Hw. specialize (A w Hw). destruct (nanb w) eqn:N; [|reflexivity].
      now rewrite (deq_nan w) in A. }
    rewrite P. cbn [filter]. rewrite F. cbn [negb map].
    destruct (gather_missing pre c K H1) as (c1 & -> & K1 & M1 & E1 & E2 & _); [rewrite M; assumption|now left|]. cbn [bind gather_all].
    rewrite gather_long by assumption. cbn [bind]. apply settled_nan; auto.
    + unfold base_gather. destruct (deq v (c_missing c1)); assumption.
    + unfold settled, base_gather. rewrite M1, M, D, E1, E2, Mi, Ma. cbn [set_seen set_stats c_min c_max c_missing].
      rewrite (deq_refl realMDI) by (vm_compute; reflexivity). rewrite !orb_true_r. auto.
  - f_equal. f_equal. symmetry. apply forallb_filter_id. apply forallb_forall. intros w Hw.
    destruct (nanb w) eqn:N; [|reflexivity]. unfold first_value in E. pose proof (find_none _ _ E w Hw) as Q. cbv beta in Q.
    rewrite (deq_nan w) in Q by assumption. discriminate.
Qed.

(** a long_real column is bit-exact *)
Lemma long_cell i i' o ty h mn mx v : real_type ty -> is64 v ->
  cell_rt (real_codec i o ty KLongReal h mn mx) (real_codec i' o ty KLongReal h mn mx) 8 (le_bytes 8 v) (le_bytes 8 v).
Proof.
  intros Ht Hv. exists (w_int o 8 v). split; [|split].
  - unfold encode. cbn [c_kind real_codec set_stats new_codec]. rewrite cell_bits_le by assumption. reflexivity.
  - rewrite w_int_length. lia.
  - intros rest. unfold decode. cbn [c_kind real_codec set_stats new_codec c_ord]. rewrite read_f64_app by assumption. reflexivity.
Qed.

Lemma make_double st ci : ci_type ci = ty_DOUBLE -> ci_size ci = 8 ->
  exists col, make_column st ci = Ok col /\ col_coder col = new_codec (iad st) LE KLongReal ty_DOUBLE.
Proof.
  intros Ht Hs. rewrite make_num; [|assumption|].
  2:{ intros k. rewrite Ht, working_real by now right. intros [= <-]. reflexivity. }
  rewrite Ht, working_real by now right. cbn [bind]. eexists; split; reflexivity.
Qed.

Lemma optimize_double_gen st o c h mn mx : h = 0 \/ h = 1 ->
  c_hasMissing c = h -> c_min c = mn -> c_max c = mx -> c_missing c = realMDI ->
  optimize st o ty_DOUBLE c = Ok (real_codec (iad st) o ty_DOUBLE (double_kind h mn mx) h mn mx).
Proof.
  intros Hh H1 H2 H3 H4. change (optimize st o ty_DOUBLE c) with (optimize_double st o c).
  unfold optimize_double, has_missing. rewrite H1, H2, H3.
  change (if deq mx mn then _ else _) with (double_kind h mn mx).
  unfold adopt. rewrite H4, set_missing_real; [|now right|apply double_kind_in]. cbn [bind].
  rewrite H1, H2, H3. unfold real_codec. f_equal. unfold set_stats. cbn. destruct Hh as [-> | ->]; reflexivity.
Qed.

(** prepared codec of an arbitrary DOUBLE column *)
Lemma prepare_double st ci bs : ci_type ci = ty_DOUBLE -> ci_size ci = 8 -> Forall is64 bs ->
  exists h mn mx, (h = 0 \/ h = 1) /\ is64 mn /\ is64 mx /\
    (forall o, prepare st o ci (map (le_bytes 8) bs) = Ok (real_codec (iad st) o ty_DOUBLE (double_kind h mn mx) h mn mx)) /\
    ((exists v, first_value bs = Some v /\ nanb v = true /\ nanb mn = true /\ nanb mx = true) \/
     ((forall v, first_value bs = Some v -> nanb v = false) /\ real_stats (filter (fun v => negb (nanb v)) bs) h mn mx)).
Proof.
  intros Ht Hs H. destruct (make_double st ci Ht Hs) as (col & E1 & E2). destruct realMDI_facts as (R1 & R2 & R3 & R4).
  assert (C0 : forall c, c = col_coder col -> c_kind c = KLongReal /\ c_missing c = realMDI /\ c_min c = realMDI /\ c_max c = realMDI /\ c_hasMissing c = 0).
  { intros c ->. rewrite E2. repeat split. }
  destruct (C0 _ eq_refl) as (K & M & Mi & Ma & Hh).
  assert (Dec : (exists v, first_value bs = Some v /\ nanb v = true) \/ (forall v, first_value bs = Some v -> nanb v = false)).
  { destruct (first_value bs) as [v|]; [|right; discriminate]. destruct (nanb v) eqn:N; [left; eauto|right; congruence]. }
  destruct Dec as [(v & Fv & N)|F].
  - destruct (first_value_split _ _ Fv) as (pre & post & Eb & D & A).
    pose proof H as H'. rewrite Eb in H'. apply Forall_app in H' as [H1 H2]. inversion H2 as [|? ? Hv Hp]; subst x l.
    destruct (gather_missing pre _ K H1) as (c1 & G1 & K1 & M1 & X1 & X2 & X3); [rewrite M; assumption|now left|].
    set (c2 := set_seen (base_gather c1 v) (c_seenFltMin c1 || deq v (f2d flt_min)) (c_seenFltMax c1 || deq v (f2d flt_max))).
    assert (P2 : c_min c2 = v /\ c_max c2 = v /\ c_kind c2 = KLongReal /\ c_missing c2 = realMDI /\ (c_hasMissing c2 = 0 \/ c_hasMissing c2 = 1)).
    { unfold c2, base_gather. rewrite M1, M, D, X1, X2, Mi, Ma. cbn [set_seen set_stats c_min c_max c_missing c_kind c_hasMissing].
      rewrite (deq_refl realMDI) by (vm_compute; reflexivity). rewrite !orb_true_r. auto 10. }
    destruct P2 as (P2 & P3 & P4 & P5 & P6).
    destruct (nan_stuck post c2 P4) as (c3 & G3 & K3 & M3 & Y1 & Y2 & Y3); [rewrite P2; assumption|rewrite P3; assumption|assumption|assumption|].
    exists (c_hasMissing c3), v, v. split; [assumption|]. split; [assumption|]. split; [assumption|]. split.
    + intros o. unfold prepare. rewrite E1. cbn [bind]. rewrite Eb, map_app, gather_all_app, G1. cbn [bind map gather_all].
      rewrite gather_long by assumption. cbn [bind]. fold c2. rewrite G3. cbn [bind]. rewrite Ht.
      apply optimize_double_gen; auto; congruence.
    + left. exists v. auto.
  - set (fs := filter (fun v => negb (nanb v)) bs).
    assert (Nf : Forall num fs).
    { apply Forall_forall. intros v Hv. apply filter_In in Hv as [Hv1 Hv2]. rewrite Forall_forall in H. split; [auto|].
      unfold nanb in Hv2. now destruct (is_nan f64 v). }
    destruct (gather_real st ci fs ltac:(now right) Hs Nf) as (col' & c1 & h & mn & mx & Q1 & Q2 & Q3 & Q4 & S & T1 & T2 & T3 & T4 & _).
    assert (col' = col) as -> by congruence.
    exists h, mn, mx. pose proof S as [S1 [S2 _] [S3 _] _ _].
    assert (Hb : h = 0 \/ h = 1) by (rewrite S1; destruct (existsb _ fs); auto).
    split; [assumption|]. split; [assumption|]. split; [assumption|]. split; [|right; auto].
    intros o. unfold prepare. rewrite E1. cbn [bind]. rewrite gather_nan_free by assumption. fold fs. rewrite Q2. cbn [bind]. rewrite Ht.
    apply optimize_double_gen; auto.
Qed.
