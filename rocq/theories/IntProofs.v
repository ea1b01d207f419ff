(** INTEGER and BITFIELD columns. *)
From Verif Require Import Spec Base Fp FpProofs Stream StreamProofs StreamLocal Codec Meta GatherProofs.

(** an integer in a cell: an int64_t, or a double *)
Definition int_bits (i64 : bool) (n : Z) : Z := if i64 then n mod 2 ^ 64 else z2d n.


Lemma int32_mid n : int32 n -> mid n.
Proof. unfold int32, mid. lia. Qed.
Lemma mid_small n : mid n -> small n.
Proof. unfold small, mid. lia. Qed.

Lemma int_cell_bits i n : int_cell i n = le_bytes 8 (int_bits i n).
Proof.
  destruct i; cbn [int_cell int_bits]; [|reflexivity]. unfold int_cell.
  change (2 ^ 64) with (256 ^ Z.of_nat 8). now rewrite le_bytes_mod.
Qed.

Lemma int_bits_64 i n : small n -> is64 (int_bits i n).
Proof.
  intros H. destruct i; cbn [int_bits].
  - unfold is64. apply Z.mod_pos_bound. lia.
  - apply z2d_fin, H.
Qed.

Lemma as_double_int i n : small n -> as_double i (int_bits i n) = z2d n.
Proof.
  intros H. destruct i; cbn [as_double int_bits]; [|reflexivity].
  rewrite signed_mod; [reflexivity|lia|unfold small in H; lia].
Qed.

Lemma int_cell_length i n : length (int_cell i n) = 8%nat.
Proof. apply le_bytes_length. Qed.

Lemma store_value_int i n : small n -> store_value i (z2d n) = Ok (int_cell i n).
Proof.
  intros H. unfold store_value, int_cell. destruct i; [|reflexivity].
  unfold d2i64. rewrite d2int_z2d; [reflexivity|assumption|unfold small in H; lia].
Qed.

(** ** Statistics of integer columns *)

Record int_stats (ns : list Z) (h lo hi : Z) : Prop := {
  is_h : h = if existsb (fun n => n =? MDI) ns then 1 else 0;
  is_lo : mid lo; is_hi : mid hi; is_le : lo <= hi;
  is_in : forall n, In n ns -> n <> MDI -> lo <= n <= hi;
  is_tight : (lo = MDI /\ hi = MDI) \/ (In lo ns /\ In hi ns /\ lo <> MDI /\ hi <> MDI)
}.

Lemma existsb_deq_z2d ns : Forall mid ns ->
  existsb (fun v => deq v integerMDI) (map z2d ns) = existsb (fun n => n =? MDI) ns.
Proof.
  induction 1 as [|n ns H1 H2 IH]; [reflexivity|]. cbn [map existsb]. rewrite IH. f_equal.
  unfold integerMDI. apply deq_z2d; [now apply mid_small|unfold small, MDI; lia].
Qed.

Lemma non_missing_z2d ns : Forall mid ns ->
  non_missing integerMDI (map z2d ns) = map z2d (filter (fun n => negb (n =? MDI)) ns).
Proof.
  induction 1 as [|n ns H1 H2 IH]; [reflexivity|]. unfold non_missing in *. cbn [map filter]. rewrite IH.
  unfold integerMDI at 1. rewrite deq_z2d; [|now apply mid_small|unfold small, MDI; lia].
  change 2147483647 with MDI. destruct (n =? MDI); reflexivity.
Qed.

Lemma stats_int ns c : Forall mid ns -> stats_inv integerMDI (map z2d ns) c ->
  exists h lo hi, int_stats ns h lo hi /\
    c_hasMissing c = h /\ c_min c = z2d lo /\ c_max c = z2d hi /\ c_missing c = integerMDI.
Proof.
  intros Hm (I1 & I2 & I3 & I4). rewrite existsb_deq_z2d in I2 by assumption.
  rewrite non_missing_z2d in * by assumption.
  set (non := filter (fun n => negb (n =? MDI)) ns) in *.
  assert (Hin : forall n, In n non <-> In n ns /\ n <> MDI).
  { intros n. unfold non. rewrite filter_In. destruct (Z.eqb_spec n MDI); cbn; intuition congruence. }
  assert (Hmid : forall n, In n non -> mid n).
  { intros n Hn. rewrite Forall_forall in Hm. apply Hm, Hin, Hn. }
  destruct non as [|x xs] eqn:E.
  - destruct (I3 eq_refl) as [J1 J2]. exists (c_hasMissing c), MDI, MDI. split; [|auto].
    split; auto; try (unfold mid, MDI; lia). intros n Hn D. destruct (proj2 (Hin n)); auto.
  - rewrite <- E in *. clear I3. destruct (I4 ltac:(rewrite E; discriminate)) as (J1 & J2 & J3). clear I4.
    rewrite in_map_iff in J1. destruct J1 as (lo & L1 & L2).
    rewrite in_map_iff in J2. destruct J2 as (hi & M1 & M2).
    assert (B : forall n, In n non -> lo <= n <= hi).
    { intros n Hn. rewrite Forall_forall in J3. specialize (J3 (z2d n) (in_map z2d _ _ Hn)).
      rewrite <- L1, <- M1 in J3.
      rewrite !dlt_z2d in J3 by (apply mid_small; auto). lia. }
    exists (c_hasMissing c), lo, hi. split; [|auto]. split; auto.
    + apply (B lo L2).
    + intros n Hn D. apply B, Hin; auto.
    + right. apply Hin in L2, M2. tauto.
Qed.

(** ** The optimised codec of an integer column *)

Definition int_kind (h n : Z) : ckind :=
  if negb (h =? 0) then
    if n =? 0 then KConstantOrMissing
    else if n <? 255 then KInt8Missing
         else if n <? 65535 then KInt16Missing else KInt32
  else
    if n =? 0 then KConstant
    else if n <=? 255 then KInt8
         else if n <=? 65535 then KInt16 else KInt32.

Definition int_codec (iad : bool) (o : order) (ty : Z) (k : ckind) (h lo hi : Z) : codec :=
  set_stats (new_codec iad o k ty) h (z2d lo) (z2d hi) integerMDI.


Lemma working_int st ty : int_type ty ->
  working_codec st LE ty = Ok (new_codec (iad st) LE KInt32 ty).
Proof. intros [-> | ->]; destruct st as [[|] ls]; vm_compute; reflexivity. Qed.

Lemma int_kind_cases h n : In (int_kind h n)
  [KConstantOrMissing; KInt8Missing; KInt16Missing; KInt32; KConstant; KInt8; KInt16].
Proof.
  unfold int_kind. repeat match goal with |- context [if ?b then _ else _] => destruct b end; cbn; tauto.
Qed.

Lemma set_missing_int i o k ty : int_type ty ->
  In k [KConstantOrMissing; KInt8Missing; KInt16Missing; KInt32; KConstant; KInt8; KInt16] ->
  set_missing_value (new_codec i o k ty) integerMDI =
  Ok (set_stats (new_codec i o k ty) 0 integerMDI integerMDI integerMDI).
Proof.
  intros Ht Hk. destruct Ht as [-> | ->]; cbn [In] in Hk;
  repeat (destruct Hk as [<-|Hk]; [destruct i, o; vm_compute; reflexivity|]); destruct Hk.
Qed.

Lemma optimize_int_ok st o ty c h lo hi ns : int_type ty -> int_stats ns h lo hi ->
  c_hasMissing c = h -> c_min c = z2d lo -> c_max c = z2d hi -> c_missing c = integerMDI ->
  optimize st o ty c = Ok (int_codec (iad st) o ty (int_kind h (hi - lo)) h lo hi).
Proof.
  intros Ht Hs H1 H2 H3 H4. destruct Hs.
  assert (E : optimize st o ty c = optimize_int st o ty c) by (destruct Ht as [-> | ->]; reflexivity).
  rewrite E. unfold optimize_int. rewrite H2, H3. unfold mid in *.
  rewrite dsub_z2d by (unfold small; lia). unfold d2i64. rewrite d2int_z2d by (unfold small; lia).
  cbn [bind]. unfold has_missing. rewrite H1.
  change (if negb (h =? 0) then _ else _) with (int_kind h (hi - lo)).
  pose proof (int_kind_cases h (hi - lo)) as Hk. set (k := int_kind h (hi - lo)) in *. clearbody k.
  unfold adopt. rewrite H4, set_missing_int by assumption. cbn [bind].
  assert (Eh : (if h =? 0 then 0 else 1) = h)
    by (rewrite is_h0; destruct (existsb (fun n => n =? MDI) ns); reflexivity).
  rewrite H1, H2, H3, Eh. reflexivity.
Qed.

(** ** Encoding and decoding one value *)

Definition int_width (k : ckind) : nat :=
  match k with
  | KConstant => 0
  | KInt8 | KInt8Missing | KConstantOrMissing => 1
  | KInt16 | KInt16Missing => 2
  | _ => 4
  end.

(** the bytes of a value *)
Definition int_code (o : order) (k : ckind) (lo n : Z) : list Z :=
  match k with
  | KConstant => []
  | KInt8 => w_int o 1 (n - lo)
  | KInt16 => w_int o 2 (n - lo)
  | KInt8Missing | KConstantOrMissing => w_int o 1 (if n =? MDI then 255 else n - lo)
  | KInt16Missing => w_int o 2 (if n =? MDI then 65535 else n - lo)
  | _ => w_int o 4 n
  end.

Lemma int_code_length o k lo n : In k
  [KConstantOrMissing; KInt8Missing; KInt16Missing; KInt32; KConstant; KInt8; KInt16] ->
  length (int_code o k lo n) = int_width k.
Proof.
  intros Hk. cbn [In] in Hk.
  repeat (destruct Hk as [<-|Hk]; [cbn [int_code int_width]; rewrite ?w_int_length; reflexivity|]). destruct Hk.
Qed.

Lemma cell_bits_int i n : small n -> cell_bits (int_cell i n) = Ok (int_bits i n).
Proof. intros H. rewrite int_cell_bits. apply cell_bits_le, int_bits_64, H. Qed.

Lemma enc_offset_int o w i lo n : mid lo -> mid n -> lo <= n ->
  enc_offset o w i (z2d lo) (int_bits i n) = Ok (w_int o w (n - lo)).
Proof.
  intros Hl Hn Hle. unfold enc_offset. rewrite as_double_int by (now apply mid_small).
  rewrite dsub_z2d by (now apply mid_small). unfold d2u64.
  unfold mid in *. rewrite d2int_z2d by (unfold small; lia). reflexivity.
Qed.

Lemma enc_direct_int o i n : int32 n -> enc_direct o i (int_bits i n) = Ok (w_int o 4 n).
Proof.
  intros H. unfold enc_direct, int_bits. destruct i.
  - unfold w_int. rewrite <- (le_bytes_mod 4 (n mod 2 ^ 64)), <- (le_bytes_mod 4 n).
    do 3 f_equal. change (256 ^ Z.of_nat 4) with (2 ^ 32).
    replace (2 ^ 64) with (2 ^ 32 * 2 ^ 32) by lia.
    rewrite Z.rem_mul_r by lia. rewrite Z.mul_comm, Z.mod_add by lia. apply Z.mod_mod. lia.
  - unfold d2i32, int32 in *. rewrite d2int_z2d by (unfold small; lia). reflexivity.
Qed.

Lemma enc_missing_int o (w : nat) i lo n : mid lo -> mid n ->
  (n <> MDI -> 0 <= n - lo < 256 ^ Z.of_nat w - 1) ->
  enc_missing o w i (z2d lo) integerMDI (int_bits i n) =
  Ok (w_int o w (if n =? MDI then 256 ^ Z.of_nat w - 1 else n - lo)).
Proof.
  intros Hl Hn Hr. unfold enc_missing. rewrite as_double_int by (now apply mid_small).
  unfold integerMDI at 1. change 2147483647 with MDI.
  rewrite deq_z2d; [|now apply mid_small|unfold small, MDI; lia].
  destruct (Z.eqb_spec n MDI); [reflexivity|]. specialize (Hr n0).
  rewrite dsub_z2d by (now apply mid_small). unfold mid in *.
  rewrite d2int_z2d; [|unfold small; lia|lia]. cbn [bind].
  destruct (Z.eqb_spec (n - lo) (256 ^ Z.of_nat w - 1)); [lia|]. reflexivity.
Qed.

Lemma int_encode iad o ty ns h lo hi n : int_type ty -> int_stats ns h lo hi -> Forall mid ns -> In n ns ->
  (int_kind h (hi - lo) = KInt32 -> int32 n) ->
  encode (int_codec iad o ty (int_kind h (hi - lo)) h lo hi) (int_cell (negb iad) n)
  = Ok (int_code o (int_kind h (hi - lo)) lo n).
Proof.
  intros Ht Hs Hm Hn H32. destruct Hs.
  assert (Mn : mid n) by (rewrite Forall_forall in Hm; auto).
  assert (I64 : forall k, int_built k = true -> c_int64 (int_codec iad o ty k h lo hi) = negb iad).
  { intros k Hk. cbn. rewrite Hk. destruct Ht as [-> | ->]; reflexivity. }
  assert (Hh : negb (h =? 0) = existsb (fun n => n =? MDI) ns).
  { rewrite is_h0. destruct (existsb (fun n => n =? MDI) ns); reflexivity. }
  assert (Hx : n <> MDI -> lo <= n <= hi) by auto.
  assert (Hx' : existsb (fun n => n =? MDI) ns = false -> n <> MDI).
  { intros Hf ->.
    assert (existsb (fun n => n =? MDI) ns = true); [|congruence].
    apply existsb_exists. exists MDI. split; [assumption|apply Z.eqb_refl]. }
  unfold encode. cbn [c_kind int_codec set_stats new_codec] in *.
  unfold int_kind in *. rewrite Hh in *.
  destruct (existsb (fun n => n =? MDI) ns) eqn:Ex.
  - destruct (Z.eqb_spec (hi - lo) 0); [|destruct (Z.ltb_spec (hi - lo) 255); [|destruct (Z.ltb_spec (hi - lo) 65535)]];
    cbn [int_code]; rewrite cell_bits_int by (now apply mid_small); cbn [bind].
    + change (c_int64 _) with (c_int64 (int_codec iad o ty KConstantOrMissing h lo hi)). rewrite I64 by reflexivity.
      apply (enc_missing_int o 1); auto. cbn. intros. specialize (Hx H). lia.
    + change (c_int64 _) with (c_int64 (int_codec iad o ty KInt8Missing h lo hi)). rewrite I64 by reflexivity.
      apply (enc_missing_int o 1); auto. cbn. intros. specialize (Hx H0). lia.
    + change (c_int64 _) with (c_int64 (int_codec iad o ty KInt16Missing h lo hi)). rewrite I64 by reflexivity.
      apply (enc_missing_int o 2); auto. cbn. intros. specialize (Hx H1). lia.
    + change (c_int64 _) with (c_int64 (int_codec iad o ty KInt32 h lo hi)). rewrite I64 by reflexivity.
      apply enc_direct_int. auto.
  - specialize (Hx (Hx' eq_refl)).
    destruct (Z.eqb_spec (hi - lo) 0); [reflexivity|].
    destruct (Z.leb_spec (hi - lo) 255); [|destruct (Z.leb_spec (hi - lo) 65535)];
    cbn [int_code]; rewrite cell_bits_int by (now apply mid_small); cbn [bind].
    + change (c_int64 _) with (c_int64 (int_codec iad o ty KInt8 h lo hi)). rewrite I64 by reflexivity.
      apply enc_offset_int; auto. lia.
    + change (c_int64 _) with (c_int64 (int_codec iad o ty KInt16 h lo hi)). rewrite I64 by reflexivity.
      apply enc_offset_int; auto. lia.
    + change (c_int64 _) with (c_int64 (int_codec iad o ty KInt32 h lo hi)). rewrite I64 by reflexivity.
      apply enc_direct_int. auto.
Qed.

Lemma dec_offset_int o (w : nat) i lo n rest : mid lo -> mid n -> 0 <= n - lo < 256 ^ Z.of_nat w ->
  dec_offset o (Z.of_nat w) i (z2d lo) (w_int o w (n - lo) ++ rest) = Ok (int_cell i n, rest).
Proof.
  intros Hl Hn Hr. unfold dec_offset. rewrite read_uint_app by assumption. cbn [bind].
  unfold mid in *. rewrite dadd_z2d by (unfold small; lia).
  replace (n - lo + lo) with n by ring. rewrite store_value_int by (unfold small; lia). reflexivity.
Qed.

Lemma dec_missing_int o (w : nat) i lo n rest : mid lo -> mid n -> 0 < Z.of_nat w ->
  (n <> MDI -> 0 <= n - lo < 256 ^ Z.of_nat w - 1) ->
  dec_missing o (Z.of_nat w) i (z2d lo) integerMDI
    (w_int o w (if n =? MDI then 256 ^ Z.of_nat w - 1 else n - lo) ++ rest) = Ok (int_cell i n, rest).
Proof.
  intros Hl Hn Hw Hr. unfold dec_missing.
  assert (P : 256 ^ Z.of_nat w >= 256).
  { replace (Z.of_nat w) with (1 + (Z.of_nat w - 1)) by lia. rewrite Z.pow_add_r by lia.
    pose proof (Z.pow_pos_nonneg 256 (Z.of_nat w - 1)). lia. }
  rewrite read_uint_app by (destruct (Z.eqb_spec n MDI); [lia|specialize (Hr n0); lia]). cbn [bind].
  destruct (Z.eqb_spec n MDI).
  - rewrite Z.eqb_refl. unfold integerMDI. change 2147483647 with MDI.
    rewrite store_value_int by (unfold small, MDI; lia). subst. reflexivity.
  - specialize (Hr n0). destruct (Z.eqb_spec (n - lo) (256 ^ Z.of_nat w - 1)); [lia|].
    unfold mid in *. rewrite dadd_z2d by (unfold small; lia).
    replace (n - lo + lo) with n by ring. rewrite store_value_int by (unfold small; lia). reflexivity.
Qed.

Lemma dec_direct_int o i n rest : int32 n -> dec_direct o i (w_int o 4 n ++ rest) = Ok (int_cell i n, rest).
Proof.
  intros H. unfold dec_direct. rewrite read_i32_app by (unfold int32 in H; lia). cbn [bind].
  unfold int_cell. destruct i; reflexivity.
Qed.

(** [iad'] is the setting of the reading program; it need not be that of the writer. *)
Lemma int_decode iad' o ty ns h lo hi n rest : int_type ty -> int_stats ns h lo hi -> Forall mid ns -> In n ns ->
  (int_kind h (hi - lo) = KInt32 -> int32 n) ->
  decode (int_codec iad' o ty (int_kind h (hi - lo)) h lo hi)
         (int_code o (int_kind h (hi - lo)) lo n ++ rest) = Ok (int_cell (negb iad') n, rest).
Proof.
  intros Ht Hs Hm Hn H32. destruct Hs.
  assert (Mn : mid n) by (rewrite Forall_forall in Hm; auto).
  assert (I64 : forall k, int_built k = true -> c_int64 (int_codec iad' o ty k h lo hi) = negb iad').
  { intros k Hk. cbn. rewrite Hk. destruct Ht as [-> | ->]; reflexivity. }
  assert (Hh : negb (h =? 0) = existsb (fun n => n =? MDI) ns).
  { rewrite is_h0. destruct (existsb (fun n => n =? MDI) ns); reflexivity. }
  assert (Hx : n <> MDI -> lo <= n <= hi) by auto.
  assert (Hx' : existsb (fun n => n =? MDI) ns = false -> n <> MDI).
  { intros Hf ->.
    assert (existsb (fun n => n =? MDI) ns = true); [|congruence].
    apply existsb_exists. exists MDI. split; [assumption|apply Z.eqb_refl]. }
  unfold decode. cbn [c_kind int_codec set_stats new_codec] in *.
  unfold int_kind in *. rewrite Hh in *.
  destruct (existsb (fun n => n =? MDI) ns) eqn:Ex.
  - destruct (Z.eqb_spec (hi - lo) 0); [|destruct (Z.ltb_spec (hi - lo) 255); [|destruct (Z.ltb_spec (hi - lo) 65535)]];
    cbn [int_code].
    + change (c_int64 _) with (c_int64 (int_codec iad' o ty KConstantOrMissing h lo hi)). rewrite I64 by reflexivity.
      apply (dec_missing_int o 1); auto; cbn; [lia|]. intros. specialize (Hx H). lia.
    + change (c_int64 _) with (c_int64 (int_codec iad' o ty KInt8Missing h lo hi)). rewrite I64 by reflexivity.
      apply (dec_missing_int o 1); auto; cbn; [lia|]. intros. specialize (Hx H0). lia.
    + change (c_int64 _) with (c_int64 (int_codec iad' o ty KInt16Missing h lo hi)). rewrite I64 by reflexivity.
      apply (dec_missing_int o 2); auto; cbn; [lia|]. intros. specialize (Hx H1). lia.
    + change (c_int64 _) with (c_int64 (int_codec iad' o ty KInt32 h lo hi)). rewrite I64 by reflexivity.
      apply dec_direct_int. auto.
  - specialize (Hx (Hx' eq_refl)).
    destruct (Z.eqb_spec (hi - lo) 0).
    { cbn [int_code app]. change (c_int64 _) with (c_int64 (int_codec iad' o ty KConstant h lo hi)). rewrite I64 by reflexivity.
      change (c_min _) with (z2d lo). rewrite store_value_int by (now apply mid_small). cbn [bind].
      replace lo with n by lia. reflexivity. }
    destruct (Z.leb_spec (hi - lo) 255); [|destruct (Z.leb_spec (hi - lo) 65535)];
    cbn [int_code].
    + change (c_int64 _) with (c_int64 (int_codec iad' o ty KInt8 h lo hi)). rewrite I64 by reflexivity.
      apply (dec_offset_int o 1); auto. cbn. lia.
    + change (c_int64 _) with (c_int64 (int_codec iad' o ty KInt16 h lo hi)). rewrite I64 by reflexivity.
      apply (dec_offset_int o 2); auto. cbn. lia.
    + change (c_int64 _) with (c_int64 (int_codec iad' o ty KInt32 h lo hi)). rewrite I64 by reflexivity.
      apply dec_direct_int. auto.
Qed.
