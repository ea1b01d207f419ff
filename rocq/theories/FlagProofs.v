(** The "has missing values" flag of a column that was written. *)
From Coq Require Import String.
From Verif Require Import IntProofs Spec Base Fp FpProofs RealProofs Stream StreamProofs StreamLocal Codec Meta Header Encoder Table
  ColumnProofs TableProofs FrameProofs WriterProofs.
Open Scope Z_scope.
Local Notation length := List.length.

(** the cell of a column of numbers holds the missing value [m] *)
Definition absent (m : Z) (x : list Z) : bool := deq (le_val (firstn 8 x)) m.

Lemma gather_flag c x c' : gather c x = Ok c' -> c_int64 c = false ->
  c_hasMissing c' = (if chars_based (c_kind c) then c_hasMissing c else if absent (c_missing c) x then 1 else c_hasMissing c) /\ c_int64 c' = false.
Proof.
  unfold gather, absent. intros H I6. destruct (chars_based (c_kind c)) eqn:E.
  - unfold chars_gather in H. apply bind_ok in H as (s & _ & H).
    assert (H' := f_equal (fun r => match r with Ok y => Some (c_hasMissing y, c_int64 y) | _ => None end) H).
    cbn in H'. destruct (mget (c_lookup c) s); cbn in H'; injection H'; intros; split; congruence.
  - apply bind_ok in H as (b & Hb & H). unfold cell_bits in Hb. destruct (_ <? 8)%nat; [discriminate|]. injection Hb as <-.
    unfold base_gather, as_double in H. rewrite I6 in H.
    destruct (c_kind c) eqn:K; injection H as <-; destruct (deq _ (c_missing c)); cbn [c_hasMissing c_int64 set_stats set_seen]; auto.
Qed.

Lemma gather_all_flag : forall xs c c', gather_all c xs = Ok c' -> c_int64 c = false ->
  c_hasMissing c' = if chars_based (c_kind c) then c_hasMissing c else if existsb (absent (c_missing c)) xs then 1 else c_hasMissing c.
Proof.
  induction xs as [|x xs IH]; intros c c' H I6; cbn [gather_all] in H.
  - injection H as <-. cbn [existsb]. now destruct (chars_based _).
  - apply bind_ok in H as (c1 & H1 & H). destruct (gather_keeps _ _ _ H1) as (A1 & A2 & _). destruct (gather_flag _ _ _ H1 I6) as (A3 & A4).
    rewrite (IH c1 c' H A4), A1, A2, A3. cbn [existsb]. destruct (chars_based _); [reflexivity|]. destruct (absent _ x); cbn [orb]; [now destruct (existsb _ _)|reflexivity].
Qed.

Lemma adopt_flag c0 f k : adopt c0 f = Ok k -> c_hasMissing k = if c_hasMissing c0 =? 0 then 0 else 1.
Proof.
  unfold adopt, set_missing_value. intros H. apply bind_ok in H as (c1 & H1 & H). injection H as <-.
  cbn [set_stats c_hasMissing]. unfold has_missing. now destruct (c_hasMissing c0 =? 0).
Qed.

Lemma optimize_flag st o ty c k : optimize st o ty c = Ok k -> c_hasMissing c = 0 \/ c_hasMissing c = 1 -> c_hasMissing k = c_hasMissing c.
Proof.
  intros H Z01. assert (G : forall f, adopt c f = Ok k -> c_hasMissing k = c_hasMissing c).
  { intros f A. rewrite (adopt_flag _ _ _ A). destruct Z01 as [-> | ->]; reflexivity. }
  unfold optimize in H. destruct (ty =? ty_REAL).
  { unfold optimize_real in H. destruct (c_kind c); try discriminate. destruct (c_ord c); try discriminate.
    apply bind_ok in H as (kd & _ & H). eauto. }
  destruct (ty =? ty_DOUBLE).
  { unfold optimize_double in H. eauto. }
  destruct (ty =? ty_STRING).
  { unfold optimize_string in H. apply bind_ok in H as (n & _ & H). apply bind_ok in H as (u & _ & H). apply bind_ok in H as (f & _ & H). eauto. }
  destruct ((ty =? ty_INTEGER) || (ty =? ty_BITFIELD)); [|now injection H as <-].
  unfold optimize_int in H. apply bind_ok in H as (n & _ & H). eauto.
Qed.

Lemma load_flag k k' st' o ty : reloads st' o ty k k' -> c_hasMissing k = 0 \/ c_hasMissing k = 1 -> c_hasMissing k' = c_hasMissing k.
Proof.
  intros (Ho & _ & _ & bytes & Hs & Hl) H01.
  assert (Hb : exists b2, bytes = w_int o 4 (c_hasMissing k) ++ b2).
  { unfold save, save_base in Hs. rewrite Ho in Hs. destruct (c_kind k); try (injection Hs as <-);
      try (destruct (c_strings k); [discriminate|injection Hs as <-]).
    all: eexists; rewrite <- ?app_assoc; reflexivity. }
  destruct Hb as (b2 & ->). specialize (Hl []). rewrite app_nil_r in Hl.
  set (c0 := new_codec (iad st') o (c_kind k) ty) in *.
  unfold load in Hl. apply bind_ok in Hl as ([c1 s1] & Hb & Hl).
  assert (M : c_hasMissing c1 = c_hasMissing k).
  { unfold load_base in Hb. change (c_ord c0) with o in Hb.
    apply bind_ok in Hb as ([h s2] & E1 & Hb). apply bind_ok in Hb as ([mi s3] & E2 & Hb). apply bind_ok in Hb as ([ma s4] & E3 & Hb).
    apply bind_ok in Hb as ([ms s5] & E4 & Hb).
    assert (c1 = set_stats c0 h mi ma ms) as -> by congruence. cbn [set_stats c_hasMissing].
    rewrite read_i32_app in E1 by (destruct H01 as [-> | ->]; lia). congruence. }
  rewrite <- M. clear M.
  destruct (c_kind c0).
  all: try (apply bind_ok in Hl as (u & _ & Hl); injection Hl as <- _; auto; fail).
  all: try (injection Hl as <- _; auto; fail).
  - apply bind_ok in Hl as ([t s2] & _ & Hl). injection Hl as <- _. auto.
  - apply bind_ok in Hl as ([t s2] & _ & Hl). apply bind_ok in Hl as (u & _ & Hl). injection Hl as <- _. auto.
  - apply bind_ok in Hl as ([t s2] & _ & Hl). apply bind_ok in Hl as (u & _ & Hl). apply bind_ok in Hl as ([r s3] & _ & Hl).
    apply bind_ok in Hl as (u1 & _ & Hl). injection Hl as <- _. auto.
  - apply bind_ok in Hl as ([t s2] & _ & Hl). apply bind_ok in Hl as (u & _ & Hl). apply bind_ok in Hl as ([r s3] & _ & Hl).
    apply bind_ok in Hl as (u1 & _ & Hl). injection Hl as <- _. auto.
Qed.

(** The flag of a column read is set if and only if it is a column of numbers with a cell
    that holds the missing value. *)
Lemma flag_read st st' o it : iad st = true -> item_ok st st' o it ->
  c_hasMissing (i_k' it) =
    if (ci_type (i_ci it) =? ty_STRING) then 0 else if existsb (absent (default_missing (ci_type (i_ci it)))) (i_cells it) then 1 else 0.
Proof.
  intros Hi (P & R & _). unfold prepare in P. apply bind_ok in P as (c & P1 & P). apply bind_ok in P as (k1 & P2 & P).
  destruct (make_column_facts _ _ _ P1) as (A1 & _ & _ & A2 & A3 & _ & A4). rewrite Hi, andb_false_r in A3.
  pose proof (gather_all_flag _ _ _ P2 A3) as G. rewrite A1, A2 in G.
  assert (E : c_hasMissing k1 = if (ci_type (i_ci it) =? ty_STRING) then 0 else if existsb (absent (default_missing (ci_type (i_ci it)))) (i_cells it) then 1 else 0).
  { rewrite G. destruct (chars_based _) eqn:Ec.
    - assert (ci_type (i_ci it) = ty_STRING) as -> by (apply A4; reflexivity). reflexivity.
    - destruct (Z.eqb_spec (ci_type (i_ci it)) ty_STRING) as [T|_]; [|reflexivity]. apply A4 in T. congruence. }
  assert (E01 : c_hasMissing k1 = 0 \/ c_hasMissing k1 = 1) by (rewrite E; destruct (_ =? _); [auto|]; destruct (existsb _ _); auto).
  rewrite <- E, <- (optimize_flag _ _ _ _ _ P E01). apply (load_flag _ _ _ _ _ R). now rewrite (optimize_flag _ _ _ _ _ P E01).
Qed.
