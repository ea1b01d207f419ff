(** Storable columns make frames that read back: the user-level round trip. *)
From Coq Require Import String.
From Verif Require Import Spec Base Fp FpProofs Stream StreamProofs StreamLocal Codec Meta Header Encoder Table
  IntProofs StringProofs ColumnProofs RealColumn HeaderProofs TableProofs DecodeProofs LookupProofs FrameProofs FrameDecode.
Open Scope Z_scope.

(** ** Width of decoded values *)

Lemma pad_length n l : List.length (pad n l) = n.
Proof.
  unfold pad. rewrite app_length, repeat_length, firstn_length. lia.
Qed.

Lemma store_value_length i d cell : store_value i d = Ok cell -> List.length cell = 8%nat.
Proof.
  unfold store_value. destruct i.
  - intros H. apply bind_ok in H as (n & _ & H). inversion H. reflexivity.
  - intros H. inversion H. reflexivity.
Qed.

(** A decoded value is as wide as the column announces. *)
Theorem decode_width k s cell s' : 0 <= data_size_doubles k -> 8 * data_size_doubles k < 2 ^ 64 ->
  decode k s = Ok (cell, s') -> Z.of_nat (List.length cell) = 8 * data_size_doubles k.
Proof.
  unfold decode, data_size_doubles. intros H0 H1.
  destruct (c_kind k) eqn:K; cbn [chars_based] in *;
    try (intros H; apply bind_ok in H as ([u s1] & _ & H); apply bind_ok in H as (x & E & H); inversion H; subst;
         apply store_value_length in E; rewrite E; reflexivity).
  - intros H; apply bind_ok in H as (x & E & H); inversion H; subst. apply store_value_length in E. now rewrite E.
  - intros [= <- <-]. reflexivity.
  - destruct (c_strings k) as [|x0 xs]; [discriminate|]. intros H.
    assert (cell = pad (Z.to_nat ((8 * c_dsd k) mod 2 ^ 64)) x0) as -> by congruence.
    rewrite pad_length, Z.mod_small by lia. lia.
  - intros H. apply bind_ok in H as ([u s1] & _ & H). inversion H; subst. destruct (c_int64 k); reflexivity.
  - intros H. apply bind_ok in H as ([u s1] & _ & H). inversion H; subst. reflexivity.
  - intros H. apply bind_ok in H as ([u s1] & _ & H). inversion H; subst. reflexivity.
  - intros H. apply bind_ok in H as ([u s1] & _ & H). inversion H; subst. reflexivity.
  - unfold read_raw. destruct (_ <? _) eqn:L; [discriminate|]. intros H.
    assert (cell = firstn (Z.to_nat (8 * c_dsd k)) s) as -> by congruence. rewrite firstn_length. lia.
  - intros H. apply bind_ok in H as ([u s1] & _ & H). destruct (_ <=? u); [discriminate|]. 
    assert (cell = pad (Z.to_nat (8 * c_dsd k)) (nth (Z.to_nat u) (c_strings k) [])) as -> by congruence.
    rewrite pad_length. lia.
  - intros H. apply bind_ok in H as ([u s1] & _ & H). destruct (_ <=? u); [discriminate|]. 
    assert (cell = pad (Z.to_nat (8 * c_dsd k)) (nth (Z.to_nat u) (c_strings k) [])) as -> by congruence.
    rewrite pad_length. lia.
Qed.

(** ** Storable columns *)

Lemma until_nul_pad n s : (List.length s <= n)%nat -> until_nul s = s -> until_nul (pad n s) = s.
Proof.
  intros L H. unfold pad. rewrite firstn_all2 by assumption. revert H. clear L.
  generalize (n - List.length s)%nat as m. induction s as [|b s IH]; intros m H.
  - cbn. destruct m; reflexivity.
  - cbn [until_nul app] in *. destruct (b =? 0); [discriminate|]. injection H as H. now rewrite IH.
Qed.

Lemma until_nul_idem s : until_nul (until_nul s) = until_nul s.
Proof. induction s as [|b s IH]; cbn; [reflexivity|]. destruct (b =? 0) eqn:E; [reflexivity|]. cbn. now rewrite E, IH. Qed.

Theorem storable_rt st st' ci cells : storable st ci cells ->
  exists outs, (forall o, column_rt st st' o ci cells outs) /\ Forall2 (same_value st st' (ci_type ci)) cells outs.
Proof.
  intros [ns T S R|bs T S N R|bs T S N R1 R2|dsd cs T S D1 D2 L B D R].
  - eexists. split; [intros o; apply column_int; assumption|]. apply Forall2_map. intros n Hn. left. split; [assumption|]. exists n. split; [|auto]. destruct R as (Rm & _). exact (proj1 (Forall_forall _ _) Rm n Hn).
  - destruct (column_real st ci bs T S N st' R) as (outs & O1 & O2 & O3). eexists. split; [exact O3|].
    clear O3 R. induction O2 as [|v w bs ws H O2 IH]; cbn [map]; constructor.
    + inversion N; inversion O1; subst. right. left. split; [assumption|]. exists v, w. repeat split; auto; apply H2 || apply H6 || idtac.
      all: try apply H2; try apply H6.
    + inversion N; inversion O1; subst. auto.
  - eexists. split; [intros o; apply column_double; assumption|]. apply Forall2_map. intros b _. right. right. left. auto.
  - destruct (column_string st st' ci cs dsd T S D1 D2 L B D R) as (w & W1 & W2 & W3). eexists. split; [exact W3|].
    rewrite <- (map_id cs) at 1. apply Forall2_map. intros c Hc. right. right. right. split; [assumption|].
    rewrite until_nul_pad; [reflexivity| |apply until_nul_idem].
    specialize (W2 (until_nul c)). unfold texts in W2. pose proof (W2 (in_map until_nul cs c Hc)). lia.
Qed.
