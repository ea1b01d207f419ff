(** Readers take a prefix of the stream and look at nothing else. *)
From Verif Require Import Base Stream StreamProofs.

(** [rd] succeeds by consuming a prefix [b] of the stream, and its result depends on
    [b] only. *)
Definition local {A} (rd : reader A) : Prop :=
  forall s a s', rd s = Ok (a, s') ->
    exists b, s = b ++ s' /\ forall r, rd (b ++ r) = Ok (a, r).

(** the same, with at least one byte consumed *)
Definition slocal {A} (rd : reader A) : Prop :=
  forall s a s', rd s = Ok (a, s') ->
    exists b, b <> [] /\ s = b ++ s' /\ forall r, rd (b ++ r) = Ok (a, r).

Lemma slocal_local {A} (rd : reader A) : slocal rd -> local rd.
Proof. intros H s a s' E. destruct (H _ _ _ E) as (b & _ & H1 & H2). eauto. Qed.

Lemma bind_ok {A B} (x : outcome A) (f : A -> outcome B) b :
  bind x f = Ok b -> exists a, x = Ok a /\ f a = Ok b.
Proof. destruct x; cbn; try discriminate. eauto. Qed.

Lemma read_raw_local n : 0 <= n -> local (read_raw n).
Proof.
  intros Hn s a s' E. pose proof (read_raw_spec n s Hn) as H. rewrite E in H.
  destruct H as [H1 H2]. exists a. split; [assumption|]. intros r. now apply read_raw_app.
Qed.

Lemma read_raw_slocal n : 0 < n -> slocal (read_raw n).
Proof.
  intros Hn s a s' E. pose proof (read_raw_spec n s ltac:(lia)) as H. rewrite E in H.
  destruct H as [H1 H2]. exists a. split; [|split; [assumption|]].
  - intros ->. cbn in H2. lia.
  - intros r. now apply read_raw_app.
Qed.

Lemma read_uint_slocal o n : 0 < n -> slocal (read_uint o n).
Proof.
  intros Hn s a s' E. unfold read_uint in *. apply bind_ok in E. destruct E as ([b s1] & E1 & E2).
  inversion E2; subst. destruct (read_raw_slocal n Hn _ _ _ E1) as (b' & H1 & H2 & H3).
  exists b'. split; [assumption|]. split; [assumption|]. intros r. rewrite H3. reflexivity.
Qed.

Lemma slocal_map {A B} (rd : reader A) (f : A -> B) :
  slocal rd -> slocal (fun s => do (u, s') <- rd s; Ok (f u, s')).
Proof.
  intros H s a s' E. apply bind_ok in E. destruct E as ([u s1] & E1 & E2). inversion E2; subst.
  destruct (H _ _ _ E1) as (b & H1 & H2 & H3). exists b. repeat split; auto. intros r. now rewrite H3.
Qed.

Lemma read_i32_slocal o : slocal (read_i32 o).
Proof. apply (slocal_map (read_uint o 4) (signed 32)). apply read_uint_slocal. lia. Qed.
Lemma read_i64_slocal o : slocal (read_i64 o).
Proof. apply (slocal_map (read_uint o 8) (signed 64)). apply read_uint_slocal. lia. Qed.
Lemma read_f64_slocal o : slocal (read_f64 o).
Proof. apply read_uint_slocal. lia. Qed.

(** sequencing *)
Lemma slocal_seq {A B} (rd : reader A) (k : A -> reader B) :
  slocal rd -> (forall a, local (k a)) -> slocal (fun s => do (a, s1) <- rd s; k a s1).
Proof.
  intros H1 H2 s a s' E. apply bind_ok in E. destruct E as ([u s1] & E1 & E2).
  destruct (H1 _ _ _ E1) as (b & N & -> & L).
  destruct (H2 _ _ _ _ E2) as (b' & -> & L').
  exists (b ++ b'). split; [|split].
  - destruct b; [congruence|discriminate].
  - now rewrite app_assoc.
  - intros r. rewrite <- app_assoc, L. cbn [bind]. apply L'.
Qed.

Lemma local_seq {A B} (rd : reader A) (k : A -> reader B) :
  local rd -> (forall a, local (k a)) -> local (fun s => do (a, s1) <- rd s; k a s1).
Proof.
  intros H1 H2 s a s' E. apply bind_ok in E. destruct E as ([u s1] & E1 & E2).
  destruct (H1 _ _ _ E1) as (b & -> & L).
  destruct (H2 _ _ _ _ E2) as (b' & -> & L').
  exists (b ++ b'). split; [now rewrite app_assoc|].
  intros r. rewrite <- app_assoc, L. cbn [bind]. apply L'.
Qed.

Lemma local_ret {A} (a : A) : local (fun s => Ok (a, s)).
Proof. intros s a' s' E. inversion E; subst. exists []. split; auto. Qed.

Lemma local_throw {A} e : local (fun _ : list Z => @Throw (A * list Z) e).
Proof. intros s a s' E. discriminate. Qed.

Lemma local_ub {A} : local (fun _ : list Z => @UB (A * list Z)).
Proof. intros s a s' E. discriminate. Qed.

Lemma read_string_slocal o : slocal (read_string o).
Proof.
  apply (slocal_seq (read_i32 o) (fun n s1 => if n <? 0 then Throw BadAlloc else read_raw n s1)).
  - apply read_i32_slocal.
  - intros n. destruct (Z.ltb_spec n 0); [apply local_throw|]. apply read_raw_local. lia.
Qed.

(** the fuel of [read_n] never decides the result *)
Lemma read_n_local {A} (rd : reader A) : slocal rd ->
  forall fuel n s xs s', read_n rd fuel n s = Ok (xs, s') ->
    exists b, s = b ++ s' /\
      forall r f', (length b < f')%nat -> read_n rd f' n (b ++ r) = Ok (xs, r).
Proof.
  intros H. induction fuel as [|fuel IH]; intros n s xs s' E; cbn [read_n] in E.
  - destruct (n <=? 0) eqn:C; [|discriminate]. inversion E; subst. exists []. split; [reflexivity|].
    intros r f' Hf. destruct f'; cbn [read_n]; now rewrite C.
  - destruct (n <=? 0) eqn:C.
    + inversion E; subst. exists []. split; [reflexivity|]. intros r f' Hf. destruct f'; cbn [read_n]; now rewrite C.
    + apply bind_ok in E. destruct E as ([x s1] & E1 & E2).
      apply bind_ok in E2. destruct E2 as ([ys s2] & E2 & E3). inversion E3; subst.
      destruct (H _ _ _ E1) as (b & N & -> & L). destruct (IH _ _ _ _ E2) as (b' & -> & L').
      exists (b ++ b'). split; [now rewrite app_assoc|].
      intros r f' Hf. rewrite app_length in Hf. destruct b as [|z b]; [congruence|]. cbn [length] in Hf.
      destruct f' as [|f']; [lia|]. cbn [read_n]. rewrite C. rewrite <- app_assoc.
      rewrite L. cbn [bind]. rewrite L' by lia. reflexivity.
Qed.

Lemma read_vec_slocal {A} o (rd : reader A) : slocal rd -> slocal (read_vec o rd).
Proof.
  intros H s a s' E. unfold read_vec in E. apply bind_ok in E. destruct E as ([n s1] & E1 & E2).
  destruct (read_i32_slocal o _ _ _ E1) as (b & N & -> & L).
  destruct (n <? 0) eqn:C; [discriminate|].
  destruct (read_n_local rd H _ _ _ _ _ E2) as (b' & -> & L').
  exists (b ++ b'). split; [destruct b; [congruence|discriminate]|]. split; [now rewrite app_assoc|].
  intros r. unfold read_vec. rewrite <- app_assoc, L. cbn [bind]. rewrite C. apply L'.
  rewrite app_length. lia.
Qed.

Lemma read_pair_slocal o : slocal (read_pair o).
Proof.
  apply (slocal_seq (read_string o) (fun k s1 => do (v, s2) <- read_string o s1; Ok ((k, v), s2))).
  - apply read_string_slocal.
  - intros k. apply slocal_local. apply (slocal_map (read_string o) (fun v => (k, v))).
    apply read_string_slocal.
Qed.

Lemma read_map_slocal o : slocal (read_map o).
Proof.
  intros s a s' E. unfold read_map in E. apply bind_ok in E. destruct E as ([n s1] & E1 & E2).
  apply bind_ok in E2. destruct E2 as ([kvs s2] & E2 & E3). inversion E3; subst.
  destruct (read_i32_slocal o _ _ _ E1) as (b & N & -> & L).
  destruct (read_n_local _ (read_pair_slocal o) _ _ _ _ _ E2) as (b' & -> & L').
  exists (b ++ b'). split; [destruct b; [congruence|discriminate]|]. split; [now rewrite app_assoc|].
  intros r. unfold read_map. rewrite <- app_assoc, L. cbn [bind]. rewrite L' by (rewrite app_length; lia).
  reflexivity.
Qed.

(** the number of elements read *)
Lemma read_n_length {A} (rd : reader A) fuel n s xs s' :
  read_n rd fuel n s = Ok (xs, s') -> Z.of_nat (length xs) = Z.max 0 n.
Proof.
  revert n s xs s'. induction fuel as [|fuel IH]; intros n s xs s' E; cbn [read_n] in E.
  - destruct (Z.leb_spec n 0); [|discriminate]. inversion E; subst. cbn. lia.
  - destruct (Z.leb_spec n 0); [inversion E; subst; cbn; lia|].
    apply bind_ok in E. destruct E as ([x s1] & E1 & E2).
    apply bind_ok in E2. destruct E2 as ([ys s2] & E2 & E3). inversion E3; subst.
    apply IH in E2. cbn [length]. lia.
Qed.
