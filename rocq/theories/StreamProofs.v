(** Lemmas about bytes and streams. *)
From Verif Require Import Spec Base Stream.

Lemma le_bytes_length n z : length (le_bytes n z) = n.
Proof. revert z; induction n; intros; cbn; auto. Qed.

Lemma le_bytes_ok n z : bytes_ok (le_bytes n z).
Proof.
  revert z; induction n as [|n IH]; intros; cbn [le_bytes]; [constructor|].
  constructor; [unfold is_byte; lia|apply IH].
Qed.

Lemma le_val_le_bytes n z : le_val (le_bytes n z) = z mod 256 ^ Z.of_nat n.
Proof.
  revert z; induction n as [|n IH]; intros z.
  - cbn. now rewrite Z.mod_1_r.
  - cbn [le_bytes le_val]. rewrite IH.
    replace (Z.of_nat (S n)) with (1 + Z.of_nat n) by lia.
    rewrite Z.pow_add_r by lia. change (256 ^ 1) with 256.
    rewrite Z.rem_mul_r by (try apply Z.pow_pos_nonneg; lia). reflexivity.
Qed.

Lemma le_val_small n z : 0 <= z < 256 ^ Z.of_nat n -> le_val (le_bytes n z) = z.
Proof. intros. rewrite le_val_le_bytes. apply Z.mod_small; lia. Qed.

Lemma le_val_bound l : bytes_ok l -> 0 <= le_val l < 256 ^ Z.of_nat (length l).
Proof.
  induction 1 as [|b l Hb Hl IH]; [cbn; lia|].
  cbn [le_val length]. replace (Z.of_nat (S (length l))) with (1 + Z.of_nat (length l)) by lia.
  rewrite Z.pow_add_r by lia. change (256 ^ 1) with 256. unfold is_byte in Hb. lia.
Qed.

Lemma le_bytes_le_val l : bytes_ok l -> le_bytes (length l) (le_val l) = l.
Proof.
  induction 1 as [|b l Hb Hl IH]; [reflexivity|].
  cbn [le_val length le_bytes]. unfold is_byte in Hb. f_equal.
  - rewrite Z.mul_comm, Z.mod_add by lia. apply Z.mod_small; lia.
  - rewrite Z.mul_comm, Z.div_add, Z.div_small by lia. rewrite Z.add_0_l. exact IH.
Qed.

Lemma swap_length o l : length (swap o l) = length l.
Proof. destruct o; cbn; auto using rev_length. Qed.
Lemma swap_swap o l : swap o (swap o l) = l.
Proof. destruct o; cbn; auto using rev_involutive. Qed.
Lemma swap_ok o l : bytes_ok l -> bytes_ok (swap o l).
Proof. destruct o; cbn; auto. unfold bytes_ok. apply Forall_rev. Qed.
Lemma w_int_length o n z : length (w_int o n z) = n.
Proof. unfold w_int. now rewrite swap_length, le_bytes_length. Qed.
Lemma w_int_ok o n z : bytes_ok (w_int o n z).
Proof. apply swap_ok, le_bytes_ok. Qed.

Lemma bytes_eqb_eq a b : bytes_eqb a b = true <-> a = b.
Proof.
  revert b; induction a as [|x a IH]; destruct b as [|y b]; cbn; try (split; congruence).
  rewrite andb_true_iff, IH, Z.eqb_eq. split; [intros [-> ->]; auto|intros [= -> ->]; auto].
Qed.
Lemma bytes_eqb_refl a : bytes_eqb a a = true.
Proof. now apply bytes_eqb_eq. Qed.
Lemma bytes_eqb_neq a b : bytes_eqb a b = false <-> a <> b.
Proof.
  rewrite <- bytes_eqb_eq. destruct (bytes_eqb a b); split; congruence.
Qed.
Lemma bytes_eqb_sym a b : bytes_eqb a b = bytes_eqb b a.
Proof.
  destruct (bytes_eqb b a) eqn:E.
  - apply bytes_eqb_eq in E. subst. apply bytes_eqb_refl.
  - apply bytes_eqb_neq. apply bytes_eqb_neq in E. congruence.
Qed.

(** ** Reads undo writes *)

Lemma read_raw_app n l rest : n = Z.of_nat (length l) -> read_raw n (l ++ rest) = Ok (l, rest).
Proof.
  intros ->. unfold read_raw. rewrite app_length.
  destruct (Z.ltb_spec (Z.of_nat (length l + length rest)) (Z.of_nat (length l))); [lia|].
  rewrite Nat2Z.id. rewrite firstn_app, Nat.sub_diag, firstn_all, firstn_O, app_nil_r.
  rewrite skipn_app, Nat.sub_diag, skipn_all, skipn_O. reflexivity.
Qed.

(** A read either returns exactly the next bytes or throws. *)
Lemma read_raw_spec n s : 0 <= n ->
  match read_raw n s with
  | Ok (b, s') => s = b ++ s' /\ Z.of_nat (length b) = n
  | Throw e => e = EndOfStream /\ Z.of_nat (length s) < n
  | UB => False
  end.
Proof.
  intros H. unfold read_raw. destruct (Z.ltb_spec (Z.of_nat (length s)) n); [auto|].
  split; [symmetry; apply firstn_skipn|]. rewrite firstn_length. lia.
Qed.

Lemma read_uint_app o (n : nat) z rest : 0 <= z < 256 ^ Z.of_nat n ->
  read_uint o (Z.of_nat n) (w_int o n z ++ rest) = Ok (z, rest).
Proof.
  intros H. unfold read_uint. rewrite read_raw_app by (now rewrite w_int_length).
  cbn [bind]. unfold w_int. rewrite swap_swap, le_val_small by assumption. reflexivity.
Qed.

Lemma signed_mod b z : 0 < b -> - 2 ^ (b - 1) <= z < 2 ^ (b - 1) -> signed b (z mod 2 ^ b) = z.
Proof.
  intros Hb H. unfold signed.
  assert (E : 2 ^ b = 2 * 2 ^ (b - 1)).
  { replace b with (1 + (b - 1)) at 1 by lia. rewrite Z.pow_add_r by lia. reflexivity. }
  rewrite E. set (P := 2 ^ (b - 1)) in *. clearbody P.
  destruct (Z.ltb_spec z 0).
  - replace (z mod (2 * P)) with (z + 2 * P).
    + destruct (Z.ltb_spec (z + 2 * P) P); lia.
    + rewrite <- (Z.mod_add z 1) by lia. rewrite Z.mod_small; lia.
  - rewrite Z.mod_small by lia. destruct (Z.ltb_spec z P); lia.
Qed.

Lemma le_bytes_mod n z : le_bytes n (z mod 256 ^ Z.of_nat n) = le_bytes n z.
Proof.
  rewrite <- le_val_le_bytes. rewrite <- (le_bytes_length n z) at 1.
  apply le_bytes_le_val, le_bytes_ok.
Qed.

Lemma read_uint_mod o (n : nat) z rest :
  read_uint o (Z.of_nat n) (w_int o n z ++ rest) = Ok (z mod 256 ^ Z.of_nat n, rest).
Proof.
  unfold read_uint. rewrite read_raw_app by (now rewrite w_int_length).
  cbn [bind]. unfold w_int. rewrite swap_swap, le_val_le_bytes. reflexivity.
Qed.

Lemma read_i32_app o z rest : - 2 ^ 31 <= z < 2 ^ 31 ->
  read_i32 o (w_int o 4 z ++ rest) = Ok (z, rest).
Proof.
  intros H. unfold read_i32. change 4 with (Z.of_nat 4) at 1. rewrite read_uint_mod.
  cbn [bind]. change (256 ^ Z.of_nat 4) with (2 ^ 32). rewrite signed_mod by (cbn; lia). reflexivity.
Qed.

Lemma read_i64_app o z rest : - 2 ^ 63 <= z < 2 ^ 63 ->
  read_i64 o (w_int o 8 z ++ rest) = Ok (z, rest).
Proof.
  intros H. unfold read_i64. change 8 with (Z.of_nat 8) at 1. rewrite read_uint_mod.
  cbn [bind]. change (256 ^ Z.of_nat 8) with (2 ^ 64). rewrite signed_mod by (cbn; lia). reflexivity.
Qed.

Lemma read_f64_app o z rest : 0 <= z < 2 ^ 64 ->
  read_f64 o (w_int o 8 z ++ rest) = Ok (z, rest).
Proof. intros H. unfold read_f64. change 8 with (Z.of_nat 8) at 1. apply read_uint_app. exact H. Qed.


Lemma read_string_app o s rest : len31 s -> read_string o (w_string o s ++ rest) = Ok (s, rest).
Proof.
  intros H. unfold len31 in H. unfold read_string, w_string. rewrite <- app_assoc.
  rewrite read_i32_app by lia. cbn [bind].
  destruct (Z.ltb_spec (Z.of_nat (length s)) 0); [lia|]. now apply read_raw_app.
Qed.

Lemma read_n_app {A} (rd : reader A) (w : A -> list Z) (l : list A) fuel rest :
  (forall x r, In x l -> rd (w x ++ r) = Ok (x, r)) ->
  (length l <= fuel)%nat ->
  read_n rd fuel (Z.of_nat (length l)) (concat (map w l) ++ rest) = Ok (l, rest).
Proof.
  revert fuel. induction l as [|x l IH]; intros fuel H Hf.
  - destruct fuel; reflexivity.
  - destruct fuel as [|fuel]; [cbn in Hf; lia|].
    cbn [read_n map concat]. destruct (Z.leb_spec (Z.of_nat (length (x :: l))) 0); [cbn [length] in *; lia|].
    rewrite <- app_assoc. rewrite H by (now left). cbn [bind].
    replace (Z.of_nat (length (x :: l)) - 1) with (Z.of_nat (length l)) by (cbn [length]; lia).
    rewrite IH; [reflexivity| |cbn in Hf; lia]. intros; apply H; now right.
Qed.

Lemma concat_map_length_ge {A} (w : A -> list Z) (l : list A) :
  (forall x, In x l -> (1 <= length (w x))%nat) -> (length l <= length (concat (map w l)))%nat.
Proof.
  induction l as [|x l IH]; intros H; cbn; [lia|]. rewrite app_length.
  specialize (IH (fun y Hy => H y (or_intror Hy))). specialize (H x (or_introl eq_refl)). lia.
Qed.

Lemma read_vec_app {A} o (rd : reader A) (w : A -> list Z) (l : list A) rest :
  len31 l ->
  (forall x, In x l -> (1 <= length (w x))%nat) ->
  (forall x r, In x l -> rd (w x ++ r) = Ok (x, r)) ->
  read_vec o rd (w_vec o w l ++ rest) = Ok (l, rest).
Proof.
  intros H1 H2 H3. unfold read_vec, w_vec. rewrite <- app_assoc. unfold len31 in *.
  rewrite read_i32_app by lia. cbn [bind].
  destruct (Z.ltb_spec (Z.of_nat (length l)) 0); [lia|].
  apply read_n_app; [assumption|]. pose proof (concat_map_length_ge w l H2). rewrite app_length. lia.
Qed.

(** ** Maps *)

Lemma bytes_cmp_refl a : bytes_cmp a a = Eq.
Proof. induction a; cbn; [auto|]. now rewrite Z.compare_refl. Qed.

Lemma bytes_cmp_eq a b : bytes_cmp a b = Eq -> a = b.
Proof.
  revert b; induction a as [|x a IH]; destruct b as [|y b]; cbn; try congruence.
  destruct (Z.compare_spec x y); try congruence. intros; subst; f_equal; auto.
Qed.

Lemma bytes_cmp_antisym a b : bytes_cmp b a = CompOpp (bytes_cmp a b).
Proof.
  revert b; induction a as [|x a IH]; destruct b as [|y b]; cbn; auto.
  rewrite (Z.compare_antisym x y). destruct (x ?= y); cbn; auto.
Qed.

Lemma bytes_cmp_trans a b c : bytes_cmp a b = Lt -> bytes_cmp b c = Lt -> bytes_cmp a c = Lt.
Proof.
  revert b c; induction a as [|x a IH]; destruct b as [|y b]; destruct c as [|z c]; cbn; try congruence; auto.
  destruct (Z.compare_spec x y); try congruence; subst.
  - destruct (Z.compare_spec y z); try congruence; subst; intros; eauto.
  - destruct (Z.compare_spec y z); try congruence; subst; intros;
      destruct (Z.compare_spec x z); auto; lia.
Qed.

Lemma msorted_all {V} k (v : V) m : msorted ((k, v) :: m) -> Forall (fun kv => bytes_cmp k (fst kv) = Lt) m.
Proof.
  revert k v. induction m as [|[k' v'] m IH]; intros k v H; [constructor|].
  cbn in H. destruct H as [H1 H2]. constructor; [exact H1|].
  specialize (IH k' v' H2). eapply Forall_impl; [|exact IH]. cbn. intros a Ha.
  eapply bytes_cmp_trans; eassumption.
Qed.

Lemma memplace_last {V} (m : smap V) k v :
  Forall (fun kv => bytes_cmp (fst kv) k = Lt) m -> memplace m k v = m ++ [(k, v)].
Proof.
  induction 1 as [|[k' v'] m H1 H2 IH]; cbn; [reflexivity|].
  cbn in H1. rewrite bytes_cmp_antisym, H1. cbn. now rewrite IH.
Qed.

Lemma fold_memplace_sorted {V} (m acc : smap V) :
  msorted m -> (forall kv kv', In kv acc -> In kv' m -> bytes_cmp (fst kv) (fst kv') = Lt) ->
  fold_left (fun m kv => memplace m (fst kv) (snd kv)) m acc = acc ++ m.
Proof.
  revert acc; induction m as [|[k v] m IH]; intros acc Hs Hl; cbn [fold_left].
  - now rewrite app_nil_r.
  - cbn [fst snd]. rewrite memplace_last.
    + rewrite IH; [now rewrite <- app_assoc| |].
      * cbn in Hs; tauto.
      * intros kv kv' Hin Hin'. apply in_app_or in Hin as [Hin|[<-|[]]].
        { apply Hl; [assumption|now right]. }
        { apply msorted_all in Hs. rewrite Forall_forall in Hs. now apply Hs. }
    + apply Forall_forall. intros kv Hin. apply (Hl kv (k, v)); [assumption|now left].
Qed.


Lemma read_map_app o m rest : props_ok m -> read_map o (w_map o m ++ rest) = Ok (m, rest).
Proof.
  intros (Hs & Hl & Hf). unfold read_map, w_map, w_vec. rewrite <- app_assoc.
  unfold len31 in *. rewrite read_i32_app by lia. cbn [bind].
  rewrite read_n_app.
  - cbn [bind]. rewrite fold_memplace_sorted; [reflexivity|assumption|intros ? ? []].
  - intros [k v] r Hin. rewrite Forall_forall in Hf. specialize (Hf _ Hin). cbn [fst snd] in *.
    unfold read_pair. rewrite <- app_assoc. rewrite read_string_app by tauto. cbn [bind].
    rewrite read_string_app by tauto. reflexivity.
  - rewrite app_length.
    pose proof (concat_map_length_ge (fun kv : list Z * list Z => w_string o (fst kv) ++ w_string o (snd kv)) m).
    assert (length m <= length (concat (map (fun kv : list Z * list Z => w_string o (fst kv) ++ w_string o (snd kv)) m)))%nat; [|lia].
    apply H. intros. unfold w_string. rewrite !app_length, !w_int_length. lia.
Qed.

Lemma mget_none_lt {V} (m : smap V) k :
  Forall (fun kv => bytes_cmp k (fst kv) = Lt) m -> mget m k = None.
Proof.
  induction 1 as [|[k' v'] m H1 H2 IH]; cbn; [reflexivity|].
  cbn in H1. destruct (bytes_eqb k k') eqn:E; [|exact IH].
  apply bytes_eqb_eq in E; subst. rewrite bytes_cmp_refl in H1. discriminate.
Qed.

Lemma mget_memplace {V} (m : smap V) k v k' : msorted m ->
  mget (memplace m k v) k' =
  if bytes_eqb k' k then (match mget m k with Some w => Some w | None => Some v end) else mget m k'.
Proof.
  induction m as [|[k0 v0] m IH]; intros Hs.
  - cbn. destruct (bytes_eqb k' k) eqn:E; reflexivity.
  - pose proof (msorted_all _ _ _ Hs) as Ha.
    cbn [memplace]. destruct (bytes_cmp k k0) eqn:C.
    + apply bytes_cmp_eq in C; subst k0. cbn [mget]. rewrite bytes_eqb_refl.
      destruct (bytes_eqb k' k) eqn:E; reflexivity.
    + assert (N : mget ((k0, v0) :: m) k = None).
      { apply mget_none_lt. constructor; [exact C|].
        eapply Forall_impl; [|exact Ha]. cbn; intros. eapply bytes_cmp_trans; eassumption. }
      rewrite N. cbn [mget]. reflexivity.
    + assert (E2 : bytes_eqb k k0 = false).
      { apply bytes_eqb_neq; intros ->. now rewrite bytes_cmp_refl in C. }
      cbn [mget]. rewrite E2, IH by (cbn in Hs; tauto).
      destruct (bytes_eqb k' k) eqn:E; [|reflexivity].
      apply bytes_eqb_eq in E; subst k'. now rewrite E2.
Qed.

Lemma memplace_keys_ge {V} (m : smap V) k v k0 :
  bytes_cmp k0 k = Lt -> Forall (fun kv => bytes_cmp k0 (fst kv) = Lt) m ->
  Forall (fun kv => bytes_cmp k0 (fst kv) = Lt) (memplace m k v).
Proof.
  intros H1 H2. induction H2 as [|[k' v'] m H3 H4 IH]; cbn; [constructor; auto|].
  destruct (bytes_cmp k k'); repeat constructor; auto.
Qed.

Lemma msorted_cons {V} k (v : V) m :
  Forall (fun kv => bytes_cmp k (fst kv) = Lt) m -> msorted m -> msorted ((k, v) :: m).
Proof. intros H1 H2. destruct m as [|[k' v'] m]; cbn in *; [auto|]. inversion H1; subst. auto. Qed.

Lemma memplace_sorted {V} (m : smap V) k v : msorted m -> msorted (memplace m k v).
Proof.
  induction m as [|[k0 v0] m IH]; intros Hs; [cbn; auto|].
  pose proof (msorted_all _ _ _ Hs) as Ha.
  cbn [memplace]. destruct (bytes_cmp k k0) eqn:C; [assumption| |].
  - apply msorted_cons; [|assumption]. constructor; [exact C|].
    eapply Forall_impl; [|exact Ha]. cbn; intros. eapply bytes_cmp_trans; eassumption.
  - apply msorted_cons; [|apply IH; cbn in Hs; tauto].
    apply memplace_keys_ge; [|assumption]. rewrite bytes_cmp_antisym, C. reflexivity.
Qed.

Lemma mget_mset {V} (m : smap V) k v k' : msorted m ->
  mget (mset m k v) k' = if bytes_eqb k' k then Some v else mget m k'.
Proof.
  induction m as [|[k0 v0] m IH]; intros Hs.
  - cbn. destruct (bytes_eqb k' k) eqn:E; reflexivity.
  - cbn [mset]. destruct (bytes_cmp k k0) eqn:C.
    + apply bytes_cmp_eq in C; subst k0. cbn [mget].
      destruct (bytes_eqb k' k) eqn:E; reflexivity.
    + cbn [mget]. reflexivity.
    + cbn [mget]. rewrite IH by (cbn in Hs; tauto).
      destruct (bytes_eqb k' k) eqn:E; [|reflexivity].
      apply bytes_eqb_eq in E; subst k'.
      destruct (bytes_eqb k k0) eqn:E2; [|reflexivity].
      apply bytes_eqb_eq in E2; subst. now rewrite bytes_cmp_refl in C.
Qed.

Lemma mset_keys_ge {V} (m : smap V) k v k0 :
  bytes_cmp k0 k = Lt -> Forall (fun kv => bytes_cmp k0 (fst kv) = Lt) m ->
  Forall (fun kv => bytes_cmp k0 (fst kv) = Lt) (mset m k v).
Proof.
  intros H1 H2. induction H2 as [|[k' v'] m H3 H4 IH]; cbn; [constructor; auto|].
  destruct (bytes_cmp k k'); repeat constructor; auto.
Qed.

Lemma mset_sorted {V} (m : smap V) k v : msorted m -> msorted (mset m k v).
Proof.
  induction m as [|[k0 v0] m IH]; intros Hs; [cbn; auto|].
  pose proof (msorted_all _ _ _ Hs) as Ha.
  cbn [mset]. destruct (bytes_cmp k k0) eqn:C.
  - apply bytes_cmp_eq in C; subst k0. apply msorted_cons; [assumption|cbn in Hs; tauto].
  - apply msorted_cons; [|assumption]. constructor; [exact C|].
    eapply Forall_impl; [|exact Ha]. cbn; intros. eapply bytes_cmp_trans; eassumption.
  - apply msorted_cons; [|apply IH; cbn in Hs; tauto].
    apply mset_keys_ge; [|assumption]. rewrite bytes_cmp_antisym, C. reflexivity.
Qed.

Lemma mset_length {V} (m : smap V) k v : (length (mset m k v) <= S (length m))%nat.
Proof. induction m as [|[k0 v0] m IH]; cbn; [lia|]. destruct (bytes_cmp k k0); cbn; lia. Qed.

Lemma mset_forall {V} (P : list Z * V -> Prop) (m : smap V) k v :
  P (k, v) -> Forall P m -> Forall P (mset m k v).
Proof.
  intros H1 H2. induction H2 as [|[k' v'] m H3 H4 IH]; cbn; [constructor; auto|].
  destruct (bytes_cmp k k'); repeat constructor; auto.
Qed.

(** ** Reads consume a prefix *)

(** [rd] only looks at a prefix of the stream: extending the stream does not
    change a successful read. *)
Definition prefix_reader {A} (rd : reader A) : Prop :=
  forall s a s' r, rd s = Ok (a, s') -> rd (s ++ r) = Ok (a, s' ++ r).

Lemma read_raw_prefix n : 0 <= n -> prefix_reader (read_raw n).
Proof.
  intros Hn s a s' r. unfold read_raw. rewrite app_length.
  destruct (Z.ltb_spec (Z.of_nat (length s)) n); [discriminate|].
  destruct (Z.ltb_spec (Z.of_nat (length s + length r)) n); [lia|].
  intros [= <- <-]. rewrite firstn_app, skipn_app.
  replace (Z.to_nat n - length s)%nat with 0%nat by lia. cbn [firstn skipn]. now rewrite app_nil_r.
Qed.
