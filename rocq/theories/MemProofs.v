(** The decoder on arrays does to memory what the decoder of Table.v does to lists of
    elements, and touches nothing else. *)
From Verif Require Import Base Fp Stream Codec Meta Header Table TableProofs Strided P_Strided MemDecode.
Open Scope Z_scope.

(** the elements of an array *)
Definition view (m : mem) (s : strided) : list (list Z) :=
  map (fun r => load m (byte_of s (Z.of_nat r) 0) (Z.to_nat (s_size s))) (seq 0 (Z.to_nat (s_nelem s))).

Definition in_array (s : strided) (x : Z) : Prop := exists row k, 0 <= row < s_nelem s /\ 0 <= k < s_size s /\ x = byte_of s row k.
Definition disjoint (s s' : strided) : Prop := forall x, in_array s x -> in_array s' x -> False.
Definition good (s : strided) : Prop := separate s /\ 0 <= s_nelem s < 2 ^ 31.

Lemma view_length m s : length (view m s) = Z.to_nat (s_nelem s).
Proof. unfold view. now rewrite map_length, seq_length. Qed.

Lemma view_nth m s r d : (r < Z.to_nat (s_nelem s))%nat -> nth r (view m s) d = load m (byte_of s (Z.of_nat r) 0) (Z.to_nat (s_size s)).
Proof.
  intros H. rewrite (nth_indep _ d (load m (byte_of s (Z.of_nat 0) 0) (Z.to_nat (s_size s)))) by now rewrite view_length.
  unfold view. rewrite (map_nth (fun r => load m (byte_of s (Z.of_nat r) 0) (Z.to_nat (s_size s)))), seq_nth by assumption. reflexivity.
Qed.

Lemma view_ext m m' s : (forall x, in_array s x -> m' x = m x) -> view m' s = view m s.
Proof.
  intros H. unfold view. apply map_ext_in. intros r Hr. apply in_seq in Hr. apply load_ext. intros k Hk. apply H.
  exists (Z.of_nat r), (Z.of_nat k). split; [lia|]. split; [lia|]. unfold byte_of. lia.
Qed.

Lemma nth_ext_list {A} (l l' : list A) d : length l = length l' -> (forall i, (i < length l)%nat -> nth i l d = nth i l' d) -> l = l'.
Proof. intros. eapply nth_ext; eauto. Qed.

Lemma load_store_same m a b n : (n = length b)%nat -> load (store m a b) a n = b.
Proof.
  intros ->. apply (nth_ext_list _ _ 0); rewrite load_length; [reflexivity|]. intros i Hi. rewrite load_nth by assumption.
  rewrite store_in by lia. f_equal. lia.
Qed.

(** storing bytes at the head of an element *)
Lemma store_view m s row b : good s -> (row < Z.to_nat (s_nelem s))%nat -> Z.of_nat (length b) <= s_size s ->
  let m' := store m (get s (Z.of_nat row)) b in
  view m' s = list_set (view m s) row (b ++ skipn (length b) (nth row (view m s) [])) /\
  (forall x, ~ in_array s x -> m' x = m x).
Proof.
  intros [Sep Hn] Hr Hb m'. assert (G : get s (Z.of_nat row) = byte_of s (Z.of_nat row) 0) by (rewrite get_row by lia; unfold byte_of; lia).
  unfold m'. rewrite G. split.
  - apply (nth_ext_list _ _ []); rewrite ?list_set_length, !view_length; [reflexivity|]. intros i Hi. rewrite view_nth by assumption.
    rewrite nth_list_set by (now rewrite view_length). destruct (Nat.eqb_spec i row) as [->|N].
    + apply (nth_ext_list _ _ 0).
      { rewrite load_length, app_length, skipn_length, view_nth by assumption. rewrite load_length. lia. }
      rewrite load_length. intros k Hk. rewrite load_nth by assumption.
      destruct (Nat.lt_ge_cases k (length b)) as [L|L].
      * rewrite store_in by (unfold byte_of in *; lia). rewrite app_nth1 by assumption. f_equal. lia.
      * rewrite store_out by lia. rewrite app_nth2 by assumption. rewrite nth_skipn.
        rewrite view_nth by assumption. rewrite load_nth by lia. f_equal. lia.
    + rewrite view_nth by assumption. apply load_ext. intros k Hk. apply store_out. unfold byte_of. destruct Sep. nia.
  - intros x Hx. apply store_out. intros C. apply Hx. exists (Z.of_nat row), (x - byte_of s (Z.of_nat row) 0). unfold byte_of in *. lia.
Qed.

(** filling *)
Lemma fill_view m s src fin : good s -> (src <= fin)%nat -> (fin < Z.to_nat (s_nelem s))%nat ->
  exists m', exec_op (OFill s src fin) m = Ok m' /\ view m' s = fill_elems (view m s) src fin /\ (forall x, ~ in_array s x -> m' x = m x).
Proof.
  intros [Sep Hn] H1 H2. destruct (C26_fill s (Z.of_nat src) (Z.of_nat fin) m Sep ltac:(lia) ltac:(lia)) as (m' & [F1 F2] & L).
  exists m'. cbn [exec_op]. rewrite L by lia. split; [reflexivity|]. split.
  - apply (nth_ext_list _ _ []).
    { unfold fill_elems. rewrite !app_length, firstn_length, repeat_length, skipn_length, !view_length. lia. }
    rewrite view_length. intros i Hi. rewrite view_nth by assumption. unfold fill_elems.
    destruct (Nat.lt_ge_cases i (S src)) as [A|A].
    { rewrite app_nth1 by (rewrite firstn_length, view_length; lia). rewrite TableProofs.nth_firstn by assumption. rewrite view_nth by assumption.
      apply load_ext. intros k Hk. apply F2. intros row k' Hrow Hk'. unfold byte_of. destruct Sep. nia. }
    rewrite app_nth2 by (rewrite firstn_length, view_length; lia). rewrite firstn_length, view_length. replace (i - Nat.min (S src) _)%nat with (i - S src)%nat by lia.
    destruct (Nat.lt_ge_cases i (S fin)) as [B|B].
    + rewrite app_nth1 by (rewrite repeat_length; lia). rewrite (nth_indep _ [] (nth src (view m s) [])) by (rewrite repeat_length; lia). rewrite nth_repeat.
      rewrite view_nth by lia. unfold load. apply map_ext_in. intros k Hk. apply in_seq in Hk.
      specialize (F1 (Z.of_nat i) (Z.of_nat k) ltac:(lia) ltac:(lia)). unfold byte_of in *. rewrite !Z.add_0_r. exact F1.
    + rewrite app_nth2 by (rewrite repeat_length; lia). rewrite repeat_length, nth_skipn. replace (S fin + (i - S src - (fin - src)))%nat with i by lia.
      rewrite view_nth by assumption. apply load_ext. intros k Hk. apply F2. intros row k' Hrow Hk'. unfold byte_of. destruct Sep. nia.
  - intros x Hx. apply F2. intros row k Hrow Hk E. apply Hx. exists row, k. split; [lia|]. split; assumption.
Qed.

(** ** Simulation *)

Definition agree (m : mem) (c : mcol) (d : dcol) : Prop :=
  m_codec c = d_codec d /\ m_last c = d_last d /\
  match m_arr c, d_fac d with
  | None, None => True
  | Some s, Some f => good s /\ f_size f = s_size s /\ f_elems f = view m s
  | _, _ => False
  end.

Definition outside (arrs : list (option strided)) (x : Z) : Prop := forall s, In (Some s) arrs -> ~ in_array s x.

(** an access that stays within one of the arrays *)
Definition inside (arrs : list (option strided)) (o : op) : Prop :=
  match o with
  | OStore s row b => In (Some s) arrs /\ good s /\ (row < Z.to_nat (s_nelem s))%nat /\ Z.of_nat (length b) <= s_size s
  | OFill s src fin => In (Some s) arrs /\ good s /\ (src <= fin)%nat /\ (fin < Z.to_nat (s_nelem s))%nat
  end.

Definition simulates {A B} (arrs : list (option strided)) (m : mem) (tr : traced A) (y : outcome B) (Q : A -> B -> mem -> Prop) : Prop :=
  match y with
  | UB => True
  | Throw e => snd tr = Throw e /\ Forall (inside arrs) (fst tr) /\ exists m', exec (fst tr) m = Ok m' /\ forall x, outside arrs x -> m' x = m x
  | Ok b => exists a m', snd tr = Ok a /\ Forall (inside arrs) (fst tr) /\ exec (fst tr) m = Ok m' /\ (forall x, outside arrs x -> m' x = m x) /\ Q a b m'
  end.

Lemma exec_app a b m : exec (a ++ b) m = do m' <- exec a m; exec b m'.
Proof.
  revert m; induction a as [|o a IH]; intros m; cbn [app exec]; [reflexivity|]. destruct (exec_op o m); cbn [bind]; [apply IH|reflexivity|reflexivity].
Qed.

Lemma sim_ret {A B} arrs m (a : A) (b : B) (Q : A -> B -> mem -> Prop) : Q a b m -> simulates arrs m (tret a) (Ok b) Q.
Proof. intros H. exists a, m. cbn. repeat split; auto. Qed.

Lemma sim_bind {A B A' B'} arrs m (tr : traced A) (y : outcome B) (f : A -> traced A') (g : B -> outcome B') Q Q' :
  simulates arrs m tr y Q -> (forall a b m', Q a b m' -> simulates arrs m' (f a) (g b) Q') -> simulates arrs m (tbind tr f) (bind y g) Q'.
Proof.
  intros H F. destruct tr as [ops r]. destruct y as [b|e|]; cbn [simulates bind] in *; [| |exact I].
  - destruct H as (a & m1 & E & W & X & O & HQ). cbn [fst snd] in *. subst r. cbn [tbind]. specialize (F a b m1 HQ).
    destruct (f a) as [ops' r']. unfold simulates in *. destruct (g b) as [b'|e|]; [| |exact I]; cbn [fst snd] in *.
    + destruct F as (a' & m2 & E2 & W2 & X2 & O2 & HQ2). exists a', m2. split; [exact E2|]. split; [apply Forall_app; split; assumption|].
      split; [rewrite exec_app, X; exact X2|]. split; [|exact HQ2].
      intros x Hx. rewrite O2, O by assumption. reflexivity.
    + destruct F as (E2 & W2 & m2 & X2 & O2). split; [exact E2|]. split; [apply Forall_app; split; assumption|]. exists m2. split; [rewrite exec_app, X; exact X2|].
      intros x Hx. rewrite O2, O by assumption. reflexivity.
  - destruct H as (E & W & m1 & X & O). cbn [fst snd] in *. subst r. cbn [tbind fst snd]. split; [reflexivity|]. split; [exact W|]. eauto.
Qed.

Lemma sim_lift {A} arrs m (x : outcome A) : simulates arrs m (lift x) x (fun a b m' => a = b /\ m' = m).
Proof. destruct x as [a|e|]; cbn; [|split; [reflexivity|]; split; [constructor|]; eauto|exact I]. exists a, m. repeat split; auto. Qed.

Lemma sim_weaken {A B} arrs arrs' m (tr : traced A) (y : outcome B) (Q Q' : A -> B -> mem -> Prop) :
  simulates arrs m tr y Q -> (forall s, In (Some s) arrs -> In (Some s) arrs') ->
  (forall a b m', (forall x, outside arrs x -> m' x = m x) -> Q a b m' -> Q' a b m') -> simulates arrs' m tr y Q'.
Proof.
  intros H I0 F. assert (O : forall x, outside arrs' x -> outside arrs x) by (intros x Hx s Hs; apply Hx; auto).
  assert (W' : forall l, Forall (inside arrs) l -> Forall (inside arrs') l).
  { intros l Hl. eapply Forall_impl; [|exact Hl]. intros [s r b|s a b] Ho; cbn [inside] in *; destruct Ho; auto. }
  destruct y as [b|e|]; cbn [simulates] in *; [| |exact I].
  - destruct H as (a & m1 & E & W & X & Ou & HQ). exists a, m1. split; [exact E|]. split; [auto|]. split; [exact X|]. split; [intros; apply Ou; auto|]. now apply F.
  - destruct H as (E & W & m1 & X & Ou). split; [exact E|]. split; [auto|]. exists m1. split; [exact X|]. intros; apply Ou; auto.
Qed.

Definition arrays (cs : list mcol) : list (option strided) := map m_arr cs.

Definition cross (a b : list (option strided)) : Prop := forall s s', In (Some s) a -> In (Some s') b -> disjoint s s'.
Fixpoint apart (l : list (option strided)) : Prop :=
  match l with [] => True | a :: l' => cross [a] l' /\ apart l' end.

Lemma apart_app a b : apart (a ++ b) <-> apart a /\ apart b /\ cross a b.
Proof.
  induction a as [|x a IH]; cbn [app apart]; [split; [intros H; repeat split; auto; intros ? ? []|tauto]|].
  rewrite IH. split.
  - intros (C & A & B & X). repeat split; auto.
    + intros s s' H1 H2. apply C; [assumption|apply in_or_app; auto].
    + intros s s' [H1|H1] H2; [subst; apply C; [now left|apply in_or_app; auto]|now apply X].
  - intros ((C & A) & B & X). split; [|split; [exact A|split; [exact B|]]].
    + intros s s' [H1|[]] H2. apply in_app_or in H2 as [H2|H2]; [apply C; [now left|assumption]|apply X; [now left|assumption]].
    + intros s s' H1 H2. apply X; [now right|assumption].
Qed.

Lemma agree_kept m m' c d : agree m c d -> (forall s, m_arr c = Some s -> forall x, in_array s x -> m' x = m x) -> agree m' c d.
Proof.
  intros (A & B & C) H. split; [exact A|]. split; [exact B|]. destruct (m_arr c) as [s|], (d_fac d) as [f|]; auto.
  destruct C as (C1 & C2 & C3). split; [exact C1|]. split; [exact C2|]. rewrite C3. symmetry. apply view_ext. now apply H.
Qed.

Lemma agrees_kept m m' cs ds arrs : Forall2 (agree m) cs ds -> cross arrs (arrays cs) -> (forall x, outside arrs x -> m' x = m x) -> Forall2 (agree m') cs ds.
Proof.
  intros F C O. induction F as [|c d cs ds H F IH]; constructor.
  - eapply agree_kept; [exact H|]. intros s E x Hx. apply O. intros s' Hs' Hx'. eapply (C s' s); [exact Hs'|left; now rewrite E| |]; eassumption.
  - apply IH. intros s s' H1 H2. apply C; [assumption|now right].
Qed.

Lemma cross_sym a b : cross a b -> cross b a.
Proof. intros H s s' H1 H2 x X1 X2. exact (H s' s H2 H1 x X2 X1). Qed.

Lemma outside_app a b x : outside (a ++ b) x <-> outside a x /\ outside b x.
Proof.
  split; [intros H; split; intros s Hs; apply H; apply in_or_app; auto|]. intros [A B] s Hs. apply in_app_or in Hs as [Hs|Hs]; auto.
Qed.

Definition same_cols (cs : list mcol) (cs' : list mcol) (ds' : list dcol) (m' : mem) : Prop :=
  Forall2 (agree m') cs' ds' /\ arrays cs' = arrays cs.

Lemma sim_map f g : (forall m c d, agree m c d -> simulates [m_arr c] m (f c) (g d) (fun c' d' m' => agree m' c' d' /\ m_arr c' = m_arr c)) ->
  forall cs ds m, Forall2 (agree m) cs ds -> apart (arrays cs) -> simulates (arrays cs) m (map_mcols f cs) (map_dcols g ds) (same_cols cs).
Proof.
  intros H. induction cs as [|c cs IH]; intros ds m F A; inversion F as [|? d ? ds' F1 F2]; subst; cbn [map_mcols map_dcols].
  - apply sim_ret. split; [constructor|reflexivity].
  - cbn [arrays map apart] in A. destruct A as [A1 A2].
    eapply sim_bind.
    { eapply sim_weaken; [apply H; exact F1| |intros a b m' Hm HQ; exact (conj Hm HQ)].
      intros s [Hs|[]]. left. exact Hs. }
    intros c' d' m1 (O1 & Ac & Ec).
    assert (F2' : Forall2 (agree m1) cs ds') by (eapply agrees_kept; eassumption).
    eapply sim_bind.
    { eapply sim_weaken; [apply (IH ds' m1 F2' A2)| |intros a b m' Hm HQ; exact (conj Hm HQ)].
      intros s Hs. now right. }
    intros cs' ds'' m2 (O2 & (F3 & E3)). apply sim_ret. split.
    + constructor; [|exact F3]. eapply agree_kept; [exact Ac|]. intros s Es x Hx. apply O2. intros s' Hs' Hx'.
      apply (A1 s s') with (x := x); [left; congruence|exact Hs'|exact Hx|exact Hx'].
    + cbn [arrays map]. f_equal; assumption.
Qed.

Lemma sim_put m c d s row b f : agree m c d -> m_arr c = Some s -> d_fac d = Some f ->
  simulates [Some s] m (emit (OStore s row b)) (put f row b) (fun _ f' m' => f_size f' = s_size s /\ f_elems f' = view m' s).
Proof.
  intros (A & B & C) E1 E2. rewrite E1, E2 in C. destruct C as (G & C1 & C2). unfold put.
  destruct (f_size f <? Z.of_nat (length b)) eqn:L; [exact I|]. destruct (Nat.leb_spec (length (f_elems f)) row) as [L2|L2]; [exact I|]. cbn [orb].
  apply Z.ltb_ge in L. rewrite C1 in L. rewrite C2, view_length in L2.
  destruct (store_view m s row b G L2 L) as [V O]. eexists; eexists. split; [reflexivity|]. split; [constructor; [|constructor]; split; [left; reflexivity|]; split; [exact G|]; split; assumption|]. split; [reflexivity|]. cbn [f_size f_elems].
  split; [|split; [assumption|rewrite C2; symmetry; exact V]]. intros x Hx. apply O. apply Hx. now left.
Qed.

Lemma sim_prefill m c d : agree m c d -> simulates [m_arr c] m (mprefill c) (prefill d) (fun c' d' m' => agree m' c' d' /\ m_arr c' = m_arr c).
Proof.
  intros H. pose proof H as (A & B & C). unfold mprefill, prefill. destruct (m_arr c) as [s|] eqn:E, (d_fac d) as [f|] eqn:E'; try contradiction.
  - eapply sim_bind; [rewrite <- A; eapply sim_put; eassumption|]. intros _ f' m' [S1 S2]. apply sim_ret.
    split; [|exact E]. split; [exact A|]. split; [exact B|]. rewrite E. cbn [d_fac]. split; [apply C|]. split; assumption.
  - apply sim_ret. split; [exact H|exact E].
Qed.

Lemma sim_fill_col last m c d : agree m c d -> simulates [m_arr c] m (mfill_col last c) (fill_col last d) (fun c' d' m' => agree m' c' d' /\ m_arr c' = m_arr c).
Proof.
  intros H. pose proof H as (A & B & C). unfold mfill_col, fill_col. destruct (m_arr c) as [s|] eqn:E, (d_fac d) as [f|] eqn:E'; try contradiction.
  - destruct C as (G & C1 & C2). unfold fill. rewrite <- B. unfold assert. destruct (Nat.leb_spec (m_last c) last) as [L|L].
    + cbn [bind]. destruct (Nat.leb_spec (length (f_elems f)) last) as [L2|L2]; [exact I|]. cbn [bind]. rewrite C2, view_length in L2.
      destruct (fill_view m s (m_last c) last G L L2) as (m' & X & V & O).
      eexists; exists m'. cbn [lift tbind fst snd emit app]. split; [reflexivity|]. split; [constructor; [|constructor]; split; [left; reflexivity|]; split; [exact G|]; split; assumption|]. split; [change (exec [OFill s (m_last c) last] m = Ok m'); unfold exec; rewrite X; reflexivity|].
      split; [intros x Hx; apply O; apply Hx; now left|].
      split; [|exact E]. split; [exact A|]. split; [reflexivity|]. rewrite E. cbn [d_fac f_size f_elems].
      split; [exact G|]. split; [exact C1|]. rewrite V, C2. reflexivity.
    + cbn [bind lift tbind fst snd]. split; [reflexivity|]. split; [constructor|]. exists m. split; [reflexivity|auto].
  - apply sim_ret. split; [exact H|exact E].
Qed.

Lemma sim_decode_cols row : forall cs ds m st, Forall2 (agree m) cs ds -> apart (arrays cs) ->
  simulates (arrays cs) m (mdecode_cols row cs st) (decode_cols row ds st) (fun a b m' => same_cols cs (fst a) (fst b) m' /\ snd a = snd b).
Proof.
  induction cs as [|c cs IH]; intros ds m st F A; inversion F as [|? d ? ds' F1 F2]; subst; cbn [mdecode_cols decode_cols].
  - apply sim_ret. split; [split; [constructor|reflexivity]|reflexivity].
  - cbn [arrays map apart] in A. destruct A as [A1 A2]. pose proof F1 as (B1 & B2 & B3).
    assert (K : forall c' d' st' m1, (forall x, outside [m_arr c] x -> m1 x = m x) -> agree m1 c' d' -> m_arr c' = m_arr c ->
       simulates (arrays (c :: cs)) m1 (tbind (mdecode_cols row cs st') (fun rs => tret (c' :: fst rs, snd rs)))
         (do (ds0, s2) <- decode_cols row ds' st'; Ok (d' :: ds0, s2))
         (fun a b m' => same_cols (c :: cs) (fst a) (fst b) m' /\ snd a = snd b)).
    { intros c' d' st' m1 O1 Ac Ec. assert (F2' : Forall2 (agree m1) cs ds') by (eapply agrees_kept; eassumption).
      eapply sim_bind.
      { eapply sim_weaken; [apply (IH ds' m1 st' F2' A2)| |intros a b m' Hm HQ; exact (conj Hm HQ)]. intros s Hs. now right. }
      intros [cs' s1] [ds'' s1'] m2 (O2 & ((F3 & E3) & Es)). cbn [fst snd] in *. subst s1'. apply sim_ret. cbn [fst snd]. split; [|reflexivity]. split.
      + constructor; [|exact F3]. eapply agree_kept; [exact Ac|]. intros s Es x Hx. apply O2. intros s' Hs' Hx'.
        apply (A1 s s') with (x := x); [left; congruence|exact Hs'|exact Hx|exact Hx'].
      + cbn [arrays map]. f_equal; assumption. }
    destruct (m_arr c) as [s|] eqn:E, (d_fac d) as [f|] eqn:E'; try contradiction.
    + eapply (sim_bind _ _ _ _ _ _ (fun a b m1 => (forall x, outside [Some s] x -> m1 x = m x) /\ agree m1 (fst a) (fst b) /\ m_arr (fst a) = Some s /\ snd a = snd b)).
      { eapply sim_bind; [rewrite <- B1; apply sim_lift|]. intros a b m' [-> ->]. destruct b as [cell s1]. cbn [fst snd].
        eapply sim_bind; [eapply sim_weaken; [eapply sim_put; [exact F1|exact E|exact E']| |intros a b m' Hm HQ; exact (conj Hm HQ)]|].
        { intros s0 [Hs|[]]. injection Hs as <-. left. congruence. }
        intros _ f' m' (Hm & S1 & S2). apply sim_ret. cbn [fst snd]. split; [exact Hm|]. split; [|split; reflexivity].
        split; [exact B1|]. split; [reflexivity|]. cbn [m_arr d_fac]. split; [apply B3|]. split; assumption. }
      intros [c' s1] [d' s1'] m1 (O1 & Ac & Ec & Es). cbn [fst snd] in *. subst s1'. apply K; [exact O1|exact Ac|exact Ec].
    + eapply (sim_bind _ _ _ _ _ _ (fun a b m1 => m1 = m /\ fst a = c /\ fst b = d /\ snd a = snd b)).
      { eapply sim_bind; [rewrite <- B1; apply sim_lift|]. intros a b m' [-> ->]. destruct b as [u s1]. cbn [fst snd]. apply sim_ret. cbn [fst snd]. auto. }
      intros [c' s1] [d' s1'] m1 (-> & Ec & Ed & Es). cbn [fst snd] in *. subst s1' c' d'. apply K; [reflexivity|exact F1|exact E].
Qed.

Lemma Forall2_firstn {A B} (R : A -> B -> Prop) n l l' : Forall2 R l l' -> Forall2 R (firstn n l) (firstn n l').
Proof. intros F. revert n. induction F; intros [|n]; cbn; constructor; auto. Qed.
Lemma Forall2_skipn {A B} (R : A -> B -> Prop) n l l' : Forall2 R l l' -> Forall2 R (skipn n l) (skipn n l').
Proof. intros F. revert n. induction F; intros [|n]; cbn; try constructor; auto. Qed.

Lemma sim_decode_row row last : forall cs ds m st, Forall2 (agree m) cs ds -> apart (arrays cs) ->
  simulates (arrays cs) m (mdecode_row row last cs st) (decode_row row last ds st)
    (fun a b m' => fst (fst a) = fst (fst b) /\ same_cols cs (snd (fst a)) (snd (fst b)) m' /\ snd a = snd b).
Proof.
  intros cs ds m st F A. unfold mdecode_row, decode_row.
  eapply sim_bind; [apply sim_lift|]. intros a b m0 [-> ->]. destruct b as [mk s1]. cbn [fst snd]. set (start := marker_val mk).
  assert (Len : length cs = length ds) by (eapply Forall2_length; exact F).
  eapply (sim_bind _ _ _ _ _ _ (same_cols cs)).
  - rewrite <- Len. destruct (Nat.ltb_spec start last) as [L|L]; [|apply sim_ret; split; [exact F|reflexivity]].
    destruct (Nat.ltb_spec (length cs) last) as [L2|L2]; [exact I|].
    set (n := (last - start)%nat).
    assert (Sp : cs = firstn start cs ++ firstn n (skipn start cs) ++ skipn last cs).
    { rewrite <- (firstn_skipn start cs) at 1. f_equal. rewrite <- (firstn_skipn n (skipn start cs)) at 1. f_equal. rewrite skipn_skipn. f_equal. unfold n. lia. }
    rewrite Sp in A. unfold arrays in A. rewrite !map_app in A. apply apart_app in A as (A1 & A23 & C1). apply apart_app in A23 as (A2 & A3 & C2).
    eapply sim_bind.
    { eapply sim_weaken; [apply (sim_map _ _ (sim_fill_col (row - 1)) (firstn n (skipn start cs)) (firstn n (skipn start ds)) m)| |intros a b m' Hm HQ; exact (conj Hm HQ)].
      - now apply Forall2_firstn, Forall2_skipn.
      - exact A2.
      - intros s Hs. rewrite Sp. unfold arrays. rewrite !map_app. apply in_or_app; right. apply in_or_app; left. exact Hs. }
    intros mid mid' m' (O & (FM & EM)). apply sim_ret. split.
    + apply Forall2_app; [|apply Forall2_app; [exact FM|]].
      * eapply agrees_kept; [apply Forall2_firstn; exact F| |exact O]. apply cross_sym. intros s s' H1 H2. apply C1; [exact H1|apply in_or_app; left; exact H2].
      * eapply agrees_kept; [apply Forall2_skipn; exact F| |exact O]. exact C2.
    + transitivity (arrays (firstn start cs ++ firstn n (skipn start cs) ++ skipn last cs)); [|now rewrite <- Sp].
      unfold arrays in *. rewrite !map_app. f_equal. f_equal. exact EM.
  - intros cs1 ds1 m1 [F1 E1].
    assert (A1 : apart (arrays cs1)) by now rewrite E1.
    pose proof A1 as Sp. rewrite <- (firstn_skipn start cs1) in Sp. unfold arrays in Sp. rewrite map_app in Sp. apply apart_app in Sp as (P1 & P2 & P3).
    eapply sim_bind.
    { eapply sim_weaken; [apply (sim_decode_cols row (skipn start cs1) (skipn start ds1) m1 s1)| |intros a b m' Hm HQ; exact (conj Hm HQ)].
      - now apply Forall2_skipn.
      - exact P2.
      - intros s Hs. rewrite <- E1. rewrite <- (firstn_skipn start cs1). unfold arrays. rewrite map_app. apply in_or_app; right. exact Hs. }
    intros [dc s2] [dd s2'] m2 (O & ((F2 & E2) & Es)). cbn [fst snd] in *. subst s2'. apply sim_ret. cbn [fst snd]. split; [reflexivity|]. split; [|reflexivity]. split.
    + apply Forall2_app; [|exact F2]. eapply agrees_kept; [apply Forall2_firstn; exact F1| |exact O]. apply cross_sym. exact P3.
    + rewrite <- E1. rewrite <- (firstn_skipn start cs1) at 2. unfold arrays in *. rewrite !map_app. f_equal. exact E2.
Qed.

Lemma sim_decode_rows : forall n row last cs ds m st, Forall2 (agree m) cs ds -> apart (arrays cs) ->
  simulates (arrays cs) m (mdecode_rows n row last cs st) (decode_rows n row last ds st) (same_cols cs).
Proof.
  induction n as [|n IH]; intros row last cs ds m st F A; cbn [mdecode_rows decode_rows].
  - apply sim_ret. split; [exact F|reflexivity].
  - eapply sim_bind; [apply sim_decode_row; eassumption|].
    intros [[l cs1] s1] [[l' ds1] s1'] m1 (E0 & (F1 & E1) & Es). cbn [fst snd] in *. subst l' s1'.
    eapply sim_weaken; [apply IH; [exact F1|now rewrite E1]| |].
    + rewrite E1. auto.
    + intros a b m' _ [X Y]. split; [exact X|congruence].
Qed.

Lemma sim_final_fill n : forall cs ds m, Forall2 (agree m) cs ds -> apart (arrays cs) ->
  simulates (arrays cs) m (mfinal_fill n cs) (final_fill n ds) (same_cols cs).
Proof.
  induction cs as [|c cs IH]; intros ds m F A; inversion F as [|? d ? ds' F1 F2]; subst; cbn [mfinal_fill final_fill].
  - apply sim_ret. split; [constructor|reflexivity].
  - pose proof F1 as (_ & Bl & _). rewrite <- Bl. destruct (m_last c <? n - 1)%nat; [|apply sim_ret; split; [constructor; assumption|reflexivity]].
    cbn [arrays map apart] in A. destruct A as [A1 A2].
    eapply sim_bind.
    { eapply sim_weaken; [apply sim_fill_col; exact F1| |intros a b m' Hm HQ; exact (conj Hm HQ)].
      intros s [Hs|[]]. left. exact Hs. }
    intros c' d' m1 (O1 & Ac & Ec).
    assert (F2' : Forall2 (agree m1) cs ds') by (eapply agrees_kept; eassumption).
    eapply sim_bind.
    { eapply sim_weaken; [apply (IH ds' m1 F2' A2)| |intros a b m' Hm HQ; exact (conj Hm HQ)].
      intros s Hs. now right. }
    intros cs' ds'' m2 (O2 & (F3 & E3)). apply sim_ret. split.
    + constructor; [|exact F3]. eapply agree_kept; [exact Ac|]. intros s Es x Hx. apply O2. intros s' Hs' Hx'.
      apply (A1 s s') with (x := x); [left; congruence|exact Hs'|exact Hx|exact Hx'].
    + cbn [arrays map]. f_equal; assumption.
Qed.
