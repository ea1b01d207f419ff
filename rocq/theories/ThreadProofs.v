(** Threads that work on separate areas of memory: every schedule has the same outcome. *)
From Verif Require Import Base Fp Stream Codec Meta Header Table TableProofs Strided P_Strided MemDecode MemProofs Frame.
Open Scope Z_scope.

(** ** One access *)

Definition touched (o : op) (x : Z) : Prop :=
  match o with OStore s _ _ => in_array s x | OFill s _ _ => in_array s x end.

Lemma in_fill_dec s a b x : separate s -> {row : Z & {k : Z | a < row <= b /\ 0 <= k < s_size s /\ x = byte_of s row k}} +
  {forall row k, a < row <= b -> 0 <= k < s_size s -> x <> byte_of s row k}.
Proof.
  intros [P1 P2]. set (q := (x - s_base s) / s_stride s). set (r := (x - s_base s) mod s_stride s).
  assert (D : x - s_base s = s_stride s * q + r) by (apply Z.div_mod; lia).
  assert (R : 0 <= r < s_stride s) by (apply Z.mod_pos_bound; lia).
  assert (U : forall row k, 0 <= k < s_size s -> x = byte_of s row k -> row = q /\ k = r).
  { intros row k Hk E. unfold byte_of in E. assert (row = q) by nia. subst row. split; [reflexivity|lia]. }
  destruct (Z_lt_dec a q) as [A|A].
  2:{ right. intros row k H1 H2 E. destruct (U row k H2 E). lia. }
  destruct (Z_le_dec q b) as [B|B].
  2:{ right. intros row k H1 H2 E. destruct (U row k H2 E). lia. }
  destruct (Z_lt_dec r (s_size s)) as [C|C].
  2:{ right. intros row k H1 H2 E. destruct (U row k H2 E). lia. }
  left. exists q, r. split; [lia|]. split; [lia|]. unfold byte_of. lia.
Qed.

Lemma op_local arrs o m m1 : inside arrs o -> exists m' m1',
  exec_op o m = Ok m' /\ exec_op o m1 = Ok m1' /\
  (forall x, ~ touched o x -> m' x = m x) /\ (forall x, ~ touched o x -> m1' x = m1 x) /\
  (forall P : Z -> Prop, (forall x, touched o x -> P x) -> (forall x, P x -> m1 x = m x) -> forall x, P x -> m1' x = m' x).
Proof.
  intros H. destruct o as [s row b|s src fin]; cbn [inside touched] in *.
  - destruct H as (_ & G & H1 & H2). exists (store m (get s (Z.of_nat row)) b), (store m1 (get s (Z.of_nat row)) b). split; [reflexivity|]. split; [reflexivity|].
    split; [apply (store_view m s row b G H1 H2)|]. split; [apply (store_view m1 s row b G H1 H2)|]. intros P _ E x Hx. unfold store. destruct (_ && _); auto.
  - destruct H as (_ & [Sep Hn] & H1 & H2).
    destruct (C26_fill s (Z.of_nat src) (Z.of_nat fin) m Sep ltac:(lia) ltac:(lia)) as (m' & [F1 F2] & L).
    destruct (C26_fill s (Z.of_nat src) (Z.of_nat fin) m1 Sep ltac:(lia) ltac:(lia)) as (m1' & [F1' F2'] & L').
    exists m', m1'. cbn [exec_op]. rewrite L, L' by lia. split; [reflexivity|]. split; [reflexivity|].
    assert (T : forall row k, 0 <= row <= Z.of_nat fin -> 0 <= k < s_size s -> in_array s (byte_of s row k)) by (intros row k Hr Hk; exists row, k; split; [lia|split; [lia|reflexivity]]).
    split; [intros x Hx; apply F2; intros row k Hr Hk ->; apply Hx, T; lia|].
    split; [intros x Hx; apply F2'; intros row k Hr Hk ->; apply Hx, T; lia|].
    intros P HT E x Hx. destruct (in_fill_dec s (Z.of_nat src) (Z.of_nat fin) x Sep) as [(row & k & Hr & Hk & ->)|N].
    + rewrite F1, F1' by assumption. apply E, HT, T; lia.
    + rewrite F2, F2' by assumption. auto.
Qed.

(** ** A list of accesses *)

Definition region (arrs : list strided) (x : Z) : Prop := exists s, In s arrs /\ in_array s x.

Lemma touched_region arrs o x : inside (map Some arrs) o -> touched o x -> region arrs x.
Proof.
  destruct o as [s r b|s a b]; cbn [inside touched]; intros [H _] T; apply in_map_iff in H as (s' & E & H); injection E as <-; exists s'; auto.
Qed.

Lemma exec_local arrs ops : Forall (inside (map Some arrs)) ops -> forall m m1, exists m' m1',
  exec ops m = Ok m' /\ exec ops m1 = Ok m1' /\
  (forall x, ~ region arrs x -> m' x = m x) /\
  ((forall x, region arrs x -> m1 x = m x) -> forall x, region arrs x -> m1' x = m' x).
Proof.
  induction 1 as [|o ops H F IH]; intros m m1.
  - exists m, m1. cbn. auto.
  - destruct (op_local _ o m m1 H) as (a & a1 & E & E1 & O & O1 & L). destruct (IH a a1) as (m' & m1' & X & X1 & Q & Q1).
    exists m', m1'. cbn [exec]. rewrite E, E1. cbn [bind]. split; [exact X|]. split; [exact X1|]. split.
    + intros x Hx. rewrite Q by assumption. apply O. intros T. apply Hx. eapply touched_region; eassumption.
    + intros Hm x Hx. apply Q1; [|exact Hx]. apply L; [|exact Hm]. intros y Hy. eapply touched_region; eassumption.
Qed.

(** ** Threads *)

Section T.
Variables (jobs : list job) (areas : list (list strided)).
Hypothesis Len : length areas = length jobs.
Hypothesis Inside : forall i ops r, nth_error jobs i = Some (ops, r) -> Forall (inside (map Some (nth i areas []))) ops.
Hypothesis Apart : forall i j x, i <> j -> region (nth i areas []) x -> region (nth j areas []) x -> False.
Hypothesis Defined : forall i ops, nth_error jobs i <> Some (ops, UB).
Variable m0 : mem.

Record inv (st : pstate) (rem : nat -> list op) : Prop := {
  i_next : (p_next st <= length jobs)%nat;
  i_mem : forall i ops r, nth_error jobs i = Some (ops, r) ->
    exists past md, ops = past ++ rem i /\ exec past m0 = Ok md /\ forall x, region (nth i areas []) x -> p_mem st x = md x;
  i_wait : forall i ops r, nth_error jobs i = Some (ops, r) -> (p_next st <= i)%nat -> rem i = ops;
  i_run : forall k i l, nth_error (p_threads st) k = Some (Running i l) -> (i < p_next st)%nat /\ rem i = l;
  i_one : forall k k' i l l', nth_error (p_threads st) k = Some (Running i l) -> nth_error (p_threads st) k' = Some (Running i l') -> k = k';
  i_past : forall i, (i < p_next st)%nat -> (forall k l, nth_error (p_threads st) k <> Some (Running i l)) -> rem i = [];
  i_out : forall x, (forall i, ~ region (nth i areas []) x) -> p_mem st x = m0 x;
  i_fin : forall k, nth_error (p_threads st) k = Some Finished -> p_next st = length jobs;
  i_fail : forall k e, nth_error (p_threads st) k = Some (Failed e) -> exists i ops, nth_error jobs i = Some (ops, Throw e);
  i_throw : forall i ops e, (i < p_next st)%nat -> nth_error jobs i = Some (ops, Throw e) ->
    (forall k l, nth_error (p_threads st) k <> Some (Running i l)) -> exists k, nth_error (p_threads st) k = Some (Failed e)
}.

Lemma inv_start n : inv (start n m0) (fun i => match nth_error jobs i with Some (ops, _) => ops | None => [] end).
Proof.
  assert (N : forall k t, nth_error (repeat Idle n) k = Some t -> t = Idle) by (intros k t H; apply nth_error_In, repeat_spec in H; exact H).
  split; cbn [start p_next p_threads p_mem].
  - lia.
  - intros i ops r E. exists [], m0. rewrite E. repeat split; reflexivity.
  - intros i ops r E _. now rewrite E.
  - intros k i l E. apply N in E. discriminate.
  - intros k k' i l l' E. apply N in E. discriminate.
  - lia.
  - reflexivity.
  - intros k E. apply N in E. discriminate.
  - intros k e E. apply N in E. discriminate.
  - lia.
Qed.

Lemma set_lookup {A} (l : list A) k x j y : nth_error l k = Some y -> nth_error (list_set l k x) j = if (j =? k)%nat then Some x else nth_error l j.
Proof. intros H. apply nth_error_list_set. apply nth_error_Some. congruence. Qed.

Lemma inv_step st st' rem : inv st rem -> step jobs st st' -> exists rem', inv st' rem'.
Proof.
  intros I ST. destruct I as [I1 I2 I3 I4 I5 I6 I7 I8 I9 I10]. destruct ST as [st k ops r K J|st k K J|st k i o ops m' K X|st k i ops K J|st k i ops e K J].
  - (* take *)
    exists rem. assert (L : (p_next st < length jobs)%nat) by (apply nth_error_Some; congruence).
    assert (W : rem (p_next st) = ops) by (eapply I3; [exact J|lia]).
    split; cbn [p_next p_threads p_mem]; try setoid_rewrite (set_lookup _ _ _ _ _ K).
    + lia.
    + exact I2.
    + intros i o q E H. eapply I3; [exact E|lia].
    + intros j i l E. destruct (Nat.eqb_spec j k) as [->|N]; [injection E as <- <-; split; [lia|exact W]|]. destruct (I4 j i l E). split; [lia|assumption].
    + intros j j' i l l' E E'. destruct (Nat.eqb_spec j k) as [->|N], (Nat.eqb_spec j' k) as [->|N']; auto.
      * injection E as <- <-. destruct (I4 _ _ _ E'). lia.
      * injection E' as <- <-. destruct (I4 _ _ _ E). lia.
      * eapply I5; eassumption.
    + intros i H R. destruct (Nat.eq_dec i (p_next st)) as [->|N].
      { exfalso. apply (R k ops). now rewrite Nat.eqb_refl. }
      apply I6; [lia|]. intros j l E. apply (R j l). destruct (Nat.eqb_spec j k) as [->|]; [congruence|exact E].
    + exact I7.
    + intros j E. destruct (Nat.eqb_spec j k) as [Q|N]; [discriminate|]. specialize (I8 j E). lia.
    + intros j e E. destruct (Nat.eqb_spec j k) as [Q|N]; [discriminate|]. eauto.
    + intros i o e H E R. destruct (Nat.eq_dec i (p_next st)) as [->|N].
      { exfalso. apply (R k ops). now rewrite Nat.eqb_refl. }
      destruct (I10 i o e ltac:(lia) E) as (j & Hj).
      { intros j l E'. apply (R j l). destruct (Nat.eqb_spec j k) as [->|]; [congruence|exact E']. }
      exists j. destruct (Nat.eqb_spec j k) as [->|]; [congruence|exact Hj].
  - (* return *)
    exists rem. split; cbn [p_next p_threads p_mem]; try setoid_rewrite (set_lookup _ _ _ _ _ K).
    + exact I1.
    + exact I2.
    + exact I3.
    + intros j i l E. destruct (Nat.eqb_spec j k) as [Q|N]; [discriminate|]. now apply I4 in E.
    + intros j j' i l l' E E'. destruct (Nat.eqb_spec j k) as [Q|N]; [discriminate|]. destruct (Nat.eqb_spec j' k) as [->|N']; [discriminate|]. eapply I5; eassumption.
    + intros i H R. apply I6; [lia|]. intros j l E. apply (R j l). destruct (Nat.eqb_spec j k) as [->|]; [congruence|exact E].
    + exact I7.
    + intros j E. lia.
    + intros j e E. destruct (Nat.eqb_spec j k) as [Q|N]; [discriminate|]. eauto.
    + intros i o e H E R. destruct (I10 i o e ltac:(lia) E) as (j & Hj).
      { intros j l E'. apply (R j l). destruct (Nat.eqb_spec j k) as [->|]; [congruence|exact E']. }
      exists j. destruct (Nat.eqb_spec j k) as [->|]; [congruence|exact Hj].
  - (* access *)
    destruct (I4 k i _ K) as [Li Ri].
    destruct (nth_error jobs i) as [[all r]|] eqn:Ji; [|apply nth_error_None in Ji; lia].
    destruct (I2 i all r Ji) as (past & md & Ea & Ex & Em).
    pose proof (Inside i all r Ji) as FI. rewrite Ea, Ri in FI. apply Forall_app in FI as [FP FR]. inversion FR as [|? ? FO FR']; subst.
    destruct (op_local _ o md (p_mem st) FO) as (md' & m1' & E & E1 & O & O1 & L). rewrite E1 in X. injection X as ->.
    exists (fun j => if (j =? i)%nat then ops else rem j).
    split; cbn [p_next p_threads p_mem]; try setoid_rewrite (set_lookup _ _ _ _ _ K).
    + exact I1.
    + intros j o' r' Ej. destruct (Nat.eqb_spec j i) as [->|N].
      * exists (past ++ [o]), md'. rewrite Ji in Ej. injection Ej as <- <-. split; [rewrite Ri, <- app_assoc; reflexivity|].
        split; [rewrite exec_app, Ex; cbn [bind exec]; rewrite E; reflexivity|].
        apply L; [|exact Em]. intros x Hx. eapply touched_region; eassumption.
      * destruct (I2 j o' r' Ej) as (p' & md2 & A & B & C). exists p', md2. split; [exact A|]. split; [exact B|]. intros x Hx. rewrite O1; [now apply C|].
        intros T. apply (Apart i j x ltac:(congruence)); [eapply touched_region; eassumption|exact Hx].
    + intros j o' r' Ej H. destruct (Nat.eqb_spec j i) as [->|N]; [lia|]. eapply I3; eassumption.
    + intros j i' l Ej. destruct (Nat.eqb_spec j k) as [->|N].
      * injection Ej as <- <-. rewrite Nat.eqb_refl. split; [exact Li|reflexivity].
      * destruct (I4 j i' l Ej) as [A B]. split; [exact A|]. destruct (Nat.eqb_spec i' i) as [->|]; [|exact B].
        exfalso. apply N. eapply I5; [exact Ej|exact K].
    + intros j j' i' l l' A B. destruct (Nat.eqb_spec j k) as [->|N], (Nat.eqb_spec j' k) as [->|N']; auto.
      * injection A as <- <-. eapply I5; [exact K|exact B].
      * injection B as <- <-. eapply I5; [exact A|exact K].
      * eapply I5; eassumption.
    + intros j H R. destruct (Nat.eqb_spec j i) as [->|N].
      * exfalso. apply (R k ops). now rewrite Nat.eqb_refl.
      * apply I6; [exact H|]. intros j' l Ej. apply (R j' l). destruct (Nat.eqb_spec j' k) as [->|]; [congruence|exact Ej].
    + intros x Hx. rewrite O1; [now apply I7|]. intros T. apply (Hx i). eapply touched_region; eassumption.
    + intros j Ej. destruct (Nat.eqb_spec j k) as [Q|N]; [discriminate|]. eauto.
    + intros j e Ej. destruct (Nat.eqb_spec j k) as [Q|N]; [discriminate|]. eauto.
    + intros j o' e H Ej R. destruct (Nat.eq_dec j i) as [->|N].
      * exfalso. apply (R k ops). now rewrite Nat.eqb_refl.
      * destruct (I10 j o' e H Ej) as (k' & Hk').
        { intros j' l Ej'. apply (R j' l). destruct (Nat.eqb_spec j' k) as [->|]; [congruence|exact Ej']. }
        exists k'. destruct (Nat.eqb_spec k' k) as [->|]; [congruence|exact Hk'].
  - (* done *)
    destruct (I4 k i _ K) as [Li Ri].
    exists rem. split; cbn [p_next p_threads p_mem]; try setoid_rewrite (set_lookup _ _ _ _ _ K).
    + exact I1.
    + exact I2.
    + exact I3.
    + intros j i' l E. destruct (Nat.eqb_spec j k) as [Q|N]; [discriminate|]. now apply I4 in E.
    + intros j j' i' l l' E E'. destruct (Nat.eqb_spec j k) as [Q|N]; [discriminate|]. destruct (Nat.eqb_spec j' k) as [->|N']; [discriminate|]. eapply I5; eassumption.
    + intros i' H R. destruct (Nat.eq_dec i' i) as [->|N]; [exact Ri|]. apply I6; [lia|]. intros j l E. apply (R j l). destruct (Nat.eqb_spec j k) as [->|]; [congruence|exact E].
    + exact I7.
    + intros j E. destruct (Nat.eqb_spec j k) as [Q|N]; [discriminate|]. eauto.
    + intros j e E. destruct (Nat.eqb_spec j k) as [Q|N]; [discriminate|]. eauto.
    + intros i' o e H E R. destruct (Nat.eq_dec i' i) as [->|N]; [congruence|]. destruct (I10 i' o e ltac:(lia) E) as (j & Hj).
      { intros j l E'. apply (R j l). destruct (Nat.eqb_spec j k) as [->|]; [congruence|exact E']. }
      exists j. destruct (Nat.eqb_spec j k) as [->|]; [congruence|exact Hj].
  - (* throw *)
    destruct (I4 k i _ K) as [Li Ri].
    exists rem. split; cbn [p_next p_threads p_mem]; try setoid_rewrite (set_lookup _ _ _ _ _ K).
    + exact I1.
    + exact I2.
    + exact I3.
    + intros j i' l E. destruct (Nat.eqb_spec j k) as [Q|N]; [discriminate|]. now apply I4 in E.
    + intros j j' i' l l' E E'. destruct (Nat.eqb_spec j k) as [Q|N]; [discriminate|]. destruct (Nat.eqb_spec j' k) as [->|N']; [discriminate|]. eapply I5; eassumption.
    + intros i' H R. destruct (Nat.eq_dec i' i) as [->|N]; [exact Ri|]. apply I6; [lia|]. intros j l E. apply (R j l). destruct (Nat.eqb_spec j k) as [->|]; [congruence|exact E].
    + exact I7.
    + intros j E. destruct (Nat.eqb_spec j k) as [Q|N]; [discriminate|]. eauto.
    + intros j e' E. destruct (Nat.eqb_spec j k) as [->|N]; [injection E as <-; eauto|]. eauto.
    + intros i' o e' H E R. destruct (Nat.eq_dec i' i) as [->|N].
      * rewrite J in E. injection E as <- <-. exists k. now rewrite Nat.eqb_refl.
      * destruct (I10 i' o e' ltac:(lia) E) as (j & Hj).
        { intros j l E'. apply (R j l). destruct (Nat.eqb_spec j k) as [->|]; [congruence|exact E']. }
        exists j. destruct (Nat.eqb_spec j k) as [->|]; [congruence|exact Hj].
Qed.

Lemma inv_steps n st : steps jobs (start n m0) st -> exists rem, inv st rem.
Proof.
  intros H. remember (start n m0) as s0 eqn:E. induction H as [|s1 s2 s3 H IH S1]; subst.
  - eexists. apply inv_start.
  - destruct (IH eq_refl) as (rem & I). eapply inv_step; eassumption.
Qed.

(** no thread is ever stuck *)
Lemma progress n st k t : steps jobs (start n m0) st -> nth_error (p_threads st) k = Some t -> stopped t \/ exists st', step jobs st st' /\ nth_error (p_threads st') k <> Some t.
Proof.
  intros H K. destruct (inv_steps n st H) as (rem & I). destruct t as [|i [|o ops]| |e]; [right|right|right|left; now left|left; right; eauto].
  - destruct (Nat.lt_ge_cases (p_next st) (length jobs)) as [L|L].
    + destruct (nth_error jobs (p_next st)) as [[ops r]|] eqn:J; [|apply nth_error_None in J; lia].
      eexists. split; [eapply step_take; eassumption|]. cbn [p_threads]. rewrite (set_lookup _ _ _ _ _ K), Nat.eqb_refl. discriminate.
    + eexists. split; [eapply step_return; eassumption|]. cbn [p_threads]. rewrite (set_lookup _ _ _ _ _ K), Nat.eqb_refl. discriminate.
  - destruct (i_run _ _ I k i _ K) as [Li _]. pose proof (i_next _ _ I). destruct (nth_error jobs i) as [[ops [[]|e|]]|] eqn:J.
    + eexists. split; [eapply step_done; eassumption|]. cbn [p_threads]. rewrite (set_lookup _ _ _ _ _ K), Nat.eqb_refl. discriminate.
    + eexists. split; [eapply step_throw; eassumption|]. cbn [p_threads]. rewrite (set_lookup _ _ _ _ _ K), Nat.eqb_refl. discriminate.
    + exfalso. exact (Defined i ops J).
    + apply nth_error_None in J. lia.
  - destruct (i_run _ _ I k i _ K) as [Li Ri]. pose proof (i_next _ _ I). destruct (nth_error jobs i) as [[all r]|] eqn:J; [|apply nth_error_None in J; lia].
    destruct (i_mem _ _ I i all r J) as (past & md & Ea & _). pose proof (Inside i all r J) as F. rewrite Ea, Ri in F. apply Forall_app in F as [_ F]. inversion F as [|? ? FO _]; subst.
    destruct (op_local _ o (p_mem st) (p_mem st) FO) as (m' & _ & E & _).
    eexists. split; [eapply step_access; eassumption|]. cbn [p_threads]. rewrite (set_lookup _ _ _ _ _ K), Nat.eqb_refl. intros Q. injection Q as Q. revert Q. clear. induction ops; congruence.
Qed.

(** every execution ends *)
Definition weight (t : tstate) : nat := match t with Idle => 1%nat | Running _ ops => (2 + length ops)%nat | _ => 0%nat end.
Fixpoint sum (l : list nat) : nat := match l with [] => O | x :: l' => (x + sum l')%nat end.
Definition measure (st : pstate) : nat := (sum (map weight (p_threads st)) + sum (map (fun j => 2 + length (fst j)) (skipn (p_next st) jobs)))%nat.

Lemma sum_set (l : list tstate) k x y : nth_error l k = Some y -> (sum (map weight (list_set l k x)) + weight y = sum (map weight l) + weight x)%nat.
Proof. revert k. induction l as [|a l IH]; intros [|k] H; try discriminate; cbn [list_set map sum]; [injection H as ->; lia|]. specialize (IH k H). cbn in *. lia. Qed.

Lemma step_measure st st' : step jobs st st' -> (measure st' < measure st)%nat.
Proof.
  intros ST. destruct ST as [st k ops r K J|st k K J|st k i o ops m' K X|st k i ops K J|st k i ops e K J]; unfold measure; cbn [p_threads p_next];
    match goal with |- context [list_set _ _ ?x] => pose proof (sum_set _ k x _ K) as S1 end; cbn [weight length] in S1; try lia.
  assert (Sk : skipn (p_next st) jobs = (ops, r) :: skipn (S (p_next st)) jobs).
  { clear -J. revert J. generalize (p_next st) as i. induction jobs as [|a l IH]; intros [|i] H; try discriminate; [injection H as ->; reflexivity|]. cbn [skipn]. now apply IH. }
  rewrite Sk. cbn [map sum fst]. lia.
Qed.

(** no two threads ever touch the same byte *)
Lemma race_free n st k k' i i' o o' l l' x : steps jobs (start n m0) st -> k <> k' ->
  nth_error (p_threads st) k = Some (Running i (o :: l)) -> nth_error (p_threads st) k' = Some (Running i' (o' :: l')) ->
  touched o x -> touched o' x -> False.
Proof.
  intros H N K K' T T'. destruct (inv_steps n st H) as (rem & I).
  assert (NI : i <> i') by (intros ->; apply N; eapply (i_one _ _ I); eassumption).
  assert (G : forall k i o l, nth_error (p_threads st) k = Some (Running i (o :: l)) -> inside (map Some (nth i areas [])) o).
  { clear -I Inside. intros k i o l K. destruct (i_run _ _ I k i _ K) as [Li Ri]. pose proof (i_next _ _ I). destruct (nth_error jobs i) as [[all r]|] eqn:J; [|apply nth_error_None in J; lia].
    destruct (i_mem _ _ I i all r J) as (past & md & Ea & _). pose proof (Inside i all r J) as F. rewrite Ea, Ri in F. apply Forall_app in F as [_ F]. now inversion F. }
  apply (Apart i i' x NI); eapply touched_region; eauto.
Qed.

(** at the end *)
Lemma at_end n st : (0 < n)%nat -> steps jobs (start n m0) st -> all_stopped st ->
  (Forall (fun j => snd j = Ok tt) jobs -> joined (p_threads st) = Ok tt /\
     (forall i ops r, nth_error jobs i = Some (ops, r) -> exists md, exec ops m0 = Ok md /\ forall x, region (nth i areas []) x -> p_mem st x = md x)) /\
  (forall x, (forall i, ~ region (nth i areas []) x) -> p_mem st x = m0 x) /\
  (Exists (fun j => exists e, snd j = Throw e) jobs -> exists e, joined (p_threads st) = Throw e /\ exists i ops, nth_error jobs i = Some (ops, Throw e)).
Proof.
  intros Hn H AS. destruct (inv_steps n st H) as (rem & I). unfold all_stopped in AS.
  assert (NR : forall k i l, nth_error (p_threads st) k <> Some (Running i l)).
  { intros k i l E. rewrite Forall_forall in AS. specialize (AS _ (nth_error_In _ _ E)). destruct AS as [A|[e A]]; discriminate. }
  assert (LT : length (p_threads st) = n).
  { clear -H. remember (start n m0) as s0 eqn:E. induction H as [|s1 s2 s3 H IH S1]; subst; [cbn; apply repeat_length|].
    rewrite <- (IH eq_refl). destruct S1; cbn [p_threads]; now rewrite list_set_length. }
  assert (JJ : (forall e, ~ In (Failed e) (p_threads st)) /\ joined (p_threads st) = Ok tt \/ exists e, In (Failed e) (p_threads st) /\ joined (p_threads st) = Throw e).
  { clear. induction (p_threads st) as [|t l IH]; [left; split; [intros e []|reflexivity]|]. destruct t as [| | |e]; cbn [joined].
    1,2,3: destruct IH as [[A B]|(e & A & B)]; [left; split; [intros e [Q|Q]; [discriminate|now apply (A e)]|exact B]|right; exists e; split; [now right|exact B]].
    right. exists e. split; [now left|reflexivity]. }
  split; [|split].
  - intros AO.
    assert (NF : forall e, ~ In (Failed e) (p_threads st)).
    { intros e HIn. apply In_nth_error in HIn as (k & K). destruct (i_fail _ _ I k e K) as (i & ops & J). rewrite Forall_forall in AO. specialize (AO _ (nth_error_In _ _ J)). discriminate. }
    split; [destruct JJ as [[_ B]|(e & A & _)]; [exact B|exfalso; now apply (NF e)]|].
    assert (NX : p_next st = length jobs).
    { destruct (p_threads st) as [|t l] eqn:ET; [cbn in LT; lia|]. inversion AS as [|? ? [A|[e A]] _]; subst; [|exfalso; apply (NF e); now left].
      apply (i_fin _ _ I 0%nat). rewrite ET. reflexivity. }
    intros i ops r J. assert (Li : (i < length jobs)%nat) by (apply nth_error_Some; congruence).
    destruct (i_mem _ _ I i ops r J) as (past & md & Ea & Ex & Em). rewrite (i_past _ _ I i ltac:(lia)), app_nil_r in Ea by (intros; apply NR).
    exists md. rewrite Ea. auto.
  - apply (i_out _ _ I).
  - intros EX. destruct JJ as [[A B]|(e & A & B)].
    + exfalso. apply Exists_exists in EX as ([ops r] & HIn & e & He). cbn in He. subst r. apply In_nth_error in HIn as (i & J).
      assert (Li : (i < length jobs)%nat) by (apply nth_error_Some; intros Q; pose proof (eq_trans (eq_sym Q) J) as Q2; discriminate Q2).
      assert (NX : p_next st = length jobs).
      { destruct (p_threads st) as [|t l] eqn:ET; [cbn in LT; lia|]. inversion AS as [|? ? [Q|[e' Q]] _]; subst; [|exfalso; apply (A e'); now left].
        apply (i_fin _ _ I 0%nat). rewrite ET. reflexivity. }
      destruct (i_throw _ _ I i ops e ltac:(lia) J ltac:(intros; apply NR)) as (k & K). apply (A e). eapply nth_error_In; exact K.
    + exists e. split; [exact B|]. apply In_nth_error in A as (k & K). exact (i_fail _ _ I k e K).
Qed.
End T.
