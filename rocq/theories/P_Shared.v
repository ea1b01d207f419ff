(** C32: handles that share one underlying file do not disturb each other. *)
From Verif Require Import Base Codec Table TableProofs SharedHandle.
Local Open Scope nat_scope.

(** ** What is expected *)

(** The calls of a handle that has the file for itself, starting at position [pos]. *)
Fixpoint alone (file : list Z) (pos : nat) (log : list event) : Prop :=
  match log with
  | [] => True
  | ESeek p :: l => alone file p l
  | EPosition p :: l => p = pos /\ alone file pos l
  | ERead n bs :: l => bs = firstn n (skipn pos file) /\ alone file (pos + length bs) l
  end.
Fixpoint position_after (pos : nat) (log : list event) : nat :=
  match log with
  | [] => pos
  | ESeek p :: l => position_after p l
  | EPosition _ :: l => position_after pos l
  | ERead _ bs :: l => position_after (pos + length bs) l
  end.

(** ** Proof *)

Lemma alone_snoc file log : forall pos e, alone file pos (log ++ [e]) <-> alone file pos log /\ alone file (position_after pos log) [e].
Proof.
  induction log as [|[p|p|n bs] log IH]; intros pos e; cbn [app alone position_after]; [tauto|apply IH| |]; rewrite IH; tauto.
Qed.
Lemma after_snoc log : forall pos e, position_after pos (log ++ [e]) = position_after (position_after pos log) [e].
Proof. induction log as [|[p|p|n bs] log IH]; intros pos e; cbn [app position_after]; [destruct e; reflexivity|apply IH..]. Qed.

Definition inside_lock (c : pc) : bool := match c with Free | Wants _ => false | _ => true end.

(** what holds of one handle, whatever the others do *)
Definition ok (file : list Z) (upos : nat) (h : handle) : Prop :=
  alone file (h_start h) (h_log h) /\
  match h_pc h with
  | Reads _ => h_pos h = upos /\ h_pos h = position_after (h_start h) (h_log h)
  | Got n bs => upos = h_pos h + length bs /\ bs = firstn n (skipn (h_pos h) file) /\ h_pos h = position_after (h_start h) (h_log h)
  | Leaves n bs => upos = h_pos h /\ bs = firstn n (skipn (position_after (h_start h) (h_log h)) file) /\
      h_pos h = position_after (h_start h) (h_log h) + length bs
  | _ => h_pos h = position_after (h_start h) (h_log h)
  end.

Record hinv (file : list Z) (st : sys) : Prop := {
  hv_ok : forall k h, nth_error (y_handles st) k = Some h -> ok file (y_pos st) h;
  hv_lock : forall k h, nth_error (y_handles st) k = Some h -> inside_lock (h_pc h) = true -> y_lock st = Some k;
  hv_owner : forall k, y_lock st = Some k -> exists h, nth_error (y_handles st) k = Some h /\ inside_lock (h_pc h) = true
}.

Lemma set_at {A} (l : list A) k x j y : nth_error l k = Some y -> nth_error (list_set l k x) j = if (j =? k)%nat then Some x else nth_error l j.
Proof. intros H. apply nth_error_list_set. apply nth_error_Some. congruence. Qed.

(** handles other than the owner do not depend on the underlying position *)
Lemma ok_other file u u' h : inside_lock (h_pc h) = false -> ok file u h -> ok file u' h.
Proof. unfold ok. destruct (h_pc h); cbn; intros E; try discriminate; auto. Qed.

(** a handle changes, the lock and the underlying position as stated *)
Lemma inv_change file st k h h' u lock' :
  hinv file st -> nth_error (y_handles st) k = Some h -> ok file u h' ->
  (y_lock st = Some k \/ u = y_pos st) ->
  (inside_lock (h_pc h') = true -> lock' = Some k) ->
  (lock' = y_lock st /\ inside_lock (h_pc h') = inside_lock (h_pc h) \/
   lock' = Some k /\ y_lock st = None /\ inside_lock (h_pc h') = true \/
   lock' = None /\ y_lock st = Some k /\ inside_lock (h_pc h') = false) ->
  hinv file {| y_pos := u; y_lock := lock'; y_handles := set_handle st k h' |}.
Proof.
  intros [I1 I2 I3] K O U L C. unfold set_handle. split; cbn [y_pos y_lock y_handles].
  - intros j g E. rewrite (set_at _ _ _ _ _ K) in E. destruct (Nat.eqb_spec j k) as [Q|N]; [injection E as <-; exact O|].
    destruct U as [U| ->]; [|eauto]. apply ok_other with (u := y_pos st); [|eauto].
    destruct (inside_lock (h_pc g)) eqn:G; [|reflexivity]. specialize (I2 j g E G). congruence.
  - intros j g E G. rewrite (set_at _ _ _ _ _ K) in E. destruct (Nat.eqb_spec j k) as [Q|N]; [injection E as <-; subst j; auto|].
    specialize (I2 j g E G). destruct C as [[-> _]|[(_ & C & _)|(_ & C & _)]]; congruence.
  - intros j E. destruct C as [[-> C]|[(-> & _ & C)|(-> & _ & _)]]; [|injection E as <-; exists h'; split; [|exact C]; rewrite (set_at _ _ _ _ _ K), Nat.eqb_refl; reflexivity|discriminate].
    destruct (I3 j E) as (g & G1 & G2). rewrite (set_at _ _ _ _ _ K). destruct (Nat.eqb_spec j k) as [Q|N]; [subst j; exists h'; split; [reflexivity|rewrite C; congruence]|exists g; auto].
Qed.

Lemma hinv_step file st st' : hinv file st -> hstep file st st' -> hinv file st'.
Proof.
  intros I ST. pose proof I as [I1 I2 I3].
  destruct ST as [st k h p K P|st k h K P|st k h K P|st k h n K P|st k h n K P Q|st k h n K P|st k h n K P|st k h n K P|st k h n bs K P|st k h n bs K P];
    pose proof (I1 k h K) as [A B]; rewrite P in B.
  - eapply inv_change; [exact I|exact K| |right; reflexivity|cbn; discriminate|left; split; [reflexivity|now rewrite P]].
    split; cbn [h_log h_start h_pc h_pos]; [apply alone_snoc; cbn; auto|now rewrite after_snoc].
  - eapply inv_change; [exact I|exact K| |right; reflexivity|cbn; discriminate|left; split; [reflexivity|now rewrite P]].
    split; cbn [h_log h_start h_pc h_pos]; [apply alone_snoc; cbn; auto|now rewrite after_snoc].
  - split; cbn [y_pos y_lock y_handles].
    + intros j g E. destruct (Nat.lt_ge_cases j (length (y_handles st))) as [L|L]; [rewrite nth_error_app1 in E by exact L; eauto|].
      rewrite nth_error_app2 in E by exact L. destruct (j - _)%nat as [|[|]]; try discriminate. injection E as <-. split; cbn; auto.
    + intros j g E G. destruct (Nat.lt_ge_cases j (length (y_handles st))) as [L|L]; [rewrite nth_error_app1 in E by exact L; eauto|].
      rewrite nth_error_app2 in E by exact L. destruct (j - _)%nat as [|[|]]; try discriminate. injection E as <-. discriminate.
    + intros j E. destruct (I3 j E) as (g & G1 & G2). exists g. split; [rewrite nth_error_app1; [exact G1|apply nth_error_Some; congruence]|exact G2].
  - eapply inv_change; [exact I|exact K| |right; reflexivity|cbn; discriminate|left; split; [reflexivity|now rewrite P]]. split; [exact A|exact B].
  - eapply inv_change; [exact I|exact K| |right; reflexivity|cbn; auto|right; left; auto]. split; [exact A|exact B].
  - pose proof (I2 k h K ltac:(now rewrite P)) as L.
    eapply inv_change; [exact I|exact K| |right; reflexivity|cbn; auto|left; split; [reflexivity|rewrite P; cbn; now destruct (_ =? _)%nat]].
    split; [exact A|]. cbn [h_pc h_pos h_start h_log]. destruct (Nat.eqb_spec (h_pos h) (y_pos st)); auto.
  - pose proof (I2 k h K ltac:(now rewrite P)) as L.
    eapply inv_change; [exact I|exact K| |left; exact L|cbn; auto|left; split; [reflexivity|now rewrite P]]. split; [exact A|]. cbn. auto.
  - pose proof (I2 k h K ltac:(now rewrite P)) as L. destruct B as [B1 B2].
    eapply inv_change; [exact I|exact K| |left; exact L|cbn; auto|left; split; [reflexivity|now rewrite P]]. split; [exact A|]. cbn [h_pc h_pos h_start h_log]. rewrite <- B1. auto.
  - pose proof (I2 k h K ltac:(now rewrite P)) as L. destruct B as (B1 & B2 & B3).
    eapply inv_change; [exact I|exact K| |right; reflexivity|cbn; auto|left; split; [reflexivity|now rewrite P]]. split; [exact A|]. cbn [h_pc h_pos h_start h_log].
    rewrite <- B3. auto.
  - pose proof (I2 k h K ltac:(now rewrite P)) as L. destruct B as (B1 & B2 & B3).
    eapply inv_change; [exact I|exact K| |right; reflexivity|cbn; discriminate|right; right; auto].
    split; cbn [h_log h_start h_pc h_pos]; [apply alone_snoc; cbn [alone]; auto|rewrite after_snoc; cbn [position_after]; exact B3].
Qed.

Lemma hinv_reach file p st : hreach file p st -> hinv file st.
Proof.
  induction 1 as [|st st' H IH ST]; [|eapply hinv_step; eassumption].
  split; cbn [created y_pos y_lock y_handles].
  - intros [|[|k]] h E; try discriminate. injection E as <-. split; cbn; auto.
  - intros [|[|k]] h E; try discriminate. injection E as <-. discriminate.
  - discriminate.
Qed.

(** ** C32 *)

(** Under every interleaving of the calls of all handles, copies included, each handle has
    seen what it would have seen with the file for itself. *)
Theorem C32_isolated : forall file p st k h, hreach file p st -> nth_error (y_handles st) k = Some h ->
  alone file (h_start h) (h_log h).
Proof. intros file p st k h H K. apply (hv_ok _ _ (hinv_reach _ _ _ H) k h K). Qed.

(** In particular a seek followed by a read gives the bytes at that position: this is how
    the data of a table is read (core/Table.cc:73-87). *)
Theorem C32_seek_read : forall file p st k h l pos n bs l', hreach file p st -> nth_error (y_handles st) k = Some h ->
  h_log h = l ++ ESeek pos :: ERead n bs :: l' -> bs = firstn n (skipn pos file).
Proof.
  intros file p st k h l pos n bs l' H K E. pose proof (C32_isolated file p st k h H K) as A. rewrite E in A. clear -A.
  revert A. generalize (h_start h) as s. induction l as [|[q|q|m b] l IH]; intros s; cbn [app alone]; [tauto|apply IH|intros [_ A]; eapply IH; exact A|intros [_ A]; eapply IH; exact A].
Qed.

(** Two handles are never both using the underlying one. *)
Theorem C32_exclusive : forall file p st k k' h h', hreach file p st ->
  nth_error (y_handles st) k = Some h -> nth_error (y_handles st) k' = Some h' ->
  inside_lock (h_pc h) = true -> inside_lock (h_pc h') = true -> k = k'.
Proof.
  intros file p st k k' h h' H K K' L L'. pose proof (hinv_reach _ _ _ H) as [_ I _]. pose proof (I k h K L). pose proof (I k' h' K' L'). congruence.
Qed.

(** A handle waiting for the lock gets it as soon as the one that has it goes on: some call
    in progress can always take a step. *)
Theorem C32_progress : forall file p st k h, hreach file p st -> nth_error (y_handles st) k = Some h -> h_pc h <> Free ->
  exists j g g' st', nth_error (y_handles st) j = Some g /\ h_pc g <> Free /\ hstep file st st' /\
    nth_error (y_handles st') j = Some g' /\ h_pc g' <> h_pc g /\ (j = k \/ y_lock st = Some j).
Proof.
  intros file p st k h H K N. pose proof (hinv_reach _ _ _ H) as [_ I2 I3].
  assert (Go : forall j g, nth_error (y_handles st) j = Some g -> inside_lock (h_pc g) = true -> exists g' st', hstep file st st' /\ nth_error (y_handles st') j = Some g' /\ h_pc g' <> h_pc g).
  { intros j g J L. destruct (h_pc g) as [| n|n|n|n|n bs|n bs] eqn:P; try discriminate.
    all: eexists _, _; split; [econstructor; eassumption|]; cbn [y_handles]; unfold set_handle; rewrite (set_at _ _ _ _ _ J), Nat.eqb_refl; split; [reflexivity|]; cbn; try destruct (_ =? _)%nat; discriminate. }
  destruct (inside_lock (h_pc h)) eqn:L.
  - destruct (Go k h K L) as (g' & st' & G). exists k, h, g', st'. tauto.
  - destruct (h_pc h) as [| n|n|n|n|n bs|n bs] eqn:P; try discriminate; [congruence|]. destruct (y_lock st) as [j|] eqn:Y.
    + destruct (I3 j eq_refl) as (g & J & LJ). destruct (Go j g J LJ) as (g' & st' & G). exists j, g, g', st'. split; [exact J|]. split; [intros Q; rewrite Q in LJ; discriminate|tauto].
    + exists k, h. eexists _, _. split; [exact K|]. split; [congruence|]. split; [eapply h_lock; eassumption|]. cbn [y_handles]. unfold set_handle.
      rewrite (set_at _ _ _ _ _ K), Nat.eqb_refl. split; [reflexivity|]. cbn. rewrite P. split; [discriminate|auto].
Qed.

(** A schedule: handle 1 is copied from handle 0 and both read, handle 1 waiting for the
    lock while handle 0 reads. *)
Ltac go H c := match type of H with hreach ?f ?p ?st =>
  let st' := fresh "st" in evar (st' : sys); assert (hreach f p st') by (eapply hr_step; [exact H|subst st'; c]); subst st'; clear H; rename H0 into H; cbn in H end.
Theorem C32_witness : exists st, hreach [10; 11; 12; 13; 14; 15]%Z 1 st /\
  map h_log (y_handles st) = [[ESeek 2; ERead 2 [12; 13]%Z; EPosition 4]; [ERead 9 [12; 13; 14; 15]%Z]] /\
  map h_start (y_handles st) = [1; 2].
Proof.
  pose proof (hr_start [10; 11; 12; 13; 14; 15]%Z 1) as H. unfold created in H.
  go H ltac:(eapply (h_seek _ _ 0 _ 2); reflexivity).
  go H ltac:(eapply (h_copy _ _ 0); reflexivity).
  go H ltac:(eapply (h_call _ _ 0 _ 2); reflexivity).
  go H ltac:(eapply (h_lock _ _ 0); reflexivity).
  go H ltac:(eapply (h_call _ _ 1 _ 9); reflexivity).
  go H ltac:(eapply (h_compare _ _ 0); reflexivity).
  go H ltac:(eapply (h_under_seek _ _ 0); reflexivity).
  go H ltac:(eapply (h_under_read _ _ 0); reflexivity).
  go H ltac:(eapply (h_update _ _ 0); reflexivity).
  go H ltac:(eapply (h_unlock _ _ 0); reflexivity).
  go H ltac:(eapply (h_lock _ _ 1); reflexivity).
  go H ltac:(eapply (h_position _ _ 0); reflexivity).
  go H ltac:(eapply (h_compare _ _ 1); reflexivity).
  go H ltac:(eapply (h_under_seek _ _ 1); reflexivity).
  go H ltac:(eapply (h_under_read _ _ 1); reflexivity).
  go H ltac:(eapply (h_update _ _ 1); reflexivity).
  go H ltac:(eapply (h_unlock _ _ 1); reflexivity).
  eexists. split; [exact H|]. cbn. auto.
Qed.
