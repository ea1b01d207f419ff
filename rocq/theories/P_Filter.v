(** C62: filtering. *)
From Coq Require Import Lia.
From Verif Require Import Base Fp Stream Codec Meta Header Encoder StreamProofs TableProofs StreamLocal Table Reader ReadSpec ReaderProofs AggregateProofs P_Reader Filter FilterSpec.
Open Scope Z_scope.

(** ** Reading a frame as one stream *)

Definition left_in (file : list Z) (h : serial) (data : list Z) : Prop :=
  (h_pos h <= length (h_buffer h))%nat /\ (h_table h < length (h_tables h))%nat /\
  exists bs, Forall2 (fun t b => read_encoded file true t = Ok b /\ b <> []) (skipn (S (h_table h)) (h_tables h)) bs /\
    data = skipn (h_pos h) (h_buffer h) ++ concat bs.

Lemma read_some : forall file h data n, (0 < n)%nat -> left_in file h data ->
  exists h1 c, serial_read file h n = Ok (h1, c) /\
    ((data = [] /\ c = [] /\ h1 = h) \/ (exists rest, data = c ++ rest /\ c <> [] /\ (length c <= n)%nat /\ left_in file h1 rest)).
Proof.
  intros file h data n Hn (P & T & bs & F & ->).
  assert (G : forall h, (h_pos h < length (h_buffer h))%nat -> (h_table h < length (h_tables h))%nat ->
    forall bs, Forall2 (fun t b => read_encoded file true t = Ok b /\ b <> []) (skipn (S (h_table h)) (h_tables h)) bs ->
    exists h1 c, (do _ <- assert (h_pos h <? length (h_buffer h))%nat;
      Ok ({| h_tables := h_tables h; h_buffer := h_buffer h; h_table := h_table h; h_pos := h_pos h + Nat.min n (length (h_buffer h) - h_pos h) |},
          firstn (Nat.min n (length (h_buffer h) - h_pos h)) (skipn (h_pos h) (h_buffer h)))) = Ok (h1, c) /\
      exists rest, skipn (h_pos h) (h_buffer h) ++ concat bs = c ++ rest /\ c <> [] /\ (length c <= n)%nat /\ left_in file h1 rest).
  { clear - Hn. intros h P T bs F. destruct (Nat.ltb_spec (h_pos h) (length (h_buffer h))) as [_|]; [|lia]. cbn [assert bind].
    set (k := Nat.min n (length (h_buffer h) - h_pos h)). assert (1 <= k <= length (h_buffer h) - h_pos h)%nat as K by lia.
    eexists _, _. split; [reflexivity|]. exists (skipn k (skipn (h_pos h) (h_buffer h)) ++ concat bs).
    split; [rewrite app_assoc, firstn_skipn; reflexivity|].
    split; [intros E; apply (f_equal (@length Z)) in E; rewrite firstn_length, skipn_length in E; cbn in E; lia|].
    split; [rewrite firstn_length; lia|].
    split; [cbn [h_pos h_buffer]; lia|]. split; [exact T|]. exists bs. split; [exact F|]. cbn [h_pos h_buffer].
    rewrite skipn_skipn. f_equal. f_equal. lia. }
  unfold serial_read. destruct (Nat.eqb_spec (h_pos h) (length (h_buffer h))) as [E|E].
  - rewrite E, skipn_all. cbn [app].
    destruct (Nat.leb_spec (length (h_tables h) - 1) (h_table h)) as [L|L].
    + cbn [bind]. eexists _, _. split; [reflexivity|]. left.
      rewrite skipn_all2 in F by lia. inversion F; subst. split; [reflexivity|]. split; reflexivity.
    + destruct (nth_error (h_tables h) (S (h_table h))) as [t|] eqn:NE; [|apply nth_error_None in NE; lia].
      assert (skipn (S (h_table h)) (h_tables h) = t :: skipn (S (S (h_table h))) (h_tables h)) as SK.
      { clear -NE. revert NE. generalize (S (h_table h)) as i. generalize (h_tables h) as l. induction l as [|x l IH]; intros [|i] H; cbn in H; try discriminate.
        - cbn [skipn]. congruence.
        - cbn [skipn]. apply IH in H. exact H. }
      rewrite SK in F. inversion F as [|? b ? bs' (B1 & B2) F']; subst. rewrite B1. cbn [bind].
      destruct (G {| h_tables := h_tables h; h_buffer := b; h_table := S (h_table h); h_pos := 0 |}) with (bs := bs') as (h1 & c & G1 & G2); cbn [h_tables h_buffer h_table h_pos].
      { destruct b; [contradiction|cbn; lia]. }
      { lia. }
      { exact F'. }
      exists h1, c. split; [exact G1|]. right. cbn [h_tables h_buffer h_table h_pos skipn] in G2. exact G2.
  - cbn [bind]. destruct (G h ltac:(lia) T bs F) as (h1 & c & G1 & G2). exists h1, c. split; [exact G1|]. right. exact G2.
Qed.

Lemma reads_some : forall file ns h data, Forall (fun n => (0 < n)%nat) ns -> left_in file h data ->
  exists cs, serial_reads file h ns = Ok cs /\ drains data ns cs.
Proof.
  intros file ns. induction ns as [|n ns IH]; intros h data P L; [exists []; split; [reflexivity|constructor]|].
  inversion P as [|? ? P1 P2]; subst. destruct (read_some file h data n P1 L) as (h1 & c & R & C). cbn [serial_reads]. rewrite R. cbn [bind].
  destruct C as [(-> & -> & ->)|(rest & -> & C1 & C2 & L1)].
  - destruct (IH h [] P2 L) as (cs & R2 & D). rewrite R2. cbn [bind]. exists ([] :: cs). split; [reflexivity|constructor; exact D].
  - destruct (IH h1 rest P2 L1) as (cs & R2 & D). rewrite R2. cbn [bind]. exists (c :: cs). split; [reflexivity|constructor; assumption].
Qed.

(** The handle a frame (tables [i], ..., [i + n - 1] of a file) is filtered through delivers its
    encoded bytes, whatever lengths are asked for. *)
Theorem C62_stream : forall md5 st fs tables i n, tables_of md5 st fs tables -> (0 < n)%nat -> (i + n <= length fs)%nat ->
  exists h, serial_open (concat fs) (firstn n (skipn i tables)) = Ok (h, Z.of_nat (length (nth i fs []))) /\
  forall ns, Forall (fun n => (0 < n)%nat) ns ->
    exists cs, serial_reads (concat fs) h ns = Ok cs /\ drains (concat (firstn n (skipn i fs))) ns cs.
Proof.
  intros md5 st fs tables i n T Hn Hi.
  assert (X : forall m j, (j + m <= length fs)%nat -> Forall2 (fun t b => read_encoded (concat fs) true t = Ok b) (firstn m (skipn j tables)) (firstn m (skipn j fs))).
  { induction m as [|m IH]; intros j Hj; [constructor|].
    pose proof T as [TL _].
    destruct (skipn j tables) as [|t ts] eqn:ET; [apply (f_equal (@length _)) in ET; rewrite skipn_length in ET; cbn in ET; lia|].
    destruct (skipn j fs) as [|f fs'] eqn:EF; [apply (f_equal (@length _)) in EF; rewrite skipn_length in EF; cbn in EF; lia|].
    assert (forall {A} (l : list A) x r, skipn j l = x :: r -> skipn (S j) l = r) as SK.
    { intros A l. clear. revert l. induction j as [|j IHj]; intros l x r H; destruct l; cbn in *; try discriminate; [congruence|]. apply IHj in H. exact H. }
    specialize (IH (S j) ltac:(lia)). rewrite (SK _ _ _ _ ET), (SK _ _ _ _ EF) in IH. cbn [firstn]. constructor; [|exact IH].
    destruct (C30_encoded md5 st fs tables j 1 T ltac:(lia) ltac:(lia)) as (E & _). rewrite ET, EF in E. cbn [firstn encoded_data concat] in E.
    destruct (read_encoded (concat fs) true t) as [b| |]; cbn [bind] in E; try discriminate. rewrite !app_nil_r in E. exact E. }
  specialize (X n i Hi).
  assert (NE : Forall (fun f => f <> []) fs).
  { apply Forall_forall. intros f Hf. apply In_nth_error in Hf as [k Hk]. destruct T as [_ T]. destruct (T k f Hk) as (t & (R & _) & _).
    intros ->. vm_compute in R. discriminate. }
  assert (X2 : Forall2 (fun t b => read_encoded (concat fs) true t = Ok b /\ b <> []) (firstn n (skipn i tables)) (firstn n (skipn i fs))).
  { assert (Forall (fun f => f <> []) (firstn n (skipn i fs))) as NE2.
    { apply Forall_forall. intros f Hf. apply (proj1 (Forall_forall _ _) NE). rewrite <- (firstn_skipn i fs). apply in_or_app. right. rewrite <- (firstn_skipn n (skipn i fs)). apply in_or_app. left. exact Hf. }
    clear -X NE2. revert NE2. induction X as [|? ? ? ? X0 X IH]; intros NE; constructor; inversion NE; subst; auto. }
  clear X. destruct n as [|n]; [lia|]. destruct (skipn i tables) as [|t ts] eqn:ET; [pose proof T as [TL _]; apply (f_equal (@length _)) in ET; rewrite skipn_length in ET; cbn in ET; lia|].
  destruct (skipn i fs) as [|f fs'] eqn:EF; [apply (f_equal (@length _)) in EF; rewrite skipn_length in EF; cbn in EF; lia|].
  cbn [firstn] in *. inversion X2 as [|? ? ? ? (B1 & B2) F]; subst. cbn [serial_open]. rewrite B1. cbn [bind].
  eexists. split.
  - do 3 f_equal. f_equal. rewrite <- (firstn_skipn i fs) at 1. rewrite EF, app_nth2; rewrite firstn_length; [|lia].
    replace (i - Nat.min i (length fs))%nat with 0%nat by lia. reflexivity.
  - intros ns P. apply reads_some; [exact P|]. split; [cbn; lia|]. split; [cbn; lia|]. exists (firstn n fs'). split; [exact F|reflexivity].
Qed.
