(** C31: decoding a frame with several threads. *)
From Verif Require Import Base Fp Stream Codec Meta Header Table TableProofs Strided P_Strided MemDecode MemProofs P_Memory Frame ThreadProofs.
Open Scope Z_scope.

(** ** What is expected *)

Fixpoint total_rows (ts : list table) : Z := match ts with [] => 0 | t :: ts' => t_rows t + total_rows ts' end.

(** rows [off], [off]+1, ... ([n] of them) of an array *)
Definition part (s : strided) (off n : Z) : strided :=
  {| s_base := s_base s + off * s_stride s; s_nelem := n; s_size := s_size s; s_stride := s_stride s |}.

(** the part of each array that belongs to table [i] *)
Definition target_of (arrs : list strided) (ts : list table) (i : nat) : list strided :=
  map (fun s => part s (total_rows (firstn i ts)) (match nth_error ts i with Some t => t_rows t | None => 0 end)) arrs.

(** ** Slices *)

Lemma slice_all_parts arrs off n : 0 <= off < 2 ^ 31 -> 0 <= n -> Forall (fun s => off + n <= s_nelem s) arrs ->
  slice_all arrs off n = Ok (map (fun s => part s off n) arrs).
Proof.
  intros Ho Hn. induction 1 as [|s arrs H F IH]; [reflexivity|]. cbn [slice_all map]. unfold slice, assert.
  replace (off + n <=? s_nelem s) with true by (symmetry; apply Z.leb_le; lia). cbn [bind]. rewrite IH. cbn [bind].
  unfold part. rewrite get_row by lia. reflexivity.
Qed.

Lemma total_rows_app a b : total_rows (a ++ b) = total_rows a + total_rows b.
Proof. induction a as [|t a IH]; cbn [app total_rows]; lia. Qed.

Lemma total_nonneg ts : Forall (fun t => 0 <= t_rows t) ts -> 0 <= total_rows ts.
Proof. induction 1; cbn [total_rows]; lia. Qed.

Lemma total_split ts i t : nth_error ts i = Some t -> total_rows ts = total_rows (firstn i ts) + t_rows t + total_rows (skipn (S i) ts).
Proof.
  revert i. induction ts as [|a ts IH]; intros [|i] E; try discriminate.
  - injection E as <-. cbn [firstn total_rows skipn]. lia.
  - specialize (IH i E). cbn [firstn total_rows]. change (skipn (S (S i)) (a :: ts)) with (skipn (S i) ts). lia.
Qed.

Lemma Forall_part {A} (P : A -> Prop) l n : Forall P l -> Forall P (firstn n l) /\ Forall P (skipn n l).
Proof. intros H. rewrite <- (firstn_skipn n l) in H. now apply Forall_app in H. Qed.

Lemma nth_error_combine {A B} (l : list A) (l' : list B) i x y : nth_error l i = Some x -> nth_error l' i = Some y -> nth_error (combine l l') i = Some (x, y).
Proof.
  revert l l'. induction i as [|i IH]; intros [|a l] [|b l'] E E'; try discriminate; cbn [combine nth_error] in *; [congruence|]. now apply IH.
Qed.

Lemma nth_error_lt {A} (l : list A) i x : nth_error l i = Some x -> (i < length l)%nat.
Proof. intros H. apply nth_error_Some. congruence. Qed.

Lemma skipn_cons_nth {A} (l : list A) i x : nth_error l i = Some x -> skipn i l = x :: skipn (S i) l.
Proof. revert i. induction l as [|a l IH]; intros [|i] H; try discriminate; [injection H as ->; reflexivity|]. exact (IH i H). Qed.

Lemma firstn_cons_nth {A} (l : list A) i x : nth_error l i = Some x -> firstn (S i) l = firstn i l ++ [x].
Proof.
  revert i. induction l as [|a l IH]; intros [|i] H; try discriminate; [injection H as ->; reflexivity|].
  change (firstn (S (S i)) (a :: l)) with (a :: firstn (S i) l). now rewrite (IH i H).
Qed.

Section F.
Variables (file : list Z) (names : list (list Z)) (ts : list table) (arrs : list strided) (m0 : mem).
Hypothesis Good : Forall good arrs.
Hypothesis Disj : pairwise_disjoint arrs.
Hypothesis Rows : Forall (fun t => 0 <= t_rows t) ts.
Hypothesis Room : Forall (fun s => total_rows ts <= s_nelem s) arrs.

Lemma target_split pre t post : ts = pre ++ t :: post -> arrs <> [] ->
  0 <= total_rows pre < 2 ^ 31 /\ 0 <= t_rows t /\ Forall (fun s => total_rows pre + t_rows t <= s_nelem s) arrs.
Proof.
  intros E N. rewrite E in *. rewrite total_rows_app in Room. cbn [total_rows] in Room. apply Forall_app in Rows as [R1 R2]. inversion R2 as [|? ? R3 R4]; subst.
  pose proof (total_nonneg _ R1). pose proof (total_nonneg _ R4).
  assert (F : Forall (fun s => total_rows pre + t_rows t <= s_nelem s) arrs) by (eapply Forall_impl; [|exact Room]; cbn beta; lia).
  split; [|auto]. destruct arrs as [|s l]; [congruence|]. inversion F; inversion Good as [|? ? [_ G] _]; subst. lia.
Qed.

Lemma slice_all_at pre t post : ts = pre ++ t :: post -> slice_all arrs (total_rows pre) (t_rows t) = Ok (map (fun s => part s (total_rows pre) (t_rows t)) arrs).
Proof.
  intros E. destruct arrs as [|s l] eqn:EA; [reflexivity|]. rewrite <- EA in *. destruct (target_split pre t post E ltac:(rewrite EA; discriminate)) as (A & B & C).
  now apply slice_all_parts.
Qed.

Lemma targets_from pre post : ts = pre ++ post ->
  frame_targets post arrs (total_rows pre) = Ok (map (target_of arrs ts) (seq (length pre) (length post))).
Proof.
  revert pre. induction post as [|t post IH]; intros pre E; [reflexivity|]. cbn [frame_targets length seq map].
  rewrite (slice_all_at pre t post E). cbn [bind].
  replace (total_rows pre + t_rows t) with (total_rows (pre ++ [t])) by (rewrite total_rows_app; cbn [total_rows]; lia).
  rewrite (IH (pre ++ [t])) by (rewrite E, <- app_assoc; reflexivity). cbn [bind]. f_equal. f_equal.
  - unfold target_of. rewrite E, nth_error_app2, Nat.sub_diag by lia. cbn [nth_error]. rewrite firstn_app, firstn_all, Nat.sub_diag, firstn_O, app_nil_r. reflexivity.
  - rewrite app_length. cbn [length]. now rewrite Nat.add_1_r.
Qed.

Definition targets := map (target_of arrs ts) (seq 0 (length ts)).
Lemma targets_ok : frame_targets ts arrs 0 = Ok targets.
Proof. exact (targets_from [] ts eq_refl). Qed.

Lemma targets_nth i : (i < length ts)%nat -> nth i targets [] = target_of arrs ts i.
Proof.
  intros H. unfold targets. rewrite (nth_indep _ [] (target_of arrs ts 0)) by (rewrite map_length, seq_length; exact H). rewrite map_nth, seq_nth by exact H. reflexivity.
Qed.

Lemma target_good i : (i < length ts)%nat -> Forall good (target_of arrs ts i).
Proof.
  intros H. apply Forall_forall. intros s Hs. unfold target_of in Hs. apply in_map_iff in Hs as (a & <- & Ha).
  destruct (nth_error ts i) as [t|] eqn:E; [|apply nth_error_None in E; lia].
  rewrite Forall_forall in Good, Room. destruct (Good a Ha) as [G1 G2]. specialize (Room a Ha). cbn beta in Room.
  pose proof (total_split ts i t E). destruct (Forall_part _ _ i Rows) as [R1 _]. destruct (Forall_part _ _ (S i) Rows) as [_ R2]. apply total_nonneg in R1, R2.
  rewrite Forall_forall in Rows. specialize (Rows t (nth_error_In _ _ E)). split; [exact G1|]. cbn [part s_nelem]. lia.
Qed.

Lemma in_part s off n x : 0 <= off -> off + n <= s_nelem s -> in_array (part s off n) x -> exists row k, off <= row < off + n /\ 0 <= k < s_size s /\ x = byte_of s row k /\ in_array s x.
Proof.
  intros H1 H2 (row & k & A & B & E). cbn [part s_nelem s_size] in *. exists (off + row), k. assert (X : x = byte_of s (off + row) k) by (rewrite E; unfold byte_of, part; cbn; lia).
  split; [lia|]. split; [exact B|]. split; [exact X|]. exists (off + row), k. split; [lia|]. auto.
Qed.

Lemma target_room i t : nth_error ts i = Some t -> 0 <= total_rows (firstn i ts) /\ 0 <= t_rows t /\ forall s, In s arrs -> total_rows (firstn i ts) + t_rows t <= s_nelem s.
Proof.
  intros E. pose proof (total_split ts i t E). destruct (Forall_part _ _ i Rows) as [R1 _]. destruct (Forall_part _ _ (S i) Rows) as [_ R2]. apply total_nonneg in R1, R2.
  rewrite Forall_forall in Rows, Room. specialize (Rows t (nth_error_In _ _ E)). split; [exact R1|]. split; [exact Rows|]. intros s Hs. specialize (Room s Hs). lia.
Qed.

Lemma target_disjoint i : (i < length ts)%nat -> pairwise_disjoint (target_of arrs ts i).
Proof.
  intros H a b s s' Ha Hb N x X X'. unfold target_of in Ha, Hb. rewrite nth_error_map in Ha, Hb.
  destruct (nth_error ts i) as [t|] eqn:E; [|apply nth_error_None in E; lia]. destruct (target_room i t E) as (T1 & T2 & T3).
  destruct (nth_error arrs a) as [sa|] eqn:Ea; [|discriminate]. destruct (nth_error arrs b) as [sb|] eqn:Eb; [|discriminate]. cbn in Ha, Hb. injection Ha as <-. injection Hb as <-.
  destruct (in_part sa _ _ x T1 (T3 sa (nth_error_In _ _ Ea)) X) as (_ & _ & _ & _ & _ & Y). destruct (in_part sb _ _ x T1 (T3 sb (nth_error_In _ _ Eb)) X') as (_ & _ & _ & _ & _ & Y').
  exact (Disj a b sa sb Ea Eb N x Y Y').
Qed.

Lemma regions_apart i j x : i <> j -> region (nth i targets []) x -> region (nth j targets []) x -> False.
Proof.
  intros N. assert (W : forall i, region (nth i targets []) x -> exists t a s row k, nth_error ts i = Some t /\ nth_error arrs a = Some s /\
      total_rows (firstn i ts) <= row < total_rows (firstn i ts) + t_rows t /\ 0 <= k < s_size s /\ x = byte_of s row k /\ in_array s x).
  { intros l (s & Hs & X). destruct (nth_error ts l) as [t|] eqn:E.
    - rewrite targets_nth in Hs by (apply nth_error_Some; congruence). unfold target_of in Hs. rewrite E in Hs. apply in_map_iff in Hs as (a & <- & Ha).
      destruct (target_room l t E) as (T1 & T2 & T3). destruct (in_part a _ _ x T1 (T3 a Ha) X) as (row & k & P). apply In_nth_error in Ha as (n & Hn).
      exists t, n, a, row, k. tauto.
    - apply nth_error_None in E. rewrite nth_overflow in Hs by (unfold targets; rewrite map_length, seq_length; exact E). destruct Hs. }
  intros Hi Hj. apply W in Hi as (t & a & s & row & k & E & Ea & P1 & P2 & P3 & P4). apply W in Hj as (t' & a' & s' & row' & k' & E' & Ea' & P1' & P2' & P3' & P4').
  destruct (Nat.eq_dec a a') as [->|Na]; [|exact (Disj a a' s s' Ea Ea' Na x P4 P4')].
  rewrite Ea in Ea'. injection Ea' as <-. rewrite Forall_forall in Good. destruct (Good s (nth_error_In _ _ Ea)) as [Sep _].
  destruct (rows_apart s Sep row row' k k' P2 P2' ltac:(congruence)) as [-> _].
  assert (M : forall i j t, (i < j)%nat -> nth_error ts i = Some t -> (j <= length ts)%nat -> total_rows (firstn i ts) + t_rows t <= total_rows (firstn j ts)).
  { clear -Rows. intros i j t L E Lj. assert (E2 : nth_error (firstn j ts) i = Some t).
    { revert i j L E Lj. induction ts as [|a l IH]; intros [|i] [|j] L E Lj; try discriminate; try lia; [exact E|]. cbn [firstn nth_error] in *. inversion Rows; subst. apply IH; [assumption|lia|exact E|cbn in Lj; lia]. }
    pose proof (total_split _ _ _ E2) as T. rewrite firstn_firstn in T. replace (Nat.min i j) with i in T by lia.
    destruct (Forall_part _ _ j Rows) as [R1 _]. destruct (Forall_part _ _ (S i) R1) as [_ R2]. apply total_nonneg in R2. lia. }
  assert (i < length ts)%nat by (apply nth_error_Some; congruence). assert (j < length ts)%nat by (apply nth_error_Some; congruence).
  destruct (Nat.lt_total i j) as [L|[L|L]]; [|congruence|].
  - specialize (M i j t L E ltac:(lia)). lia.
  - specialize (M j i t' L E' ltac:(lia)). lia.
Qed.

(** ** Jobs *)

Definition jobs := jobs_of file names ts targets.

Lemma jobs_nth i t : nth_error ts i = Some t -> nth_error jobs i = Some (table_job file names t (target_of arrs ts i)).
Proof.
  intros E. unfold jobs, jobs_of. rewrite nth_error_map.
  assert (C : nth_error (combine ts targets) i = Some (t, target_of arrs ts i)).
  { assert (Li : (i < length ts)%nat) by (apply nth_error_Some; congruence). assert (Et : nth_error targets i = Some (target_of arrs ts i)).
    { rewrite <- targets_nth by exact Li. apply nth_error_nth'. unfold targets. rewrite map_length, seq_length. exact Li. }
    now apply nth_error_combine. }
  rewrite C. reflexivity.
Qed.

Lemma jobs_length : length jobs = length ts.
Proof. unfold jobs, jobs_of, targets. rewrite map_length, combine_length, map_length, seq_length. lia. Qed.

(** every table's decoding is defined *)
Hypothesis Def : forall i t, nth_error ts i = Some t -> decode_target file t names (map (content m0) (target_of arrs ts i)) <> UB.

Lemma job_sim i t : nth_error ts i = Some t -> let j := table_job file names t (target_of arrs ts i) in
  Forall (inside (map Some (target_of arrs ts i))) (fst j) /\ exists m', exec (fst j) m0 = Ok m' /\
  match decode_target file t names (map (content m0) (target_of arrs ts i)) with
  | Ok outs => snd j = Ok tt /\ outs = map (fun s => Some (content m' s)) (target_of arrs ts i)
  | Throw e => snd j = Throw e
  | UB => False
  end.
Proof.
  intros E j. assert (Li : (i < length ts)%nat) by (apply nth_error_Some; congruence).
  pose proof (memory_sim file t names (target_of arrs ts i) m0 (target_good i Li) (target_disjoint i Li)) as S. cbn beta zeta in S. specialize (Def i t E).
  unfold j, table_job. destruct (mdecode_table file t names (target_of arrs ts i)) as [ops r]. cbn [fst snd] in S.
  destruct (decode_target file t names (map (content m0) (target_of arrs ts i))) as [outs|e|]; [| |congruence].
  - destruct S as (S1 & S2 & m' & S3 & _ & S4). destruct r as [cs| |]; try discriminate. cbn [tbind tret fst snd]. rewrite app_nil_r. split; [exact S2|]. exists m'. auto.
  - destruct S as (S1 & S2 & m' & S3 & _). subst r. cbn [tbind fst snd]. split; [exact S2|]. exists m'. auto.
Qed.

Lemma jobs_inside i ops r : nth_error jobs i = Some (ops, r) -> Forall (inside (map Some (nth i targets []))) ops.
Proof.
  intros E. assert (Li : (i < length ts)%nat) by (rewrite <- jobs_length; apply nth_error_Some; congruence).
  destruct (nth_error ts i) as [t|] eqn:Et; [|apply nth_error_None in Et; lia]. pose proof (jobs_nth i t Et) as J. rewrite E in J. injection J as J.
  destruct (job_sim i t Et) as [F _]. rewrite <- J in F. rewrite targets_nth by exact Li. exact F.
Qed.

Lemma jobs_defined i ops : nth_error jobs i <> Some (ops, UB).
Proof.
  intros E. assert (Li : (i < length ts)%nat) by (rewrite <- jobs_length; apply nth_error_Some; congruence).
  destruct (nth_error ts i) as [t|] eqn:Et; [|apply nth_error_None in Et; lia]. pose proof (jobs_nth i t Et) as J. rewrite E in J. injection J as J.
  destruct (job_sim i t Et) as [_ (m' & _ & M)]. rewrite <- J in M. cbn [snd] in M. destruct (decode_target _ _ _ _) as [o|e|]; [destruct M; discriminate|discriminate|exact M].
Qed.

(** ** One thread *)

Lemma serial_from pre post : ts = pre ++ post -> Forall (fun j => snd j = Ok tt) (skipn (length pre) jobs) ->
  serial_decode file post names arrs (total_rows pre) = (concat (map fst (skipn (length pre) jobs)), Ok tt).
Proof.
  revert pre. induction post as [|t post IH]; intros pre E F.
  - cbn [serial_decode]. rewrite skipn_all2; [reflexivity|]. rewrite jobs_length, E, app_nil_r. lia.
  - cbn [serial_decode]. rewrite (slice_all_at pre t post E). cbn [lift tbind].
    assert (Et : nth_error ts (length pre) = Some t) by (rewrite E, nth_error_app2, Nat.sub_diag by lia; reflexivity).
    assert (Tg : map (fun s => part s (total_rows pre) (t_rows t)) arrs = target_of arrs ts (length pre)).
    { unfold target_of. rewrite Et. rewrite E, firstn_app, firstn_all, Nat.sub_diag, firstn_O, app_nil_r. reflexivity. }
    rewrite Tg. pose proof (jobs_nth _ _ Et) as J.
    assert (Sk : skipn (length pre) jobs = table_job file names t (target_of arrs ts (length pre)) :: skipn (S (length pre)) jobs).
    { now apply skipn_cons_nth. }
    rewrite Sk in *. inversion F as [|? ? F1 F2]; subst. unfold table_job in *.
    destruct (mdecode_table file t names (target_of arrs ts (length pre))) as [ops r].
    destruct r as [cs| |]; cbn [tbind tret snd fst] in *; try discriminate. rewrite ?app_nil_l, ?app_nil_r. cbn [map concat fst].
    specialize (IH (pre ++ [t])). rewrite total_rows_app in IH. cbn [total_rows] in IH. rewrite Z.add_0_r in IH. rewrite app_length, Nat.add_1_r in IH. cbn [length] in IH.
    rewrite IH; [reflexivity| |exact F2]. rewrite E, <- app_assoc. reflexivity.
Qed.

Lemma concat_mem : forall k, (k <= length jobs)%nat -> exists mk, exec (concat (map fst (firstn k jobs))) m0 = Ok mk /\
  (forall i ops r md, nth_error jobs i = Some (ops, r) -> (i < k)%nat -> exec ops m0 = Ok md -> forall x, region (nth i targets []) x -> mk x = md x) /\
  (forall x, (forall i, (i < k)%nat -> ~ region (nth i targets []) x) -> mk x = m0 x).
Proof.
  induction k as [|k IH]; intros Hk.
  - exists m0. cbn. split; [reflexivity|]. split; [intros; lia|auto].
  - destruct (IH ltac:(lia)) as (mk & X & A & B). destruct (nth_error jobs k) as [[ops r]|] eqn:J; [|apply nth_error_None in J; lia].
    assert (Fk : firstn (S k) jobs = firstn k jobs ++ [(ops, r)]).
    { now apply firstn_cons_nth. }
    pose proof (jobs_inside k ops r J) as F. destruct (exec_local _ _ F m0 mk) as (md & mk' & E0 & E1 & L0 & L1). destruct (exec_local _ _ F mk m0) as (mk2 & _ & E2 & _ & L2 & _).
    rewrite E1 in E2. injection E2 as <-.
    exists mk'. split; [rewrite Fk, map_app, concat_app, exec_app; unfold job in *; rewrite X; cbn [map concat fst bind]; rewrite app_nil_r; exact E1|].
    assert (KK : forall x, region (nth k targets []) x -> mk x = m0 x).
    { intros x Hx. apply B. intros i Hi Hr. apply (regions_apart i k x ltac:(lia) Hr Hx). }
    split.
    + intros i ops' r' md' Ji Hi Ei x Hx. destruct (Nat.eq_dec i k) as [->|N].
      * rewrite J in Ji. injection Ji as <- <-. rewrite E0 in Ei. injection Ei as <-. now apply L1.
      * rewrite L2; [eapply A; [exact Ji|lia|exact Ei|exact Hx]|]. intros Hr. exact (regions_apart i k x N Hx Hr).
    + intros x Hx. rewrite L2 by (apply Hx; lia). apply B. intros i Hi. apply Hx. lia.
Qed.
End F.

(** ** C31 *)

(** The arrays do not overlap and have room for the rows of the frame, and every table of
    the frame can be decoded into its part of the arrays. *)
Record decodable (file : list Z) (names : list (list Z)) (ts : list table) (arrs : list strided) (m0 : mem) : Prop := {
  dc_arrays : Forall good arrs;
  dc_disjoint : pairwise_disjoint arrs;
  dc_tables : (2 <= length ts)%nat;
  dc_rows : Forall (fun t => 0 <= t_rows t) ts;
  dc_room : Forall (fun s => total_rows ts <= s_nelem s) arrs;
  dc_decode : forall i t, nth_error ts i = Some t -> is_ok (decode_target file t names (map (content m0) (target_of arrs ts i))) = true
}.

(** With any positive number of threads and under every schedule the call succeeds; memory
    then is that of the decoding by one thread: each part of the arrays holds the decoded rows
    of its table, and the rest is unchanged. *)
Theorem C31_threads : forall file names ts arrs m0, decodable file names ts arrs m0 ->
  exists ms, runs (frame_decode 1 file names ts arrs) m0 (Ok tt) ms /\
    (forall i t, nth_error ts i = Some t ->
       decode_target file t names (map (content m0) (target_of arrs ts i)) = Ok (map (fun s => Some (content ms s)) (target_of arrs ts i))) /\
    (forall x, (forall s, In s arrs -> ~ in_array s x) -> ms x = m0 x) /\
    forall n r m', (1 <= n)%nat -> runs (frame_decode n file names ts arrs) m0 r m' -> r = Ok tt /\ forall x, m' x = ms x.
Proof.
  intros file names ts arrs m0 [G D L R Ro De].
  assert (Def : forall i t, nth_error ts i = Some t -> decode_target file t names (map (content m0) (target_of arrs ts i)) <> UB).
  { intros i t E Q. specialize (De i t E). rewrite Q in De. discriminate. }
  set (tg := targets ts arrs). set (js := jobs file names ts arrs).
  assert (JL : length js = length ts) by apply jobs_length.
  assert (TL : length tg = length js) by (unfold tg, targets; rewrite map_length, seq_length; symmetry; exact JL).
  assert (AllOk : Forall (fun j => snd j = Ok tt) js).
  { apply Forall_forall. intros j Hj. apply In_nth_error in Hj as (i & Hi). assert (Li : (i < length ts)%nat) by (rewrite <- JL; eapply nth_error_lt; exact Hi).
    destruct (nth_error ts i) as [t|] eqn:E; [|apply nth_error_None in E; lia]. pose proof (eq_trans (eq_sym Hi) (jobs_nth file names ts arrs i t E)) as J. injection J as ->.
    destruct (job_sim file names ts arrs m0 G D R Ro Def i t E) as [_ (m' & _ & M)]. specialize (De i t E). destruct (decode_target _ _ _ _); try discriminate. apply M. }
  destruct (concat_mem file names ts arrs m0 G D R Ro Def (length js) ltac:(reflexivity)) as (ms & X & A & B).
  fold js tg in X, A, B. rewrite firstn_all in X.
  assert (FD1 : frame_decode 1 file names ts arrs = Here (concat (map fst js), Ok tt)).
  { unfold frame_decode. destruct ts as [|t1 [|t2 l]]; [cbn in L; lia|cbn in L; lia|]. cbn [Nat.eqb]. f_equal.
    exact (serial_from file names (t1 :: t2 :: l) arrs m0 G D R Ro Def [] (t1 :: t2 :: l) eq_refl AllOk). }
  assert (OUT : forall x, (forall s, In s arrs -> ~ in_array s x) -> forall i, ~ region (nth i tg []) x).
  { intros x Hx i (s & Hs & Hi). destruct (Nat.lt_ge_cases i (length ts)) as [Li|Li].
    - unfold tg in Hs. rewrite (targets_nth ts arrs i Li) in Hs. destruct (nth_error ts i) as [t|] eqn:E; [|apply nth_error_None in E; lia].
      unfold target_of in Hs. rewrite E in Hs. apply in_map_iff in Hs as (a & <- & Ha). destruct (target_room ts arrs R Ro i t E) as (T1 & T2 & T3).
      destruct (in_part a _ _ x T1 (T3 a Ha) Hi) as (_ & _ & _ & _ & _ & Y). exact (Hx a Ha Y).
    - rewrite nth_overflow in Hs by (unfold tg, targets; rewrite map_length, seq_length; exact Li). destruct Hs. }
  exists ms. split; [rewrite FD1; now constructor|]. split; [|split].
  - intros i t E. destruct (job_sim file names ts arrs m0 G D R Ro Def i t E) as [F (m' & X' & M)]. specialize (De i t E).
    destruct (decode_target file t names (map (content m0) (target_of arrs ts i))) as [outs|e|]; try discriminate. destruct M as [M1 M2]. rewrite M2. f_equal.
    assert (Li : (i < length ts)%nat) by (apply nth_error_Some; congruence).
    apply map_ext_in. intros s Hs. f_equal. unfold content. f_equal. symmetry. apply view_ext. intros x Hx.
    pose proof (jobs_nth file names ts arrs i t E) as J. fold js in J. destruct (table_job file names t (target_of arrs ts i)) as [ops r] eqn:TJ. cbn [fst snd] in *.
    apply (A i ops r m' J); [lia|exact X'|]. unfold tg. rewrite (targets_nth ts arrs i Li). exists s. auto.
  - intros x Hx. apply B. intros i _. now apply OUT.
  - intros n r m' Hn H. destruct (Nat.eq_dec n 1) as [->|N1].
    { rewrite FD1 in H. inversion H as [ops r' m m2 X2|]; subst. rewrite X in X2. injection X2 as <-. auto. }
    assert (FDn : frame_decode n file names ts arrs = Threads n js).
    { unfold frame_decode. destruct ts as [|t1 [|t2 l]]; [cbn in L; lia|cbn in L; lia|]. rewrite (proj2 (Nat.eqb_neq n 1) N1).
      rewrite (targets_ok (t1 :: t2 :: l) arrs G D R Ro). rewrite (proj2 (Nat.ltb_lt 1 n)) by lia. reflexivity. }
    rewrite FDn in H. inversion H as [|n' js' m st ST AS]; subst.
    destruct (at_end js tg TL (jobs_inside file names ts arrs m0 G D R Ro Def) (regions_apart ts arrs G D R Ro) (jobs_defined file names ts arrs m0 G D R Ro Def) m0 n st ltac:(lia) ST AS) as (E1 & E2 & _).
    destruct (E1 AllOk) as [E3 E4]. split; [exact E3|]. intros x.
    (* is x in some part? *)
    assert (Dec : (exists i, (i < length js)%nat /\ region (nth i tg []) x) \/ (forall i, (i < length js)%nat -> ~ region (nth i tg []) x)).
    { clear -tg G R Ro JL. generalize (length js) as k. induction k as [|k [IH|IH]]; [right; lia|left; destruct IH as (i & Hi & Hr); exists i; split; [lia|exact Hr]|].
      assert (Dk : region (nth k tg []) x \/ ~ region (nth k tg []) x).
      { destruct (Nat.lt_ge_cases k (length ts)) as [Lk|Lk].
        2:{ right. intros (s & Hs & _). rewrite nth_overflow in Hs by (unfold tg, targets; rewrite map_length, seq_length; exact Lk). destruct Hs. }
        pose proof (target_good ts arrs G R Ro k Lk) as Gk. unfold tg. rewrite (targets_nth ts arrs k Lk).
        induction Gk as [|s l Gs Gl IHl]; [right; intros (s & [] & _)|]. destruct IHl as [(s' & Hs' & Hx')|IHl]; [left; exists s'; split; [now right|exact Hx']|].
        destruct Gs as [Sep Hn]. destruct (in_fill_dec s (-1) (s_nelem s - 1) x Sep) as [(row & q & Hr & Hq & Hx)|Nx].
        - left. exists s. split; [now left|]. exists row, q. split; [lia|]. auto.
        - right. intros (s' & [<-|Hs'] & Hx'); [|apply IHl; exists s'; auto]. destruct Hx' as (row & q & Hr & Hq & Hx). apply (Nx row q); [lia|exact Hq|exact Hx]. }
      destruct Dk as [Dk|Dk]; [left; exists k; split; [lia|exact Dk]|]. right. intros i Hi. destruct (Nat.eq_dec i k) as [->|]; [exact Dk|apply IH; lia]. }
    destruct Dec as [(i & Hi & Hr)|Nr].
    + destruct (nth_error js i) as [[ops r]|] eqn:J; [|apply nth_error_None in J; lia]. destruct (E4 i ops r J) as (md & Xd & Ed).
      rewrite (Ed x Hr). symmetry. eapply A; eauto.
    + rewrite E2, B; [reflexivity|exact Nr|]. intros i Hr. destruct (Nat.lt_ge_cases i (length js)) as [Li|Li]; [exact (Nr i Li Hr)|].
      destruct Hr as (s & Hs & _). rewrite nth_overflow in Hs by (unfold tg, targets; rewrite map_length, seq_length; lia). destruct Hs.
Qed.

(** ** Tables that cannot all be decoded *)

(** As [decodable], but decoding a table may throw. *)
Record safe (file : list Z) (names : list (list Z)) (ts : list table) (arrs : list strided) (m0 : mem) : Prop := {
  sf_arrays : Forall good arrs;
  sf_disjoint : pairwise_disjoint arrs;
  sf_tables : (2 <= length ts)%nat;
  sf_rows : Forall (fun t => 0 <= t_rows t) ts;
  sf_room : Forall (fun s => total_rows ts <= s_nelem s) arrs;
  sf_decode : forall i t, nth_error ts i = Some t -> decode_target file t names (map (content m0) (target_of arrs ts i)) <> UB
}.

Lemma decodable_safe file names ts arrs m0 : decodable file names ts arrs m0 -> safe file names ts arrs m0.
Proof.
  intros [G D L R Ro De]. constructor; auto. intros i t E Q. specialize (De i t E). rewrite Q in De. discriminate.
Qed.

Lemma frame_plan file names ts arrs m0 n : safe file names ts arrs m0 -> (2 <= n)%nat -> frame_decode n file names ts arrs = Threads n (jobs file names ts arrs).
Proof.
  intros [G D L R Ro De] Hn. unfold frame_decode. destruct ts as [|t1 [|t2 l]]; [cbn in L; lia|cbn in L; lia|]. rewrite (proj2 (Nat.eqb_neq n 1)) by lia.
  rewrite (targets_ok (t1 :: t2 :: l) arrs G D R Ro). rewrite (proj2 (Nat.ltb_lt 1 n)) by lia. reflexivity.
Qed.

Lemma targets_jobs file names ts arrs : length (targets ts arrs) = length (jobs file names ts arrs).
Proof. rewrite jobs_length. unfold targets. now rewrite map_length, seq_length. Qed.

(** No execution goes on for ever: with [n] threads there is a bound on the number of steps
    of every execution. *)
Theorem C31_terminates : forall file names ts arrs m0 n, safe file names ts arrs m0 -> (2 <= n)%nat ->
  exists js (bound : nat), frame_decode n file names ts arrs = Threads n js /\
  forall sts : nat -> pstate, sts 0%nat = start n m0 -> forall len : nat, (forall k, (k < len)%nat -> step js (sts k) (sts (S k))) -> (len <= bound)%nat.
Proof.
  intros file names ts arrs m0 n SF Hn. pose proof (frame_plan _ _ _ _ _ n SF Hn) as P. destruct SF as [G D L R Ro De].
  exists (jobs file names ts arrs), (measure (jobs file names ts arrs) (start n m0)). split; [exact P|]. intros sts E0 len H.
  enough (Q : forall k, (k <= len)%nat -> (measure (jobs file names ts arrs) (sts k) + k <= measure (jobs file names ts arrs) (start n m0))%nat) by (specialize (Q len ltac:(lia)); lia).
  induction k as [|k IH]; intros Hk; [rewrite E0; lia|]. specialize (IH ltac:(lia)). specialize (H k ltac:(lia)).
  pose proof (step_measure _ _ (targets_jobs file names ts arrs) (jobs_inside file names ts arrs m0 G D R Ro De) (regions_apart ts arrs G D R Ro) (jobs_defined file names ts arrs m0 G D R Ro De) _ _ H). lia.
Qed.

(** No execution gets stuck: while some thread has not stopped, it can take a step. *)
Theorem C31_progress : forall file names ts arrs m0 n js st k t, safe file names ts arrs m0 -> (2 <= n)%nat ->
  frame_decode n file names ts arrs = Threads n js -> steps js (start n m0) st -> nth_error (p_threads st) k = Some t ->
  stopped t \/ exists st', step js st st' /\ nth_error (p_threads st') k <> Some t.
Proof.
  intros file names ts arrs m0 n js st k t SF Hn P H K. rewrite (frame_plan _ _ _ _ _ n SF Hn) in P. injection P as <-. destruct SF as [G D L R Ro De].
  exact (progress _ _ (targets_jobs file names ts arrs) (jobs_inside file names ts arrs m0 G D R Ro De) (regions_apart ts arrs G D R Ro) (jobs_defined file names ts arrs m0 G D R Ro De) m0 n st k t H K).
Qed.

(** Two threads never have accesses to a common byte ready at the same time. *)
Theorem C31_race_free : forall file names ts arrs m0 n js st k k' i i' o o' l l' x, safe file names ts arrs m0 -> (2 <= n)%nat ->
  frame_decode n file names ts arrs = Threads n js -> steps js (start n m0) st -> k <> k' ->
  nth_error (p_threads st) k = Some (Running i (o :: l)) -> nth_error (p_threads st) k' = Some (Running i' (o' :: l')) ->
  touched o x -> touched o' x -> False.
Proof.
  intros file names ts arrs m0 n js st k k' i i' o o' l l' x SF Hn P H. rewrite (frame_plan _ _ _ _ _ n SF Hn) in P. injection P as <-. destruct SF as [G D L R Ro De].
  exact (race_free _ _ (targets_jobs file names ts arrs) (jobs_inside file names ts arrs m0 G D R Ro De) (regions_apart ts arrs G D R Ro) (jobs_defined file names ts arrs m0 G D R Ro De) m0 n st k k' i i' o o' l l' x H).
Qed.

Lemma steps_trans js a b c : steps js a b -> steps js b c -> steps js a c.
Proof. intros H H2. revert H. induction H2 as [s|s1 s2 s3 H1 IH H3]; intros H; [exact H|]. exact (steps_more _ _ _ _ (IH H) H3). Qed.

Lemma stopped_dec t : {stopped t} + {~ stopped t}.
Proof. destruct t; [right|right|left; now left|left; right; eauto]; intros [H|[e H]]; discriminate. Qed.

(** Every execution can be completed. *)
Theorem C31_completes : forall file names ts arrs m0 n js st, safe file names ts arrs m0 -> (2 <= n)%nat ->
  frame_decode n file names ts arrs = Threads n js -> steps js (start n m0) st ->
  exists st', steps js st st' /\ all_stopped st'.
Proof.
  intros file names ts arrs m0 n js st SF Hn P H.
  assert (ME : forall s s', step js s s' -> (measure js s' < measure js s)%nat).
  { rewrite (frame_plan _ _ _ _ _ n SF Hn) in P. injection P as <-. destruct SF as [G D L R Ro De].
    exact (step_measure _ _ (targets_jobs file names ts arrs) (jobs_inside file names ts arrs m0 G D R Ro De) (regions_apart ts arrs G D R Ro) (jobs_defined file names ts arrs m0 G D R Ro De)). }
  remember (measure js st) as w eqn:Ew. revert st H Ew. induction w as [w IH] using (well_founded_induction Wf_nat.lt_wf). intros st H ->.
  destruct (Forall_Exists_dec stopped stopped_dec (p_threads st)) as [A|A]; [exists st; split; [constructor|exact A]|].
  apply Exists_exists in A as (t & Ht & N). apply In_nth_error in Ht as (k & K).
  destruct (C31_progress file names ts arrs m0 n js st k t SF Hn P H K) as [Q|(st1 & S1 & _)]; [contradiction|].
  destruct (IH (measure js st1) (ME _ _ S1) st1 (steps_more _ _ _ _ H S1) eq_refl) as (st' & H' & A'). exists st'. split; [|exact A'].
  eapply steps_trans; [|exact H']. econstructor; [constructor|exact S1].
Qed.

(** If some table cannot be decoded, then under every schedule the call throws an exception
    that the decoding of one of the tables throws, and nothing outside the arrays changes. *)
Theorem C31_failure : forall file names ts arrs m0 n r m', safe file names ts arrs m0 -> (2 <= n)%nat ->
  (exists i t e, nth_error ts i = Some t /\ decode_target file t names (map (content m0) (target_of arrs ts i)) = Throw e) ->
  runs (frame_decode n file names ts arrs) m0 r m' ->
  (exists i t e, nth_error ts i = Some t /\ decode_target file t names (map (content m0) (target_of arrs ts i)) = Throw e /\ r = Throw e) /\
  forall x, (forall s, In s arrs -> ~ in_array s x) -> m' x = m0 x.
Proof.
  intros file names ts arrs m0 n r m' SF Hn (i0 & t0 & e0 & E0 & D0) H. rewrite (frame_plan _ _ _ _ _ n SF Hn) in H. destruct SF as [G D L R Ro De].
  inversion H as [|n' js' m st ST AS]; subst.
  destruct (at_end _ _ (targets_jobs file names ts arrs) (jobs_inside file names ts arrs m0 G D R Ro De) (regions_apart ts arrs G D R Ro) (jobs_defined file names ts arrs m0 G D R Ro De) m0 n st ltac:(lia) ST AS) as (_ & E2 & E3).
  split.
  - destruct E3 as (e & Q & i & ops & J).
    + apply Exists_exists. exists (table_job file names t0 (target_of arrs ts i0)). split; [eapply nth_error_In; apply (jobs_nth file names ts arrs i0 t0 E0)|].
      destruct (job_sim file names ts arrs m0 G D R Ro De i0 t0 E0) as [_ (m1 & _ & M)]. rewrite D0 in M. exists e0. exact M.
    + assert (Li : (i < length ts)%nat) by (rewrite <- (jobs_length file names ts arrs); eapply nth_error_lt; exact J).
      destruct (nth_error ts i) as [t|] eqn:E; [|apply nth_error_None in E; lia]. exists i, t, e. split; [exact E|].
      pose proof (eq_trans (eq_sym J) (jobs_nth file names ts arrs i t E)) as J'. injection J' as J'.
      destruct (job_sim file names ts arrs m0 G D R Ro De i t E) as [_ (m1 & _ & M)]. rewrite <- J' in M. cbn [snd] in M.
      destruct (decode_target file t names (map (content m0) (target_of arrs ts i))); [destruct M; discriminate|injection M as <-; auto|contradiction].
  - intros x Hx. apply E2. intros i (s & Hs & Hi). destruct (nth_error ts i) as [t|] eqn:E.
    + assert (Li : (i < length ts)%nat) by (eapply nth_error_lt; exact E). rewrite (targets_nth ts arrs i Li) in Hs.
      unfold target_of in Hs. rewrite E in Hs. apply in_map_iff in Hs as (a & <- & Ha). destruct (target_room ts arrs R Ro i t E) as (T1 & T2 & T3).
      destruct (in_part a _ _ x T1 (T3 a Ha) Hi) as (_ & _ & _ & _ & _ & Y). exact (Hx a Ha Y).
    + apply nth_error_None in E. rewrite nth_overflow in Hs by (unfold targets; rewrite map_length, seq_length; exact E). destruct Hs.
Qed.

(** With no thread at all a frame of several tables is not decoded, and the call succeeds:
    the claim needs at least one thread. *)
Theorem C31_zero_threads_refuted : forall file names ts arrs m0, safe file names ts arrs m0 ->
  forall r m', runs (frame_decode 0 file names ts arrs) m0 r m' -> r = Ok tt /\ m' = m0.
Proof.
  intros file names ts arrs m0 [G D L R Ro De] r m' H. unfold frame_decode in H. destruct ts as [|t1 [|t2 l]]; [cbn in L; lia|cbn in L; lia|]. cbn [Nat.eqb] in H.
  rewrite (targets_ok (t1 :: t2 :: l) arrs G D R Ro) in H. cbn [Nat.ltb Nat.leb] in H. inversion H as [ops r' m m2 X|]; subst. cbn in X. injection X as <-. auto.
Qed.
