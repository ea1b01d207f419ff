(** C33, C35, C39, C42, and concrete cases for the reader properties. *)
From Coq Require Import String.
From Verif Require Import Spec Base Fp Stream StreamProofs StreamLocal Codec Meta Header Encoder Table Reader ReadSpec TableProofs
  ReaderProofs AggregateProofs Iterators P_Frame Md5 Through P_Reader.
Open Scope Z_scope.

(** ** C33: iterators *)

(** How often iterator [k] has been advanced. *)
Definition advanced (k : nat) (evs : list event) : nat :=
  List.length (filter (fun e => match e with Advance k' => Nat.eqb k k' | Look _ => false end) evs).

(** The observations a schedule makes when every iterator, however the calls interleave,
    sees table number c after c advances and the end after the last table. *)
Fixpoint expected (n : nat) (tables : list table) (before evs : list event) : list (nat * option table) :=
  match evs with
  | [] => []
  | e :: evs' =>
      (match e with
       | Look k => if (k <? n)%nat then [(k, nth_error tables (advanced k before))] else []
       | Advance _ => []
       end) ++ expected n tables (before ++ [e]) evs'
  end.

Section Iter.
Variables (md5 : list Z -> list Z) (st : settings) (l : list (list Z * table)) (est : Z).
Hypothesis G : good md5 st l.
Hypothesis He : est = 0 \/ Z.of_nat (List.length (concat (map fst l))) <= est.
Let file := concat (map fst l).
Let TS := place 0 l.
Let N := List.length l.

Lemma Hend : ensure_table md5 st est (file ++ []) TS (Z.of_nat N) = Ok (false, TS).
Proof using G He.
  rewrite app_nil_r. pose proof (ensure_prefix md5 st l est G He N N ltac:(unfold N; lia)) as Q.
  rewrite firstn_all2 in Q by (rewrite place_length; unfold N; lia). unfold N in *. rewrite !Nat.ltb_irrefl in Q. exact Q.
Qed.

(** position after [c] advances *)
Definition pos_after (c : nat) : Z := if (c <? N)%nat then Z.of_nat c else -1.

Definition inv (n : nat) (before : list event) (s : shared) : Prop :=
  exists j, (j <= N)%nat /\ s_tables s = firstn j TS /\ List.length (s_pos s) = n /\
    (forall k, (k < n)%nat -> nth_error (s_pos s) k = Some (pos_after (advanced k before)) /\
       ((advanced k before < N)%nat -> (advanced k before < j)%nat)).

Lemma begin_inv n : forall m s, inv m [] s -> exists s', begin_all md5 st est file n s = Ok s' /\ inv (m + n) [] s'.
Proof using G He.
  induction n as [|n IH]; intros m s I; [exists s; rewrite Nat.add_0_r; auto|]. destruct I as (j & J1 & J2 & J3 & J4).
  cbn [begin_all]. rewrite J2. change 0 with (Z.of_nat 0) at 1. rewrite (ensure_prefix md5 st l est G He) by (fold N; lia). fold TS.
  assert (Step : forall j' (b : bool), (j' <= N)%nat -> (b = true -> (0 < j')%nat) -> (b = false -> N = 0%nat) -> (j <= j')%nat ->
     inv (m + 1) [] {| s_tables := firstn j' TS; s_pos := s_pos s ++ [if b then 0 else -1] |}).
  { intros j' b A1 A2 A3 A4. exists j'. split; [assumption|]. split; [reflexivity|]. cbn [s_pos]. rewrite app_length, J3. split; [reflexivity|].
    intros k Hk. destruct (Nat.eq_dec k m) as [->|Nk].
    - rewrite nth_error_app2 by lia. rewrite J3, Nat.sub_diag. cbn [nth_error advanced filter List.length]. unfold pos_after.
      destruct b; [rewrite (proj2 (Nat.ltb_lt 0 N)) by (specialize (A2 eq_refl); lia); split; [reflexivity|auto]|].
      rewrite (A3 eq_refl). split; [reflexivity|lia].
    - rewrite nth_error_app1 by lia. destruct (J4 k ltac:(lia)) as [B1 B2]. split; [assumption|]. intros Q. specialize (B2 Q). lia. }
  replace (m + S n)%nat with ((m + 1) + n)%nat by lia.
  destruct (Nat.ltb_spec 0 j) as [P|P]; [|destruct (Nat.ltb_spec j (List.length l)) as [P2|P2]]; cbn [bind].
  - apply IH. apply (Step j true); auto; discriminate.
  - apply IH. apply (Step (S j) true); auto; try discriminate; try (unfold N; lia); try (intros; lia).
  - apply IH. apply (Step j false); auto; try discriminate. intros _. unfold N. lia.
Qed.

Lemma advanced_snoc k before e : advanced k (before ++ [e]) =
  (advanced k before + match e with Advance k' => if Nat.eqb k k' then 1 else 0 | Look _ => 0 end)%nat.
Proof.
  unfold advanced. rewrite filter_app, app_length. f_equal. cbn [filter]. destruct e as [k'|k']; [reflexivity|]. destruct (Nat.eqb k k'); reflexivity.
Qed.

Lemma run_inv n : forall evs before s, inv n before s ->
  exists s', run md5 st est file evs s = Ok (expected n TS before evs, s') /\ inv n (before ++ evs) s'.
Proof using G He.
  induction evs as [|e evs IH]; intros before s I; cbn [run expected].
  { exists s. rewrite app_nil_r. auto. }
  pose proof I as (j & J1 & J2 & J3 & J4).
  assert (Same : forall e, (match e with Advance k => (n <= k)%nat \/ (N <= advanced k before)%nat | Look _ => True end) -> inv n (before ++ [e]) s).
  { intros e0 C. exists j. split; [assumption|]. split; [assumption|]. split; [assumption|]. intros k Hk. destruct (J4 k Hk) as [B1 B2].
    rewrite advanced_snoc. destruct e0 as [k'|k']; [rewrite Nat.add_0_r; auto|]. destruct (Nat.eqb_spec k k') as [->|Nk]; [|rewrite Nat.add_0_r; auto].
    rewrite B1. unfold pos_after. destruct C as [C|C]; [lia|]. rewrite !(proj2 (Nat.ltb_ge _ N)) by lia. split; [reflexivity|lia]. }
  assert (X : exists s1, step md5 st est file s e = Ok (s1, match e with
                Look k => if (k <? n)%nat then Some (k, nth_error TS (advanced k before)) else None | Advance _ => None end) /\ inv n (before ++ [e]) s1).
  { destruct e as [k|k]; cbn [step].
    - destruct (Nat.ltb_spec k n) as [Hk|Hk].
      + destruct (J4 k Hk) as [-> B2]. unfold pos_after. destruct (Nat.ltb_spec (advanced k before) N) as [Q|Q].
        * destruct (Z.eqb_spec (Z.of_nat (advanced k before)) (-1)); [lia|].
          destruct (nth_error TS (advanced k before)) as [t|] eqn:Et.
          2:{ apply nth_error_None in Et. unfold TS in Et. rewrite place_length in Et. fold N in Et. lia. }
          rewrite J2. unfold TS in Et |- *. rewrite (iter_get_ok l j (advanced k before) t) by (try assumption; auto). cbn [bind].
          exists s. split; [reflexivity|]. now apply Same.
        * rewrite Z.eqb_refl. exists s. split; [|now apply Same].
          rewrite (proj2 (nth_error_None TS _)); [reflexivity|]. unfold TS. rewrite place_length. exact Q.
      + rewrite (proj2 (nth_error_None _ _)) by lia. exists s. split; [reflexivity|now apply Same].
    - destruct (Nat.lt_ge_cases k n) as [Hk|Hk].
      2:{ rewrite (proj2 (nth_error_None _ _)) by lia. exists s. split; [reflexivity|]. apply Same. now left. }
      destruct (J4 k Hk) as [-> B2]. unfold pos_after. destruct (Nat.ltb_spec (advanced k before) N) as [Q|Q].
      2:{ rewrite Z.eqb_refl. exists s. split; [reflexivity|]. apply Same. now right. }
      destruct (Z.eqb_spec (Z.of_nat (advanced k before)) (-1)); [lia|]. rewrite J2.
      pose proof (iter_next_ok md5 st l est G He [] None Hend j (advanced k before) ltac:(fold N; specialize (B2 Q); lia)) as E.
      fold file TS N in E. rewrite app_nil_r in E. rewrite E.
      assert (Step : forall j' c', (j <= j' <= N)%nat -> c' = pos_after (S (advanced k before)) -> ((S (advanced k before) < N)%nat -> (S (advanced k before) < j')%nat) ->
        inv n (before ++ [Advance k]) {| s_tables := firstn j' TS; s_pos := list_set (s_pos s) k c' |}).
      { intros j' c' A1 A2 A3. exists j'. split; [lia|]. split; [reflexivity|]. cbn [s_pos]. split; [now rewrite list_set_length|].
        intros k' Hk'. rewrite nth_error_list_set by lia. rewrite advanced_snoc. destruct (Nat.eq_dec k' k) as [->|Nk].
        - rewrite !Nat.eqb_refl. rewrite Nat.add_1_r. split; [now rewrite A2|exact A3].
        - rewrite (proj2 (Nat.eqb_neq k' k) Nk), Nat.add_0_r. destruct (J4 k' Hk') as [C1 C2].
          destruct (Nat.eqb_spec k k') as [E0|_]; [congruence|]. split; [exact C1|]. intros Q'. specialize (C2 Q'). lia. }
      specialize (B2 Q).
      destruct (Nat.ltb_spec (S (advanced k before)) j) as [P|P]; [|destruct (Nat.ltb_spec j N) as [P2|P2]]; cbn [bind]; eexists; (split; [reflexivity|]).
      + apply Step; [lia| |lia]. unfold pos_after. now rewrite (proj2 (Nat.ltb_lt _ N)) by lia.
      + apply Step; [lia| |lia]. unfold pos_after. now rewrite (proj2 (Nat.ltb_lt _ N)) by lia.
      + apply Step; [lia| |lia]. unfold pos_after. now rewrite (proj2 (Nat.ltb_ge _ N)) by lia. }
  destruct X as (s1 & E1 & I1). rewrite E1. cbn [bind]. destruct (IH (before ++ [e]) s1 I1) as (s' & E2 & I2). rewrite E2. cbn [bind].
  exists s'. rewrite <- app_assoc in I2. split; [|exact I2]. f_equal. f_equal. destruct e as [k|k]; [destruct (k <? n)%nat|]; reflexivity.
Qed.
End Iter.

Theorem C33_iterators : forall md5 st fs tables est n evs, tables_of md5 st fs tables -> estimate est (concat fs) ->
  exists final, run_all md5 st est (concat fs) n evs = Ok (expected n tables [] evs, final) /\
    exists j, (j <= List.length tables)%nat /\ s_tables final = firstn j tables.
Proof.
  intros md5 st fs tables est n evs T He. destruct (tables_of_place md5 st fs tables T) as (l & G & M & ->).
  apply estimate_ok in He. rewrite <- M in *. unfold run_all.
  destruct (begin_inv md5 st l est G He n 0 {| s_tables := []; s_pos := [] |}) as (s & E & I).
  { exists 0%nat. split; [lia|]. split; [reflexivity|]. split; [reflexivity|]. intros k Hk. lia. }
  rewrite E. cbn [bind]. destruct (run_inv md5 st l est G He n evs [] s I) as (s' & E' & j & J1 & J2 & _). rewrite E'.
  exists s'. split; [reflexivity|]. exists j. rewrite place_length. auto.
Qed.
Print Assumptions C33_iterators.

(** ** C35: properties *)

(** the value of the first table that has the key *)
Fixpoint first_value (k : list Z) (fr : list table) : option (list Z) :=
  match fr with
  | [] => None
  | t :: fr' => match mget (t_props t) k with Some v => Some v | None => first_value k fr' end
  end.

Lemma minsert_all_get (m' : smap (list Z)) k : forall m, msorted m -> msorted (minsert_all m m') /\
  mget (minsert_all m m') k = match mget m k with Some v => Some v | None => mget m' k end.
Proof.
  unfold minsert_all. induction m' as [|[k' v'] m' IH]; intros m Hm; cbn [fold_left mget].
  - split; [assumption|]. destruct (mget m k); reflexivity.
  - cbn [fst snd]. destruct (IH (memplace m k' v') (memplace_sorted m k' v' Hm)) as [I1 I2]. split; [assumption|].
    rewrite I2, mget_memplace by assumption. destruct (bytes_eqb k k') eqn:E; [|destruct (mget m k); reflexivity].
    apply bytes_eqb_eq in E. subst k'. destruct (mget m k); reflexivity.
Qed.

Theorem C35_properties : forall fr k, mget (frame_props fr) k = first_value k fr.
Proof.
  intros fr k. unfold frame_props.
  assert (X : forall fr m, msorted m -> mget (fold_left (fun acc t => minsert_all acc (t_props t)) fr m) k =
            match mget m k with Some v => Some v | None => first_value k fr end).
  { clear. induction fr as [|t fr IH]; intros m Hm; cbn [fold_left first_value]; [destruct (mget m k); reflexivity|].
    destruct (minsert_all_get (t_props t) k m Hm) as [I1 I2]. rewrite IH, I2 by assumption.
    destruct (mget m k); [reflexivity|]. reflexivity. }
  rewrite X by exact I. reflexivity.
Qed.
Print Assumptions C35_properties.

(** ** C39: names *)

(** [nm] is the full name, or what stands before an '@' in it. *)
Definition called (full nm : list Z) : Prop := full = nm \/ exists rest, full = nm ++ 64 :: rest.

Lemma starts_with_app p : forall l, starts_with p l = true <-> exists r, l = p ++ r.
Proof.
  induction p as [|a p IH]; intros l; cbn [starts_with app]; [split; eauto|]. destruct l as [|b l].
  - split; [discriminate|]. intros [r E]. discriminate.
  - rewrite andb_true_iff, Z.eqb_eq, IH. split.
    + intros [-> [r ->]]. eauto.
    + intros [r E]. inversion E; subst. split; [reflexivity|eauto].
Qed.

Lemma name_matches_called full nm : name_matches full nm = true <-> called full nm.
Proof.
  unfold name_matches, called. rewrite andb_true_iff, starts_with_app. split.
  - intros [[r ->] H]. apply orb_true_iff in H as [H|H].
    + apply Nat.eqb_eq in H. rewrite app_length in H. destruct r; [|cbn in H; lia]. left. now rewrite app_nil_r.
    + apply andb_true_iff in H as [H1 H2]. apply Nat.ltb_lt in H1. apply Z.eqb_eq in H2. rewrite app_length in H1.
      rewrite app_nth2, Nat.sub_diag in H2 by lia. destruct r as [|x r]; [cbn in H1; lia|]. cbn in H2. subst x. right. eauto.
  - intros [-> |[r ->]].
    + split; [exists []; now rewrite app_nil_r|]. now rewrite Nat.eqb_refl.
    + split; [eauto|]. rewrite app_length. cbn [List.length]. apply orb_true_iff. right. apply andb_true_iff. split; [apply Nat.ltb_lt; lia|].
      rewrite app_nth2, Nat.sub_diag by lia. reflexivity.
Qed.

(** the positions of the columns called [nm] *)
Definition positions (cs : list column) (nm : list Z) (i : nat) : Prop :=
  exists c, nth_error cs i = Some c /\ called (col_name c) nm.

Lemma column_index_spec nm : forall cs i0 found,
  (found = None ->
    match column_index_loop cs i0 nm found with
    | Ok k => exists i, k = i0 + Z.of_nat i /\ forall j, positions cs nm j <-> j = i
    | Throw ColumnNotFound => forall j, ~ positions cs nm j
    | Throw AmbiguousColumn => exists i j, i <> j /\ positions cs nm i /\ positions cs nm j
    | _ => False
    end) /\
  (forall k0, found = Some k0 ->
    match column_index_loop cs i0 nm found with
    | Ok k => k = k0 /\ forall j, ~ positions cs nm j
    | Throw AmbiguousColumn => exists i, positions cs nm i
    | _ => False
    end).
Proof.
  induction cs as [|c cs IH]; intros i0 found; cbn [column_index_loop].
  - split; [intros ->|intros k0 ->]; [|split; [reflexivity|]]; intros j (c & E & _); destruct j; discriminate.
  - assert (PS : forall j, positions (c :: cs) nm (S j) <-> positions cs nm j) by (intros j; reflexivity).
    assert (P0 : positions (c :: cs) nm 0 <-> called (col_name c) nm).
    { split; [intros (c' & E & C); inversion E; now subst|intros C; exists c; auto]. }
    destruct (name_matches (col_name c) nm) eqn:E.
    + apply name_matches_called in E. split.
      * intros ->. destruct (IH (i0 + 1) (Some i0)) as [_ I]. specialize (I i0 eq_refl). destruct (column_index_loop cs (i0 + 1) nm (Some i0)) as [k|e|].
        -- destruct I as [-> I]. exists 0%nat. split; [lia|]. intros [|j]; [rewrite P0; tauto|]. rewrite PS. split; [intros H; now apply I in H|discriminate].
        -- destruct e; try contradiction. destruct I as [i I]. exists 0%nat, (S i). split; [discriminate|]. split; [now apply P0|now apply PS].
        -- contradiction.
      * intros k0 ->. exists 0%nat. now apply P0.
    + assert (NC : ~ called (col_name c) nm) by (intros C; apply name_matches_called in C; congruence).
      destruct (IH (i0 + 1) found) as [I1 I2]. split.
      * intros ->. specialize (I1 eq_refl). destruct (column_index_loop cs (i0 + 1) nm None) as [k|e|]; [| |contradiction].
        -- destruct I1 as (i & -> & I). exists (S i). split; [lia|]. intros [|j]; [rewrite P0; split; [contradiction|discriminate]|].
           rewrite PS, I. split; congruence.
        -- destruct e; try contradiction.
           ++ destruct I1 as (i & j & Q1 & Q2 & Q3). exists (S i), (S j). split; [congruence|]. split; now apply PS.
           ++ intros [|j]; [now rewrite P0|rewrite PS; apply I1].
      * intros k0 ->. specialize (I2 k0 eq_refl). destruct (column_index_loop cs (i0 + 1) nm (Some k0)) as [k|e|]; [| |contradiction].
        -- destruct I2 as [-> I]. split; [reflexivity|]. intros [|j]; [now rewrite P0|rewrite PS; apply I].
        -- destruct e; try contradiction. destruct I2 as [i I]. exists (S i). now apply PS.
Qed.

Theorem C39_column_index : forall cs nm,
  (forall k, column_index cs nm = Ok k <-> 0 <= k /\ forall j, positions cs nm j <-> Z.of_nat j = k) /\
  (column_index cs nm = Throw ColumnNotFound <-> forall j, ~ positions cs nm j) /\
  (column_index cs nm = Throw AmbiguousColumn <-> exists i j, i <> j /\ positions cs nm i /\ positions cs nm j) /\
  (has_column cs nm = true <-> exists i, positions cs nm i).
Proof.
  intros cs nm. destruct (column_index_spec nm cs 0 None) as [H _]. specialize (H eq_refl). unfold column_index.
  split; [|split; [|split]].
  - intros k. destruct (column_index_loop cs 0 nm None) as [k'|e|]; [| |contradiction].
    + destruct H as (i & -> & H). split.
      * intros E. inversion E; subst k. split; [lia|]. intros j. rewrite H. lia.
      * intros [K Q]. f_equal. assert (P : positions cs nm i) by (now apply H). apply Q in P. lia.
    + split; [discriminate|]. intros [K Q]. exfalso. destruct e; try contradiction.
      * destruct H as (i & j & N & P1 & P2). apply Q in P1, P2. lia.
      * apply (H (Z.to_nat k)). apply Q. lia.
  - destruct (column_index_loop cs 0 nm None) as [k'|e|]; [| |contradiction].
    + destruct H as (i & _ & H). split; [discriminate|]. intros Q. exfalso. apply (Q i). now apply H.
    + destruct e; try contradiction.
      * destruct H as (i & j & N & P1 & P2). split; [discriminate|]. intros Q. now elim (Q i).
      * tauto.
  - destruct (column_index_loop cs 0 nm None) as [k'|e|]; [| |contradiction].
    + destruct H as (i & _ & H). split; [discriminate|]. intros (a & b & N & A & B). apply H in A, B. congruence.
    + destruct e; try contradiction.
      * tauto.
      * split; [discriminate|]. intros (a & b & N & A & B). now elim (H a).
  - unfold has_column. rewrite existsb_exists. split.
    + intros (c & I & M). apply In_nth_error in I as (i & Ei). exists i, c. split; [assumption|]. now apply name_matches_called.
    + intros (i & c & Ei & C). exists c. split; [eapply nth_error_In; eassumption|]. now apply name_matches_called.
Qed.
Print Assumptions C39_column_index.

(** ** C42: compatible column lists *)

(** name, type and width of a column *)
Definition signature (c : column) : list Z * Z * Z := (col_name c, col_type c, data_size_doubles (col_coder c)).

Lemma column_equals_signature a b : column_equals true a b = true <-> signature a = signature b.
Proof.
  unfold column_equals, signature. rewrite !andb_true_iff, bytes_eqb_eq, !Z.eqb_eq. split; [intros [[-> ->] ->]; reflexivity|].
  intros E. inversion E. auto.
Qed.

Lemma column_map_get cs nm : forall m, msorted m -> mget (column_map cs m) nm =
  match mget m nm with Some c => Some c | None => find (fun c => bytes_eqb (col_name c) nm) cs end.
Proof.
  induction cs as [|c cs IH]; intros m Hm; cbn [column_map find]; [destruct (mget m nm); reflexivity|].
  rewrite IH by (now apply memplace_sorted). rewrite mget_memplace by assumption.
  rewrite (bytes_eqb_sym nm). destruct (bytes_eqb (col_name c) nm) eqn:E; [|destruct (mget m nm); reflexivity].
  apply bytes_eqb_eq in E. subst nm. destruct (mget m (col_name c)); reflexivity.
Qed.

(** Columns may be listed in different orders. *)
Theorem C42_compatible : forall a b, NoDup (map col_name a) -> NoDup (map col_name b) ->
  (compatible a b = true <->
   List.length a = List.length b /\ forall s, In s (map signature a) <-> In s (map signature b)).
Proof.
  intros a b Na Nb. unfold compatible.
  assert (NaS : NoDup (map signature a) /\ NoDup (map signature b)).
  { assert (X : forall l, NoDup (map col_name l) -> NoDup (map signature l)).
    { clear. induction l as [|c l IH]; cbn; intros H; constructor; inversion H; subst; auto.
      intros I. apply in_map_iff in I as (c' & E & I). inversion E. apply H2. rewrite <- H1. now apply in_map. }
    split; now apply X. }
  destruct (Nat.eqb_spec (List.length a) (List.length b)) as [L|L]; cbn [negb]; [|split; [discriminate|intros [? _]; congruence]].
  destruct (columns_equal a b) eqn:E.
  - split; [intros _|reflexivity]. split; [assumption|].
    assert (Q : map signature a = map signature b); [|now rewrite Q].
    clear -L E. revert b L E. unfold columns_equal. induction a as [|x a IH]; intros [|y b] L E; try discriminate; [reflexivity|].
    cbn [combine forallb fst snd map] in *. apply andb_true_iff in E as [E1 E2]. apply column_equals_signature in E1. f_equal; auto.
  - rewrite forallb_forall. split.
    + intros H. split; [assumption|].
      assert (Inc : incl (map signature b) (map signature a)).
      { intros s Hs. apply in_map_iff in Hs as (c & <- & Hc). specialize (H c Hc). rewrite column_map_get in H by exact I. cbn [mget] in H.
        destruct (find _ a) as [c'|] eqn:F; [|discriminate]. apply find_some in F as [F _]. apply column_equals_signature in H.
        rewrite <- H. now apply in_map. }
      assert (Inc2 : incl (map signature a) (map signature b)).
      { apply (NoDup_length_incl (l := map signature b)); [apply NaS|rewrite !map_length; lia|assumption]. }
      intros s. split; [apply Inc2|apply Inc].
    + intros [_ H] c Hc. rewrite column_map_get by exact I. cbn [mget].
      assert (Hs : In (signature c) (map signature a)) by (apply H; now apply in_map).
      apply in_map_iff in Hs as (c1 & E1 & H1).
      destruct (find (fun c0 => bytes_eqb (col_name c0) (col_name c)) a) as [c'|] eqn:F.
      * apply find_some in F as [F1 F2]. apply bytes_eqb_eq in F2. apply column_equals_signature. rewrite <- E1.
        assert (c' = c1); [|now subst]. clear -Na F1 H1 F2 E1.
        assert (N : col_name c' = col_name c1) by (inversion E1; congruence). clear F2 E1.
        induction a as [|x a IH]; [destruct F1|]. inversion Na as [|? ? X Y]; subst. destruct F1 as [->|F1], H1 as [->|H1]; auto.
        -- exfalso. apply X. rewrite N. now apply in_map.
        -- exfalso. apply X. rewrite <- N. now apply in_map.
      * exfalso. assert (N : col_name c1 = col_name c) by (unfold signature in E1; congruence).
        eapply find_none in F; [|exact H1]. cbn beta in F. rewrite N, bytes_eqb_refl in F. discriminate.
Qed.
Print Assumptions C42_compatible.
