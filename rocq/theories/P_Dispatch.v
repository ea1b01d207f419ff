(** C44: splitting a file by the values of columns. *)
From Verif Require Import IntProofs Spec Base Fp FpProofs Stream StreamProofs StreamLocal Codec Meta Header HeaderProofs Encoder Table Reader
  TableProofs FrameProofs Through Writer RowReader RowList WriterSpec WriterProofs WriterRun WriterRead Comparator P_Compare Copy CopySpec CopyProofs P_Copy
  P_Tables Dispatcher DispatchSpec DispatchNames DispatchProofs DispatchRun.
Open Scope Z_scope.
Local Notation length := List.length.

Lemma oldest_from_lt : forall l i best row, oldest_from l i best row = best \/ (i <= oldest_from l i best row < i + length l)%nat.
Proof.
  induction l as [|x l IH]; intros i best row; cbn [oldest_from length]; [now left|].
  destruct (x <? row).
  - right. destruct (IH (S i) i x) as [->|H]; lia.
  - destruct (IH (S i) best row) as [->|H]; [now left|right; lia].
Qed.
Lemma oldest_lt l : l <> [] -> (oldest l < length l)%nat.
Proof. intros H. unfold oldest. destruct (oldest_from_lt l 0 0 (nth 0 l 0)) as [->|Q]; [destruct l; [congruence|cbn; lia]|lia]. Qed.

Lemma map_list_set {A B} (f : A -> B) : forall l i x, map f (list_set l i x) = list_set (map f l) i (f x).
Proof. induction l as [|y l IH]; intros [|i] x; cbn; try reflexivity. now rewrite IH. Qed.
Lemma NoDup_list_set {A} : forall (l : list A) i x, NoDup l -> ~ In x l -> NoDup (list_set l i x).
Proof.
  induction l as [|y l IH]; intros [|i] x ND H; cbn [list_set]; inversion ND as [|? ? Hy ND']; subst; try assumption.
  - constructor; [intros Q; apply H; now right|exact ND'].
  - constructor; [|apply IH; [exact ND'|intros Q; apply H; now right]].
    intros Q. apply P_Memory.in_set in Q as [->|Q]; [apply H; now left|auto].
Qed.
Lemma in_list_set_new {A} : forall (l : list A) i x, (i < length l)%nat -> In x (list_set l i x).
Proof. induction l as [|y l IH]; intros [|i] x H; cbn in *; try lia; [now left|]. right. apply IH. lia. Qed.
Lemma in_list_set_old {A} : forall (l : list A) i j x y, nth_error l j = Some y -> j <> i -> In y (list_set l i x).
Proof.
  induction l as [|z l IH]; intros i j x y E H; [destruct j; discriminate|]. destruct i as [|i], j as [|j]; cbn [list_set nth_error] in *.
  - congruence.
  - right. now apply nth_error_In in E.
  - left. congruence.
  - right. eapply IH; eauto.
Qed.
Lemma find_key_none k : forall m, find_key k m = None -> forall k' i, In (k', i) m -> key_eq k k' = false.
Proof.
  induction m as [|[k1 i1] m IH]; intros H k' i I; [destruct I|]. destruct I as [E|E]; cbn [find_key] in H; destruct (key_eq k k1) eqn:Q; try discriminate.
  - assert (k1 = k') by congruence. congruence.
  - eapply IH; eauto.
Qed.
Lemma find_key_some k i : forall m, find_key k m = Some i -> exists k', In (k', i) m /\ key_eq k k' = true.
Proof.
  induction m as [|[k1 i1] m IH]; intros H; cbn [find_key] in H; [discriminate|]. destruct (key_eq k k1) eqn:Q.
  - assert (i1 = i) by congruence. subst. exists k1. split; [now left|exact Q].
  - destruct (IH H) as (k' & A & B). exists k'. split; [now right|exact B].
Qed.

(** What comes back of rows written in frames is a copy of them. *)
Lemma copied_all st st' all rs l rows' : Forall2 (matched all) rs l -> Forall2 (comes_back st st') l rows' -> Forall2 (copied st st') rs rows'.
Proof.
  intros M C. revert rows' C. induction M as [|r f rs l (M1 & cs & M2 & M3 & _) M IH]; intros rows' C; inversion C as [|? out ? ? (C1 & C2) C']; subst; constructor; [|now apply IH].
  rewrite M2, M1 in *. split.
  - clear -C1 M3. destruct r as [cs2 row], out as [cs3 out]. cbn [fst] in *. revert cs2 M3 cs3 C1. induction cs as [|c cs IH]; intros [|c2 cs2] M3 cs3 C1; try discriminate;
      inversion C1 as [|? d ? ds (D1 & D2 & _) C1']; subst; constructor.
    + cbn [info ci_name ci_type] in D1, D2. cbn [map] in M3. assert (shape c = shape c2) as Q by congruence. unfold shape in Q. split; congruence.
    + apply IH; [cbn [map] in M3; congruence|exact C1'].
  - now apply same_row_info with (cs1 := cs).
Qed.

Section Split.
Variables st st' : settings.
Variable md5 : list Z -> list Z.
Hypothesis Hd : digest md5.
Variable N : nat.
Hypothesis HN : (0 < N)%nat.
Variable rows : list arow.
Hypothesis HC : rows_copyable st N [] rows.
Variables (template : list Z) (route : arow -> list Z).
Hypothesis HR : routed template rows route.
Variable append0 : bool.
Variable k0 : disk.
Variable max : nat.
Hypothesis Hmax : (0 < max)%nat.
Hypothesis Hfiles : append0 = true \/ (forall n, In n (map route rows) -> files k0 n = None) \/ few max (map route rows).
Hypothesis Hdirs : append0 = false /\ few max (map route rows) \/
  (forall n d, In n (map route rows) -> directory n = Some d -> dirs k0 d = true).

Local Notation good := (good st st' md5 N rows route append0 k0).
Local Notation settled := (settled st st' md5 rows route append0 k0).
Local Notation rows_for := (rows_for route).
Local Notation start_of := (start_of append0 k0).
Local Notation rkey := (rkey template).

(** The state after the rows [done], apart from the file used last. *)
Record core (d : dispatcher) (done : list arow) : Prop := {
  c_cols : exists cs0, In cs0 (map fst rows) /\ cols_of (d_cols d) cs0;
  c_parse : parse_template template (d_cols d) = Ok (d_params d);
  c_init : d_init d = true;
  c_good : Forall (good (d_disk d) (d_cols d) done) (d_open d);
  c_names : NoDup (map oname (d_open d));
  c_opened : incl (map oname (d_open d)) (d_created d);
  c_settled : forall n, In n (d_created d) -> ~ In n (map oname (d_open d)) -> settled (d_disk d) n done;
  c_untouched : forall n, ~ In n (d_created d) -> files (d_disk d) n = files k0 n /\ rows_for n done = [];
  c_created : NoDup (d_created d) /\ incl (d_created d) (map route rows);
  c_few : (length (d_open d) <= max)%nat;
  c_stamp : length (d_stamp d) = max;
  c_full : (length (d_open d) < max)%nat -> incl (d_created d) (map oname (d_open d));
  c_map1 : forall i, (i < length (d_open d))%nat -> exists k, In (k, i) (d_map d);
  c_map2 : forall k i, In (k, i) (d_map d) -> exists r hw, In r rows /\ nth_error (d_open d) i = Some hw /\ k = rkey r /\ route r = oname hw;
  c_append : d_append d = append0 \/ d_append d = true /\ (max < length (d_created d))%nat;
  c_dirs : forall x, dirs k0 x = true -> dirs (d_disk d) x = true
}.

Definition last_ok (d : dispatcher) : Prop :=
  d_lastkey d = [] \/ exists r hw, In r rows /\ d_lastkey d = rkey r /\ nth_error (d_open d) (d_lastidx d) = Some hw /\ route r = oname hw.

Lemma not_few (created : list (list Z)) : NoDup created -> incl created (map route rows) -> (max < length created)%nat -> few max (map route rows) -> False.
Proof. intros ND I L (l & H1 & H2). assert (length created <= length l)%nat by (apply NoDup_incl_length; [exact ND|]; intros x Hx; auto). lia. Qed.

(** The new iterator. *)
Lemma open_good d1 done n cols cs0 append :
  In cs0 (map fst rows) -> cols_of cols cs0 ->
  (append = true -> forall dir, directory n = Some dir -> dirs d1 dir = true) ->
  (exists D r1, (if append then content d1 n else []) = start_of n ++ D /\ frames_hold st st' [] md5 D r1 /\ Forall2 (matched rows) (rows_for n done) r1) ->
  exists k h w, open_file d1 n append = Ok (k, h) /\ h_name h = n /\ writer_columns st (new_writer []) cols = Ok w /\
    good k cols done (h, write_header w) /\ (forall m, m <> n -> files k m = files d1 m) /\ (forall x, dirs d1 x = true -> dirs k x = true).
Proof using HC HN.
  intros Hin C Hdir (D & r1 & E & Fh & M).
  destruct (begin_ok st N rows HC (new_writer []) cols cs0 Hin C eq_refl) as (w & B1 & base & B2 & B3 & B4). cbn [new_writer w_out] in B4.
  assert (X : exists k, open_file d1 n append = Ok (k, {| h_name := n; h_append := append; h_pos := O |}) /\
    files k n = Some (if append then content d1 n else []) /\ (forall m, m <> n -> files k m = files d1 m) /\ (forall x, dirs d1 x = true -> dirs k x = true)).
  { unfold open_file. destruct (directory n) as [dir|] eqn:Ed.
    - destruct append.
      + rewrite (Hdir eq_refl dir eq_refl). eexists. split; [reflexivity|]. split; [apply put_same|]. split; [intros m; apply put_other|auto].
      + eexists. split; [reflexivity|]. split; [apply put_same|]. split; [intros m Q; rewrite put_other by exact Q; reflexivity|].
        intros x Hx. cbn. rewrite Hx. apply orb_true_r.
    - eexists. split; [reflexivity|]. split; [apply put_same|]. split; [intros m; apply put_other|auto]. }
  destruct X as (k & X1 & X2 & X3 & X4). exists k. eexists _, w. split; [exact X1|]. split; [reflexivity|]. split; [exact B1|].
  split; [|auto]. split; [destruct B4; assumption|]. cbn [fst snd h_name h_append h_pos]. exists D.
  split; [now rewrite X2, E|]. split.
  { intros Q. rewrite Q in E. symmetry in E. apply app_eq_nil in E as (E1 & E2). rewrite E1, E2. reflexivity. }
  exists cs0, [], r1, base. split; [exact Hin|]. split; [symmetry; apply C|]. split; [exact B2|]. split; [exact B3|]. split; [exact B4|].
  split; [exact HN|]. split; [intros ? []|]. split; [exact Fh|]. cbn [map]. now rewrite app_nil_r.
Qed.

Lemma create_ok d done r : core d done -> In r rows -> ~ In (route r) (map oname (d_open d)) ->
  exists d' i, create_iterator md5 st N max d (rkey r) (route r) = Ok (d', i) /\ core d' done /\ (i < max)%nat /\
    (exists hw, nth_error (d_open d') i = Some hw /\ oname hw = route r) /\ d_cols d' = d_cols d /\ d_params d' = d_params d.
Proof using All.
  intros C Hr Hno. pose proof C as [(cs0 & C0a & C0b) C1 C2 C3 C4 C5 C6 C7 (C8a & C8b) C9 C10 C11 C12 C13 C14 C15].
  set (n := route r) in *. unfold create_iterator.
  set (full := (max <=? length (d_open d))%nat).
  set (i := if full then oldest (d_stamp d) else length (d_open d)).
  assert (Hi : (i < max)%nat).
  { subst i full. destruct (Nat.leb_spec max (length (d_open d))); [|lia]. rewrite <- C10. apply oldest_lt. intros Q. rewrite Q in C10. cbn in C10. lia. }
  assert (Ha : negb (full && (length (d_open d) =? 0)%nat) = true).
  { subst full. destruct (Nat.leb_spec max (length (d_open d))); [|reflexivity]. cbn [andb]. destruct (Nat.eqb_spec (length (d_open d)) 0); [lia|reflexivity]. }
  rewrite Ha. cbn [assert bind].
  (* eviction *)
  assert (EV : exists d1, (if full then evict md5 st N d i else Ok d) = Ok d1 /\
    d_cols d1 = d_cols d /\ d_params d1 = d_params d /\ d_stamp d1 = d_stamp d /\ d_open d1 = d_open d /\ d_init d1 = d_init d /\
    d_append d1 = d_append d /\ d_created d1 = d_created d /\
    d_map d1 = (if full then remove_index i (d_map d) else d_map d) /\ dirs (d_disk d1) = dirs (d_disk d) /\
    (forall m, In m (d_created d) -> ~ In m (map oname (d_open d)) \/ full = true /\ option_map oname (nth_error (d_open d) i) = Some m -> settled (d_disk d1) m done) /\
    (forall m, ~ In m (d_created d) -> files (d_disk d1) m = files k0 m) /\
    (forall j hw, nth_error (d_open d) j = Some hw -> (full = true -> j <> i) -> files (d_disk d1) (oname hw) = files (d_disk d) (oname hw))).
  { destruct full eqn:Ef.
    - assert (Lf : length (d_open d) = max) by (unfold full in Ef; apply Nat.leb_le in Ef; lia).
      destruct (nth_error (d_open d) i) as [[h w]|] eqn:En; [|apply nth_error_None in En; lia].
      unfold evict. rewrite En. rewrite Forall_forall in C3. pose proof (C3 _ (nth_error_In _ _ En)) as G.
      destruct (good_close st st' md5 Hd N HN rows HC template route HR append0 k0 _ _ _ _ _ G) as (w1 & k1 & hw1 & R1 & R2 & R3 & R4 & R5).
      rewrite R1. cbn [bind]. rewrite R2.
      assert (Hex : existsb (fun e => (snd e =? i)%nat) (d_map d) = true).
      { destruct (C12 i) as (k & Hk); [lia|]. apply existsb_exists. exists (k, i). split; [exact Hk|apply Nat.eqb_refl]. }
      rewrite Hex. eexists. split; [reflexivity|]. cbn [d_cols d_params d_stamp d_open d_init d_append d_created d_map d_disk].
      do 8 (split; [reflexivity|]). split; [exact R5|]. split; [|split].
      + intros m Hm [Hn|(_ & Q)].
        * destruct (C6 m Hm Hn) as (D & r1 & A1 & A2). exists D, r1. rewrite R4; [auto|]. intros ->. apply Hn. change (h_name h) with (oname (h, w)). apply in_map. now apply nth_error_In in En.
        * cbn [option_map] in Q. assert (m = h_name h) by (unfold oname in Q; cbn in Q; congruence). subst m. exact R3.
      + intros m Hm. rewrite R4; [now apply C7|]. intros ->. apply Hm. apply C5. change (h_name h) with (oname (h, w)). apply in_map. now apply nth_error_In in En.
      + intros j hw Ej Hj. apply R4. intros Q. apply (Hj eq_refl).
        apply (proj1 (NoDup_nth_error (map oname (d_open d))) C4); [rewrite map_length; apply nth_error_Some; congruence|].
        rewrite !nth_error_map, Ej, En. cbn [option_map]. f_equal. exact Q.
    - exists d. split; [reflexivity|]. do 9 (split; [reflexivity|]). split; [|split].
      + intros m Hm [Hn|(Q & _)]; [now apply C6|discriminate].
      + intros m Hm. now apply C7.
      + auto. }
  destruct EV as (d1 & V0 & V1 & V2 & V3 & V4 & V5 & V6 & V7 & V8 & V9 & V10 & V11 & V12). rewrite V0. cbn [bind].
  rewrite V1, V2, V3, V4, V5, V6, V7.
  (* the new file *)
  assert (Seen : forall l, existsb (bytes_eqb n) l = true <-> In n l).
  { intros l. rewrite existsb_exists. split; [intros (x & Hx & Q); apply bytes_eqb_eq in Q; now subst|]. intros Q. exists n. split; [exact Q|apply bytes_eqb_refl]. }
  set (append := d_append d || (match files (d_disk d1) n with Some _ => true | None => false end) && existsb (bytes_eqb n) (d_created d)).
  assert (Hrn : In n (map route rows)) by (subst n; now apply in_map).
  assert (Many : d_append d = true -> append0 = false -> (max < length (d_created d))%nat) by (intros A B; destruct C14 as [Q|(_ & Q)]; [congruence|exact Q]).
  assert (Again : In n (d_created d) -> (max < length (d_created d))%nat).
  { intros Q. assert (Lf : length (d_open d) = max). { destruct (Nat.lt_ge_cases (length (d_open d)) max) as [L|]; [|lia]. elim Hno. now apply C11. }
    assert (H : (length (n :: map oname (d_open d)) <= length (d_created d))%nat).
    { apply NoDup_incl_length; [now constructor|]. intros x [<-|Hx]; auto. }
    cbn [length] in H. rewrite map_length in H. lia. }
  assert (Happ : append = true -> append0 = false -> (max < length (d_created d))%nat).
  { intros Q Q0. unfold append in Q. apply orb_true_iff in Q as [Q|Q]; [auto|]. apply andb_true_iff in Q as (_ & Q). apply Seen in Q. auto. }
  destruct (open_good (d_disk d1) done n (d_cols d) cs0 append C0a C0b) as (k & h & w & O1 & O2 & O3 & O4 & O5 & O6).
  { intros Ap dir Ed. rewrite V9. destruct Hdirs as [(Q0 & Qf)|Q]; [|apply C15; eauto].
    exfalso. apply (not_few (d_created d)); auto. }
  { destruct (existsb (bytes_eqb n) (d_created d)) eqn:Es.
    - apply Seen in Es. destruct (V10 n Es (or_introl Hno)) as (D & r1 & S1 & S2 & S3). exists D, r1. split; [|auto].
      unfold append. unfold content. rewrite S1. cbn [andb]. now rewrite orb_true_r.
    - assert (Hnc : ~ In n (d_created d)) by (intros Q; apply Seen in Q; congruence).
      pose proof (V11 n Hnc) as F0. destruct (C7 n Hnc) as (_ & R0). rewrite R0.
      exists [], []. split; [|split; [apply hold_nil|constructor]]. rewrite app_nil_r. unfold append. rewrite andb_false_r, orb_false_r.
      unfold DispatchRun.start_of. destruct (d_append d) eqn:Ea.
      + assert (content (d_disk d1) n = content k0 n) as Ec by (unfold content; now rewrite F0). rewrite Ec. destruct append0 eqn:E0; [reflexivity|].
        destruct Hfiles as [Q|[Q|Q]]; [discriminate| |].
        * unfold content. now rewrite (Q n Hrn).
        * exfalso. apply (not_few (d_created d)); auto.
      + destruct C14 as [Q|(Q & _)]; [|congruence]. now rewrite <- Q. }
  rewrite O1. cbn [bind]. rewrite O3. cbn [bind].
  eexists _, i. split; [reflexivity|]. cbn [d_cols d_params d_open].
  assert (Lf : full = true -> length (d_open d) = max) by (intros Q; unfold full in Q; apply Nat.leb_le in Q; lia).
  assert (Lnf : full = false -> (length (d_open d) < max)%nat /\ i = length (d_open d)) by (intros Q; split; [unfold full in Q; apply Nat.leb_gt in Q; lia|unfold i; now rewrite Q]).
  set (op := if full then list_set (d_open d) i (h, write_header w) else d_open d ++ [(h, write_header w)]).
  assert (Hnth : forall j, nth_error op j = if (j =? i)%nat then Some (h, write_header w) else nth_error (d_open d) j).
  { intros j. unfold op. destruct full.
    - apply nth_error_list_set. rewrite Lf; auto.
    - destruct (Lnf eq_refl) as (_ & Q). rewrite Q. destruct (Nat.eqb_spec j (length (d_open d))) as [->|Hj].
      + rewrite nth_error_app2, Nat.sub_diag by lia. reflexivity.
      + destruct (Nat.lt_ge_cases j (length (d_open d))) as [L|L]; [now rewrite nth_error_app1 by lia|].
        rewrite nth_error_app2 by lia. transitivity (@None (handle * writer)); [|symmetry; apply nth_error_None; lia].
        apply nth_error_None. cbn [length]. lia. }
  assert (Hlen : length op = if full then max else S (length (d_open d))).
  { unfold op. destruct full; [rewrite list_set_length; auto|rewrite app_length; cbn [length]; lia]. }
  assert (Hnew : oname (h, write_header w) = n) by exact O2.
  assert (Hop : forall x, In x (map oname op) <-> x = n \/ exists j hw, j <> i /\ nth_error (d_open d) j = Some hw /\ oname hw = x).
  { intros x. split.
    - intros H. apply in_map_iff in H as (hw & <- & H). apply In_nth_error in H as (j & H). rewrite Hnth in H.
      destruct (Nat.eqb_spec j i); [left; assert (hw = (h, write_header w)) by congruence; subst; exact Hnew|right; exists j, hw; auto].
    - intros [->|(j & hw & A & B & <-)].
      + rewrite <- Hnew. apply in_map. apply (nth_error_In op i). rewrite Hnth, Nat.eqb_refl. reflexivity.
      + apply in_map. apply (nth_error_In op j). rewrite Hnth. destruct (Nat.eqb_spec j i); [congruence|exact B]. }
  split; [|split; [exact Hi|split; [|auto]]].
  2:{ exists (h, write_header w). split; [|exact O2]. rewrite Hnth, Nat.eqb_refl. reflexivity. }
  split; cbn [d_cols d_params d_open d_init d_created d_disk d_stamp d_map d_append].
  - exists cs0. auto.
  - exact C1.
  - exact C2.
  - apply Forall_forall. intros hw H. apply In_nth_error in H as (j & H). rewrite Hnth in H. destruct (Nat.eqb_spec j i) as [Ej|Hj].
    + assert (hw = (h, write_header w)) by congruence. subst hw. exact O4.
    + rewrite Forall_forall in C3. pose proof (C3 hw (nth_error_In _ _ H)) as G. apply (good_ext st st' md5 N rows route append0 k0 (d_disk d)); [|exact G].
      change (h_name (fst hw)) with (oname hw). rewrite O5; [apply (V12 j); auto|]. intros Q. apply Hno. rewrite <- Q. apply in_map. now apply nth_error_In in H.
  - unfold op. destruct full.
    + rewrite map_list_set, Hnew. now apply NoDup_list_set.
    + rewrite map_app. cbn [map]. rewrite Hnew. apply (Permutation.Permutation_NoDup (l := n :: map oname (d_open d))); [apply Permutation.Permutation_cons_append|now constructor].
  - intros x Hx. apply Hop in Hx as [->|(j & hw & A & B & <-)].
    + destruct (existsb (bytes_eqb n) (d_created d)) eqn:Es; [now apply Seen|now left].
    + assert (In (oname hw) (d_created d)) by (apply C5, in_map; now apply nth_error_In in B). destruct (existsb (bytes_eqb n) (d_created d)); [assumption|now right].
  - intros m Hm Hn.
    assert (Hmn : m <> n) by (intros ->; apply Hn, Hop; now left).
    assert (Hm' : In m (d_created d)) by (destruct (existsb (bytes_eqb n) (d_created d)); [exact Hm|destruct Hm; [congruence|assumption]]).
    assert (S1 : settled (d_disk d1) m done).
    { apply V10; [exact Hm'|]. destruct (in_dec (list_eq_dec Z.eq_dec) m (map oname (d_open d))) as [Q|Q]; [right|now left].
      apply in_map_iff in Q as (hw & E & Q). apply In_nth_error in Q as (j & Q).
      destruct (Nat.eq_dec j i) as [Ej|Hj]; [|exfalso; apply Hn, Hop; right; exists j, hw; auto]. rewrite Ej in Q.
      destruct full eqn:Ef; [|destruct (Lnf eq_refl) as (_ & Qi); assert (i < length (d_open d))%nat by (apply nth_error_Some; congruence); lia].
      split; [reflexivity|]. rewrite Q. cbn. now rewrite E. }
    destruct S1 as (D & r1 & S1 & S2). exists D, r1. rewrite O5 by exact Hmn. auto.
  - intros m Hm. assert (Hmc : ~ In m (d_created d)) by (intros Q; apply Hm; destruct (existsb (bytes_eqb n) (d_created d)); [exact Q|now right]).
    assert (Hmn : m <> n) by (intros ->; apply Hm; destruct (existsb (bytes_eqb n) (d_created d)) eqn:Es; [now apply Seen|now left]).
    rewrite O5 by exact Hmn. split; [now apply V11|now apply C7].
  - destruct (existsb (bytes_eqb n) (d_created d)) eqn:Es; [auto|]. split.
    + constructor; [|exact C8a]. intros Q. apply Seen in Q. congruence.
    + intros x [<-|Hx]; auto.
  - rewrite Hlen. destruct full; [lia|]. destruct (Lnf eq_refl). lia.
  - exact C10.
  - rewrite Hlen. destruct full; [lia|]. destruct (Lnf eq_refl) as (L & Q). intros _ x Hx. apply Hop.
    destruct (existsb (bytes_eqb n) (d_created d)) eqn:Es.
    + right. specialize (C11 L x Hx). apply in_map_iff in C11 as (hw & E & Hw). apply In_nth_error in Hw as (j & Hw). exists j, hw. split; [|auto].
      assert (j < length (d_open d))%nat by (apply nth_error_Some; congruence). lia.
    + destruct Hx as [<-|Hx]; [now left|]. right. specialize (C11 L x Hx). apply in_map_iff in C11 as (hw & E & Hw). apply In_nth_error in Hw as (j & Hw). exists j, hw. split; [|auto].
      assert (j < length (d_open d))%nat by (apply nth_error_Some; congruence). lia.
  - intros j Hj. destruct (Nat.eq_dec j i) as [Ej|Hji]; [exists (rkey r); left; now rewrite Ej|].
    assert (Hj' : (j < length (d_open d))%nat). { rewrite Hlen in Hj. destruct full; [rewrite Lf; auto|]. destruct (Lnf eq_refl). lia. }
    destruct (C12 j Hj') as (kk & Hk). exists kk. right. rewrite V8. destruct full; [|exact Hk].
    unfold remove_index. apply filter_In. split; [exact Hk|]. cbn [snd]. destruct (Nat.eqb_spec j i); [congruence|reflexivity].
  - intros kk j [E|E].
    + assert (kk = rkey r) by congruence. assert (j = i) by congruence. subst. exists r, (h, write_header w).
      split; [exact Hr|]. split; [rewrite Hnth, Nat.eqb_refl; reflexivity|]. split; [reflexivity|]. symmetry. exact Hnew.
    + assert (Hin : In (kk, j) (d_map d) /\ j <> i).
      { rewrite V8 in E. destruct full eqn:Ef.
        - unfold remove_index in E. apply filter_In in E as (E1 & E2). cbn [snd] in E2. split; [exact E1|]. destruct (Nat.eqb_spec j i); [discriminate|assumption].
        - split; [exact E|]. destruct (C13 kk j E) as (r' & hw & _ & B & _). assert (j < length (d_open d))%nat by (apply nth_error_Some; congruence).
          destruct (Lnf eq_refl). lia. }
      destruct Hin as (Hin & Hj). destruct (C13 kk j Hin) as (r' & hw & A & B & Cc & Dd). exists r', hw. split; [exact A|]. split; [|auto].
      rewrite Hnth. destruct (Nat.eqb_spec j i); [congruence|exact B].
  - destruct (Bool.bool_dec append append0) as [Q|Q]; [left; exact Q|right].
    assert (A1 : append = true /\ append0 = false).
    { destruct append eqn:Ea, append0 eqn:E0; auto; try congruence. exfalso.
      unfold append in Ea. apply orb_false_iff in Ea as (Ea & _). destruct C14 as [Qa|(Qa & _)]; congruence. }
    destruct A1 as (A1 & A2). split; [exact A1|]. specialize (Happ A1 A2). destruct (existsb (bytes_eqb n) (d_created d)); cbn [length]; lia.
  - intros x Hx. apply O6. rewrite V9. auto.
Qed.

Lemma index_ok d done cs row : core d done -> last_ok d -> In (cs, row) rows -> map shape cs = map shape (d_cols d) ->
  exists d' i hw, dispatch_index md5 st N template max d row = Ok (d', i) /\ core d' done /\ last_ok d' /\
    nth_error (d_open d') i = Some hw /\ oname hw = route (cs, row) /\ d_cols d' = d_cols d.
Proof using All.
  intros C L Hr Hs. pose proof C as [(cs0 & C0a & C0b) C1 C2 C3 C4 C5 C6 C7 (C8a & C8b) C9 C10 C11 C12 C13 C14 C15].
  destruct (route_facts template rows route HR (cs, row) (d_cols d) Hr) as (params & P1 & P2 & P3 & P4 & P5); [cbn [fst]; congruence|].
  assert (params = d_params d) by congruence. subst params. cbn [snd] in *. unfold dispatch_index. rewrite P3. cbn [bind].
  destruct (key_eq (rkey (cs, row)) (d_lastkey d)) eqn:El.
  - destruct L as [L|(r' & hw & L1 & L2 & L3 & L4)].
    + rewrite L in El. destruct (rkey (cs, row)); [congruence|discriminate].
    + rewrite L2 in El. apply (key_route template rows route HR (cs, row) r' Hr L1) in El. exists d, (d_lastidx d), hw.
      split; [reflexivity|]. split; [exact C|]. split; [right; exists r', hw; auto|]. split; [exact L3|]. split; [congruence|reflexivity].
  - rewrite (key_nan template rows route HR (cs, row) Hr).
    assert (X : exists d1 i hw, match find_key (rkey (cs, row)) (d_map d) with
        | Some i => Ok (d, i)
        | None => do name <- generate_name template (d_cols d) row (d_params d); create_iterator md5 st N max d (rkey (cs, row)) name
        end = Ok (d1, i) /\ core d1 done /\ nth_error (d_open d1) i = Some hw /\ oname hw = route (cs, row) /\ d_cols d1 = d_cols d /\ (i < max)%nat).
    { destruct (find_key (rkey (cs, row)) (d_map d)) as [i|] eqn:Ef.
      - apply find_key_some in Ef as (k & K1 & K2). destruct (C13 k i K1) as (r' & hw & A & B & Ck & D). subst k.
        apply (key_route template rows route HR (cs, row) r' Hr A) in K2. exists d, i, hw.
        assert (i < length (d_open d))%nat by (apply nth_error_Some; congruence). split; [reflexivity|]. split; [exact C|]. split; [exact B|]. split; [congruence|]. split; [reflexivity|lia].
      - rewrite P5. cbn [bind]. destruct (create_ok d done (cs, row) C Hr) as (d1 & i & K1 & K2 & K3 & (hw & K4 & K5) & K6 & _).
        + intros Q. apply in_map_iff in Q as (hw & Q1 & Q2). apply In_nth_error in Q2 as (i & Q2).
          destruct (C12 i) as (k & Hk); [apply nth_error_Some; congruence|]. pose proof (find_key_none _ _ Ef k i Hk) as Q3.
          destruct (C13 k i Hk) as (r' & hw' & A & B & Ck & D). subst k.
          assert (hw' = hw) by congruence. subst hw'. assert (route (cs, row) = route r') by congruence.
          apply (key_route template rows route HR (cs, row) r' Hr A) in H. congruence.
        + exists d1, i, hw. auto 10. }
    destruct X as (d1 & i & hw & X1 & X2 & X3 & X4 & X5 & X6). rewrite X1. cbn [bind].
    pose proof X2 as [_ _ _ _ _ _ _ _ _ _ Xs _ _ _ _ _].
    destruct (Nat.leb_spec (length (d_stamp d1)) i); [lia|].
    eexists _, i, hw. split; [reflexivity|]. cbn [d_open d_cols]. split; [|split; [|auto]].
    + destruct X2 as [E0 E1 E2 E3 E4 E5 E6 E7 E8 E9 E10 E11 E12 E13 E14 E15]. split; cbn [d_cols d_params d_open d_init d_created d_disk d_stamp d_map d_append]; auto.
      now rewrite list_set_length.
    + right. exists (cs, row), hw. cbn [d_lastkey d_lastidx d_open]. auto.
Qed.

Lemma drow_ok d done cs row : core d done -> last_ok d -> In (cs, row) rows -> map shape cs = map shape (d_cols d) ->
  exists d', dispatch_row md5 st N template max d cs row = Ok d' /\ core d' (done ++ [(cs, row)]) /\ last_ok d' /\ d_cols d' = d_cols d.
Proof using All.
  intros C L Hr Hs. unfold dispatch_row. assert (Ei : d_init d = true) by (destruct C; assumption). rewrite Ei. cbn [bind].
  destruct (index_ok d done cs row C L Hr Hs) as (d1 & i & hw & I1 & I2 & I3 & I4 & I5 & I6). rewrite I1. cbn [bind]. rewrite I4.
  destruct hw as [h w].
  pose proof I2 as [(cs0 & C0a & C0b) C1 C2 C3 C4 C5 C6 C7 (C8a & C8b) C9 C10 C11 C12 C13 C14 C15].
  assert (G : good (d_disk d1) (d_cols d1) done (h, w)) by (rewrite Forall_forall in C3; apply C3; now apply nth_error_In in I4).
  destruct (good_row st st' md5 Hd N HN rows HC template route HR append0 k0 _ _ _ _ _ cs row G Hr) as (Len & w1 & k' & hw' & W1 & W2 & W3 & W4 & W5 & W6); [congruence|now rewrite <- I5|].
  rewrite Len, Nat.eqb_refl. cbn [assert bind]. rewrite W1. cbn [bind]. rewrite W2. eexists. split; [reflexivity|].
  assert (Hi : (i < length (d_open d1))%nat) by (apply nth_error_Some; congruence).
  assert (En : map oname (list_set (d_open d1) i hw') = map oname (d_open d1)).
  { rewrite map_list_set. apply ReaderProofs.nth_ext_error. intros j. rewrite nth_error_list_set by now rewrite map_length.
    destruct (Nat.eqb_spec j i) as [Ej|]; [|reflexivity]. rewrite Ej, nth_error_map, I4. cbn [option_map]. unfold oname. cbn [fst]. now rewrite W3. }
  assert (Hc : In (route (cs, row)) (d_created d1)) by (rewrite <- I5; apply C5, in_map; now apply nth_error_In in I4).
  assert (Hh : h_name h = route (cs, row)) by exact I5.
  split; [|split].
  - split; cbn [d_cols d_params d_open d_init d_created d_disk d_stamp d_map d_append]; auto; rewrite ?En; auto.
    + exists cs0. auto.
    + apply Forall_forall. intros x Hx. apply In_nth_error in Hx as (j & Hx). rewrite nth_error_list_set in Hx by exact Hi.
      destruct (Nat.eqb_spec j i) as [Ej|Hj].
      * assert (x = hw') by congruence. subst x. exact W4.
      * assert (Hn : oname x <> h_name h).
        { intros Q. apply Hj. apply (proj1 (NoDup_nth_error (map oname (d_open d1))) C4); [rewrite map_length; apply nth_error_Some; congruence|].
          rewrite !nth_error_map, Hx, I4. cbn [option_map]. f_equal. exact Q. }
        apply (good_ext st st' md5 N rows route append0 k0 (d_disk d1)); [apply W5; exact Hn|].
        apply (good_done st st' md5 N rows route append0 k0 _ _ done); [apply rows_for_other; intros Q; apply Hn; unfold oname; congruence|].
        rewrite Forall_forall in C3. apply C3. now apply nth_error_In in Hx.
    + intros n Hn1 Hn2. destruct (C6 n Hn1 Hn2) as (D & r1 & A1 & A2 & A3). exists D, r1.
      assert (n <> h_name h). { intros ->. apply Hn2. change (h_name h) with (oname (h, w)). apply in_map. now apply nth_error_In in I4. }
      rewrite W5 by assumption. rewrite rows_for_other by congruence. auto.
    + intros n Hn. destruct (C7 n Hn) as (A1 & A2). assert (n <> h_name h) by (intros ->; apply Hn; congruence).
      rewrite W5 by assumption. rewrite rows_for_other by congruence. auto.
    + rewrite list_set_length. exact C9.
    + rewrite list_set_length. exact C11.
    + intros j Hj. rewrite list_set_length in Hj. auto.
    + intros k j Hk. destruct (C13 k j Hk) as (r' & x & A & B & Ck & D). destruct (Nat.eq_dec j i) as [Ej|Hj].
      * subst j. assert (x = (h, w)) by congruence. subst x. exists r', hw'. split; [exact A|]. split; [rewrite nth_error_list_set, Nat.eqb_refl by exact Hi; reflexivity|].
        split; [exact Ck|]. rewrite D. unfold oname. now rewrite W3.
      * exists r', x. split; [exact A|]. split; [|auto]. rewrite nth_error_list_set by exact Hi. destruct (Nat.eqb_spec j i); [congruence|exact B].
    + intros x Hx. rewrite W6. auto.
  - destruct I3 as [I3|(r' & x & A & B & Cx & D)]; [now left|right]. cbn [d_lastkey d_lastidx d_open]. exists r'.
    destruct (Nat.eq_dec (d_lastidx d1) i) as [Ej|Hj].
    + exists hw'. split; [exact A|]. split; [exact B|]. rewrite Ej in *. split; [rewrite nth_error_list_set, Nat.eqb_refl by exact Hi; reflexivity|].
      assert (x = (h, w)) by congruence. subst x. rewrite D. unfold oname. now rewrite W3.
    + exists x. split; [exact A|]. split; [exact B|]. split; [|exact D]. rewrite nth_error_list_set by exact Hi. destruct (Nat.eqb_spec (d_lastidx d1) i); [congruence|exact Cx].
  - exact I6.
Qed.

Lemma step_ok d done fresh cs row : core d done -> last_ok d -> In (cs, row) rows -> fresh = true \/ map shape cs = map shape (d_cols d) ->
  exists d', dispatch_step md5 st N template max d fresh cs row = Ok d' /\ core d' (done ++ [(cs, row)]) /\ last_ok d' /\ map shape cs = map shape (d_cols d').
Proof using All.
  intros C L Hr F. unfold dispatch_step. destruct (fresh && negb (equal_columns (d_cols d) cs)) eqn:E.
  - assert (Hcs : In cs (map fst rows)) by (apply (in_map fst) in Hr; exact Hr).
    destruct (copies_some st N rows HC cs Hcs) as (cols & Ec). rewrite Ec. cbn [bind].
    pose proof (copies_ok st N rows HC cs cols Hcs Ec) as Co. pose proof Co as (_ & _ & Sh).
    destruct (route_facts template rows route HR (cs, row) cols Hr) as (params & P1 & P2 & _); [exact Sh|].
    unfold parse_params. cbn [set_cols d_cols]. rewrite P1. cbn [bind].
    destruct (Nat.eqb_spec (length params) 0) as [Q|_]; [destruct params; [congruence|discriminate]|]. cbn [bind d_disk d_cols d_open set_cols].
    pose proof C as [(cs0 & C0a & C0b) C1 C2 C3 C4 C5 C6 C7 (C8a & C8b) C9 C10 C11 C12 C13 C14 C15].
    destruct (restart_ok st st' md5 Hd N HN rows HC template route HR append0 k0 (d_cols d) done cols cs Hcs Co (d_open d) (d_disk d) C3 C4) as (k' & op' & R1 & R2 & R3 & R4 & R5).
    rewrite R1. cbn [bind]. unfold with_disk. cbn [d_cols d_params d_open d_init d_created d_disk d_stamp d_map d_append d_lastkey d_lastidx d_nrows].
    assert (Lo : length op' = length (d_open d)) by (rewrite <- (map_length oname), R2, map_length; reflexivity).
    assert (Hx : forall i hw, nth_error (d_open d) i = Some hw -> exists hw', nth_error op' i = Some hw' /\ oname hw' = oname hw).
    { intros i hw Ei. assert (Q : nth_error (map oname op') i = Some (oname hw)) by (rewrite R2, nth_error_map, Ei; reflexivity).
      rewrite nth_error_map in Q. destruct (nth_error op' i) as [hw'|]; [|discriminate]. exists hw'. split; [reflexivity|]. cbn in Q. congruence. }
    match goal with |- exists d', dispatch_row _ _ _ _ _ ?d1 _ _ = _ /\ _ => assert (C' : core d1 done); [|assert (L' : last_ok d1)] end.
    + split; cbn [d_cols d_params d_open d_init d_created d_disk d_stamp d_map d_append]; auto; rewrite ?R2, ?Lo; auto.
      * exists cs. auto.
      * intros n Hn1 Hn2. destruct (C6 n Hn1 Hn2) as (D & r1 & A1 & A2). exists D, r1. rewrite R4 by exact Hn2. auto.
      * intros n Hn. rewrite R4; [auto|]. intros Q. apply Hn. now apply C5.
      * intros k i Hk. destruct (C13 k i Hk) as (r' & x & A & B & Ck & D). destruct (Hx i x B) as (x' & X1 & X2). exists r', x'. rewrite X2. auto.
      * intros x Hx'. rewrite R5. auto.
    + destruct L as [L|(r' & x & A & B & Cx & D)]; [now left|right]. cbn [d_lastkey d_lastidx d_open]. destruct (Hx _ x Cx) as (x' & X1 & X2). exists r', x'. rewrite X2. auto.
    + destruct (drow_ok _ done cs row C' L' Hr) as (d' & D1 & D2 & D3 & D4); [cbn [d_cols]; congruence|]. exists d'.
      split; [exact D1|]. split; [exact D2|]. split; [exact D3|]. rewrite D4. cbn [d_cols]. congruence.
  - assert (Hs : map shape cs = map shape (d_cols d)).
    { destruct F as [-> |F]; [|exact F]. cbn [andb] in E. apply Bool.negb_false_iff, equal_columns_shape in E. congruence. }
    cbn [bind]. destruct (drow_ok d done cs row C L Hr Hs) as (d' & D1 & D2 & D3 & D4). exists d'. rewrite D4. auto.
Qed.

Variable junk : nat -> nat -> list Z.

Lemma dloop_ok : forall rest it d done, rows = done ++ rest -> shaped it -> ahead md5 st junk it rest ->
  core d done -> last_ok d -> (r_end it = false -> r_new it = true \/ map shape (r_cols it) = map shape (d_cols d)) ->
  forall fuel, (length rest < fuel)%nat -> exists d', dispatch_loop md5 st N template max junk fuel d it = Ok d' /\ core d' rows /\ last_ok d'.
Proof using All.
  induction rest as [|[cs row] rest IH]; intros it d done E Sh A C L F fuel Hf.
  - destruct fuel as [|fuel]; [cbn in Hf; lia|]. destruct A as [(A & _)|(_ & ? & A & _)]; [|discriminate].
    cbn [dispatch_loop]. rewrite A. exists d. rewrite app_nil_r in E. split; [reflexivity|]. rewrite E. auto.
  - destruct fuel as [|fuel]; [cbn in Hf; lia|]. cbn [length] in Hf.
    destruct (r_end it) eqn:Ee; [destruct A as [(_ & A)|(A & _)]; [discriminate|congruence]|].
    destruct (ahead_step md5 st junk it _ Sh Ee A) as (it1 & o & rest1 & Q1 & Q2 & Q3).
    assert (r_cols it = cs) by congruence. assert (r_last it = row) by congruence. assert (rest1 = rest) by congruence. subst rest1 cs row.
    assert (Hin : In (r_cols it, r_last it) rows) by (rewrite E; apply in_or_app; right; now left).
    cbn [dispatch_loop]. rewrite Ee.
    destruct (step_ok d done (r_new it) (r_cols it) (r_last it) C L Hin (F eq_refl)) as (d1 & R1 & R2 & R3 & R4).
    rewrite R1. cbn [bind]. rewrite Q2. cbn [bind].
    destruct (next_step md5 st junk it it1 o Sh Q2) as (Sh1 & Cc).
    apply (IH it1 d1 (done ++ [(r_cols it, r_last it)])); auto.
    + now rewrite <- app_assoc.
    + intros E1. destruct Cc as [(Cc & _)|(_ & _ & [Cc|(_ & Cc)])]; [congruence|auto|]. right. now rewrite Cc.
    + lia.
Qed.

Lemma pass1_core file fuel : rows <> [] -> (forall f, (length rows < f)%nat -> file_rows md5 st junk f file = (rows, Clean)) ->
  (length rows < fuel)%nat ->
  exists it cols d0 d1, begin_rows md5 st junk file = Ok it /\ r_end it = false /\ map_out (copy_column st) (r_cols it) = Ok cols /\
    parse_params template (set_cols (new_dispatcher max append0 k0) cols) = Ok d0 /\ (length cols =? 0)%nat = false /\
    dispatch_loop md5 st N template max junk fuel d0 it = Ok d1 /\ core d1 rows /\ last_ok d1.
Proof using All.
  intros Hne R Hf.
  assert (exists it, begin_rows md5 st junk file = Ok it) as (it & B).
  { pose proof (R (S (length rows)) ltac:(lia)) as Q. unfold file_rows in Q. unfold begin_rows.
    destruct (open_rows md5 st junk file) as [it0| |]; cbn [bind]; try discriminate. cbn [list_rows] in Q.
    destruct (next_row md5 st junk it0) as [[it1 o]| |]; cbn [bind]; try discriminate. eauto. }
  exists it. destruct (begin_ahead md5 st junk file it rows B) as (Sh & AH). apply AH in R. clear AH.
  assert (Ee : r_end it = false) by (destruct R as [(_ & R)|(Ee & _)]; [congruence|exact Ee]).
  destruct (ahead_step md5 st junk it rows Sh Ee R) as (it1 & o & rest & Q1 & _ & _).
  assert (Hr : In (r_cols it, r_last it) rows) by (rewrite Q1; now left).
  assert (Hcs : In (r_cols it) (map fst rows)) by (apply (in_map fst) in Hr; exact Hr).
  destruct (copies_some st N rows HC (r_cols it) Hcs) as (cols & Ec). exists cols.
  pose proof (copies_ok st N rows HC (r_cols it) cols Hcs Ec) as Co. pose proof Co as (_ & _ & Sc).
  destruct (route_facts template rows route HR (r_cols it, r_last it) cols Hr) as (params & P1 & P2 & _); [exact Sc|].
  unfold parse_params. cbn [set_cols d_cols]. rewrite P1. cbn [bind].
  destruct (Nat.eqb_spec (length params) 0) as [Q|_]; [destruct params; [congruence|discriminate]|].
  assert (Ln : (length cols =? 0)%nat = false).
  { destruct (Nat.eqb_spec (length cols) 0) as [Q|_]; [exfalso|reflexivity]. destruct (known' st N rows HC (r_cols it) Hcs) as (_ & _ & W). apply (wc_some _ _ W).
    apply (f_equal (@length _)) in Sc. rewrite !map_length in Sc. destruct (r_cols it); [reflexivity|cbn in Sc; lia]. }
  eexists. match goal with |- exists d1, _ /\ _ /\ _ /\ Ok ?d = _ /\ _ => set (d0 := d) end.
  assert (C0 : core d0 []).
  { subst d0. split; cbn [d_cols d_params d_open d_init d_created d_disk d_stamp d_map d_append new_dispatcher set_cols map].
    - exists (r_cols it). auto.
    - exact P1.
    - reflexivity.
    - constructor.
    - constructor.
    - unfold incl. cbn. intros ? [].
    - cbn. intros ? [].
    - intros n _. split; reflexivity.
    - split; [constructor|unfold incl; cbn; intros ? []].
    - cbn. lia.
    - apply repeat_length.
    - unfold incl. cbn. intros _ ? [].
    - cbn. intros i Q. lia.
    - cbn. intros ? ? [].
    - now left.
    - auto. }
  destruct (dloop_ok rows it d0 [] eq_refl Sh R C0) with (fuel := fuel) as (d1 & D1 & C1 & L1); auto.
  { now left. }
  exists d1. auto 10.
Qed.

Lemma split_core file fuel : rows <> [] -> (forall f, (length rows < f)%nat -> file_rows md5 st junk f file = (rows, Clean)) ->
  (length rows < fuel)%nat ->
  exists k', split_file md5 st N template max junk fuel append0 k0 file = Ok k' /\
    (forall n, ~ In n (map route rows) -> files k' n = files k0 n) /\
    (forall n, In n (map route rows) -> settled k' n rows).
Proof using All.
  intros Hne R Hf. destruct (pass1_core file fuel Hne R Hf) as (it & cols & d0 & d1 & B & Ee & Ec & Ep & Ln & D1 & C1 & _).
  unfold split_file. rewrite B. cbn [bind]. rewrite Ee, Ec. cbn [bind]. rewrite Ep. cbn [bind]. rewrite Ln. cbn [negb assert bind].
  rewrite D1. cbn [bind]. pose proof C1 as [_ _ _ C3 C4 C5 C6 C7 (C8a & C8b) _ _ _ _ _ _ _].
  destruct (close_ok st st' md5 Hd N HN rows HC template route HR append0 k0 (d_cols d1) rows (d_open d1) (d_disk d1) C3 C4) as (k' & K1 & K2 & K3).
  exists k'. split; [exact K1|]. split.
  - intros n Hn. assert (Hc : ~ In n (d_created d1)) by (intros Q; auto). rewrite K3 by (intros Q; apply Hc, C5, Q). now apply C7.
  - intros n Hn. destruct (in_dec (list_eq_dec Z.eq_dec) n (map oname (d_open d1))) as [Q|Q]; [auto|].
    assert (Hc : In n (d_created d1)).
    { destruct (in_dec (list_eq_dec Z.eq_dec) n (d_created d1)) as [Hc|Hc]; [exact Hc|exfalso].
      destruct (C7 n Hc) as (_ & R0). apply in_map_iff in Hn as (r & E & Hin).
      assert (In r (rows_for n rows)) by (unfold DispatchRun.rows_for; apply filter_In; split; [exact Hin|rewrite E; apply bytes_eqb_refl]).
      rewrite R0 in H. destruct H. }
    destruct (C6 n Hc Q) as (D & r1 & A1 & A2). exists D, r1. rewrite K3 by exact Q. auto.
Qed.

End Split.

(** ** C44 *)

Lemma directory_none n : directory n = None -> ~ In 47 n.
Proof.
  induction n as [|c n IH]; cbn [directory]; [auto|]. destruct (directory n); [discriminate|]. destruct (Z.eqb_spec c 47); [discriminate|]. intros _ [Q|Q]; [congruence|now apply IH].
Qed.
Lemma directory_in n d : directory n = Some d -> in_directory n d.
Proof.
  revert d. induction n as [|c n IH]; intros d; cbn [directory]; [discriminate|]. destruct (directory n) as [d'|] eqn:E.
  - intros H. injection H as <-. destruct (IH d' eq_refl) as (rest & -> & N). exists rest. auto.
  - destruct (Z.eqb_spec c 47) as [->|]; [|discriminate]. intros H. injection H as <-. exists n. split; [reflexivity|now apply directory_none].
Qed.

(** Every row of the file goes, in order, to the file named by its values; other files are
    left alone.  [append] keeps what the files held before. *)
Theorem C44_split : forall md5 st st' N max junk file rows template route append k,
  digest md5 -> (0 < N)%nat -> (0 < max)%nat -> rows <> [] ->
  (forall f, (length rows < f)%nat -> file_rows md5 st junk f file = (rows, Clean)) ->
  rows_copyable st N [] rows -> routed template rows route ->
  (append = true \/ (forall n, In n (map route rows) -> files k n = None) \/ few max (map route rows)) ->
  (append = false /\ few max (map route rows) \/ (forall n d, In n (map route rows) -> in_directory n d -> dirs k d = true)) ->
  forall fuel, (length rows < fuel)%nat ->
  exists k', split_file md5 st N template max junk fuel append k file = Ok k' /\
    (forall n, ~ In n (map route rows) -> files k' n = files k n) /\
    (forall n, In n (map route rows) -> exists new,
       files k' n = Some ((if append then match files k n with Some old => old | None => [] end else []) ++ new) /\
       forall junk', exists rows', Forall2 (copied st st') (filter (fun r => if list_eq_dec Z.eq_dec (route r) n then true else false) rows) rows' /\
         forall f, (length rows < f)%nat -> file_rows md5 st' junk' f new = (rows', Clean)).
Proof.
  intros md5 st st' N max junk file rows template route append k Hd HN Hmax Hne R HC HR H1 H2' fuel Hf.
  assert (H2 : append = false /\ few max (map route rows) \/ (forall n d, In n (map route rows) -> directory n = Some d -> dirs k d = true)).
  { destruct H2' as [Q|Q]; [now left|]. right. intros n d Hn Hd'. exact (Q n d Hn (directory_in n d Hd')). }
  destruct (split_core st st' md5 Hd N HN rows HC template route HR append k max Hmax H1 H2 junk file fuel Hne R Hf) as (k' & K1 & K2 & K3).
  exists k'. split; [exact K1|]. split; [exact K2|]. intros n Hn. destruct (K3 n Hn) as (D & r1 & A1 & (fs & bs & -> & F & <-) & M).
  exists (concat bs). split; [exact A1|]. intros junk'.
  destruct (read_file st st' [] md5 Hd junk' fs bs F) as (rows' & C & RR).
  assert (Ef : filter (fun r => if list_eq_dec Z.eq_dec (route r) n then true else false) rows = DispatchRun.rows_for route n rows).
  { unfold DispatchRun.rows_for. apply filter_ext. intros r. destruct (list_eq_dec Z.eq_dec (route r) n) as [->|Q]; [now rewrite bytes_eqb_refl|].
    destruct (bytes_eqb (route r) n) eqn:E; [apply bytes_eqb_eq in E; congruence|reflexivity]. }
  rewrite Ef. assert (L : length (flat fs) = length (DispatchRun.rows_for route n rows)) by (symmetry; apply (TableProofs.Forall2_length _ _ _ M)).
  assert (L2 : (length (DispatchRun.rows_for route n rows) <= length rows)%nat) by (unfold DispatchRun.rows_for; clear; induction rows as [|r rows IH]; cbn [filter length]; [lia|]; destruct (bytes_eqb (route r) n); cbn [length]; lia).
  exists rows'. split; [|intros f Hf'; apply RR; lia]. clear -M C. eapply copied_all; eauto.
Qed.
Print Assumptions C44_split.
