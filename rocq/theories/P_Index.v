(** C64: the index file. *)
From Coq Require Import String.
From Verif Require Import CsvRows Api Base Fp Stream Codec Meta Header Encoder Table Reader Spec ReadSpec RowList Writer WriterSpec RowReader Copy Scan ScanSpec Index IndexSpec.
From Verif Require Import StreamProofs WriterProofs WriterRun OrdinaryProofs Through P_Writer P_Csv P_Scan.
Open Scope Z_scope.
Local Notation length := List.length.

(** ** The entries *)

Lemma runs_counted s vs r : runs vs r -> total snd (filter (fun p => fst p =? s) r) = Z.of_nat (count_occ Z.eq_dec vs s).
Proof.
  intros [<- P _]. induction P as [|[v n] r Hn P IH]; [reflexivity|]. cbn [filter flat_map fst snd] in *. rewrite count_occ_app, Nat2Z.inj_add, <- IH.
  destruct (Z.eqb_spec v s) as [->|Hv].
  - cbn [total fold_right snd]. rewrite count_occ_repeat_eq by reflexivity. unfold total. lia.
  - rewrite count_occ_repeat_neq by congruence. lia.
Qed.

Lemma runs_in s vs r : runs vs r -> (In s vs <-> In s (map fst r)).
Proof.
  intros [<- P _]. induction P as [|[v n] r Hn P IH]; [reflexivity|]. cbn [flat_map map fst snd] in *. rewrite in_app_iff, IH. cbn [In].
  split; (intros [H|H]; [left|now right]).
  - now apply repeat_spec in H.
  - subst. destruct (Z.to_nat n) eqn:E; [lia|now left].
Qed.

Lemma total_app {A} (f : A -> Z) a b : total f (a ++ b) = total f a + total f b.
Proof. unfold total. induction a as [|x a IH]; cbn [app fold_right]; [reflexivity|]. rewrite IH. lia. Qed.

(** The rows an index gives for a seqno are all the rows of the file that have it. *)
Theorem C64_count : forall off fs vss es s, index_of off fs vss es ->
  indexed_rows s es = Z.of_nat (count_occ Z.eq_dec (concat vss) s).
Proof.
  intros off fs vss es s H. unfold indexed_rows. induction H as [off|off f fs vs vss r es R H IH]; [reflexivity|].
  cbn [concat]. rewrite filter_app, total_app, IH, count_occ_app, Nat2Z.inj_add. f_equal. rewrite <- (runs_counted s vs r R). clear.
  induction r as [|p r IH]; [reflexivity|]. cbn [map filter e_seqno]. destruct (fst p =? s); [|exact IH].
  unfold total in *. cbn [fold_right e_rows]. now rewrite IH.
Qed.
Print Assumptions C64_count.

(** Every entry points to one block of the file, which has rows with its seqno, and for every
    seqno of every block there is an entry that points to that block. *)
Theorem C64_find : forall fs vss es, index_of 0 fs vss es ->
  (forall e, In e es -> exists k f vs, nth_error fs k = Some f /\ nth_error vss k = Some vs /\
     e_begin e = len (concat (firstn k fs)) /\ pointed (concat fs) e = f /\ In (e_seqno e) vs) /\
  (forall k f vs s, nth_error fs k = Some f -> nth_error vss k = Some vs -> In s vs ->
     exists e, In e es /\ e_seqno e = s /\ e_begin e = len (concat (firstn k fs)) /\ pointed (concat fs) e = f).
Proof.
  intros fs vss es H.
  assert (X : forall off fs vss es, index_of off fs vss es -> forall pre, len pre = off ->
    (forall e, In e es -> exists k f vs, nth_error fs k = Some f /\ nth_error vss k = Some vs /\
       e_begin e = off + len (concat (firstn k fs)) /\ pointed (pre ++ concat fs) e = f /\ In (e_seqno e) vs) /\
    (forall k f vs s, nth_error fs k = Some f -> nth_error vss k = Some vs -> In s vs ->
       exists e, In e es /\ e_seqno e = s /\ e_begin e = off + len (concat (firstn k fs)) /\ pointed (pre ++ concat fs) e = f)).
  2:{ exact (X 0 fs vss es H [] eq_refl). }
  clear. intros off fs vss es H. induction H as [off|off f fs vs vss r es R H IH]; intros pre Hp.
  { split; [intros e []|]. intros [|k] f vs s E; discriminate E. }
  destruct (IH (pre ++ f)) as (A & B). { unfold len in *. rewrite app_length. lia. }
  assert (Here : forall p, pointed (pre ++ f ++ concat fs) {| e_begin := off; e_length := len f; e_seqno := fst p; e_rows := snd p |} = f).
  { intros p. unfold pointed. cbn [e_length e_begin]. subst off. unfold len. rewrite !Nat2Z.id.
    rewrite skipn_app, skipn_all, Nat.sub_diag. cbn [app skipn]. rewrite firstn_app, firstn_all, Nat.sub_diag. cbn [firstn]. now rewrite app_nil_r. }
  split.
  - intros e He. apply in_app_or in He as [He|He].
    + apply in_map_iff in He as (p & <- & Hin). exists 0%nat, f, vs. cbn [nth_error firstn concat e_begin e_seqno].
      split; [reflexivity|]. split; [reflexivity|]. split; [cbn; lia|]. split; [apply Here|]. apply (runs_in _ vs r R). now apply in_map.
    + destruct (A e He) as (k & f' & vs' & Q1 & Q2 & Q3 & Q4 & Q5). exists (S k), f', vs'. cbn [nth_error firstn concat].
      rewrite <- app_assoc in Q4. split; [exact Q1|]. split; [exact Q2|]. split; [|auto]. rewrite Q3. unfold len. rewrite app_length. lia.
  - intros [|k] f' vs' s E1 E2 Hs; cbn [nth_error firstn concat] in *.
    + injection E1 as <-. injection E2 as <-. apply (runs_in s vs r R) in Hs. apply in_map_iff in Hs as (p & <- & Hin).
      eexists. split; [apply in_or_app; left; apply (in_map _ _ p Hin)|]. cbn [e_seqno e_begin]. split; [reflexivity|]. split; [cbn; lia|apply Here].
    + destruct (B k f' vs' s E1 E2 Hs) as (e & Q1 & Q2 & Q3 & Q4). exists e. split; [apply in_or_app; now right|]. split; [exact Q2|].
      rewrite <- app_assoc in Q4. split; [|exact Q4]. rewrite Q3. unfold len. rewrite app_length. lia.
Qed.
Print Assumptions C64_find.

(** ** The file *)

Lemma index_table st : exists md w, map_out (make_column st) index_columns = Ok md /\ writer_columns st (new_writer []) md = Ok w /\
  open_writer st index_columns [] = Ok (write_header w).
Proof. destruct st as [[] []]; eexists; eexists; (split; [vm_compute; reflexivity|]); (split; [vm_compute; reflexivity|]); vm_compute; reflexivity. Qed.

(** the cells of an entry as it is written *)
Lemma ordinary_cell st ci n : iad st = true -> In ci index_columns -> int32 n -> ordinary st ci (index_cell n).
Proof.
  intros Hi Hin Hn. replace (index_cell n) with (int_cell (negb (iad st)) n) by (rewrite Hi; reflexivity).
  cbn [index_columns map In] in Hin. apply or_int; [left| |exact Hn]; destruct Hin as [<-|[<-|[<-|[<-|[]]]]]; reflexivity.
Qed.

Definition good_entry (e : entry) : Prop := int32 (e_begin e) /\ int32 (e_length e) /\ int32 (e_seqno e) /\ int32 (e_rows e).

Lemma entry_ordinary st e : iad st = true -> good_entry e -> Forall2 (ordinary st) index_columns (entry_row false e).
Proof.
  intros Hi (A & B & C & D). unfold entry_row. cbn [index_columns map].
  repeat (apply Forall2_cons; [apply ordinary_cell; [exact Hi|cbn [index_columns map In]; tauto|assumption]|]). apply Forall2_nil.
Qed.

Lemma entry_back st st' e out : iad st = true -> good_entry e -> same_row st st' index_columns (entry_row false e) out ->
  out = entry_row (negb (iad st')) e.
Proof.
  intros Hi (A & B & C & D) (_ & L & H). cbn [index_columns map length] in L.
  destruct out as [|a [|b [|c [|d [|? ?]]]]]; try discriminate L. clear L.
  assert (V : forall n y, int32 n -> same_value st st' ty_INTEGER (int_cell false n) y -> y = int_cell (negb (iad st')) n).
  { intros n y Hn [(_ & m & _ & E1 & ->)|[(T & _)|[(T & _)|(T & _)]]]; try discriminate T. rewrite Hi in E1. cbn [negb] in E1.
    now rewrite (int_cell_only m n Hn (eq_sym E1)). }
  unfold entry_row. f_equal; [|f_equal; [|f_equal; [|f_equal]]].
  - apply V; [exact A|]. exact (H 0%nat _ _ _ eq_refl eq_refl eq_refl).
  - apply V; [exact B|]. exact (H 1%nat _ _ _ eq_refl eq_refl eq_refl).
  - apply V; [exact C|]. exact (H 2%nat _ _ _ eq_refl eq_refl eq_refl).
  - apply V; [exact D|]. exact (H 3%nat _ _ _ eq_refl eq_refl eq_refl).
Qed.

(** the loop over the blocks is one long list of rows *)
Lemma write_ops_app md5 st N pr a : forall w b, write_ops md5 st N pr w (a ++ b) = do w1 <- write_ops md5 st N pr w a; write_ops md5 st N pr w1 b.
Proof. induction a as [|x a IH]; intros w b; cbn [app write_ops bind]; [reflexivity|]. destruct (write_op md5 st N pr w x); cbn [bind]; auto. Qed.

Lemma run_bound vs r p : runs vs r -> In p r -> 0 < snd p <= len vs.
Proof.
  intros [<- P _] Hin. split; [exact (proj1 (Forall_forall _ _) P p Hin)|]. revert Hin. induction P as [|[v n] r Hn P IH]; intros []; cbn [flat_map fst snd] in *.
  - subst p. unfold len. rewrite app_length, repeat_length. cbn [snd]. lia.
  - specialize (IH H). unfold len in *. rewrite app_length. lia.
Qed.

Lemma blocks_run md5 st N pr select file l : forall off vss,
  (forall k p, nth_error l k = Some p -> firstn (length (fst p)) (skipn (Z.to_nat (off + len (bytes_of (firstn k l)))) file) = fst p) ->
  0 <= off -> Forall2 (fun p vs => select (fst p) = Ok vs) l vss ->
  exists es, index_of off (map fst l) vss es /\
    (forall e, In e es -> off <= e_begin e <= off + len (bytes_of l) /\ 0 <= e_length e <= len (bytes_of l) /\ 0 < e_rows e /\
       exists vs, In vs vss /\ In (e_seqno e) vs /\ e_rows e <= len vs) /\
    forall w, index_blocks md5 st N pr select file w (extents off (map (fun p => [p]) l)) =
    write_ops md5 st N pr w (map (fun e => call (Row (entry_row false e))) es).
Proof.
  induction l as [|[f t] l IH]; intros off vss Hf Ho F; inversion F as [|x vs l0 vss' Sl F']; subst; clear F.
  { exists []. split; [constructor|]. split; [intros e []|reflexivity]. }
  cbn [fst] in Sl. pose proof (C51_index vs) as R.
  assert (Lb : len (bytes_of ((f, t) :: l)) = len f + len (bytes_of l)) by (unfold bytes_of, len; cbn [map concat fst]; rewrite app_length; lia).
  assert (Lf : bytes_of [(f, t)] = f) by (unfold bytes_of; cbn [map concat fst]; apply app_nil_r).
  destruct (IH (off + len f) vss') as (es & I & B & W); [|unfold len; lia|exact F'|].
  { intros k p E. specialize (Hf (S k) p E). rewrite <- Hf at 2. f_equal. f_equal. f_equal. unfold bytes_of, len. cbn [firstn map concat fst]. rewrite app_length. lia. }
  exists (map (fun p => {| e_begin := off; e_length := len f; e_seqno := fst p; e_rows := snd p |}) (index_block vs) ++ es).
  split; [now constructor|]. split.
  - rewrite Lb. intros e He. apply in_app_or in He as [He|He].
    + apply in_map_iff in He as (p & <- & Hin). cbn [e_begin e_length e_rows e_seqno]. pose proof (run_bound vs _ p R Hin). unfold len in *.
      split; [lia|]. split; [lia|]. split; [lia|]. exists vs. split; [now left|]. split; [|lia]. apply (runs_in _ vs _ R). now apply in_map.
    + destruct (B e He) as (B1 & B2 & B3 & vs' & V1 & V2 & V3). unfold len in *. split; [lia|]. split; [lia|]. split; [lia|].
      exists vs'. split; [now right|auto].
  - intros w. cbn [map extents index_blocks]. rewrite Lf, Nat2Z.id. specialize (Hf 0%nat (f, t) eq_refl). cbn [firstn fst] in Hf.
    replace (off + len (bytes_of [])) with off in Hf by (cbn; lia). rewrite Hf, Sl. cbn [bind].
    rewrite map_app, write_ops_app, map_map.
    replace (map (fun x => call (Row (entry_row false {| e_begin := off; e_length := len f; e_seqno := fst x; e_rows := snd x |}))) (index_block vs))
      with (map (index_row off (Z.of_nat (length f))) (index_block vs)).
    2:{ apply map_ext. intros p. unfold index_row, call, entry_row, int_cell, index_cell, len. cbn [concat e_begin e_length e_seqno e_rows]. now rewrite app_nil_r. }
    destruct (write_ops md5 st N pr w (map (index_row off (Z.of_nat (length f))) (index_block vs))) as [w1| |]; cbn [bind]; [apply W|reflexivity|reflexivity].
Qed.

Lemma index_ok pr : props_ok pr -> writable_columns index_columns pr.
Proof.
  intros P. split; try exact P; cbn [index_columns map]; try discriminate.
  - reflexivity.
  - repeat constructor; cbn; intuition discriminate.
  - repeat constructor; discriminate.
  - repeat constructor; left; (split; [left; left; reflexivity|reflexivity]).
  - repeat constructor; cbn; try (intros Q; discriminate Q).
Qed.

Lemma split_parts (P : list (list Z) -> Prop) N acts : (0 < N)%nat -> forall cur, (length cur < N)%nat -> Forall P (cur ++ rows_of_actions acts) ->
  Forall (fun rows => Forall P rows /\ rows <> [] /\ (length rows <= N)%nat) (split_frames N cur acts).
Proof.
  intros HN. induction acts as [|[cells|] acts IH]; intros cur L F; cbn [split_frames rows_of_actions] in *.
  - rewrite app_nil_r in F. destruct cur; cbn [one_frame]; constructor; [|constructor]. split; [exact F|]. split; [discriminate|lia].
  - assert (F' : Forall P ((cur ++ [cells]) ++ rows_of_actions acts)) by (rewrite <- app_assoc; exact F).
    assert (Lc : length (cur ++ [cells]) = S (length cur)) by (rewrite app_length; cbn; lia).
    destruct (Nat.eqb_spec (length (cur ++ [cells])) N) as [E|E].
    + constructor; [|apply IH; [exact HN|now apply Forall_app in F']]. split; [now apply Forall_app in F'|]. split; [destruct cur; discriminate|lia].
    + apply IH; [lia|exact F'].
  - apply Forall_app. apply Forall_app in F as F2. split; [|apply IH; [exact HN|apply F2]].
    destruct cur; cbn [one_frame]; constructor; [|constructor]. split; [apply F2|]. split; [discriminate|lia].
Qed.

(** The index of a data file, read back: its columns are INTEGER, and its rows are the entries
    of the blocks of the data file, with the seqnos [select] gives for each. *)
Theorem C64_index : forall md5 st st' N pr select l vss est fuel, digest md5 -> (0 < N)%nat -> iad st = true ->
  (Z.of_nat N < 65536) -> props_ok pr -> total (fun kv => 8 + len (fst kv) + len (snd kv)) pr < 2 ^ 30 ->
  made_of md5 st l -> estimate est (bytes_of l) -> (length l < fuel)%nat -> len (bytes_of l) < 2 ^ 31 ->
  Forall2 (fun p vs => select (fst p) = Ok vs) l vss -> Forall (fun vs => Forall int32 vs /\ len vs < 2 ^ 31) vss ->
  exists file es, create_index md5 st N pr select (bytes_of l) est fuel = Ok file /\
    index_of 0 (map fst l) vss es /\
    forall junk, exists rows, Forall2 (fun e row => index_like (fst row) /\ snd row = entry_row (negb (iad st')) e) es rows /\
      forall f, (length es < f)%nat -> file_rows md5 st' junk f file = (rows, Clean).
Proof.
  intros md5 st st' N pr select l vss est fuel Hd HN Hi Hm Pr Sp M Es Hf Big Sel Vs.
  assert (Sm : small (Z.of_nat N) index_columns pr).
  { unfold small. cbn [index_columns map Encoder.ci_size Encoder.ci_name Encoder.ci_bits total fold_right]. split; [exact Hm|]. split; [lia|]. unfold len in *.
    repeat match goal with |- context [length (str ?s)] => let n := eval vm_compute in (length (str s)) in change (length (str s)) with n end. cbn [length]. lia. }
  destruct (blocks_run md5 st N pr select (bytes_of l) l 0 vss) as (es & I & B & W); [|lia|exact Sel|].
  { intros k p E. rewrite Z.add_0_l. unfold len. rewrite Nat2Z.id. apply nth_error_split in E as (l1 & l2 & -> & <-).
    rewrite firstn_app, firstn_all, Nat.sub_diag. cbn [firstn]. rewrite app_nil_r. unfold bytes_of. rewrite map_app, concat_app. cbn [map concat].
    rewrite skipn_app, skipn_all, Nat.sub_diag. cbn [app skipn]. rewrite firstn_app, firstn_all, Nat.sub_diag. cbn [firstn]. now rewrite app_nil_r. }
  assert (G : Forall good_entry es).
  { apply Forall_forall. intros e He. destruct (B e He) as (B1 & B2 & B3 & vs & V1 & V2 & V3). apply (proj1 (Forall_forall _ _) Vs) in V1 as (V4 & V5).
    unfold good_entry, int32 in *. split; [lia|]. split; [lia|]. split; [exact (proj1 (Forall_forall _ _) V4 _ V2)|lia]. }
  set (acts := map (fun e => Row (entry_row false e)) es).
  assert (Ra : rows_of_actions acts = map (entry_row false) es) by (unfold acts; clear; induction es as [|e es IH]; cbn; [reflexivity|now rewrite IH]).
  assert (Wr : Forall (writable st index_columns pr) (split_frames N [] acts)).
  { eapply Forall_impl; [|apply (split_parts (Forall2 (ordinary st) index_columns) N acts HN); [exact HN|]].
    - cbv beta. intros rows (A1 & A2 & A3). apply (ordinary_writable st index_columns pr (Z.of_nat N)); auto. unfold len. lia.
    - cbn [app]. rewrite Ra, Forall_map. eapply Forall_impl; [|exact G]. intros e. now apply entry_ordinary. }
  destruct (C36_columns md5 st st' N pr index_columns acts Hd HN (index_ok pr Pr) Wr) as (file & F & R).
  exists file, es. split; [|split; [exact I|]].
  - unfold create_index. rewrite (C51_blocks md5 st l est M Es fuel Hf). cbn [bind]. unfold write_index.
    destruct (index_table st) as (md & w & T1 & T2 & T3). rewrite T1. cbn [bind]. rewrite T2. cbn [bind]. rewrite W.
    unfold write_file in F. rewrite T3 in F. cbn [bind] in F. unfold acts in F. rewrite map_map in F. exact F.
  - intros junk. destruct (R junk) as (rows & C & _ & Rd). rewrite Ra in *. exists rows. split; [|intros f Lf; apply Rd; now rewrite map_length].
    clear - C G Hi. rewrite map_map in C. revert rows C. induction G as [|e es Ge G IH]; intros rows C; inversion C as [|? ? ? ? (C1 & C2) C3]; subst; constructor; auto.
    split; [|]. 2: exact (entry_back st st' e _ Hi Ge C2).
  cbn [fst index_columns map] in C1. destruct y as [cs vals]. cbn [fst] in *.
  assert (Q : length cs = 4%nat) by (rewrite <- (TableProofs.Forall2_length _ _ _ C1); reflexivity).
  destruct cs as [|c1 [|c2 [|c3 [|c4 [|? ?]]]]]; try discriminate Q.
  inversion C1 as [|? ? ? ? (A1 & A2 & _) Ca]; subst. inversion Ca as [|? ? ? ? (B1 & B2 & _) Cb]; subst.
  inversion Cb as [|? ? ? ? (D1 & D2 & _) Cd]; subst. inversion Cd as [|? ? ? ? (E1 & E2 & _) _]; subst.
  split; [cbn [map]; rewrite A1, B1, D1, E1; reflexivity|repeat (apply Forall_cons; [assumption|]); apply Forall_nil].
Qed.
Print Assumptions C64_index.

(** When the rows of every block are grouped by seqno there is at most one entry for each block
    and seqno. *)
Lemma grouped_runs vs r : runs vs r -> grouped vs -> NoDup (map fst r).
Proof.
  revert vs. induction r as [|[v n] r IH]; intros vs R G; [constructor|]. destruct R as [<- P D]. inversion P as [|? ? Hn P']; subst. cbn [map fst snd] in *.
  assert (R' : runs (flat_map (fun p => repeat (fst p) (Z.to_nat (snd p))) r) r).
  { split; [reflexivity|exact P'|]. intros i a b E1 E2. exact (D (S i) a b E1 E2). }
  set (tl := flat_map (fun p => repeat (fst p) (Z.to_nat (snd p))) r) in *. cbn [flat_map fst snd] in G. fold tl in G.
  destruct (Z.to_nat n) as [|m] eqn:En; [lia|]. cbn [repeat app] in G. constructor.
  - intros Hin. apply (runs_in v _ r R') in Hin. destruct r as [|[b k] r]; [exact Hin|].
    assert (Hb : v <> b) by exact (D 0%nat (v, n) (b, k) eq_refl eq_refl). inversion P' as [|? ? Hk _]; subst. cbn [snd] in Hk.
    apply In_nth_error in Hin as (i & Ei). subst tl. cbn [flat_map fst snd] in *. destruct (Z.to_nat k) as [|k'] eqn:Ek; [lia|]. cbn [repeat app] in *.
    destruct i as [|i]; [cbn in Ei; congruence|]. apply Hb.
    apply (G 0%nat (S m) (S m + S i)%nat v b); [lia|reflexivity| |].
    + cbn [nth_error]. rewrite nth_error_app2; rewrite repeat_length; [|lia]. rewrite Nat.sub_diag. reflexivity.
    + cbn [nth_error Nat.add]. rewrite nth_error_app2; rewrite repeat_length; [|lia]. replace (m + S i - m)%nat with (S i) by lia. exact Ei.
  - apply (IH _ R'). intros i j k a b L E1 E2 E3. apply (G (S m + i)%nat (S m + j)%nat (S m + k)%nat a b); [lia|..]; cbn [nth_error Nat.add]; (rewrite nth_error_app2; rewrite repeat_length; [|lia]);
    match goal with |- nth_error _ (m + ?q - m) = _ => replace (m + q - m)%nat with q by lia end; assumption.
Qed.

Theorem C64_unique : forall off fs vss es, index_of off fs vss es -> Forall (fun f => f <> []) fs -> Forall grouped vss ->
  NoDup (map (fun e => (e_begin e, e_seqno e)) es).
Proof.
  intros off fs vss es H Ne G.
  assert (X : NoDup (map (fun e => (e_begin e, e_seqno e)) es) /\ forall e, In e es -> off <= e_begin e); [|apply X].
  revert Ne G. induction H as [off|off f fs vs vss r es R H IH]; intros Ne G; [split; [constructor|intros e []]|].
  inversion Ne as [|? ? N1 N2]; inversion G as [|? ? G1 G2]; subst. destruct (IH N2 G2) as (A & B).
  assert (Lf : 0 < len f) by (unfold len; destruct f; [contradiction|cbn; lia]). split.
  - rewrite map_app, map_map. cbn [e_begin e_seqno].
    pose proof (grouped_runs vs r R G1) as Nd. clear - Nd A B Lf. induction r as [|p r IH]; [exact A|]. cbn [map app] in *. inversion Nd as [|? ? Q1 Q2]; subst. constructor; [|now apply IH].
    intros Hin. apply in_app_or in Hin as [Hin|Hin].
    + apply in_map_iff in Hin as (q & E & Hin). apply Q1. apply in_map_iff. exists q. split; [congruence|exact Hin].
    + apply in_map_iff in Hin as (e & E & Hin). specialize (B e Hin). injection E as E1 E2. lia.
  - intros e He. apply in_app_or in He as [He|He].
    + apply in_map_iff in He as (p & <- & _). cbn [e_begin]. lia.
    + specialize (B e He). lia.
Qed.
Print Assumptions C64_unique.
