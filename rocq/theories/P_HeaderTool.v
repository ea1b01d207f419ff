(** C67: what "odc header" prints. *)
From Coq Require Import String.
From Verif Require Import Base Fp Stream StreamProofs Codec Meta Header Table Reader Spec ReadSpec Scan ScanSpec ReaderProofs P_Scan
  Dispatcher DispatchSpec DispatchNames HeaderTool HeaderToolSpec.
Open Scope Z_scope.
Local Notation length := List.length.

(** ** Numerals *)

Lemma digits_numeral : forall f n, 0 <= n < 10 ^ Z.of_nat f -> (0 < f)%nat ->
  Forall is_digit (digits f n) /\ digits f n <> [] /\ (hd 0 (digits f n) = 48 -> digits f n = [48]) /\
  digits_value (digits f n) = n /\ (n <> 0 -> hd 0 (digits f n) <> 48).
Proof.
  induction f as [|f IH]; intros n H P; [lia|]. cbn [digits].
  destruct (Z.ltb_spec n 10) as [L|L].
  - split; [constructor; [unfold is_digit; lia|constructor]|]. split; [discriminate|]. cbn [hd].
    split; [intros E; now rewrite E|]. split; [unfold digits_value; cbn [fold_left]; lia|lia].
  - assert (Hf : (0 < f)%nat). { destruct f; [cbn in H; lia|lia]. }
    assert (Hq : 0 <= n / 10 < 10 ^ Z.of_nat f).
    { replace (Z.of_nat (S f)) with (Z.of_nat f + 1) in H by lia. rewrite Z.pow_add_r, Z.pow_1_r in H by lia.
      split; [apply Z.div_pos; lia|]. apply Z.div_lt_upper_bound; lia. }
    destruct (IH (n / 10) Hq Hf) as (D & N & Z0 & V & Hd).
    assert (Q : n / 10 <> 0) by (intros E; pose proof (Z.div_mod n 10); lia).
    destruct (digits f (n / 10)) as [|d ds] eqn:E; [congruence|].
    split; [apply Forall_app; split; [exact D|constructor; [|constructor]]|].
    { unfold is_digit. pose proof (Z.mod_pos_bound n 10). lia. }
    split; [discriminate|]. cbn [app hd] in *. split; [intros X; now destruct (Hd Q)|].
    split; [|intros _; now apply Hd].
    change (d :: ds ++ [48 + n mod 10]) with ((d :: ds) ++ [48 + n mod 10]). rewrite digits_value_app, V.
    pose proof (Z.div_mod n 10). lia.
Qed.

Lemma decimal_numeral n : - 10 ^ 20 < n < 10 ^ 20 -> numeral n (decimal n).
Proof.
  intros H. unfold decimal. destruct (Z.ltb_spec n 0) as [L|L].
  - destruct (digits_numeral 20 (- n)) as (D & N & Z0 & V & _); [change (Z.of_nat 20) with 20; lia|lia|].
    exists (digits 20 (- n)). split; [exact D|]. split; [exact N|]. split; [exact Z0|]. right. auto.
  - destruct (digits_numeral 20 n) as (D & N & Z0 & V & _); [change (Z.of_nat 20) with 20; lia|lia|].
    exists (digits 20 n). split; [exact D|]. split; [exact N|]. split; [exact Z0|]. left. auto.
Qed.

Lemma numeral_inj n m t : numeral n t -> numeral m t -> n = m.
Proof.
  intros (a & Da & Na & _ & Ha) (b & Db & Nb & _ & Hb).
  destruct Ha as [(? & -> & ?)|(? & -> & ?)], Hb as [(? & E & ?)|(? & E & ?)]; subst.
  - reflexivity.
  - apply Forall_inv in Da. unfold is_digit in Da. lia.
  - apply Forall_inv in Db. unfold is_digit in Db. lia.
  - injection E as ->. lia.
Qed.

Lemma numeral_chars n t : numeral n t -> Forall (fun c => is_digit c \/ c = 45) t.
Proof.
  intros (a & Da & _ & _ & [(_ & -> & _)|(_ & -> & _)]).
  - eapply Forall_impl; [|exact Da]. auto.
  - constructor; [auto|]. eapply Forall_impl; [|exact Da]. auto.
Qed.

(** ** -offsets *)

(** C67: with -offsets, the tool prints for every frame of the file, in order, its offset, its length
    in bytes, its rows and its columns, one line for each. *)
Theorem C67_offsets : forall md5 st l, made_of md5 st l ->
  Z.of_nat (length (bytes_of l)) < 2 ^ 63 -> Forall (fun p => 0 <= t_rows (snd p) < 2 ^ 63 /\ Z.of_nat (length (t_cols (snd p))) < 2 ^ 63) l ->
  forall fuel, (length l < fuel)%nat ->
  exists lines, header_offsets md5 st (bytes_of l) fuel = Ok (concat lines) /\
  length lines = length l /\
  forall i f t, nth_error l i = Some (f, t) ->
    exists line, nth_error lines i = Some line /\ tells (Z.of_nat (length (bytes_of (firstn i l)))) f t line.
Proof.
  intros md5 st l G Hs Hr fuel Hf. unfold header_offsets. rewrite (made_scan md5 st) by (assumption || now right).
  exists (map offsets_line (place 0 l)).
  assert (X : forall ts acc, fold_left (fun out t => out ++ offsets_line t) ts acc = acc ++ concat (map offsets_line ts)).
  { induction ts as [|t ts IH]; intros acc; cbn [fold_left map concat]; [now rewrite app_nil_r|]. now rewrite IH, <- app_assoc. }
  rewrite X. split; [reflexivity|].
  assert (Y : forall l off, made_of md5 st l -> 0 <= off -> off + Z.of_nat (length (bytes_of l)) < 2 ^ 63 ->
    Forall (fun p => 0 <= t_rows (snd p) < 2 ^ 63 /\ Z.of_nat (length (t_cols (snd p))) < 2 ^ 63) l ->
    length (map offsets_line (place off l)) = length l /\
    forall i f t, nth_error l i = Some (f, t) ->
    exists line, nth_error (map offsets_line (place off l)) i = Some line /\
      tells (off + Z.of_nat (length (bytes_of (firstn i l)))) f t line).
  { clear. induction l as [|[f t] l IH]; intros off G Ho Hs Hr; cbn [place map length].
    { split; [reflexivity|]. intros i f t H. destruct i; discriminate H. }
    apply made_first in G as [F G]. cbn [fst snd] in F. destruct (frame_ends _ _ _ _ F) as (S0 & N0 & _).
    pose proof (Forall_inv Hr) as H1. apply Forall_inv_tail in Hr. cbn [snd] in H1.
    assert (Hl : off + len f + Z.of_nat (length (bytes_of l)) < 2 ^ 63).
    { unfold bytes_of in Hs |- *. cbn [map fst concat] in Hs. rewrite app_length in Hs. unfold len. lia. }
    destruct (IH (off + len f) G) as (L1 & IH1); [unfold len; lia|lia|exact Hr|].
    split; [rewrite <- L1; reflexivity|]. intros i f' t' H. destruct i as [|i].
    - cbn in H. injection H as <- <-. eexists. split; [reflexivity|].
      unfold tells, offsets_line. cbn [moved t_start t_next t_rows t_cols firstn bytes_of map concat length]. rewrite S0, N0.
      change (str " ") with [32]. exists (decimal (0 + off)), (decimal (len f + off - (0 + off))), (decimal (t_rows t)), (decimal (Z.of_nat (length (t_cols t)))).
      split; [reflexivity|].
      assert (B : 2 ^ 63 < 10 ^ 20) by reflexivity.
      assert (0 <= Z.of_nat (length (bytes_of l))) by lia. unfold len in *.
      split; [|split; [|split]].
      + replace (0 + off) with (off + Z.of_nat 0) by lia. apply decimal_numeral. lia.
      + replace (Z.of_nat (length f) + off - (0 + off)) with (Z.of_nat (length f)) by lia. apply decimal_numeral. lia.
      + apply decimal_numeral. lia.
      + apply decimal_numeral. lia.
    - cbn [nth_error] in H. destruct (IH1 i f' t' H) as (line & E & T). exists line. split; [exact E|].
      cbn [firstn]. unfold bytes_of in *. cbn [map fst concat]. rewrite app_length, Nat2Z.inj_add, Z.add_assoc. exact T. }
  destruct (Y l 0 G ltac:(lia) ltac:(lia) Hr) as (Y1 & Y2). split; [exact Y1|].
  intros i f t H. destruct (Y2 i f t H) as (line & E & T). exists line. split; [exact E|]. exact T.
Qed.

(** ** -ddl: which tables are declared *)

Lemma column_equals_alike a b : column_equals true a b = true <-> alike a b.
Proof.
  unfold column_equals, alike. rewrite !andb_true_iff, bytes_eqb_eq, !Z.eqb_eq. tauto.
Qed.

Lemma md_equal_alike a : forall b, md_equal a b = true <-> Forall2 alike a b.
Proof.
  induction a as [|x a IH]; intros [|y b]; cbn [md_equal].
  - split; [constructor|reflexivity].
  - split; [discriminate|intros H; inversion H].
  - split; [discriminate|intros H; inversion H].
  - rewrite andb_true_iff, IH, column_equals_alike. split.
    + intros [H1 H2]. now constructor.
    + intros H. inversion H; subst. auto.
Qed.

Lemma alike_refl a : alike a a.
Proof. unfold alike; auto. Qed.
Lemma alike_sym a b : alike a b -> alike b a.
Proof. unfold alike; intuition congruence. Qed.
Lemma alike_trans a b c : alike a b -> alike b c -> alike a c.
Proof. unfold alike; intuition congruence. Qed.

Lemma tables_alike_refl s : tables_alike s s.
Proof. unfold tables_alike. induction (t_cols s); constructor; auto using alike_refl. Qed.
Lemma tables_alike_sym s t : tables_alike s t -> tables_alike t s.
Proof. unfold tables_alike. induction 1; constructor; auto using alike_sym. Qed.
Lemma tables_alike_trans s t u : tables_alike s t -> tables_alike t u -> tables_alike s u.
Proof.
  unfold tables_alike. generalize (t_cols s) (t_cols t) (t_cols u). intros a b c H. revert c.
  induction H as [|x y a b H1 H2 IH]; intros c H3; inversion H3; subst; constructor; eauto using alike_trans.
Qed.

Definition head_cols (g : list (list Z * table)) : list column :=
  match g with [] => [] | p :: _ => t_cols (snd p) end.

Lemma place_cols l : forall off, map t_cols (place off l) = map (fun p => t_cols (snd p)) l.
Proof. induction l as [|[f t] l IH]; intros off; cbn [place map]; [reflexivity|]. now rewrite IH. Qed.

Lemma ddl_fold_cols ts ts' md : map t_cols ts = map t_cols ts' -> fold_left ddl_step ts md = fold_left ddl_step ts' md.
Proof.
  revert ts' md. induction ts as [|t ts IH]; intros [|t' ts'] md H; try discriminate H; [reflexivity|].
  cbn [map] in H. injection H as H1 H2. cbn [fold_left].
  assert (E : ddl_step md t = ddl_step md t') by (unfold ddl_step; now rewrite H1). rewrite E. now apply IH.
Qed.

Lemma ddl_runs : forall l, exists groups, runs_of l groups /\
  fold_left ddl_step (map snd l) [] = map head_cols groups.
Proof.
  induction l as [|p l (groups & R & E)] using rev_ind.
  - exists []. split; [|reflexivity]. constructor; [reflexivity|constructor|intros g p q []|].
    intros b g g' a p q H. destruct b; discriminate H.
  - rewrite map_app, fold_left_app, E. cbn [map fold_left]. destruct R as [R1 R2 R3 R4].
    assert (D : groups = [] \/ exists gs g, groups = gs ++ [g]).
    { destruct groups as [|x y]; [now left|right]. destruct (exists_last (l := x :: y)) as (gs & g & H); [discriminate|]. eauto. }
    destruct D as [->|(gs & g & ->)].
    + exists [[p]]. split; [|reflexivity]. cbn in R1. subst l. constructor; [reflexivity| | |].
      * constructor; [discriminate|constructor].
      * intros g a b [<-|[]] [<-|[]] [<-|[]]. apply tables_alike_refl.
      * intros b g g' a x y H. destruct b as [|? [|? ?]]; discriminate H.
    + apply Forall_app in R2 as [R2 R2g]. apply Forall_inv in R2g. destruct g as [|h g]; [congruence|]. clear R2g.
      assert (Ih : In (h :: g) (gs ++ [h :: g])) by (apply in_or_app; right; now left).
      unfold ddl_step. rewrite map_app, rev_app_distr. cbn [map rev app head_cols].
      destruct (md_equal (t_cols (snd h)) (t_cols (snd p))) eqn:Q.
      * apply md_equal_alike in Q. change (tables_alike (snd h) (snd p)) in Q.
        exists (gs ++ [h :: g ++ [p]]). split; [|now rewrite map_app].
        assert (A : forall x, In x (h :: g ++ [p]) -> tables_alike (snd h) (snd x)).
        { intros x [<-|H]; [apply tables_alike_refl|]. apply in_app_or in H as [H|[<-|[]]]; [|exact Q].
          apply (R3 (h :: g)); [exact Ih|now left|now right]. }
        constructor.
        -- rewrite <- R1, !concat_app. cbn [concat]. rewrite !app_nil_r, <- app_assoc. reflexivity.
        -- apply Forall_app. split; [exact R2|]. constructor; [discriminate|constructor].
        -- intros g1 x y H Hx Hy. apply in_app_or in H as [H|[<-|[]]].
           ++ apply (R3 g1); [apply in_or_app; now left|exact Hx|exact Hy].
           ++ apply tables_alike_trans with (snd h); [apply tables_alike_sym|]; now apply A.
        -- intros b g1 g2 a x y H Hx Hy.
           assert (D : a = [] \/ exists a' z, a = a' ++ [z]).
           { destruct a as [|u v]; [now left|right]. destruct (exists_last (l := u :: v)) as (a' & z & Hz); [discriminate|]. eauto. }
           destruct D as [->|(a' & z & ->)].
           ++ replace (b ++ [g1; g2]) with ((b ++ [g1]) ++ [g2]) in H by (now rewrite <- app_assoc).
              apply app_inj_tail in H as [H1 H2]. subst gs g2. intros T.
              apply (R4 b g1 (h :: g) [] x h); [now rewrite <- app_assoc|exact Hx|now left|].
              apply tables_alike_trans with (snd y); [exact T|apply tables_alike_sym; now apply A].
           ++ replace (b ++ g1 :: g2 :: a' ++ [z]) with ((b ++ g1 :: g2 :: a') ++ [z]) in H by (now rewrite <- app_assoc).
              apply app_inj_tail in H as [H1 H2]. subst gs.
              apply (R4 b g1 g2 (a' ++ [h :: g])); [now rewrite <- app_assoc|exact Hx|exact Hy].
      * assert (Qn : ~ tables_alike (snd h) (snd p)) by (intros T; apply md_equal_alike in T; congruence).
        exists ((gs ++ [h :: g]) ++ [[p]]). split; [|rewrite map_app; cbn [map head_cols]; now rewrite map_app].
        constructor.
        -- rewrite concat_app, R1. reflexivity.
        -- apply Forall_app. split; [apply Forall_app; split; [exact R2|]|]; (constructor; [discriminate|constructor]).
        -- intros g1 x y H Hx Hy. apply in_app_or in H as [H|[<-|[]]].
           ++ now apply (R3 g1).
           ++ destruct Hx as [<-|[]], Hy as [<-|[]]. apply tables_alike_refl.
        -- intros b g1 g2 a x y H Hx Hy.
           assert (D : a = [] \/ exists a' z, a = a' ++ [z]).
           { destruct a as [|u v]; [now left|right]. destruct (exists_last (l := u :: v)) as (a' & z & Hz); [discriminate|]. eauto. }
           destruct D as [->|(a' & z & ->)].
           ++ replace (b ++ [g1; g2]) with ((b ++ [g1]) ++ [g2]) in H by (now rewrite <- app_assoc).
              apply app_inj_tail in H as [H1 H2]. subst g2. apply app_inj_tail in H1 as [H1 H2]. subst g1 b.
              destruct Hy as [<-|[]]. intros T. apply Qn. apply tables_alike_trans with (snd x); [|exact T].
              apply (R3 (h :: g)); [exact Ih|now left|exact Hx].
           ++ replace (b ++ g1 :: g2 :: a' ++ [z]) with ((b ++ g1 :: g2 :: a') ++ [z]) in H by (now rewrite <- app_assoc).
              apply app_inj_tail in H as [H1 H2].
              now apply (R4 b g1 g2 a').
Qed.

(** Every declarable table is declared. *)
Lemma members_ok names sizes : length names = length sizes -> exists m, members_text names sizes = Ok m.
Proof.
  revert sizes. induction names as [|n names IH]; intros [|z sizes] H; try discriminate H; [now eexists|].
  cbn [members_text]. injection H as H. destruct (IH sizes H) as (m & ->). cbn [bind]. now eexists.
Qed.

Lemma definition_ok tbl c : declarable c -> exists r, definition_and_name tbl c = Ok r.
Proof.
  intros (_ & [H|[H|[H|[H|(H & _ & _ & L)]]]]); unfold definition_and_name, type_name; rewrite H; cbn [bind Z.eqb]; try now eexists.
  destruct (members_ok _ _ L) as (m & ->). cbn. now eexists.
Qed.

Lemma columns_text_ok tbl cols : Forall declarable cols -> exists r, columns_text tbl cols = Ok r.
Proof.
  induction 1 as [|c cols H _ (r & IH)]; cbn [columns_text]; [now eexists|].
  destruct (definition_ok tbl c H) as ([d y] & ->). cbn [bind]. rewrite IH. destruct r. cbn [bind]. now eexists.
Qed.

Lemma print_table_ok path tbl cols : Forall declarable cols -> exists r, print_table path tbl cols = Ok r.
Proof.
  intros H. unfold print_table. destruct (columns_text_ok tbl cols H) as ([a b] & ->). cbn [bind]. now eexists.
Qed.

(** C67: with -ddl, the tool declares one table for every maximal run of frames of the same columns. *)
Theorem C67_ddl : forall md5 st l path tbl, made_of md5 st l ->
  Forall (fun p => Forall declarable (t_cols (snd p))) l ->
  forall fuel, (length l < fuel)%nat ->
  exists groups texts, runs_of l groups /\ header_ddl md5 st (bytes_of l) path tbl fuel = Ok (concat texts) /\
  Forall2 (fun g text => exists p rest, g = p :: rest /\ print_table path tbl (t_cols (snd p)) = Ok text) groups texts.
Proof.
  intros md5 st l path tbl G D fuel Hf. unfold header_ddl. rewrite (made_scan md5 st) by (assumption || now right).
  cbn [bind]. rewrite (ddl_fold_cols _ (map snd l)) by (rewrite place_cols, map_map; reflexivity).
  destruct (ddl_runs l) as (groups & R & E). rewrite E. exists groups.
  assert (Dg : Forall (fun g => exists p rest, g = p :: rest /\ Forall declarable (t_cols (snd p))) groups).
  { apply Forall_forall. intros g Hg. destruct R as [R1 R2 _ _]. rewrite Forall_forall in R2. specialize (R2 g Hg).
    destruct g as [|p rest]; [congruence|]. exists p, rest. split; [reflexivity|].
    rewrite Forall_forall in D. apply D. rewrite <- R1. apply in_concat. exists (p :: rest). split; [exact Hg|now left]. }
  clear E. assert (X : exists texts, print_tables path tbl (map head_cols groups) = Ok (concat texts) /\
    Forall2 (fun g text => exists p rest, g = p :: rest /\ print_table path tbl (t_cols (snd p)) = Ok text) groups texts).
  { clear R. induction Dg as [|g groups (p & rest & -> & Dp) _ (texts & IH1 & IH2)]; cbn [map print_tables head_cols].
    - exists []. split; [reflexivity|constructor].
    - destruct (print_table_ok path tbl (t_cols (snd p)) Dp) as (r & Er). rewrite Er. cbn [bind]. rewrite IH1. cbn [bind].
      exists (r :: texts). split; [reflexivity|]. constructor; [now exists p, rest|exact IH2]. }
  destruct X as (texts & X1 & X2). exists texts. auto.
Qed.
