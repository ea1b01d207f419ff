(** C67: the declarations can be read back. *)
From Coq Require Import String.
From Verif Require Import Base Fp Stream StreamProofs Codec Meta Header Table Reader Spec ReadSpec Scan ScanSpec
  Dispatcher DispatchSpec DispatchNames HeaderTool HeaderToolSpec P_HeaderTool.
Open Scope Z_scope.
Local Notation length := List.length.

(** ** Cutting a text at a character *)

Lemma span_inj {A} (P : A -> Prop) a x r : forall a' x' r',
  Forall P a -> ~ P x -> Forall P a' -> ~ P x' -> a ++ x :: r = a' ++ x' :: r' -> a = a' /\ x = x' /\ r = r'.
Proof.
  induction a as [|y a IH]; intros [|y' a'] x' r' F N F' N' E; cbn in E.
  - injection E as -> ->. auto.
  - injection E as -> _. apply Forall_inv in F'. contradiction.
  - injection E as -> _. apply Forall_inv in F. contradiction.
  - injection E as -> E. apply Forall_inv_tail in F. apply Forall_inv_tail in F'.
    destruct (IH a' x' r' F N F' N' E) as (-> & H). auto.
Qed.

Lemma without_inj (c : Z) (a r a' r' : list Z) : ~ In c a -> ~ In c a' -> a ++ c :: r = a' ++ c :: r' -> a = a' /\ r = r'.
Proof.
  intros N N' E.
  assert (F : forall l, ~ In c l -> Forall (fun x => x <> c) l).
  { intros l H. apply Forall_forall. intros x Hx ->. contradiction. }
  destruct (span_inj (fun x : Z => x <> c) a c r a' c r') as (H1 & _ & H2); auto.
Qed.

Definition joined (ls : list (list Z)) : list Z := concat (map (fun b => b ++ [10]) ls).

Lemma joined_app a b : joined (a ++ b) = joined a ++ joined b.
Proof. unfold joined. now rewrite map_app, concat_app. Qed.

Lemma joined_inj ls : forall ls', Forall one_line ls -> Forall one_line ls' -> joined ls = joined ls' -> ls = ls'.
Proof.
  unfold joined. induction ls as [|b ls IH]; intros [|b' ls'] F F' E; cbn [map concat] in E.
  - reflexivity.
  - destruct b'; discriminate E.
  - destruct b; discriminate E.
  - inversion F as [|? ? F1 F2]; subst. inversion F' as [|? ? F1' F2']; subst.
    rewrite <- !app_assoc in E. cbn [app] in E.
    destruct (without_inj 10 b _ b' _ F1 F1' E) as (-> & E2). f_equal. now apply IH.
Qed.

(** ** The lines *)

Definition type_text (tbl : list Z) (c : column) : list Z :=
  if col_type c =? ty_BITFIELD then strip_at_table tbl (col_name c) ++ str "_at_" ++ tbl ++ str "_t"
  else match type_name c with Ok t => t | _ => [] end.
Definition mems (c : column) : list Z := match members_text (col_bfnames c) (col_bfsizes c) with Ok m => m | _ => [] end.
Definition type_line (tbl : list Z) (c : column) : list Z :=
  str "CREATE TYPE " ++ type_text tbl c ++ str " AS (" ++ mems c ++ str ");".
Definition type_lines (tbl : list Z) (cols : list column) : list (list Z) :=
  flat_map (fun c => if col_type c =? ty_BITFIELD then [type_line tbl c] else []) cols.
Definition col_line (tbl : list Z) (c : column) : list Z :=
  str "  " ++ strip_at_table tbl (col_name c) ++ str " " ++ type_text tbl c ++ str ",".
Definition create_line (tbl : list Z) : list Z := str "CREATE TABLE " ++ tbl ++ str " AS (".
Definition on_line (path : list Z) : list Z := str ") ON '" ++ path ++ str "';".
Definition ddl_lines (path tbl : list Z) (cols : list column) : list (list Z) :=
  type_lines tbl cols ++ [create_line tbl] ++ map (col_line tbl) cols ++ [on_line path].

Lemma definition_text tbl c : declarable c ->
  definition_and_name tbl c = Ok (if col_type c =? ty_BITFIELD then type_line tbl c ++ [10] else [], type_text tbl c).
Proof.
  intros (_ & [H|[H|[H|[H|(H & _ & _ & L)]]]]); unfold definition_and_name, type_line, type_text, type_name; rewrite H; cbn [bind Z.eqb]; try reflexivity.
  unfold mems. destruct (members_ok _ _ L) as (m & ->). cbn [bind].
  change (ty_BITFIELD =? ty_STRING) with false. change (ty_BITFIELD =? ty_INTEGER) with false.
  change (ty_BITFIELD =? ty_BITFIELD) with true. cbn [bind]. rewrite <- !app_assoc. reflexivity.
Qed.

Lemma columns_lines tbl cols : Forall declarable cols ->
  columns_text tbl cols = Ok (joined (type_lines tbl cols), joined (map (col_line tbl) cols)).
Proof.
  induction 1 as [|c cols H _ IH]; cbn [columns_text]; [reflexivity|].
  rewrite (definition_text tbl c H). cbn [bind]. rewrite IH. cbn [bind]. f_equal. f_equal.
  - unfold type_lines. cbn [flat_map]. rewrite joined_app. f_equal. destruct (col_type c =? ty_BITFIELD); [|reflexivity].
    unfold joined. cbn [map concat]. now rewrite app_nil_r.
  - unfold joined. cbn [map concat]. unfold col_line. rewrite <- !app_assoc. reflexivity.
Qed.

Lemma print_lines path tbl cols : Forall declarable cols ->
  print_table path tbl cols = Ok (joined (ddl_lines path tbl cols)).
Proof.
  intros H. unfold print_table. rewrite (columns_lines tbl cols H). cbn [bind]. f_equal. unfold ddl_lines.
  rewrite !joined_app. f_equal. unfold joined at 2 4. cbn [map concat]. rewrite !app_nil_r.
  unfold create_line, on_line. rewrite <- !app_assoc. reflexivity.
Qed.

(** ** One line *)

Lemma strip_bare tbl n : bare tbl n (strip_at_table tbl n).
Proof.
  unfold strip_at_table, bare. set (sfx := (str "@" ++ tbl)%list). change (str "@" ++ tbl) with sfx.
  destruct ((length sfx <=? length n)%nat && bytes_eqb (skipn (length n - length sfx) n) sfx) eqn:E.
  - left. apply andb_prop in E as [_ E]. apply bytes_eqb_eq in E. rewrite <- E at 2. symmetry. apply firstn_skipn.
  - right. split; [reflexivity|]. intros b' ->. rewrite app_length in E.
    rewrite (proj2 (Nat.leb_le _ _)) in E by lia. cbn [andb] in E.
    replace (length b' + length sfx - length sfx)%nat with (length b') in E by lia.
    rewrite skipn_app, skipn_all, Nat.sub_diag in E. cbn [app skipn] in E. rewrite bytes_eqb_refl in E. discriminate E.
Qed.

Lemma strip_plain tbl n : plain_name n -> plain_name (strip_at_table tbl n).
Proof.
  unfold strip_at_table, plain_name. intros H. destruct (_ && _); [|exact H].
  rewrite Forall_forall in *. intros x Hx. apply H. rewrite <- (firstn_skipn (length n - length (str "@" ++ tbl)) n).
  apply in_or_app. now left.
Qed.

Lemma plain_not n c : plain_name n -> c = 10 \/ c = 32 \/ c = 44 -> ~ In c n.
Proof. unfold plain_name. rewrite Forall_forall. intros H Hc I1. destruct (H c I1) as (A & B & C). lia. Qed.

Lemma numeral_not n t c : numeral n t -> c = 10 \/ c = 44 -> ~ In c t.
Proof.
  intros H Hc I1. apply numeral_chars in H. rewrite Forall_forall in H. destruct (H c I1) as [D|D]; unfold is_digit in *; lia.
Qed.

Lemma int32_numeral z : int32 z -> numeral z (decimal z).
Proof. unfold int32. intros H. apply decimal_numeral. lia. Qed.

Lemma members_inj names : forall sizes names' sizes' m,
  Forall plain_name names -> Forall int32 sizes -> length names = length sizes ->
  Forall plain_name names' -> Forall int32 sizes' -> length names' = length sizes' ->
  members_text names sizes = Ok m -> members_text names' sizes' = Ok m -> names = names' /\ sizes = sizes'.
Proof.
  induction names as [|n names IH]; intros [|z sizes] [|n' names'] [|z' sizes'] m Fn Fz L Fn' Fz' L' E E';
    try discriminate L; try discriminate L'.
  - auto.
  - exfalso. cbn in E. injection E as <-. cbn [members_text] in E'. destruct (members_text names' sizes'); try discriminate E'.
    cbn [bind] in E'. injection E' as E'. destruct n'; discriminate E'.
  - exfalso. cbn in E'. injection E' as <-. cbn [members_text] in E. destruct (members_text names sizes); try discriminate E.
    cbn [bind] in E. injection E as E. destruct n; discriminate E.
  - injection L as L. injection L' as L'. cbn [members_text] in E, E'.
    inversion Fn as [|? ? Fn1 Fn2]; subst. inversion Fz as [|? ? Fz1 Fz2]; subst.
    inversion Fn' as [|? ? Fn1' Fn2']; subst. inversion Fz' as [|? ? Fz1' Fz2']; subst.
    destruct (members_text names sizes) as [r| |] eqn:Er; try discriminate E. cbn [bind] in E. injection E as E.
    destruct (members_text names' sizes') as [r'| |] eqn:Er'; try discriminate E'. cbn [bind] in E'. injection E' as E'.
    rewrite <- E' in E. clear E' m. cbn [str] in E. change (str " bit") with (32 :: str "bit") in E. cbn [app] in E.
    apply without_inj in E as (-> & E); [|apply (plain_not _ _ Fn1); auto|apply (plain_not _ _ Fn1'); auto].
    injection E as E.
    pose proof (int32_numeral z Fz1) as Nz. pose proof (int32_numeral z' Fz1') as Nz'.
    assert (X44 : forall z, int32 z -> ~ In 44 (decimal z)) by (intros y Hy; apply (numeral_not y); [now apply int32_numeral|auto]).
    destruct sizes as [|y sizes]; destruct sizes' as [|y' sizes'].
    + destruct names; [|discriminate L]. destruct names'; [|discriminate L'].
      cbn in Er, Er'. injection Er as <-. injection Er' as <-. cbn [app] in E. rewrite !app_nil_r in E.
      rewrite E in Nz. rewrite (numeral_inj _ _ _ Nz Nz'). auto.
    + exfalso. destruct names; [|discriminate L]. cbn in Er. injection Er as <-. cbn [app] in E. rewrite app_nil_r in E.
      apply (X44 z Fz1). rewrite E. apply in_or_app. right. now left.
    + exfalso. destruct names'; [|discriminate L']. cbn in Er'. injection Er' as <-. cbn [app] in E. rewrite app_nil_r in E.
      apply (X44 z' Fz1'). rewrite <- E. apply in_or_app. right. now left.
    + cbn [app] in E.
      apply without_inj in E as (Ez & E); [|now apply X44|now apply X44].
      injection E as ->. rewrite Ez in Nz. rewrite (numeral_inj _ _ _ Nz Nz').
      destruct (IH (y :: sizes) names' (y' :: sizes') r') as (-> & ->); auto.
Qed.

Ltac nope := match goal with
  | H : In _ (_ ++ _) |- _ => apply in_app_or in H as [H|H]
  | H : In _ (_ :: _) |- _ => destruct H as [H|H]; [discriminate H|]
  | H : In _ [] |- _ => destruct H
  | H : In _ (str _) |- _ => exfalso; cbn in H; intuition discriminate
  end.

Lemma members_one_line names : forall sizes m, Forall plain_name names -> Forall int32 sizes ->
  members_text names sizes = Ok m -> ~ In 10 m.
Proof.
  induction names as [|n names IH]; intros [|z sizes] m Fn Fz E; cbn [members_text] in E; try discriminate E.
  - injection E as <-. intros [].
  - injection E as <-. intros [].
  - inversion Fn as [|? ? Fn1 Fn2]; subst. inversion Fz as [|? ? Fz1 Fz2]; subst.
    destruct (members_text names sizes) as [r| |] eqn:Er; try discriminate E. cbn [bind] in E. injection E as <-.
    intros H. repeat nope.
    + now apply (plain_not n 10 Fn1) in H; auto.
    + now apply (numeral_not z _ 10 (int32_numeral z Fz1)) in H; auto.
    + destruct sizes; repeat nope.
    + now apply (IH sizes r Fn2 Fz2 Er).
Qed.

Lemma type_text_chars tbl c : plain_name tbl -> declarable c -> ~ In 10 (type_text tbl c) /\ ~ In 32 (type_text tbl c).
Proof.
  intros Pt D. assert (Pn := strip_plain tbl _ (proj1 D)). destruct D as (Pc & D). unfold type_text.
  destruct (Z.eqb_spec (col_type c) ty_BITFIELD) as [B|B].
  - split; intros H; repeat nope; first [apply (plain_not _ _ Pn) in H; now auto|apply (plain_not _ _ Pt) in H; now auto].
  - unfold type_name. destruct D as [->|[->|[->|[->|(H & _)]]]]; try (cbn; intuition discriminate); contradiction.
Qed.

(** ** All lines *)

Lemma type_inj tbl c c' : declarable c -> declarable c' -> type_text tbl c = type_text tbl c' -> col_type c = col_type c'.
Proof.
  intros (_ & D) (_ & D') E. unfold type_text in E.
  assert (X : forall x, x ++ str "_at_" ++ tbl ++ str "_t" = str "STRING" \/ x ++ str "_at_" ++ tbl ++ str "_t" = str "INTEGER" \/
    x ++ str "_at_" ++ tbl ++ str "_t" = str "REAL" \/ x ++ str "_at_" ++ tbl ++ str "_t" = str "DOUBLE" -> False).
  { intros x H. destruct H as [H|[H|[H|H]]]; apply (f_equal (@rev Z)) in H; rewrite !rev_app_distr in H; cbn in H; discriminate H. }
  unfold type_name in E.
  destruct D as [H|[H|[H|[H|(H & _)]]]], D' as [H'|[H'|[H'|[H'|(H' & _)]]]]; rewrite H, H' in E |- *; try reflexivity; exfalso;
    try (cbn in E; discriminate E);
    [symmetry in E|symmetry in E|symmetry in E|symmetry in E| | | | ];
    change (ty_BITFIELD =? ty_BITFIELD) with true in E; cbn [Z.eqb] in E;
    (eapply X; first [left; exact E|right; left; exact E|right; right; left; exact E|right; right; right; exact E]).
Qed.

Lemma type_line_inj tbl c c' : plain_name tbl -> declarable c -> declarable c' ->
  col_type c = ty_BITFIELD -> col_type c' = ty_BITFIELD -> type_line tbl c = type_line tbl c' ->
  col_bfnames c = col_bfnames c' /\ col_bfsizes c = col_bfsizes c'.
Proof.
  intros Pt D D' B B' E. unfold type_line in E. apply app_inv_head in E.
  pose proof (type_text_chars tbl c Pt D) as [_ N]. pose proof (type_text_chars tbl c' Pt D') as [_ N'].
  change (str " AS (") with (32 :: str "AS (") in E. cbn [app] in E.
  apply without_inj in E as (_ & E); [|exact N|exact N']. rewrite !app_assoc in E. apply app_inv_tail in E. apply app_inv_head in E.
  destruct D as (_ & [H|[H|[H|[H|(_ & F1 & F2 & L)]]]]); try (rewrite H in B; discriminate B).
  destruct D' as (_ & [H|[H|[H|[H|(_ & F1' & F2' & L')]]]]); try (rewrite H in B'; discriminate B').
  unfold mems in E. destruct (members_ok _ _ L) as (m & Em). destruct (members_ok _ _ L') as (m' & Em').
  rewrite Em, Em' in E. subst m'. now apply (members_inj _ _ _ _ m).
Qed.

Lemma col_line_inj tbl c c' : plain_name tbl -> declarable c -> declarable c' -> col_line tbl c = col_line tbl c' ->
  strip_at_table tbl (col_name c) = strip_at_table tbl (col_name c') /\ type_text tbl c = type_text tbl c'.
Proof.
  intros Pt D D' E. unfold col_line in E. apply app_inv_head in E.
  change (str " ") with [32] in E. cbn [app] in E.
  apply without_inj in E as (E1 & E);
    [|apply (plain_not _ _ (strip_plain tbl _ (proj1 D))); auto|apply (plain_not _ _ (strip_plain tbl _ (proj1 D'))); auto].
  apply app_inv_tail in E. auto.
Qed.

Definition starts_type (l : list Z) : Prop := firstn 9 l = str "CREATE TY".
Definition starts_column (l : list Z) : Prop := firstn 1 l = [32].

Lemma type_lines_start tbl cols : Forall starts_type (type_lines tbl cols).
Proof.
  apply Forall_forall. intros x H. apply in_flat_map in H as (c & _ & H).
  destruct (col_type c =? ty_BITFIELD); [|destruct H]. destruct H as [<-|[]]. reflexivity.
Qed.
Lemma create_not tbl : ~ starts_type (create_line tbl).
Proof. intros H. discriminate H. Qed.
Lemma col_lines_start tbl cols : Forall starts_column (map (col_line tbl) cols).
Proof. apply Forall_forall. intros x H. apply in_map_iff in H as (c & <- & _). reflexivity. Qed.
Lemma on_not path : ~ starts_column (on_line path).
Proof. intros H. discriminate H. Qed.

Lemma declared_inj tbl cols : forall cols', plain_name tbl -> Forall declarable cols -> Forall declarable cols' ->
  type_lines tbl cols = type_lines tbl cols' -> map (col_line tbl) cols = map (col_line tbl) cols' ->
  Forall2 (declared_alike tbl) cols cols'.
Proof.
  induction cols as [|c cols IH]; intros [|c' cols'] Pt F F' Et El; try discriminate El; [constructor|].
  inversion F as [|? ? F1 F2]; subst. inversion F' as [|? ? F1' F2']; subst.
  cbn [map] in El. pose proof (f_equal (hd []) El) as El1. pose proof (f_equal (@tl _) El) as El2. cbn [hd tl] in El1, El2.
  destruct (col_line_inj tbl c c' Pt F1 F1' El1) as (En & Ety).
  pose proof (type_inj tbl c c' F1 F1' Ety) as Eq.
  unfold type_lines in Et. cbn [flat_map] in Et. rewrite <- Eq in Et.
  destruct (Z.eqb_spec (col_type c) ty_BITFIELD) as [B|B].
  - cbn [app] in Et. pose proof (f_equal (hd []) Et) as Et1. pose proof (f_equal (@tl _) Et) as Et2. cbn [hd tl] in Et1, Et2. constructor; [|now apply IH].
    split; [|split; [exact Eq|]].
    + exists (strip_at_table tbl (col_name c)). split; [apply strip_bare|]. rewrite En. apply strip_bare.
    + intros _. apply (type_line_inj tbl); try assumption. congruence.
  - cbn [app] in Et. constructor; [|now apply IH].
    split; [|split; [exact Eq|intros; contradiction]].
    exists (strip_at_table tbl (col_name c)). split; [apply strip_bare|]. rewrite En. apply strip_bare.
Qed.

Lemma ddl_lines_one path tbl cols : one_line path -> plain_name tbl -> Forall declarable cols ->
  Forall one_line (ddl_lines path tbl cols).
Proof.
  intros Pp Pt F. unfold ddl_lines. apply Forall_app. split; [|apply Forall_app; split; [|apply Forall_app; split]].
  - apply Forall_forall. intros x H. apply in_flat_map in H as (c & Hc & H).
    rewrite Forall_forall in F. specialize (F c Hc).
    destruct (Z.eqb_spec (col_type c) ty_BITFIELD) as [B|B]; [|destruct H]. destruct H as [<-|[]].
    pose proof (type_text_chars tbl c Pt F) as [N _].
    unfold type_line, one_line. intros H. repeat nope; [contradiction|].
    destruct F as (_ & [Q|[Q|[Q|[Q|(_ & F1 & F2 & L)]]]]); try (rewrite Q in B; discriminate B).
    unfold mems in H. destruct (members_ok _ _ L) as (m & Em). rewrite Em in H.
    now apply (members_one_line _ _ m F1 F2 Em).
  - constructor; [|constructor]. unfold one_line, create_line. intros H. repeat nope. now apply (plain_not _ 10 Pt) in H; auto.
  - apply Forall_forall. intros x H. apply in_map_iff in H as (c & <- & Hc). rewrite Forall_forall in F. specialize (F c Hc).
    pose proof (type_text_chars tbl c Pt F) as [N _]. unfold col_line, one_line. intros H. repeat nope; [|contradiction].
    now apply (plain_not _ 10 (strip_plain tbl _ (proj1 F))) in H; auto.
  - constructor; [|constructor]. unfold one_line, on_line. intros H. repeat nope. contradiction.
Qed.

Lemma print_tables_lines path tbl mds : Forall (Forall declarable) mds ->
  print_tables path tbl mds = Ok (joined (flat_map (ddl_lines path tbl) mds)).
Proof.
  induction 1 as [|md mds H _ IH]; cbn [print_tables flat_map]; [reflexivity|].
  rewrite (print_lines path tbl md H). cbn [bind]. rewrite IH. cbn [bind]. now rewrite joined_app.
Qed.

(** C67: the text printed for a list of tables determines their columns: their names up to the name
    of the table, their types and, for bitfields, the members. *)
Theorem C67_readable : forall path tbl mds mds' text,
  one_line path -> plain_name tbl -> Forall (Forall declarable) mds -> Forall (Forall declarable) mds' ->
  print_tables path tbl mds = Ok text -> print_tables path tbl mds' = Ok text ->
  Forall2 (Forall2 (declared_alike tbl)) mds mds'.
Proof.
  intros path tbl mds mds' text Pp Pt F F' E E'.
  rewrite print_tables_lines in E, E' by assumption. injection E as E. injection E' as E'.
  rewrite <- E' in E. clear E' text.
  assert (O1 : forall l, Forall (Forall declarable) l -> Forall one_line (flat_map (ddl_lines path tbl) l)).
  { intros l H. apply Forall_forall. intros x Hx. apply in_flat_map in Hx as (cols & Hc & Hx).
    rewrite Forall_forall in H. pose proof (ddl_lines_one path tbl cols Pp Pt (H cols Hc)) as G. rewrite Forall_forall in G. now apply G. }
  apply joined_inj in E; [|now apply O1|now apply O1]. clear O1.
  revert mds' F' E. induction F as [|cols mds F1 _ IH]; intros mds' F' E.
  - destruct mds' as [|cols' mds']; [constructor|]. exfalso. cbn [flat_map] in E. unfold ddl_lines in E.
    destruct (type_lines tbl cols'); discriminate E.
  - destruct mds' as [|cols' mds'].
    + exfalso. cbn [flat_map] in E. unfold ddl_lines in E. destruct (type_lines tbl cols); discriminate E.
    + inversion F' as [|? ? F1' F2']; subst. cbn [flat_map] in E. unfold ddl_lines at 1 3 in E.
      rewrite <- !app_assoc in E. cbn [app] in E.
      destruct (span_inj starts_type _ _ _ _ _ _ (type_lines_start tbl cols) (create_not tbl) (type_lines_start tbl cols') (create_not tbl) E) as (Et & _ & E2).
      rewrite <- ?app_assoc in E2. cbn [app] in E2.
      destruct (span_inj starts_column _ _ _ _ _ _ (col_lines_start tbl cols) (on_not path) (col_lines_start tbl cols') (on_not path) E2) as (El & _ & E3).
      constructor; [now apply declared_inj|now apply IH].
Qed.
