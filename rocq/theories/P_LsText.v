(** C69: what can be read from a listing. *)
From Coq Require Import String.
From Verif Require Import Base Fp Stream StreamProofs Codec Meta Header Table Reader RowReader RowList
  Spec ReadSpec Dispatcher DispatchSpec DispatchNames HeaderToolSpec P_HeaderTool P_HeaderText LsSpec.
Open Scope Z_scope.
Local Notation length := List.length.

(** ** A value *)

Lemma millionth_chars x t : to_millionth x t -> Forall (fun c => is_digit c \/ c = 45 \/ c = 46) t.
Proof.
  intros (w & f & -> & _ & W & F & _). apply Forall_app. split; [destruct (negb_ f64 x); constructor; [tauto|constructor]|].
  apply Forall_app. split; [eapply Forall_impl; [|exact W]; tauto|]. constructor; [tauto|]. eapply Forall_impl; [|exact F]; tauto.
Qed.
Lemma numeral_not_dot n t : numeral n t -> ~ In 46 t.
Proof. intros H I1. apply numeral_chars in H. rewrite Forall_forall in H. destruct (H 46 I1) as [D|D]; unfold is_digit in *; lia. Qed.
Lemma millionth_dot x t : to_millionth x t -> In 46 t.
Proof. intros (w & f & -> & _). apply in_or_app. right. apply in_or_app. right. now left. Qed.
Lemma numeral_first n t : numeral n t -> exists a r, t = a :: r /\ (is_digit a \/ a = 45).
Proof.
  intros (ds & D & N & _ & [(_ & -> & _)|(_ & -> & _)]); [|exists 45, ds; auto].
  destruct ds as [|a r]; [congruence|]. exists a, r. split; [reflexivity|]. left. now apply Forall_inv in D.
Qed.
Lemma millionth_first x t : to_millionth x t -> exists a r, t = a :: r /\ (is_digit a \/ a = 45) /\ (a = 45 <-> negb_ f64 x = true).
Proof.
  intros (w & f & -> & N & W & _). destruct (negb_ f64 x); [exists 45; eexists; split; [reflexivity|]; split; [auto|tauto]|].
  destruct (numeral_first _ _ N) as (a & r & E & _). exists a. eexists. rewrite E. split; [reflexivity|]. rewrite E in W. apply Forall_inv in W.
  split; [auto|]. unfold is_digit in W. split; [lia|discriminate].
Qed.

(** the first character is not a letter *)
Lemma shows_first c x t : shows c x t -> exists a r, t = a :: r /\ ~ letter a.
Proof.
  unfold letter. intros [A|n t0 A W D N|t0 A W F M|s A T I1].
  - exists 46, []. split; [reflexivity|lia].
  - destruct (numeral_first _ _ N) as (a & r & -> & H). exists a, r. split; [reflexivity|]. unfold is_digit in H. lia.
  - destruct (millionth_first _ _ M) as (a & r & -> & H & _). exists a, r. split; [reflexivity|]. unfold is_digit in H. lia.
  - exists 39, (s ++ str "'"). split; [reflexivity|lia].
Qed.
Lemma shows_field c x t : (col_type c = ty_STRING -> forall s, text_in x s -> in_field s) -> shows c x t -> in_field t.
Proof.
  intros Fs [A|n t0 A W D N|t0 A W F M|s A T I1].
  - constructor; [vm_compute; split; discriminate|constructor].
  - eapply Forall_impl; [|exact (numeral_chars _ _ N)]. unfold is_digit. intros a. cbn beta. lia.
  - eapply Forall_impl; [|exact (millionth_chars _ _ M)]. unfold is_digit. intros a. cbn beta. lia.
  - apply Forall_app. split; [constructor; [vm_compute; split; discriminate|constructor]|]. apply Forall_app. split; [now apply Fs|constructor; [vm_compute; split; discriminate|constructor]].
Qed.

Lemma millionth_same x x' t : to_millionth x t -> to_millionth x' t ->
  negb_ f64 x = negb_ f64 x' /\ Z.abs (val f64 x - val f64 x') * 10 ^ 6 <= 2 ^ 1074.
Proof.
  intros H H'. assert (Sg : negb_ f64 x = negb_ f64 x').
  { destruct (millionth_first _ _ H) as (a & r & E & _ & S1). destruct (millionth_first _ _ H') as (a' & r' & E' & _ & S2).
    rewrite E in E'. assert (a = a') by congruence. subst a'. destruct (negb_ f64 x), (negb_ f64 x'); try reflexivity; exfalso.
    - assert (a = 45) by tauto. assert (false = true) by tauto. discriminate.
    - assert (a = 45) by tauto. assert (false = true) by tauto. discriminate. }
  split; [exact Sg|]. destruct H as (w & f & E & _ & W & F & _ & B). destruct H' as (w' & f' & E' & _ & W' & F' & _ & B').
  rewrite E in E'. rewrite Sg in E', B. apply app_inv_head in E'. cbn [app] in E'.
  assert (ND : forall l, Forall is_digit l -> ~ In 46 l) by (intros l D I1; rewrite Forall_forall in D; specialize (D _ I1); unfold is_digit in D; lia).
  destruct (without_inj 46 w f w' f' (ND _ W) (ND _ W') E') as (-> & ->).
  set (N := (if negb_ f64 x' then - digits_value (w' ++ f') else digits_value (w' ++ f')) * 2 ^ 1074) in *. clearbody N.
  set (P := 2 ^ 1074) in *. clearbody P. set (v := val f64 x) in *. set (v' := val f64 x') in *. clearbody v v'. change (10 ^ 6) with 1000000 in *. lia.
Qed.

Lemma shows_same c x c' x' t : shows c x t -> shows c' x' t -> same_value c x c' x'.
Proof.
  intros H H'. destruct H as [A|n t A W D N|t A W F M|s A T I1].
  - remember (str ".") as t eqn:Et. destruct H' as [A'|n' t' A' W' D' N'|t' A' W' F' M'|s' A' T' I1'].
    + now apply sv_missing.
    + exfalso. apply (numeral_not_dot _ _ N'). rewrite Et. now left.
    + exfalso. destruct M' as (w & f & E & _ & _ & _ & L & _). rewrite E in Et. apply (f_equal (@List.length Z)) in Et. rewrite !app_length in Et. cbn in Et. lia.
    + exfalso. apply (f_equal (hd 0)) in Et. discriminate.
  - destruct H' as [A'|n' t' A' W' D' N'|t' A' W' F' M'|s' A' T' I1'].
    + exfalso. apply (numeral_not_dot _ _ N). now left.
    + rewrite (numeral_inj _ _ _ N N') in D. eapply sv_int; eassumption.
    + exfalso. apply (numeral_not_dot _ _ N). now apply (millionth_dot _ _ M').
    + exfalso. destruct (numeral_first _ _ N) as (a & r & E & H). apply (f_equal (hd 0)) in E. cbn in E. unfold is_digit in H. lia.
  - destruct H' as [A'|n' t' A' W' D' N'|t' A' W' F' M'|s' A' T' I1'].
    + exfalso. destruct M as (w & f & E & _ & _ & _ & L & _). apply (f_equal (@List.length Z)) in E. rewrite !app_length in E. cbn in E. lia.
    + exfalso. apply (numeral_not_dot _ _ N'). now apply (millionth_dot _ _ M).
    + destruct (millionth_same _ _ _ M M') as (S1 & S2). now apply sv_real.
    + exfalso. destruct (millionth_first _ _ M) as (a & r & E & H & _). apply (f_equal (hd 0)) in E. cbn in E. unfold is_digit in H. lia.
  - remember (str "'" ++ s ++ str "'") as t eqn:Et. destruct H' as [A'|n' t' A' W' D' N'|t' A' W' F' M'|s' A' T' I1'].
    + exfalso. apply (f_equal (hd 0)) in Et. discriminate.
    + exfalso. destruct (numeral_first _ _ N') as (a & r & E & H). rewrite E in Et. apply (f_equal (hd 0)) in Et. cbn in Et. unfold is_digit in H. lia.
    + exfalso. destruct (millionth_first _ _ M') as (a & r & E & H & _). rewrite E in Et. apply (f_equal (hd 0)) in Et. cbn in Et. unfold is_digit in H. lia.
    + apply (f_equal (@tl Z)) in Et. cbn [str app tl] in Et. apply app_inj_tail in Et as (-> & _). eapply sv_text; eassumption.
Qed.

(** ** A line *)

Lemma tabbed_cons t u ts : tabbed (t :: u :: ts) = t ++ 9 :: tabbed (u :: ts). Proof. reflexivity. Qed.
Lemma field_no_tab s : in_field s -> ~ In 9 s.
Proof. intros H I1. unfold in_field in H. rewrite Forall_forall in H. destruct (H _ I1). congruence. Qed.
Lemma tabbed_inj : forall ts ts', ts <> [] -> ts' <> [] -> Forall in_field ts -> Forall in_field ts' -> tabbed ts = tabbed ts' -> ts = ts'.
Proof.
  induction ts as [|t ts IH]; intros [|t' ts'] N N' F F' E; try congruence.
  apply Forall_inv in F as F1. apply Forall_inv in F' as F1'. apply Forall_inv_tail in F. apply Forall_inv_tail in F'.
  destruct ts as [|u ts], ts' as [|u' ts'].
  - cbn in E. now rewrite E.
  - exfalso. rewrite tabbed_cons in E. cbn [tabbed] in E. apply (field_no_tab _ F1). rewrite E. apply in_or_app. right. now left.
  - exfalso. rewrite tabbed_cons in E. cbn [tabbed] in E. apply (field_no_tab _ F1'). rewrite <- E. apply in_or_app. right. now left.
  - rewrite !tabbed_cons in E. destruct (without_inj 9 t (tabbed (u :: ts)) t' (tabbed (u' :: ts'))) as (-> & E2); auto using field_no_tab.
    f_equal. apply IH; auto; discriminate.
Qed.
Lemma tabbed_one_line ts : Forall in_field ts -> one_line (tabbed ts).
Proof.
  unfold one_line. induction ts as [|t ts IH]; intros F; [intros []|]. apply Forall_inv in F as F1. apply Forall_inv_tail in F.
  assert (N : ~ In 10 t) by (intros I1; unfold in_field in F1; rewrite Forall_forall in F1; destruct (F1 _ I1); congruence).
  destruct ts as [|u ts]; [exact N|]. rewrite tabbed_cons. intros I1. apply in_app_or in I1 as [I1|[I1|I1]]; [exact (N I1)|discriminate|exact (IH F I1)].
Qed.
Lemma tabbed_first t ts : exists r, tabbed (t :: ts) = t ++ r.
Proof. destruct ts as [|u ts]; [exists []; now rewrite app_nil_r|exists (9 :: tabbed (u :: ts)); reflexivity]. Qed.

(** the texts of a row *)
Lemma row_texts r line : tidy r -> row_line r line -> exists ts, ts <> [] /\ Forall in_field ts /\ line = tabbed ts /\
  Forall2 (fun p t => shows (fst p) (snd p) t) (combine (fst r) (snd r)) ts.
Proof.
  intros (N & _ & T) (ts & L & S0 & ->). exists ts. split; [|split; [|auto]].
  - destruct (fst r) as [|c cs]; [congruence|]. destruct (snd r) as [|x xs]; [discriminate|]. inversion S0; subst. discriminate.
  - clear N L. induction S0 as [|p t ps ts H S0 IH]; [constructor|]. apply Forall_inv in T as T1. apply Forall_inv_tail in T.
    constructor; [eapply shows_field; eassumption|now apply IH].
Qed.
Lemma header_texts r : tidy r -> map col_name (fst r) <> [] /\ Forall in_field (map col_name (fst r)).
Proof.
  intros (N & F & _). split; [destruct (fst r); [congruence|discriminate]|]. apply Forall_map. eapply Forall_impl; [|exact F]. intros c (A & _). exact A.
Qed.
Lemma header_not_row r r' line : tidy r -> tidy r' -> row_line r' line -> tabbed (map col_name (fst r)) <> line.
Proof.
  intros (N & F & _) T' R E. destruct (row_texts _ _ T' R) as (ts & Nt & _ & -> & S0).
  destruct (fst r) as [|c cs]; [congruence|]. apply Forall_inv in F as (_ & a & n & Ec & La). cbn [map] in E. rewrite Ec in E.
  destruct ts as [|t ts]; [congruence|]. inversion S0 as [|p ? ? ? Sh _]; subst. destruct (shows_first _ _ _ Sh) as (b & rb & -> & Lb).
  destruct (tabbed_first (a :: n) (map col_name cs)) as (q & Q). destruct (tabbed_first (b :: rb) ts) as (q' & Q'). rewrite Q, Q' in E.
  apply (f_equal (hd 0)) in E. cbn in E. congruence.
Qed.
Lemma row_one_line r line : tidy r -> row_line r line -> one_line line.
Proof. intros T R. destruct (row_texts _ _ T R) as (ts & _ & F & -> & _). now apply tabbed_one_line. Qed.
Lemma same_line r r' line : tidy r -> tidy r' -> row_line r line -> row_line r' line ->
  Forall2 (fun p p' => same_value (fst p) (snd p) (fst p') (snd p')) (combine (fst r) (snd r)) (combine (fst r') (snd r')).
Proof.
  intros T T' R R'. destruct (row_texts _ _ T R) as (ts & N & F & -> & S0). destruct (row_texts _ _ T' R') as (ts' & N' & F' & E & S0').
  apply (tabbed_inj ts ts' N N' F F') in E. subst ts'. clear - S0 S0'. revert S0'. generalize (combine (fst r') (snd r')). 
  induction S0 as [|p t ps ts H S0 IH]; intros l S0'; inversion S0' as [|p' ? l' ? H' S1]; subst; [constructor|]. constructor; [eapply shows_same; eassumption|now apply IH].
Qed.

(** ** The lines *)

Lemma alike_names md cs : Forall2 alike md cs -> map col_name md = map col_name cs.
Proof. induction 1 as [|a b md cs (E & _) _ IH]; [reflexivity|]. cbn [map]. congruence. Qed.

Lemma listing_lines md rows lines : listing md rows lines -> Forall tidy rows -> Forall one_line lines.
Proof.
  induction 1 as [md|md r rows line lines A R _ IH|md r rows line lines A R _ IH]; intros T; [constructor|..];
    apply Forall_inv in T as T1; apply Forall_inv_tail in T.
  - constructor; [eapply row_one_line; eassumption|auto].
  - constructor; [apply tabbed_one_line; now apply header_texts|]. constructor; [eapply row_one_line; eassumption|auto].
Qed.

Lemma listing_inj md rows lines : listing md rows lines -> forall md' rows', listing md' rows' lines -> Forall tidy rows -> Forall tidy rows' ->
  map col_name md = map col_name md' -> Forall2 same_row rows rows'.
Proof.
  induction 1 as [md|md r rows line lines A R _ IH|md r rows line lines A R _ IH]; intros md' rows' L' T T' N.
  - inversion L'; subst. constructor.
  - apply Forall_inv in T as T1. apply Forall_inv_tail in T.
    inversion L' as [|? r' ? ? ? A' R' L1|? r' ? ? ? A' R' L1]; subst; apply Forall_inv in T' as T1'; apply Forall_inv_tail in T'.
    + constructor; [|eapply IH; eassumption]. split; [rewrite <- (alike_names _ _ A), <- (alike_names _ _ A'); exact N|]. eapply same_line; eassumption.
    + exfalso. exact (header_not_row r' r _ T1' T1 R eq_refl).
  - apply Forall_inv in T as T1. apply Forall_inv_tail in T.
    inversion L' as [|? r' ? ? ? A' R' L1|? r' ? line' ? A' R' L1]; subst; apply Forall_inv in T' as T1'; apply Forall_inv_tail in T'.
    + exfalso. exact (header_not_row r r' _ T1 T1' R' eq_refl).
    + assert (Nm : map col_name (fst r) = map col_name (fst r')).
      { destruct (header_texts _ T1). destruct (header_texts _ T1'). apply tabbed_inj; auto. }
      constructor; [|eapply IH; eassumption]. split; [exact Nm|]. eapply same_line; eassumption.
Qed.

(** Two files with the same listing have the same number of rows, with the same names of columns, and
    their values are the same, numbers to the millionth. *)
Theorem C69_readable : forall rows rows' lines lines',
  listing [] rows lines -> listing [] rows' lines' -> Forall tidy rows -> Forall tidy rows' ->
  joined lines = joined lines' -> Forall2 same_row rows rows'.
Proof.
  intros rows rows' lines lines' L L' T T' E.
  apply joined_inj in E; [|eapply listing_lines; eassumption..]. subst lines'. eapply listing_inj; eauto.
Qed.
