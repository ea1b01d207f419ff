(** Ordinary values can be stored in any company. *)
From Coq Require Import String.
From Verif Require Import Spec Base Fp Stream StreamProofs Codec Meta Encoder Writer WriterSpec FrameDecode.
Open Scope Z_scope.
Local Notation length := List.length.

Lemma total_bound {A} (f : A -> Z) b l : (forall x, In x l -> f x <= b) -> total f l <= len l * b.
Proof.
  unfold total, len. induction l as [|x l IH]; intros H; cbn [fold_right length]; [lia|].
  pose proof (H x (or_introl eq_refl)). assert (fold_right (fun x0 a => f x0 + a) 0 l <= Z.of_nat (length l) * b) by (apply IH; intros; apply H; now right). lia.
Qed.

Lemma total_mono {A} (f g : A -> Z) l : (forall x, In x l -> f x <= g x) -> total f l <= total g l.
Proof.
  unfold total. induction l as [|x l IH]; intros H; cbn [fold_right]; [lia|].
  pose proof (H x (or_introl eq_refl)). assert (fold_right (fun x0 a => f x0 + a) 0 l <= fold_right (fun x0 a => g x0 + a) 0 l) by (apply IH; intros; apply H; now right). lia.
Qed.

Lemma total_map {A B} (f : B -> Z) (g : A -> B) l : total f (map g l) = total (fun x => f (g x)) l.
Proof. unfold total. induction l; cbn; [reflexivity|]. now rewrite IHl. Qed.

Lemma nodup_len (l : list (list Z)) : len (nodup (list_eq_dec Z.eq_dec) l) <= len l.
Proof.
  unfold len. apply inj_le. induction l as [|x l IH]; cbn; [lia|]. destruct (in_dec _ x l); cbn; lia.
Qed.

Lemma until_len c : len (until_nul c) <= len c.
Proof. unfold len. induction c as [|x c IH]; cbn; [lia|]. destruct (x =? 0); cbn [length]; lia. Qed.

Section Ordinary.
Variable st : settings.

Lemma ordinary_len ci cell : ordinary st ci cell -> len cell = ci_size ci.
Proof. destruct 1; unfold len, int_cell in *; try rewrite StreamProofs.le_bytes_length; lia. Qed.

Lemma ordinary_storable ci cells : cells <> [] -> len cells < 65536 -> Forall (ordinary st ci) cells -> storable st ci cells.
Proof.
  intros Hne Hl H. destruct cells as [|c0 cells0] eqn:E0; [congruence|]. rewrite <- E0 in *. pose proof H as H0. rewrite E0 in H0. apply Forall_inv in H0.
  clear Hne E0 cells0. destruct H0 as [n T S I|v T S _ _ _ _|v T S _ _ _|dsd cell T S D1 D2 _ _ LS].
  - assert (exists ns, cells = map (int_cell (negb (iad st))) ns /\ Forall int32 ns) as (ns & -> & F).
    { clear Hl. induction H as [|c cells H _ (ns & -> & F)]; [exists []; split; [reflexivity|constructor]|].
      destruct H as [m _ _ Im| ? T' | ? T' | ? ? T']; try (exfalso; destruct T as [T|T]; rewrite T in T'; discriminate).
      exists (m :: ns). split; [reflexivity|]. constructor; assumption. }
    apply st_int; auto. split; [|now left]. eapply Forall_impl; [|exact F]. unfold int32, mid. intros. lia.
  - assert (exists bs, cells = map (le_bytes 8) bs /\ Forall (fun v => num v /\ is_inf f64 v = false /\ feq f32 (d2f v) flt_min = false /\ feq f32 (d2f v) neg_flt_max = false) bs) as (bs & -> & F).
    { clear Hl. induction H as [|c cells H _ (bs & -> & F)]; [exists []; split; [reflexivity|constructor]|].
      destruct H as [? T' | m _ _ A1 A2 A3 A4 | ? T' | ? ? T']; try (exfalso; rewrite T in T'; discriminate).
      - exfalso. destruct T' as [T'|T']; rewrite T in T'; discriminate.
      - exists (m :: bs). split; [reflexivity|]. constructor; auto. }
    rewrite Forall_forall in F. apply st_real; auto.
    + apply Forall_forall. intros w Hw. apply F. exact Hw.
    + split.
      * intros (_ & (w & W1 & W2) & _). destruct (F w W1) as (_ & Q & _). congruence.
      * right. intros w Hw _. unfold real_marker. destruct (F w Hw) as (_ & _ & Q1 & Q2). destruct (existsb _ bs); assumption.
  - assert (exists bs, cells = map (le_bytes 8) bs /\ Forall (fun v => num v /\ is_inf f64 v = false /\ v <> negzero) bs) as (bs & -> & F).
    { clear Hl. induction H as [|c cells H _ (bs & -> & F)]; [exists []; split; [reflexivity|constructor]|].
      destruct H as [? T' | ? T' | m _ _ A1 A2 A3 | ? ? T']; try (exfalso; rewrite T in T'; discriminate).
      - exfalso. destruct T' as [T'|T']; rewrite T in T'; discriminate.
      - exists (m :: bs). split; [reflexivity|]. constructor; auto. }
    rewrite Forall_forall in F. apply st_double; auto.
    + apply Forall_forall. intros w Hw. apply F. exact Hw.
    + intros Q. now apply (F negzero Q).
    + intros (_ & (w & W1 & W2) & _). destruct (F w W1) as (_ & Q & _). congruence.
  - assert (F : Forall (fun c => len c = 8 * dsd /\ bytes_ok c) cells).
    { eapply Forall_impl; [|exact H]. intros c [? T' | ? T' | ? T' | d' c' _ S' _ _ L' B' _]; try (exfalso; rewrite T in T'; discriminate).
      - exfalso. destruct T' as [T'|T']; rewrite T in T'; discriminate.
      - split; [lia|exact B']. }
    apply (st_string st ci dsd); auto.
    + eapply Forall_impl; [|exact F]. now intros c (A & _).
    + eapply Forall_impl; [|exact F]. now intros c (_ & A).
    + pose proof (nodup_len (texts cells)) as Q. assert (Qt : len (texts cells) = len cells) by (unfold len, texts; now rewrite map_length). rewrite Qt in Q. unfold distinct, len in *. lia.
    + intros (Q & _). congruence.
Qed.

(** ** Rows *)

Theorem ordinary_writable cols pr n rows : small n cols pr -> Forall (Forall2 (ordinary st) cols) rows -> rows <> [] -> len rows <= n ->
  writable st cols pr rows.
Proof.
  intros (S1 & S2 & S3) F Hne Hl.
  assert (Hn : 0 < n) by (destruct rows; [congruence|unfold len in Hl; cbn [length] in Hl; lia]).
  assert (Fc : forall i ci, nth_error cols i = Some ci -> Forall (ordinary st ci) (column_cells i rows)).
  { intros i ci E. unfold column_cells. rewrite Forall_map. eapply Forall_impl; [|exact F]. intros row R. clear -R E.
    revert i E. induction R as [|c x cs xs H R IH]; intros [|i] E; cbn in *; try discriminate; [|now apply IH].
    assert (ci = c) by congruence. now subst. }
  assert (Lc : forall i, len (column_cells i rows) = len rows) by (intros i; unfold column_cells, len; now rewrite map_length).
  assert (Sz : forall ci, In ci cols -> 0 <= ci_size ci).
  { intros ci H. apply In_nth_error in H as (i & E). pose proof (Fc i ci E) as Q. destruct (column_cells i rows) eqn:Ec.
    - specialize (Lc i). rewrite Ec in Lc. destruct rows; [congruence|discriminate].
    - apply Forall_inv, ordinary_len in Q. unfold len in Q. lia. }
  split.
  - eapply Forall_impl; [|exact F]. intros row R. eapply FrameDecode.Forall2_weaken; [|exact R]. intros ci c. apply ordinary_len.
  - intros i ci E. apply ordinary_storable; [|rewrite Lc; lia|now apply Fc].
    intros Q. specialize (Lc i). rewrite Q in Lc. destruct rows; [congruence|discriminate].
  - eapply Z.le_lt_trans; [|exact S3]. unfold rows_room. apply Z.add_le_mono_l.
    assert (X : forall cs a, (forall i ci, nth_error cs i = Some ci -> Forall (ordinary st ci) (column_cells (a + i) rows) /\ 0 <= ci_size ci) ->
      total (fun ci => column_room (snd ci) (column_cells (fst ci) rows)) (combine (seq a (length cs)) cs) <=
      total (fun ci => 100 + len (ci_name ci) + total (fun b => 8 + len (fst b)) (ci_bits ci) + n * (12 + ci_size ci)) cs).
    { clear -Hl Lc Hn. induction cs as [|ci cs IH]; intros a H; [reflexivity|]. cbn [length seq combine]. unfold total in *. cbn [fold_right fst snd].
      apply Z.add_le_mono; [|apply IH; intros i c E; specialize (H (S i) c E); now rewrite Nat.add_succ_comm].
      destruct (H O ci eq_refl) as (Hf & Hs). rewrite Nat.add_0_r in Hf. unfold column_room. apply Z.add_le_mono_l.
      destruct (ci_type ci =? ty_STRING); [|nia].
      fold (total (fun t : list Z => 12 + len t) (nodup (list_eq_dec Z.eq_dec) (texts (column_cells a rows)))).
      assert (B : total (fun t => 12 + len t) (nodup (list_eq_dec Z.eq_dec) (texts (column_cells a rows))) <= len (nodup (list_eq_dec Z.eq_dec) (texts (column_cells a rows))) * (12 + ci_size ci)).
      { apply total_bound. intros t Ht. apply nodup_In in Ht. unfold texts in Ht. apply in_map_iff in Ht as (c & <- & Hc).
        rewrite Forall_forall in Hf. pose proof (ordinary_len _ _ (Hf c Hc)). pose proof (until_len c). lia. }
      pose proof (nodup_len (texts (column_cells a rows))) as Q. unfold texts in Q at 2. unfold len in Q at 2. rewrite map_length in Q.
      specialize (Lc a). unfold len in Lc at 1. nia. }
    apply X. intros i ci E. split; [now apply Fc|]. apply Sz. now apply nth_error_In in E.
  - eapply Z.le_lt_trans; [|exact S2]. assert (0 <= fold_right Z.add 0 (map ci_size cols)) as Q.
    { clear -Sz. induction cols as [|c cs IH]; cbn; [lia|]. pose proof (Sz c (or_introl eq_refl)). assert (0 <= fold_right Z.add 0 (map ci_size cs)) by (apply IH; intros; apply Sz; now right). lia. }
    nia.
Qed.

End Ordinary.
Print Assumptions ordinary_writable.
