(** Proofs about file names made from templates. *)
From Verif Require Import Base Fp Codec Stream StreamProofs Meta Encoder Writer Reader WriterSpec RowList Spec CopySpec Dispatcher P_Tables DispatchSpec.
Open Scope Z_scope.

(** ** Numerals *)
Lemma digits_value_app a c : digits_value (a ++ [c]) = 10 * digits_value a + (c - 48).
Proof. unfold digits_value. now rewrite fold_left_app. Qed.

Lemma digits_value_low ds : Forall is_digit ds -> ds <> [] -> hd 0 ds <> 48 -> 10 ^ (len ds - 1) <= digits_value ds.
Proof.
  induction ds as [|c ds IH] using rev_ind; [congruence|]. intros F _ H. apply Forall_app in F as (F & Fc).
  apply Forall_inv in Fc. unfold is_digit in Fc. rewrite digits_value_app. destruct ds as [|d ds].
  - cbn [app hd] in H. unfold len. cbn. unfold digits_value. cbn. lia.
  - specialize (IH F ltac:(discriminate) H). unfold len in *. rewrite app_length. cbn [length] in *.
    replace (Z.of_nat (S (length ds) + 1) - 1) with (Z.succ (Z.of_nat (S (length ds)) - 1)) by lia. rewrite Z.pow_succ_r by lia. lia.
Qed.

Lemma digits_unique : forall f ds, Forall is_digit ds -> ds <> [] -> (hd 0 ds = 48 -> ds = [48]) -> (length ds <= f)%nat ->
  digits f (digits_value ds) = ds.
Proof.
  induction f as [|f IH]; intros ds F Hne H0 L; [destruct ds; [congruence|cbn in L; lia]|].
  destruct ds as [|c ds _] using rev_ind; [congruence|]. rewrite digits_value_app. apply Forall_app in F as (F & Fc). apply Forall_inv in Fc. unfold is_digit in Fc.
  cbn [digits]. destruct ds as [|d ds].
  - cbn [digits_value fold_left app]. unfold digits_value. cbn [fold_left]. destruct (Z.ltb_spec (10 * 0 + (c - 48)) 10); [|lia]. f_equal. lia.
  - assert (Hd : hd 0 (d :: ds) <> 48) by (cbn [app hd] in *; intros Q; specialize (H0 Q); apply (f_equal (@length _)) in H0; cbn [length] in H0; rewrite app_length in H0; cbn [length] in H0; lia).
    pose proof (digits_value_low (d :: ds) F ltac:(discriminate) Hd) as Lo.
    assert (1 <= digits_value (d :: ds)). { eapply Z.le_trans; [|exact Lo]. pose proof (Z.pow_pos_nonneg 10 (len (d :: ds) - 1)). unfold len in *. cbn [length] in *. lia. }
    destruct (Z.ltb_spec (10 * digits_value (d :: ds) + (c - 48)) 10); [lia|].
    replace ((10 * digits_value (d :: ds) + (c - 48)) / 10) with (digits_value (d :: ds)) by (apply Z.div_unique with (c - 48); lia).
    replace ((10 * digits_value (d :: ds) + (c - 48)) mod 10) with (c - 48) by (apply Z.mod_unique with (digits_value (d :: ds)); lia).
    rewrite IH.
    + do 2 f_equal. lia.
    + exact F.
    + discriminate.
    + intros Q. now elim Hd.
    + rewrite app_length in L. cbn [length] in *. lia.
Qed.

Lemma numeral_decimal n t : numeral n t -> int32 n -> decimal n = t.
Proof.
  intros (ds & F & Hne & H0 & H) R. unfold int32 in R.
  assert (L : (length ds <= 20)%nat).
  { destruct (Z.eq_dec (hd 0 ds) 48) as [Q|Q]; [rewrite (H0 Q); cbn; lia|]. pose proof (digits_value_low ds F Hne Q) as Lo.
    destruct (le_lt_dec (length ds) 20) as [|B]; [assumption|exfalso].
    assert (10 ^ 20 <= 10 ^ (len ds - 1)) by (apply Z.pow_le_mono_r; unfold len; lia). assert (10 ^ 20 > 2 ^ 32) by reflexivity.
    destruct H as [(_ & _ & H)|(_ & _ & H)]; rewrite H in Lo; lia. }
  unfold decimal. destruct H as [(A & -> & B)|(A & -> & B)].
  - destruct (Z.ltb_spec n 0); [lia|]. rewrite <- B. now apply digits_unique.
  - destruct (Z.ltb_spec n 0); [|lia]. rewrite <- B. f_equal. now apply digits_unique.
Qed.

(** The text of a number determines it. *)
Lemma numeral_inj n m t : numeral n t -> numeral m t -> n = m.
Proof.
  intros (d1 & F1 & N1 & _ & H1) (d2 & F2 & N2 & _ & H2).
  assert (X : forall d : list Z, Forall is_digit d -> d <> 45 :: tl d).
  { intros [|x d] F; [discriminate|]. apply Forall_inv in F. unfold is_digit in F. cbn [tl]. intros Q. assert (x = 45) by congruence. lia. }
  destruct H1 as [(A1 & -> & B1)|(A1 & -> & B1)], H2 as [(A2 & E & B2)|(A2 & E & B2)].
  - congruence.
  - exfalso. apply (X d1 F1). rewrite E. reflexivity.
  - exfalso. apply (X d2 F2). rewrite <- E. reflexivity.
  - assert (d1 = d2) by congruence. subst. lia.
Qed.

(** ** Texts *)
Lemma take_while_app f a b : Forall (fun x => f x = true) a -> (b <> [] -> f (hd 0 b) = false) -> take_while f (a ++ b) = a.
Proof.
  intros F H. induction F as [|x a E F IH]; cbn [app take_while].
  - destruct b as [|y b]; [reflexivity|]. cbn [take_while hd] in *. rewrite H by discriminate. reflexivity.
  - rewrite E. now rewrite IH.
Qed.
Lemma drop_while_app f a b : Forall (fun x => f x = true) a -> (b <> [] -> f (hd 0 b) = false) -> drop_while f (a ++ b) = b.
Proof.
  intros F H. induction F as [|x a E F IH]; cbn [app drop_while]; [|now rewrite E].
  destruct b as [|y b]; [reflexivity|]. cbn [drop_while hd] in *. now rewrite H by discriminate.
Qed.
Lemma hd_rev (l : list Z) : hd 0 (rev l) = last l 0.
Proof. induction l as [|x l _] using rev_ind; [reflexivity|]. rewrite rev_app_distr, last_last. reflexivity. Qed.
Lemma find_char_none c t : ~ In c t -> find_char c t = None.
Proof. induction t as [|x t IH]; intros H; [reflexivity|]. cbn [find_char]. destruct (Z.eqb_spec x c); [subst; elim H; now left|]. rewrite IH; [reflexivity|]. intros Q. apply H. now right. Qed.

Lemma trim_ok v before t after rest : v = before ++ t ++ after ++ rest ->
  Forall (eq 32) before -> Forall (eq 32) after -> Forall printable t -> (rest <> [] -> ~ printable (hd 0 rest)) ->
  hd 0 t <> 32 -> last t 0 <> 32 -> (t = [] -> before = []) -> trim v = t.
Proof.
  intros -> B A P R H L E. unfold trim.
  assert (Sp : forall l, Forall (eq 32) l -> Forall (fun x => is_space x = true) l /\ Forall (fun x => is_print x = true) l).
  { intros l F. split; (eapply Forall_impl; [|exact F]); intros a <-; reflexivity. }
  destruct (Sp before B) as (B1 & B2), (Sp after A) as (A1 & A2).
  assert (P' : Forall (fun x => is_print x = true) t) by (eapply Forall_impl; [|exact P]; intros a Q; unfold printable, is_print in *; lia).
  assert (N : forall x, printable x -> x <> 32 -> is_space x = false) by (intros x Q1 Q2; unfold printable, is_space in *; lia).
  replace (before ++ t ++ after ++ rest) with ((before ++ t ++ after) ++ rest) by now rewrite <- !app_assoc.
  rewrite take_while_app.
  2:{ apply Forall_app. split; [exact B2|]. apply Forall_app. auto. }
  2:{ intros Q. specialize (R Q). unfold printable, is_print in *. lia. }
  destruct t as [|x t'].
  - rewrite (E eq_refl). cbn [app]. rewrite <- (app_nil_r (rev after)), drop_while_app; [reflexivity| |congruence]. now apply Forall_rev.
  - rewrite app_assoc, rev_app_distr, drop_while_app; [|now apply Forall_rev|].
    + rewrite rev_involutive, drop_while_app; [reflexivity|exact B1|]. intros _. cbn [hd] in *. apply Forall_inv in P. auto.
    + intros _. rewrite rev_app_distr.
      assert (rev (x :: t') <> []) as Q by (intros Q; apply (f_equal (@length _)) in Q; rewrite rev_length in Q; discriminate).
      destruct (rev (x :: t')) as [|y r] eqn:Er; [congruence|]. cbn [app hd].
      assert (y = last (x :: t') 0) by (rewrite <- hd_rev, Er; reflexivity). subst y. apply N; [|exact L].
      rewrite Forall_forall in P. apply P. apply in_rev. rewrite Er. now left.
Qed.

Lemma text_ok cs row i k s e c cell t : nth_error cs i = Some c -> value_at row i = Ok (firstn 8 cell) -> k = i ->
  text_of (col_type c) cell t -> param_text cs row {| p_start := s; p_end := e; p_index := k |} = Ok t.
Proof.
  intros E V -> T. unfold param_text. cbn [p_index]. rewrite V, E. cbn [bind]. destruct T as [n t Ty D R Nu | before t after rest Ty Ev B A P Re H L E0 Sl].
  - destruct (Z.eqb_spec (col_type c) ty_STRING); [congruence|]. unfold d2i32, d2int. rewrite D. unfold int32 in R.
    replace ((- 2 ^ 31 <=? n) && (n <=? 2 ^ 31 - 1)) with true by (symmetry; lia). cbn [bind]. now rewrite (numeral_decimal n t).
  - rewrite Ty, Z.eqb_refl, (trim_ok _ _ _ _ _ Ev) by assumption. cbn [replace_slashes]. now rewrite find_char_none.
Qed.

(** ** Templates *)
Lemma find_char_app c a b : ~ In c a -> find_char c (a ++ c :: b) = Some (length a).
Proof.
  induction a as [|x a IH]; intros H; cbn [app find_char length]; [now rewrite Z.eqb_refl|].
  destruct (Z.eqb_spec x c); [subst; elim H; now left|]. rewrite IH; [reflexivity|]. intros Q. apply H. now right.
Qed.
Lemma skipn_len {A} (a b : list A) : skipn (length a) (a ++ b) = b.
Proof. rewrite skipn_app, skipn_all, Nat.sub_diag. reflexivity. Qed.
Lemma firstn_len {A} (a b : list A) : firstn (length a) (a ++ b) = a.
Proof. rewrite firstn_app, firstn_all, Nat.sub_diag. cbn. apply app_nil_r. Qed.

Lemma find_from_none c t start : ~ In c (skipn start t) -> find_from c t start = None.
Proof. intros H. unfold find_from. now rewrite find_char_none. Qed.
Lemma find_from_at c pre a b start : start = length pre -> ~ In c a -> find_from c (pre ++ a ++ c :: b) start = Some (length pre + length a)%nat.
Proof. intros -> H. unfold find_from. rewrite skipn_len, find_char_app by exact H. reflexivity. Qed.

(** The parameters of a template that stands at [off]. *)
Inductive params_at (cs : list column) : nat -> list piece -> list param -> Prop :=
| pa_nil off : params_at cs off [] []
| pa_lit off t ps l : params_at cs (off + length t) ps l -> params_at cs off (Lit t :: ps) l
| pa_par off nm ps i l : (forall j, positions cs nm j <-> j = i) -> params_at cs (off + length nm + 2) ps l ->
    params_at cs off (Par nm :: ps) ({| p_start := off; p_end := off + length nm + 1; p_index := i |} :: l).

Lemma parse_ok cs : forall r ps, template_is r ps -> (forall nm, In (Par nm) ps -> exists i, forall j, positions cs nm j <-> j = i) ->
  forall pre lead fuel, ~ In left_brace lead -> (length r < fuel)%nat ->
  exists l, params_at cs (length pre + length lead) ps l /\ parse_from fuel (pre ++ lead ++ r) cs (length pre) = Ok l.
Proof.
  induction 1 as [t Ht | t nm r ps Ht Hn Tr IH]; intros HP pre lead fuel Hl Hf; (destruct fuel as [|fuel]; [lia|]); cbn [parse_from].
  - exists []. split; [repeat constructor|]. rewrite find_from_none; [reflexivity|]. rewrite skipn_len. intros Q. apply in_app_or in Q. tauto.
  - destruct (HP nm) as (i & Hi); [right; now left|].
    replace (pre ++ lead ++ t ++ left_brace :: nm ++ right_brace :: r) with (pre ++ (lead ++ t) ++ left_brace :: nm ++ right_brace :: r) by now rewrite <- !app_assoc.
    rewrite find_from_at; [|reflexivity|intros Q; apply in_app_or in Q; tauto].
    assert (Er : find_from 125 (pre ++ (lead ++ t) ++ left_brace :: nm ++ right_brace :: r) (length pre + length (lead ++ t)) = Some (length pre + length (lead ++ t) + S (length nm))%nat).
    { replace (pre ++ (lead ++ t) ++ left_brace :: nm ++ right_brace :: r) with ((pre ++ lead ++ t) ++ (left_brace :: nm) ++ right_brace :: r) by now rewrite <- !app_assoc.
      rewrite find_from_at.
      - rewrite !app_length. cbn [length]. reflexivity.
      - rewrite !app_length. lia.
      - intros [Q|Q]; [discriminate|auto]. }
    rewrite Er.
    assert (En : firstn (length pre + length (lead ++ t) + S (length nm) - (length pre + length (lead ++ t)) - 1) (skipn (length pre + length (lead ++ t) + 1) (pre ++ (lead ++ t) ++ left_brace :: nm ++ right_brace :: r)) = nm).
    { replace (pre ++ (lead ++ t) ++ left_brace :: nm ++ right_brace :: r) with ((pre ++ (lead ++ t) ++ [left_brace]) ++ nm ++ right_brace :: r) by (rewrite <- !app_assoc; reflexivity).
      replace (length pre + length (lead ++ t) + 1)%nat with (length (pre ++ (lead ++ t) ++ [left_brace])) by (rewrite !app_length; cbn [length]; lia).
      rewrite skipn_len. replace (_ - _ - 1)%nat with (length nm) by lia. apply firstn_len. }
    rewrite En. assert (Ek : column_index cs nm = Ok (Z.of_nat i)).
    { apply (proj1 (C39_column_index cs nm)). split; [lia|]. intros j. rewrite Hi. lia. }
    rewrite Ek. cbn [bind].
    destruct (IH ltac:(intros m Q; apply HP; right; now right) (pre ++ (lead ++ t) ++ left_brace :: nm) [right_brace] fuel) as (l & L1 & L2).
    { intros [Q|[]]. discriminate. }
    { rewrite !app_length in Hf. cbn [length] in Hf. rewrite app_length in Hf. cbn [length] in Hf. lia. }
    replace ((pre ++ (lead ++ t) ++ left_brace :: nm) ++ [right_brace] ++ r) with (pre ++ (lead ++ t) ++ left_brace :: nm ++ right_brace :: r) in L2 by (rewrite <- !app_assoc; reflexivity).
    replace (length (pre ++ (lead ++ t) ++ left_brace :: nm)) with (length pre + length (lead ++ t) + S (length nm))%nat in L2 by (rewrite !app_length; cbn [length]; lia).
    rewrite L2. cbn [bind]. rewrite Nat2Z.id. eexists. split; [|reflexivity].
    constructor. replace (length pre + length (lead ++ t) + S (length nm))%nat with (length pre + length lead + length t + length nm + 1)%nat by (rewrite app_length; lia).
    replace (length pre + length (lead ++ t))%nat with (length pre + length lead + length t)%nat by (rewrite app_length; lia).
    constructor; [exact Hi|].
    replace (length pre + length lead + length t + length nm + 2)%nat with (length (pre ++ (lead ++ t) ++ left_brace :: nm) + length [right_brace])%nat by (rewrite !app_length; cbn [length]; lia).
    exact L1.
Qed.

(** The values at the parameters. *)
Lemma value_ok (r : arow) i cell : narrow r i -> nth_error (snd r) i = Some cell -> 8 <= len cell -> value_at (snd r) i = Ok (firstn 8 cell).
Proof.
  intros Na E L. unfold value_at. destruct r as [cs row]. cbn [snd] in *.
  assert (X : exists b, length (concat (firstn i row)) = (8 * i)%nat /\ concat row = concat (firstn i row) ++ cell ++ b).
  { apply nth_error_split in E as (l1 & l2 & -> & Hi). exists (concat l2). subst i.
    replace (firstn (length l1) (l1 ++ cell :: l2)) with l1 by (symmetry; apply firstn_len).
    split; [|rewrite concat_app; reflexivity].
    assert (F : Forall (fun c => length c = 8%nat) l1).
    { apply Forall_forall. intros c Hc. apply In_nth_error in Hc as (j & Ej).
      assert (j < length l1)%nat by (apply nth_error_Some; congruence). specialize (Na j c H).
      cbn [snd] in Na. rewrite nth_error_app1 in Na by assumption. specialize (Na Ej). unfold len in Na. lia. }
    clear -F. induction F as [|c l H _ IH]; [reflexivity|]. cbn [concat length]. rewrite app_length, IH, H. lia. }
  destruct X as (b & X1 & ->). unfold len in L.
  rewrite !app_length, X1. destruct (Nat.ltb_spec (8 * i + (length cell + length b)) (8 * i + 8)); [lia|].
  rewrite <- X1, skipn_len, firstn_app. replace (8 - length cell)%nat with O by lia. cbn [firstn]. now rewrite app_nil_r.
Qed.

Lemma cell_unique r nm i j c d x y : cell_of r nm i c x -> cell_of r nm j d y -> i = j /\ c = d /\ x = y.
Proof.
  intros (A1 & A2 & A3) (B1 & B2 & B3). assert (i = j) by (apply B1, A1; reflexivity). subst. repeat split; congruence.
Qed.

Lemma key_ok r ps : forall off l vs, params_at (fst r) off ps l -> values_of r ps vs ->
  (forall nm i c cell, In (Par nm) ps -> cell_of r nm i c cell -> narrow r i /\ 8 <= len cell) ->
  map_out (fun p => value_at (snd r) (p_index p)) l = Ok vs.
Proof.
  induction ps as [|[t|nm] ps IH]; intros off l vs P V H.
  - inversion P; inversion V; subst; reflexivity.
  - inversion P; inversion V; subst. eapply IH; eauto. intros; eapply H; eauto. now right.
  - inversion P as [| |? ? ? i l' Hi P']; inversion V as [| |? ? j c cell vs' C V']; subst. cbn [map_out].
    destruct (H nm j c cell (or_introl eq_refl) C) as (Na & L). pose proof C as (C1 & C2 & C3).
    assert (i = j) by (apply C1, Hi; reflexivity). subst j. cbn [p_index]. rewrite (value_ok r i cell Na C3 L). cbn [bind].
    rewrite (IH _ _ vs' P' V'); [reflexivity|]. intros; eapply H; eauto. now right.
Qed.

Lemma values_exist r ps n : filled r ps n -> exists vs, values_of r ps vs.
Proof. induction 1 as [|? ? ? _ (vs & IH)|? ? ? ? ? ? ? ? _ _ (vs & IH)]; eexists; econstructor; eauto. Qed.

(** The name generated. *)
Lemma generate_ok T cs r : (forall i c, nth_error (fst r) i = Some c -> exists d, nth_error cs i = Some d /\ col_type d = col_type c) ->
  forall ps t n, template_is t ps -> filled r ps n ->
  (forall nm i c cell, In (Par nm) ps -> cell_of r nm i c cell -> narrow r i /\ 8 <= len cell) ->
  forall pre F l, T = pre ++ t -> params_at (fst r) (length pre) ps l ->
  generate_from T cs (snd r) l (F ++ t) = Ok (F ++ n).
Proof.
  intros HT ps t n Tt. revert n. induction Tt as [t Ht | t nm r0 ps Ht Hn Tr IH]; intros n Fi H pre F l ET P.
  - inversion P as [|? ? ? ? P'|]; subst. inversion P'; subst. inversion Fi as [|? ? n' Fi'|]; subst. inversion Fi'; subst. cbn [generate_from]. now rewrite app_nil_r.
  - inversion P as [|? ? ? ? P'|]; subst. inversion P' as [| |? ? ? i l' Hi P'']; subst. inversion Fi as [|? ? n' Fi'|]; subst.
    inversion Fi' as [| |? ? j c cell s n'' C Te Fi'']; subst.
    destruct (H nm j c cell) as (Na & L); [right; now left|exact C|]. pose proof C as (C1 & C2 & C3).
    assert (i = j) by (apply C1, Hi; reflexivity). subst j. destruct (HT i c C2) as (d & D1 & D2).
    cbn [generate_from]. rewrite (text_ok cs (snd r) i i _ _ d cell s D1 (value_ok r i cell Na C3 L) eq_refl) by now rewrite D2.
    cbn [bind p_start p_end].
    match goal with |- context [replace_at ?p ?q _ _] => assert (E1 : p = length (F ++ t)); [|assert (E2 : q = (length nm + 2)%nat) by lia; rewrite E1, E2] end.
    { rewrite !app_length. lia. }
    unfold replace_at. rewrite (app_assoc F t). destruct (Nat.ltb_spec (length ((F ++ t) ++ left_brace :: nm ++ right_brace :: r0)) (length (F ++ t))) as [Q|_]; [rewrite app_length in Q; lia|].
    cbn [bind]. rewrite firstn_len.
    assert (E3 : skipn (length (F ++ t) + (length nm + 2)) ((F ++ t) ++ left_brace :: nm ++ right_brace :: r0) = r0).
    { replace ((F ++ t) ++ left_brace :: nm ++ right_brace :: r0) with (((F ++ t) ++ left_brace :: nm ++ [right_brace]) ++ r0) by (rewrite <- !app_assoc; cbn [app]; rewrite <- app_assoc; reflexivity).
      replace (length (F ++ t) + (length nm + 2))%nat with (length ((F ++ t) ++ left_brace :: nm ++ [right_brace])) by (rewrite !app_length; cbn [length]; rewrite app_length; cbn [length]; lia).
      apply skipn_len. }
    rewrite E3. rewrite (app_assoc (F ++ t) s r0). rewrite (IH n'' Fi'') with (pre := pre ++ t ++ left_brace :: nm ++ [right_brace]).
    + now rewrite <- !app_assoc.
    + intros m k c' x Hm. apply H. right. now right.
    + rewrite <- !app_assoc. cbn [app]. rewrite <- app_assoc. reflexivity.
    + replace (length (pre ++ t ++ left_brace :: nm ++ [right_brace])) with (length pre + length t + length nm + 2)%nat by (rewrite !app_length; cbn [length]; rewrite app_length; cbn [length]; lia).
      exact P''.
Qed.
