(** The rows a text reader gives. *)
From Coq Require Import String.
From Verif Require Import Base Fp FpProofs Stream StreamProofs StreamLocal Codec Meta Encoder Table TableProofs Writer WriterSpec RowList Spec
  WriterRun Header Reader Iterators Copy CopySpec Dispatcher DispatchSpec DispatchNames Csv CsvSpec CsvText.
Open Scope Z_scope.
Local Notation length := List.length.

Lemma Forall2_at {A B} (P : A -> B -> Prop) la lb i a b : Forall2 P la lb -> nth_error la i = Some a -> nth_error lb i = Some b -> P a b.
Proof. intros F. revert i. induction F as [|x y la lb H _ IH]; intros [|i] E1 E2; try discriminate; cbn in *; [congruence|eauto]. Qed.

Section Rows.
Variable st : settings.
Hypothesis Hiad : iad st = true.
Variable delim : list Z.
Hypothesis Hdelim : ~ In 10 delim.
Variables (to_float to_double to_long : list Z -> outcome Z) (unquote : list Z -> list Z).
Variable junk : nat -> nat -> list Z.
Hypothesis Hjunk : forall n i, bytes_ok (junk n i).
Variable W : Z.
Hypothesis HW : 1 <= W.
Variable cols : list colinfo.
Hypothesis Htypes : Forall (fun ci => (int_type (ci_type ci) \/ real_type (ci_type ci) \/ ci_type ci = ty_STRING) /\ ci_size ci = 8) cols.

Local Notation importable := (importable to_float to_double to_long unquote W).
Local Notation text_next := (text_next delim to_float to_double to_long unquote junk).
Local Notation set_field := (set_field to_float to_double to_long unquote junk).
Local Notation set_fields := (set_fields to_float to_double to_long unquote junk).

Definition dsize (c : column) : Z := data_size_doubles (col_coder c).

(** The declared column, with texts perhaps wider. *)
Record like (ci : colinfo) (c : column) : Prop := {
  li_coder : exists k0, working_codec st LE (ci_type ci) = Ok k0 /\ set_data_size k0 (dsize c) = Ok (col_coder c);
  li_name : col_name c = ci_name ci;
  li_type : col_type c = ci_type ci;
  li_names : col_bfnames c = map fst (ci_bits ci);
  li_sizes : col_bfsizes c = map snd (ci_bits ci);
  li_size : 1 <= dsize c <= W;
  li_one : ci_type ci <> ty_STRING -> dsize c = 1
}.

(** What is stored for a field. *)
Inductive stored (ty : Z) (v cell : list Z) : Prop :=
| sd_null_int : null v -> int_type ty -> cell = int_cell false MDI -> stored ty v cell
| sd_null_real : null v -> real_type ty -> cell = le_bytes 8 realMDI -> stored ty v cell
| sd_null_text : null v -> ty = ty_STRING -> until_nul cell = [] -> stored ty v cell
| sd_int n : ~ null v -> int_type ty -> to_long v = Ok n -> cell = int_cell false n -> stored ty v cell
| sd_real x : ~ null v -> ty = ty_REAL -> to_float v = Ok x -> cell = le_bytes 8 (f2d x) -> stored ty v cell
| sd_double x : ~ null v -> ty = ty_DOUBLE -> to_double v = Ok x -> cell = le_bytes 8 x -> stored ty v cell
| sd_text : ~ null v -> ty = ty_STRING -> until_nul cell = until_nul (unquote v) -> stored ty v cell.

Definition sized (c : column) (cell : list Z) : Prop := len cell = 8 * dsize c /\ bytes_ok cell.

Record tok (it : titer) : Prop := {
  k_cols : Forall2 like cols (t_cols it);
  k_cells : Forall2 sized (t_cols it) (t_last it)
}.

Lemma type_cases ci : In ci cols -> int_type (ci_type ci) \/ real_type (ci_type ci) \/ ci_type ci = ty_STRING.
Proof using All. intros H. rewrite Forall_forall in Htypes. apply (Htypes ci H). Qed.

Lemma coder_facts ci c : In ci cols -> like ci c ->
  chars_based (c_kind (col_coder c)) = (ci_type ci =? ty_STRING) /\
  missing_value (col_coder c) = if (ci_type ci =? ty_INTEGER) || (ci_type ci =? ty_BITFIELD) then integerMDI else realMDI.
Proof using All.
  intros Hin [(k0 & K0 & K1) _ _ _ _ _ One]. pose proof (type_cases ci Hin) as Ty. unfold working_codec in K0. rewrite Hiad in K0.
  destruct Ty as [[T|T]|[[T|T]|T]]; rewrite T in *; cbn in K0.
  - injection K0 as <-. cbn in K1. rewrite One in K1 by discriminate. cbn in K1. injection K1 as <-. split; reflexivity.
  - assert (E : col_coder c = k0). { rewrite One in K1 by discriminate. unfold set_data_size in K1. destruct (chars_based (c_kind k0)) eqn:Q; [|cbn in K1; congruence].
      unfold set_missing_value in K0. destruct (assert _) as [u| |]; cbn [bind] in K0; try discriminate. destruct (check_cast _ _) as [u2| |]; cbn [bind] in K0; try discriminate. injection K0 as <-. discriminate. }
    rewrite E. unfold set_missing_value in K0. destruct (assert _) as [u| |]; cbn [bind] in K0; try discriminate. destruct (check_cast _ _) as [u2| |]; cbn [bind] in K0; try discriminate.
    injection K0 as <-. split; reflexivity.
  - injection K0 as <-. cbn in K1. rewrite One in K1 by discriminate. cbn in K1. injection K1 as <-. split; reflexivity.
  - injection K0 as <-. cbn in K1. rewrite One in K1 by discriminate. cbn in K1. injection K1 as <-. split; reflexivity.
  - injection K0 as <-. cbn in K1. injection K1 as <-. split; reflexivity.
Qed.

Lemma fill_length n i size : 0 <= size -> length (fill junk n i size) = Z.to_nat size.
Proof using All. intros H. unfold fill. rewrite firstn_length, app_length, repeat_length. lia. Qed.
Lemma fill_ok n i size : bytes_ok (fill junk n i size).
Proof using All.
  unfold fill. apply Forall_forall. intros x Hx. assert (I : In x (junk n i ++ repeat 0 (Z.to_nat size))) by (rewrite <- (firstn_skipn (Z.to_nat size)); apply in_or_app; now left).
  apply in_app_or in I as [I|I]; [pose proof (Hjunk n i) as Q; unfold bytes_ok in Q; rewrite Forall_forall in Q; auto|]. apply repeat_spec in I. subst. unfold is_byte. lia.
Qed.
Lemma skipn_ok k l : bytes_ok l -> bytes_ok (skipn k l).
Proof using All. unfold bytes_ok. rewrite !Forall_forall. intros H x Hx. apply H. rewrite <- (firstn_skipn k). apply in_or_app. now right. Qed.
Lemma initial_sized n i c : 1 <= dsize c -> sized c (initial_cell junk n i c).
Proof using All.
  intros H. unfold sized, initial_cell. split.
  - unfold len. rewrite app_length, le_bytes_length, skipn_length. fold (dsize c). rewrite fill_length by lia. lia.
  - apply Forall_app. split; [apply le_bytes_ok|]. apply skipn_ok, fill_ok.
Qed.
Lemma initial_nth n : forall cs i j c, nth_error cs j = Some c -> nth_error (initial_cells junk n i cs) j = Some (initial_cell junk n (i + j) c).
Proof using All.
  induction cs as [|c0 cs IH]; intros i j c H; [destruct j; discriminate|]. destruct j as [|j]; cbn [initial_cells nth_error] in *.
  - injection H as ->. now rewrite Nat.add_0_r.
  - rewrite (IH (S i) j c H). do 2 f_equal. lia.
Qed.
Lemma initial_length n : forall cs i, length (initial_cells junk n i cs) = length cs.
Proof using All. induction cs as [|c cs IH]; intros i; cbn; auto. Qed.

(** Setting a number. *)
Lemma number_ok it i v ci c : tok it -> nth_error cols i = Some ci -> nth_error (t_cols it) i = Some c ->
  tok (set_number it i v) /\ nth_error (t_last (set_number it i v)) i = Some (le_bytes 8 v ++ skipn 8 (nth i (t_last it) [])) /\
  (forall j, j <> i -> nth_error (t_last (set_number it i v)) j = nth_error (t_last it) j).
Proof using All.
  intros [K1 K2] Ei Ec. assert (L : (i < length (t_last it))%nat).
  { rewrite <- (TableProofs.Forall2_length _ _ _ K2). apply nth_error_Some. congruence. }
  split; [|cbn [set_number t_last]; split; [rewrite nth_error_list_set, Nat.eqb_refl by exact L; reflexivity|]].
  - split; cbn [set_number t_cols t_last]; [exact K1|]. apply Forall2_by_nth; [rewrite list_set_length; apply (TableProofs.Forall2_length _ _ _ K2)|].
    intros j d cell Hd Hc. rewrite nth_error_list_set in Hc by exact L. destruct (Nat.eqb_spec j i) as [Q|Q].
    + subst j. assert (cell = le_bytes 8 v ++ skipn 8 (nth i (t_last it) [])) by congruence. clear Hc. subst cell. assert (d = c) by congruence. subst d.
      destruct (nth_error (t_last it) i) as [old|] eqn:Eo; [|apply nth_error_None in Eo; lia].
      assert (So : sized c old) by (eapply Forall2_at; eauto).
      destruct So as (S1 & S2). rewrite (nth_error_nth _ _ _ Eo). assert (1 <= dsize c).
      { assert (like ci c) as Q by (eapply Forall2_at; eauto). apply (li_size _ _ Q). }
      split; [unfold len in *; rewrite app_length, le_bytes_length, skipn_length; lia|]. apply Forall_app. split; [apply le_bytes_ok|now apply skipn_ok].
    + eapply Forall2_at; eauto.
  - intros j Hj. rewrite nth_error_list_set by exact L. destruct (Nat.eqb_spec j i) as [Q|_]; [congruence|reflexivity].
Qed.

(** The buffer grows. *)
Lemma grow_ok it i ci c n : tok it -> nth_error cols i = Some ci -> nth_error (t_cols it) i = Some c -> ci_type ci = ty_STRING -> 1 <= n <= W ->
  exists it' c', grow junk it i c n = Ok it' /\ tok it' /\ nth_error (t_cols it') i = Some c' /\ dsize c' = n /\
    (forall j, (j < i)%nat -> nth_error (t_last it') j = nth_error (t_last it) j) /\
    t_new it' = true /\ t_end it' = t_end it /\ t_in it' = t_in it.
Proof using All.
  intros [K1 K2] Ei Ec T Hn. assert (Lk : like ci c) by (eapply Forall2_at; eauto).
  destruct (coder_facts ci c (nth_error_In _ _ Ei) Lk) as (Ch & _). rewrite T, Z.eqb_refl in Ch.
  unfold grow, set_data_size. rewrite Ch. cbn [bind]. set (k := set_strings _ _ _ n).
  assert (Dk : dsize (with_coder c k) = n) by (unfold dsize, with_coder, k; cbn [col_coder]; unfold data_size_doubles; cbn [set_strings c_kind c_dsd]; now rewrite Ch).
  assert (Lc : (i < length (t_cols it))%nat) by (apply nth_error_Some; congruence).
  eexists _, (with_coder c k). split; [reflexivity|]. cbn [t_cols t_last t_new t_end t_in].
  assert (Ll : length (t_last it) = length (t_cols it)) by (symmetry; apply (TableProofs.Forall2_length _ _ _ K2)).
  split; [|split; [rewrite nth_error_list_set, Nat.eqb_refl by exact Lc; reflexivity|split; [exact Dk|split; [|auto]]]].
  - split; cbn [t_cols t_last].
    + apply Forall2_by_nth; [rewrite list_set_length; apply (TableProofs.Forall2_length _ _ _ K1)|]. intros j a b Ha Hb.
      rewrite nth_error_list_set in Hb by exact Lc. destruct (Nat.eqb_spec j i) as [Q|Q]; [|eapply Forall2_at; eauto].
      subst j. assert (b = with_coder c k) by congruence. assert (a = ci) by congruence. subst a b. destruct Lk as [(k0 & A1 & A2) B C D E F G]. split; auto.
      * exists k0. split; [exact A1|]. rewrite Dk. unfold set_data_size in *. destruct (chars_based (c_kind k0)) eqn:Q.
        -- unfold with_coder, k. cbn [col_coder]. injection A2 as A2. rewrite <- A2. reflexivity.
        -- exfalso. destruct (dsize c =? 1); [|discriminate]. injection A2 as A2. congruence.
      * rewrite Dk. lia.
      * intros Q. congruence.
    + assert (Li : length (initial_cells junk (t_allocs it) 0 (list_set (t_cols it) i (with_coder c k))) = length (t_cols it)) by (rewrite initial_length, list_set_length; reflexivity).
      apply Forall2_by_nth; [rewrite list_set_length, app_length, firstn_length, skipn_length; lia|].
      intros j a b Ha Hb. destruct (Nat.lt_ge_cases j i) as [Q|Q].
      * rewrite nth_error_app1 in Hb by (rewrite firstn_length; lia). rewrite nth_error_firstn in Hb by exact Q.
        rewrite nth_error_list_set in Ha by exact Lc. destruct (Nat.eqb_spec j i) as [X|_]; [lia|]. eapply Forall2_at; eauto.
      * rewrite nth_error_app2 in Hb by (rewrite firstn_length; lia). rewrite firstn_length in Hb. replace (Init.Nat.min i (length (t_last it))) with i in Hb by lia.
        rewrite nth_error_skipn in Hb. replace (i + (j - i))%nat with j in Hb by lia. rewrite (initial_nth _ _ _ _ _ Ha) in Hb.
        assert (b = initial_cell junk (t_allocs it) (0 + j) a) by congruence. subst b. apply initial_sized.
        rewrite nth_error_list_set in Ha by exact Lc. destruct (Nat.eqb_spec j i) as [X|_]; [assert (a = with_coder c k) by congruence; subst a; lia|].
        destruct (nth_error cols j) as [cj|] eqn:Ej; [|apply nth_error_None in Ej; rewrite (TableProofs.Forall2_length _ _ _ K1) in Ej; apply nth_error_None in Ej; congruence].
        apply (li_size cj a). eapply Forall2_at; eauto.
  - intros j Hj. rewrite nth_error_app1 by (rewrite firstn_length; lia). now apply nth_error_firstn.
Qed.

Lemma until_nul_app l m : until_nul (l ++ 0 :: m) = until_nul l.
Proof using. induction l as [|x l IH]; cbn [app until_nul]; [reflexivity|]. destruct (x =? 0); [reflexivity|]. now rewrite IH. Qed.
Lemma until_nul_zeros l n : until_nul (l ++ repeat 0 n) = until_nul l.
Proof using. destruct n; cbn [repeat]; [now rewrite app_nil_r|apply until_nul_app]. Qed.

Lemma field_ok it i ci f v : tok it -> nth_error cols i = Some ci -> importable (ci_type ci) v -> holds f v ->
  exists it', set_field it i f = Ok it' /\ tok it' /\ (exists cell, nth_error (t_last it') i = Some cell /\ stored (ci_type ci) v cell) /\
    (forall j, (j < i)%nat -> nth_error (t_last it') j = nth_error (t_last it) j) /\
    (t_new it' = true \/ t_cols it' = t_cols it) /\ (t_new it = true -> t_new it' = true) /\ t_end it' = t_end it /\ t_in it' = t_in it.
Proof using All.
  intros K Ei Im Ho. pose proof K as [K1 K2]. assert (Hin : In ci cols) by (eapply nth_error_In; eauto).
  destruct (nth_error (t_cols it) i) as [c|] eqn:Ec; [|apply nth_error_None in Ec; rewrite <- (TableProofs.Forall2_length _ _ _ K1) in Ec; apply nth_error_None in Ec; congruence].
  assert (Lk : like ci c) by (eapply Forall2_at; eauto). destruct (coder_facts ci c Hin Lk) as (Ch & Mv).
  destruct (nth_error (t_last it) i) as [old|] eqn:Eo; [|apply nth_error_None in Eo; rewrite <- (TableProofs.Forall2_length _ _ _ K2) in Eo; apply nth_error_None in Eo; congruence].
  assert (So : sized c old) by (eapply Forall2_at; eauto).
  assert (Num : forall x, (ci_type ci <> ty_STRING -> stored (ci_type ci) v (le_bytes 8 x)) -> (ci_type ci = ty_STRING -> stored (ci_type ci) v (le_bytes 8 x ++ skipn 8 old)) ->
    exists it', Ok (set_number it i x) = Ok it' /\ tok it' /\ (exists cell, nth_error (t_last it') i = Some cell /\ stored (ci_type ci) v cell) /\
    (forall j, (j < i)%nat -> nth_error (t_last it') j = nth_error (t_last it) j) /\
    (t_new it' = true \/ t_cols it' = t_cols it) /\ (t_new it = true -> t_new it' = true) /\ t_end it' = t_end it /\ t_in it' = t_in it).
  { intros x H1 H2. destruct (number_ok it i x ci c K Ei Ec) as (N1 & N2 & N3). eexists. split; [reflexivity|]. split; [exact N1|]. split; [|split; [intros j Hj; apply N3; lia|cbn; auto]].
    rewrite (nth_error_nth _ _ _ Eo) in N2. destruct (Z.eq_dec (ci_type ci) ty_STRING) as [Q|Q].
    - exists (le_bytes 8 x ++ skipn 8 old). auto.
    - exists (le_bytes 8 x). split; [|auto]. rewrite N2. destruct So as (S1 & _). rewrite (li_one _ _ Lk Q) in S1. rewrite skipn_all2 by (unfold len in S1; lia). now rewrite app_nil_r. }
  unfold set_field. rewrite (trim_holds f v Ho), Ec. destruct (bytes_eqb (upper v) (str "NULL")) eqn:Nu.
  - assert (null v) as Hnu by now apply null_iff. apply Num; rewrite Mv; destruct (type_cases ci Hin) as [[T|T]|[[T|T]|T]]; rewrite T; intros Q; try discriminate; try congruence.
    + apply sd_null_int; [exact Hnu|now left|reflexivity].
    + apply sd_null_int; [exact Hnu|now right|reflexivity].
    + apply sd_null_real; [exact Hnu|now left|reflexivity].
    + apply sd_null_real; [exact Hnu|now right|reflexivity].
    + apply sd_null_text; [exact Hnu|reflexivity|reflexivity].
  - assert (~ null v) as Hnu by (rewrite null_iff; congruence). rewrite (li_type _ _ Lk).
    destruct Im as [Q _|n _ T E I|x _ T E A B C D|x _ T E A B C|_ T B L]; [contradiction|..].
    + assert (E1 : (ci_type ci =? ty_STRING) = false) by (destruct T as [-> | ->]; reflexivity). assert (E2 : (ci_type ci =? ty_REAL) = false) by (destruct T as [-> | ->]; reflexivity).
      assert (E3 : (ci_type ci =? ty_DOUBLE) = false) by (destruct T as [-> | ->]; reflexivity). assert (E4 : (ci_type ci =? ty_INTEGER) || (ci_type ci =? ty_BITFIELD) = true) by (destruct T as [-> | ->]; reflexivity).
      rewrite E1, E2, E3, E4, E. cbn [bind]. apply Num; intros Q; [|rewrite Q in E1; discriminate]. apply (sd_int _ _ _ n); auto.
    + rewrite T. cbn [Z.eqb ty_STRING ty_REAL Pos.eqb]. rewrite E. cbn [bind]. rewrite T in Num. apply Num; intros Q; [|discriminate]. apply (sd_real _ _ _ x); auto.
    + rewrite T. cbn [Z.eqb ty_STRING ty_REAL ty_DOUBLE Pos.eqb]. rewrite E. cbn [bind]. rewrite T in Num. apply Num; intros Q; [|discriminate]. apply (sd_double _ _ _ x); auto.
    + rewrite T, Z.eqb_refl. set (u := unquote v) in *. fold (dsize c). set (d := if 0 <? Z.of_nat (length u) then (Z.of_nat (length u) - 1) / 8 + 1 else 1).
      assert (Hd : 1 <= d <= W /\ Z.of_nat (length u) <= 8 * d).
      { unfold d, len in *. destruct (Z.ltb_spec 0 (Z.of_nat (length u))); [|lia]. pose proof (Z.div_mod (Z.of_nat (length u) - 1) 8 ltac:(lia)). pose proof (Z.mod_pos_bound (Z.of_nat (length u) - 1) 8 ltac:(lia)). lia. }
      assert (X : exists it1 c1, (if dsize c <? d then grow junk it i c d else Ok it) = Ok it1 /\ tok it1 /\ nth_error (t_cols it1) i = Some c1 /\ dsize c1 = Z.max d (dsize c) /\
        (forall j, (j < i)%nat -> nth_error (t_last it1) j = nth_error (t_last it) j) /\ (t_new it1 = true \/ t_cols it1 = t_cols it) /\ (t_new it = true -> t_new it1 = true) /\ t_end it1 = t_end it /\ t_in it1 = t_in it).
      { destruct (Z.ltb_spec (dsize c) d) as [Q|Q].
        - destruct (grow_ok it i ci c d K Ei Ec T ltac:(lia)) as (it1 & c1 & G1 & G2 & G3 & G4 & G5 & G6 & G7 & G8). exists it1, c1. repeat split; auto; try apply G2. lia.
        - exists it, c. repeat split; auto. lia. }
      destruct X as (it1 & c1 & X1 & X2 & X3 & X4 & X5 & X6 & X7 & X8 & X9). rewrite X1. cbn [bind]. pose proof X2 as [Y1 Y2].
      assert (Ll : (i < length (t_last it1))%nat) by (rewrite <- (TableProofs.Forall2_length _ _ _ Y2); apply nth_error_Some; congruence).
      eexists. split; [reflexivity|]. cbn [t_last t_cols t_new t_end t_in]. split; [|split; [|split; [|auto]]].
      * split; cbn [t_cols t_last]; [exact Y1|]. apply Forall2_by_nth; [rewrite list_set_length; apply (TableProofs.Forall2_length _ _ _ Y2)|].
        intros j a b Ha Hb. rewrite nth_error_list_set in Hb by exact Ll. destruct (Nat.eqb_spec j i) as [Q|Q]; [|eapply Forall2_at; eauto].
        subst j. assert (a = c1) by congruence. assert (b = u ++ repeat 0 (Z.to_nat (8 * Z.max d (dsize c) - Z.of_nat (length u)))) by congruence. subst a b. split.
        -- unfold len. rewrite app_length, repeat_length, X4. lia.
        -- apply Forall_app. split; [exact B|]. apply Forall_forall. intros z Hz. apply repeat_spec in Hz. subst z. unfold is_byte. lia.
      * eexists. split; [rewrite nth_error_list_set, Nat.eqb_refl by exact Ll; reflexivity|]. apply sd_text; auto. apply until_nul_zeros.
      * intros j Hj. rewrite nth_error_list_set by exact Ll. destruct (Nat.eqb_spec j i) as [Q|_]; [lia|auto].
Qed.

Lemma fields_ok : forall fs vs it i, tok it -> Forall2 holds fs vs -> (i + length fs = length cols)%nat ->
  (forall j v ci, nth_error vs j = Some v -> nth_error cols (i + j) = Some ci -> importable (ci_type ci) v) ->
  exists it', set_fields it i fs = Ok it' /\ tok it' /\
    (forall j v ci, nth_error vs j = Some v -> nth_error cols (i + j) = Some ci -> exists cell, nth_error (t_last it') (i + j) = Some cell /\ stored (ci_type ci) v cell) /\
    (forall j, (j < i)%nat -> nth_error (t_last it') j = nth_error (t_last it) j) /\
    (t_new it' = true \/ t_cols it' = t_cols it) /\ (t_new it = true -> t_new it' = true) /\ t_end it' = t_end it /\ t_in it' = t_in it.
Proof using All.
  induction fs as [|f fs IH]; intros vs it i K H L Im; inversion H as [|? v ? vs' Hv H']; subst.
  - exists it. cbn [Csv.set_fields]. split; [reflexivity|]. split; [exact K|]. split; [intros [|j] ? ? Q; discriminate|auto 10].
  - cbn [length] in L. destruct (nth_error cols i) as [ci|] eqn:Ei; [|apply nth_error_None in Ei; lia].
    destruct (field_ok it i ci f v K Ei) as (it1 & A1 & A2 & (cell & A3 & A4) & A5 & A6 & A7 & A8 & A9); [apply (Im 0%nat); [reflexivity|now rewrite Nat.add_0_r]|exact Hv|].
    destruct (IH vs' it1 (S i) A2 H') as (it2 & B1 & B2 & B3 & B4 & B5 & B6 & B7 & B8); [lia|intros j w cj Hw Hc; apply (Im (S j)); [exact Hw|now rewrite Nat.add_succ_r]|].
    exists it2. cbn [Csv.set_fields]. rewrite A1. cbn [bind]. split; [exact B1|]. split; [exact B2|]. split; [|split; [|split; [|split; [auto|split; congruence]]]].
    + intros [|j] w cj Hw Hc.
      * rewrite Nat.add_0_r in *. cbn in Hw. assert (w = v) by congruence. assert (cj = ci) by congruence. subst. exists cell. rewrite B4 by lia. auto.
      * rewrite Nat.add_succ_r in *. apply (B3 j w cj Hw Hc).
    + intros j Hj. rewrite B4 by lia. apply A5. exact Hj.
    + destruct B5 as [B5|B5]; [now left|]. destruct A6 as [A6|A6]; [left; auto|right; congruence].
Qed.

Definition row_stored (vs : list (list Z)) (r : arow) : Prop :=
  Forall2 like cols (fst r) /\ Forall2 sized (fst r) (snd r) /\
  forall j v ci, nth_error vs j = Some v -> nth_error cols j = Some ci -> exists cell, nth_error (snd r) j = Some cell /\ stored (ci_type ci) v cell.

Lemma next_row_ok it l ls fs vs : tok it -> t_end it = false -> text_lines (l :: ls) (t_in it) -> line_of delim fs l -> Forall2 holds fs vs ->
  Forall2 (fun ci v => importable (ci_type ci) v) cols vs ->
  exists it', text_next it = Ok it' /\ tok it' /\ t_end it' = false /\ text_lines ls (t_in it') /\ row_stored vs (t_cols it', t_last it') /\
    (t_new it' = true \/ t_cols it' = t_cols it).
Proof using All.
  intros K E T L H Im. destruct (get_line_cons _ _ _ T (line_no_newline _ _ _ Hdelim L)) as (rest & G & Tr).
  destruct (trim_line _ _ _ _ L H) as (fs' & L' & H'). unfold Csv.text_next. rewrite E, G, (split_line _ _ _ L').
  assert (Lf : length fs' = length cols) by (rewrite (TableProofs.Forall2_length _ _ _ H'); symmetry; apply (TableProofs.Forall2_length _ _ _ Im)).
  assert (fs' <> []) as Hne by (inversion L'; discriminate). destruct (Nat.eqb_spec (length fs') 0) as [Q|_]; [destruct fs'; [congruence|discriminate]|].
  pose proof K as [K1 K2]. rewrite <- (TableProofs.Forall2_length _ _ _ K1), Lf, Nat.eqb_refl. cbn [assert bind].
  match goal with |- context [Csv.set_fields _ _ _ _ _ ?x _ _] => set (it0 := x) end.
  destruct (fields_ok fs' vs it0 0) as (it' & A1 & A2 & A3 & A4 & A5 & A6 & A7 & A8); auto.
  { split; assumption. }
  { intros j v ci Hv Hc. eapply (Forall2_at (fun ci v => importable (ci_type ci) v)); eauto. }
  exists it'. split; [exact A1|]. split; [exact A2|]. split; [now rewrite A7|]. split; [now rewrite A8|]. split; [|exact A5]. pose proof A2 as [B1 B2]. split; [exact B1|]. split; [exact B2|]. exact A3.
Qed.

Lemma next_end_ok it : t_end it = false -> text_lines [] (t_in it) -> exists it', text_next it = Ok it' /\ t_end it' = true /\ t_cols it' = t_cols it.
Proof using All. intros E T. unfold Csv.text_next. rewrite E, (get_line_nil _ T). cbn. eexists. split; [reflexivity|]. split; reflexivity. Qed.

(** The iterator is at the first of these rows. *)
Fixpoint at_rows (it : titer) (rows : list arow) : Prop :=
  match rows with
  | [] => t_end it = true
  | r :: rest => t_end it = false /\ r = (t_cols it, t_last it) /\
      exists it1, text_next it = Ok it1 /\ at_rows it1 rest /\ (t_end it1 = false -> t_new it1 = true \/ t_cols it1 = t_cols it)
  end.

Lemma trace_ok : forall lines fss vss it, tok it -> t_end it = false -> text_lines lines (t_in it) -> Forall2 (line_of delim) fss lines -> Forall2 (Forall2 holds) fss vss ->
  Forall (Forall2 (fun ci v => importable (ci_type ci) v) cols) vss ->
  exists it1 rows, text_next it = Ok it1 /\ at_rows it1 rows /\ Forall2 row_stored vss rows /\ (t_end it1 = false -> t_new it1 = true \/ t_cols it1 = t_cols it).
Proof using All.
  induction lines as [|l lines IH]; intros fss vss it K E T L H Im; inversion L as [|fs ? fss' ? L1 L2]; subst; inversion H as [|? vs ? vss' H1 H2]; subst.
  - destruct (next_end_ok it E T) as (it1 & A1 & A2 & A3). exists it1, []. repeat split; auto.
  - inversion Im as [|? ? I1 I2]; subst. destruct (next_row_ok it l lines fs vs K E T L1 H1 I1) as (it1 & A1 & A2 & A3 & A4 & A5 & A6).
    destruct (IH fss' vss' it1 A2 A3 A4 L2 H2 I2) as (it2 & rows & B1 & B2 & B3 & B4). exists it1, ((t_cols it1, t_last it1) :: rows).
    split; [exact A1|]. split; [|split; [constructor; auto|auto]]. cbn [at_rows]. split; [exact A3|]. split; [reflexivity|]. exists it2. auto.
Qed.
End Rows.
