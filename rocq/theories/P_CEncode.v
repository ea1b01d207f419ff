(** C50: encoding through the C API. *)
From Coq Require Import String.
From Verif Require Import Spec Base Fp Stream StreamProofs StreamLocal Codec Meta Header Encoder Table TableProofs Strided P_Strided CEncoder CEncSpec
  ReaderProofs Through P_Encode.
Open Scope Z_scope.
Local Notation length := List.length.

(** ** Histories *)

Lemma fill_array_length m major width height base : forall infos cols offset, length (fst (fill_array m major width height base offset infos cols)) = length cols.
Proof.
  induction infos as [|ci infos IH]; intros cols offset; [reflexivity|]. destruct cols as [|c cols]; [reflexivity|]. cbn [fill_array].
  destruct (_ || _ || _); [reflexivity|]. destruct (negb _); [reflexivity|]. cbn [fst List.length]. now rewrite IH.
Qed.

Lemma fill_columns_spec : forall infos cols, let r := fill_columns infos cols in
  length (fst r) = length cols /\
  (Forall (fun ci => 0 <= ci_size ci /\ ci_size ci mod 8 = 0) infos ->
   Forall (fun c => 0 <= ec_stride c /\ ec_stride c mod 8 = 0) cols ->
   Forall (fun c => 0 <= ec_stride c /\ ec_stride c mod 8 = 0) (fst r)) /\
  (forall P : source -> Prop, Forall (fun c => P (ec_data c)) cols -> Forall (fun c => P (ec_data c)) (fst r)).
Proof.
  induction infos as [|ci infos IH]; intros cols; [cbn; auto|]. destruct cols as [|c cols]; [cbn; auto|]. cbn [fill_columns].
  destruct (IH cols) as (I1 & I2 & I3). destruct (ec_data c) as [|a|b|] eqn:E; [cbn; auto| | |].
  all: cbv zeta; cbn [ec_stride ec_data];
    match goal with |- context [if ?b then _ else _] => destruct b end; cbn [fst List.length]; (split; [lia|]); (split; [intros F1 F2|intros P F3]);
    try (inversion F1 as [|? ? A1 A2]; inversion F2 as [|? ? B1 B2]; subst); try (inversion F3 as [|? ? B1 B2]; subst);
    (constructor; [|first [assumption|apply I2; assumption|apply (I3 P); assumption]]); cbn [ec_stride ec_data]; try (destruct (ec_stride c =? 0); assumption); now rewrite <- E.
Qed.

Lemma release_nobuf e : Forall (fun c => match ec_data c with Buffer _ => False | _ => True end) (ce_cols (release e)).
Proof. unfold release. cbn [with_cols ce_cols]. apply Forall_forall. intros c Hc. apply in_map_iff in Hc as (c' & <- & _). cbn. now destruct (ec_data c'). Qed.

Lemma default_sizes infos : Forall (fun ci => 0 <= ci_size ci /\ ci_size ci mod 8 = 0) infos -> Forall (fun ci => 0 <= ci_size ci /\ ci_size ci mod 8 = 0) (map default_size infos).
Proof.
  intros H. apply Forall_forall. intros x Hx. apply in_map_iff in Hx as (ci & <- & Hi). rewrite Forall_forall in H. specialize (H ci Hi). unfold default_size.
  destruct (ci_size ci =? 0); [cbn; lia|assumption].
Qed.

Lemma put_length {A} (l : list A) i x : length (put l i x) = length l.
Proof. apply list_set_length. Qed.
Lemma put_forall {A} (P : A -> Prop) l i x : Forall P l -> P x -> Forall P (put l i x).
Proof.
  intros F Px. unfold put. revert i. induction F as [|y l Py F IH]; intros i; [destruct (Z.to_nat i); constructor|].
  destruct (Z.to_nat i) as [|k] eqn:E; cbn [list_set]; constructor; auto. specialize (IH (Z.of_nat k)). now rewrite Nat2Z.id in IH.
Qed.

Section H.
Variables (md5 : list Z -> list Z) (version : list Z) (st : settings).
Definition reached (calls : list call) : cencoder := fold_left (after md5 version st) calls new_encoder.

(** sizes are whole doubles, strides too, and a freed copy is only ever left behind in an
    encoder that has an array *)
Record sound (e : cencoder) : Prop := {
  so_len : length (ce_cols e) = length (ce_infos e);
  so_size : Forall (fun ci => 0 <= ci_size ci /\ ci_size ci mod 8 = 0) (ce_infos e);
  so_stride : ce_array e = None -> Forall (fun c => 0 <= ec_stride c /\ ec_stride c mod 8 = 0) (ce_cols e);
  so_src : ce_array e = None -> Forall (fun c => match ec_data c with Null | At _ => True | _ => False end) (ce_cols e);
  so_nobuf : Forall (fun c => match ec_data c with Buffer _ => False | _ => True end) (ce_cols e);
  so_pos : 0 <= ce_nrows e /\ 0 <= ce_width e /\ 0 <= ce_height e /\ 0 <= ce_max e
}.

Lemma handle_state m e : sound e -> sound (fst (encode_handle md5 version st m e)).
Proof.
  intros S0. unfold encode_handle. destruct (_ || _ || _); [exact S0|]. destruct (fill_in m e) as [e1 r] eqn:E. cbn [fst].
  assert (Q : ce_array e1 = ce_array e /\ ce_infos e1 = map default_size (ce_infos e) /\ length (ce_cols e1) = length (ce_cols e) /\
    ce_nrows e1 = ce_nrows e /\ ce_width e1 = ce_width e /\ ce_height e1 = ce_height e /\ ce_max e1 = ce_max e /\
    (ce_array e = None -> ce_cols e1 = fst (fill_columns (map default_size (ce_infos e)) (ce_cols e)))).
  { unfold fill_in in E. destruct (ce_array e) as [base|] eqn:Ea.
    - destruct (ce_height e <? ce_nrows e); [|destruct (ce_width e <? _)]; inversion E; subst e1; cbn; rewrite ?Ea; repeat split; try discriminate; apply fill_array_length.
    - inversion E; subst e1; cbn; rewrite Ea; repeat split. apply (fill_columns_spec (map default_size (ce_infos e)) (ce_cols e)). }
  destruct Q as (Q1 & Q2 & Q3 & Q4 & Q5 & Q6 & Q7 & Q8). destruct S0 as [S1 S2 S3 S4 S5 S6].
  destruct (fill_columns_spec (map default_size (ce_infos e)) (ce_cols e)) as (F1 & F2 & F3).
  constructor.
  - unfold release. cbn [with_cols ce_cols ce_infos]. rewrite map_length, Q3, Q2, map_length. exact S1.
  - unfold release; cbn [with_cols ce_infos]. rewrite Q2. now apply default_sizes.
  - unfold release; cbn [with_cols ce_array ce_cols]. intros N0. assert (N : ce_array e = None) by (rewrite <- Q1; exact N0). rewrite (Q8 N). specialize (F2 (default_sizes _ S2) (S3 N)). apply Forall_forall. intros c Hc.
    apply in_map_iff in Hc as (c' & <- & Hc'). cbn [ec_stride]. rewrite Forall_forall in F2. auto.
  - unfold release; cbn [with_cols ce_array ce_cols]. intros N0. assert (N : ce_array e = None) by (rewrite <- Q1; exact N0). rewrite (Q8 N). specialize (F3 (fun s => match s with Null | At _ => True | _ => False end) (S4 N)). apply Forall_forall. intros c Hc.
    apply in_map_iff in Hc as (c' & <- & Hc'). cbn [ec_data]. rewrite Forall_forall in F3. specialize (F3 c' Hc'). now destruct (ec_data c').
  - apply release_nobuf.
  - unfold release; cbn [with_cols ce_nrows ce_width ce_height ce_max]. rewrite Q4, Q5, Q6, Q7. exact S6.
Qed.

Lemma to_size_pos x : 0 <= to_size x.
Proof. apply Z.mod_pos_bound. lia. Qed.

Lemma after_sound e c : sound e -> sound (after md5 version st e c).
Proof.
  intros S0. destruct c; cbn [after].
  - destruct S0; constructor; assumption.
  - destruct S0; constructor; try assumption. cbn. pose proof (to_size_pos n). tauto.
  - destruct S0; constructor; try assumption. cbn. pose proof (to_size_pos n). tauto.
  - unfold set_data_array. pose proof (to_size_pos width). pose proof (to_size_pos height). destruct S0 as [S1 S2 S3 S4 S5 S6].
    assert (R : forall l : list ecol, Forall (fun c => 0 <= ec_stride c /\ ec_stride c mod 8 = 0) (map (fun _ => {| ec_data := Null; ec_stride := 0 |}) l) /\
      forall P : source -> Prop, P Null -> Forall (fun c => P (ec_data c)) (map (fun _ => {| ec_data := Null; ec_stride := 0 |}) l)).
    { intros l. split; [|intros P HP]; induction l; constructor; cbn; auto; split; [lia|reflexivity]. }
    destruct (ce_array e) as [base|] eqn:Ea, (Z.rem major 8 =? 0); cbn [fst]; constructor; cbn [with_cols ce_cols ce_infos ce_array ce_nrows ce_width ce_height ce_max];
      rewrite ?map_length; auto; try (intros _; apply (R (ce_cols e))); try (destruct (ce_nrows e =? 0); tauto); try (rewrite Ea; discriminate).
    + intros _. now apply (proj2 (R (ce_cols e)) (fun s => match s with Null | At _ => True | _ => False end)).
    + now apply (proj2 (R (ce_cols e)) (fun s => match s with Buffer _ => False | _ => True end)).
    + now apply (proj2 (R (ce_cols e)) (fun s => match s with Buffer _ => False | _ => True end)).
  - destruct S0 as [S1 S2 S3 S4 S5 S6]. constructor; cbn [add_column with_cols with_infos ce_cols ce_infos ce_array ce_nrows ce_width ce_height ce_max].
    + rewrite !app_length, S1. reflexivity.
    + apply Forall_app. split; [assumption|]. constructor; [cbn; split; [lia|reflexivity]|constructor].
    + intros N. apply Forall_app. split; [auto|]. constructor; [cbn; split; [lia|reflexivity]|constructor].
    + intros N. apply Forall_app. split; [auto|]. constructor; [exact I|constructor].
    + apply Forall_app. split; [auto|]. constructor; [exact I|constructor].
    + exact S6.
  - unfold column_set_data_size. destruct (col_at e col) as [ci| |]; cbn [bind kept]; try exact S0. destruct (whole_doubles size) eqn:W; cbn [assert bind kept]; [|exact S0].
    destruct S0 as [S1 S2 S3 S4 S5 S6]. constructor; cbn [with_infos ce_cols ce_infos ce_array ce_nrows ce_width ce_height ce_max]; rewrite ?put_length; auto.
    apply put_forall; [assumption|]. cbn. unfold whole_doubles in W. lia.
  - unfold column_set_data_array. destruct (col_at e col) as [ci| |]; cbn [bind kept]; try exact S0. destruct (whole_doubles size) eqn:W; cbn [assert bind kept]; [|exact S0].
    destruct (whole_doubles stride) eqn:W'; cbn [assert bind kept]; [|exact S0].
    destruct S0 as [S1 S2 S3 S4 S5 S6]. constructor; cbn [with_infos with_cols ce_cols ce_infos ce_array ce_nrows ce_width ce_height ce_max]; rewrite ?put_length; auto.
    + apply put_forall; [assumption|]. cbn. unfold whole_doubles in W. lia.
    + intros N. apply put_forall; [auto|]. cbn. unfold whole_doubles in W'. lia.
    + intros N. apply put_forall; [auto|]. now destruct data.
    + apply put_forall; [auto|]. now destruct data.
  - unfold column_add_bitfield. destruct (col_at e col) as [ci| |] eqn:Ec; cbn [bind kept]; try exact S0. destruct (to_size _ <=? 32); cbn [assert bind kept]; [|exact S0].
    destruct S0 as [S1 S2 S3 S4 S5 S6]. constructor; cbn [with_infos ce_cols ce_infos ce_array ce_nrows ce_width ce_height ce_max]; rewrite ?put_length; auto.
    apply put_forall; [assumption|]. cbn. unfold col_at in Ec. destruct (0 <=? col); [|discriminate]. destruct (nth_error (ce_infos e) (Z.to_nat col)) as [ci'|] eqn:En; [|discriminate].
    inversion Ec; subst ci'. rewrite Forall_forall in S2. apply S2. eapply nth_error_In; eassumption.
  - now apply handle_state.
Qed.

Lemma reached_sound calls : sound (reached calls).
Proof.
  unfold reached. assert (X : forall e, sound e -> sound (fold_left (after md5 version st) calls e)).
  { induction calls as [|c calls IH]; intros e He; [exact He|]. cbn [fold_left]. apply IH. now apply after_sound. }
  apply X. constructor; cbn; auto; lia.
Qed.
End H.

(** ** Transposed copies *)

Lemma concat_blocks {A} k : forall (ls : list (list A)), Forall (fun l => length l = k) ls -> length (concat ls) = (length ls * k)%nat.
Proof. induction ls as [|l ls IH]; intros F; [reflexivity|]. inversion F; subst. cbn [concat List.length]. rewrite app_length, IH by assumption. lia. Qed.

Lemma nth_blocks {A} (d : A) k : (0 < k)%nat -> forall (ls : list (list A)) j, Forall (fun l => length l = k) ls -> nth j (concat ls) d = nth (j mod k) (nth (j / k) ls []) d.
Proof.
  intros Hk. induction ls as [|l ls IH]; intros j F; [cbn [concat]; rewrite (nth_overflow []) by (cbn; lia); destruct (j / k)%nat; destruct (j mod k)%nat; reflexivity|].
  inversion F as [|? ? F1 F2]; subst. cbn [concat]. destruct (Nat.lt_ge_cases j (length l)) as [L|L].
  - rewrite app_nth1 by assumption. rewrite Nat.div_small, Nat.mod_small by assumption. reflexivity.
  - rewrite app_nth2 by assumption. rewrite IH by assumption.
    assert (D : j = (j - length l + 1 * length l)%nat) by lia. rewrite D at 3 4. rewrite Nat.div_add, Nat.mod_add by lia. rewrite Nat.add_1_r. reflexivity.
Qed.

Lemma nth_map_seq {A} (f : nat -> A) n j d : (j < n)%nat -> nth j (map f (seq 0 n)) d = f j.
Proof. intros H. rewrite nth_indep with (d' := f 0%nat) by (rewrite map_length, seq_length; lia). rewrite (map_nth f). rewrite seq_nth by lia. reflexivity. Qed.

Section T.
Variables (m : mem) (src : Z) (height elems width : nat).
Hypothesis (Hw : (0 < width)%nat) (He : (0 < elems)%nat).
Let piece_at y x := load m (src + (Z.of_nat y + Z.of_nat x * Z.of_nat height) * Z.of_nat width) width.
Let row y := concat (map (piece_at y) (seq 0 elems)).
Let buf := concat (map row (seq 0 height)).

Lemma row_length y : length (row y) = (elems * width)%nat.
Proof using. unfold row. rewrite (concat_blocks width), map_length, seq_length; [reflexivity|]. apply Forall_forall. intros l Hl. apply in_map_iff in Hl as (x & <- & _). apply load_length. Qed.

Lemma buf_length : length buf = (height * (elems * width))%nat.
Proof using. unfold buf. rewrite (concat_blocks (elems * width)), map_length, seq_length; [reflexivity|]. apply Forall_forall. intros l Hl. apply in_map_iff in Hl as (x & <- & _). apply row_length. Qed.

Lemma row_nth y b : (b < elems * width)%nat -> nth b (row y) 0 = m (src + (Z.of_nat (b / width) * Z.of_nat height + Z.of_nat y) * Z.of_nat width + Z.of_nat (b mod width)).
Proof using Hw He.
  intros Hb. unfold row. rewrite (nth_blocks 0 width) by (try lia; apply Forall_forall; intros l Hl; apply in_map_iff in Hl as (x & <- & _); apply load_length).
  rewrite nth_map_seq by (apply Nat.div_lt_upper_bound; lia). unfold piece_at. rewrite load_nth by (apply Nat.mod_upper_bound; lia). f_equal. lia.
Qed.

Lemma buf_row y : (y < height)%nat -> firstn (elems * width) (skipn (y * (elems * width)) buf) = row y.
Proof using Hw He.
  intros Hy. assert (0 < elems * width)%nat by nia. pose proof buf_length as L. assert (y * (elems * width) + elems * width <= height * (elems * width))%nat by nia.
  apply nth_ext with (d := 0) (d' := 0); [rewrite firstn_length, skipn_length, row_length, L; lia|].
  intros j Hj. rewrite firstn_length, skipn_length, L in Hj. rewrite nth_firstn by lia. rewrite nth_skipn. unfold buf.
  rewrite (nth_blocks 0 (elems * width)) by (try assumption; apply Forall_forall; intros l Hl; apply in_map_iff in Hl as (x & <- & _); apply row_length).
  assert (Q : ((y * (elems * width) + j) / (elems * width) = y)%nat) by (symmetry; apply Nat.div_unique with (r := j); nia).
  assert (Q' : ((y * (elems * width) + j) mod (elems * width) = j)%nat) by (symmetry; apply Nat.mod_unique with (q := y); nia).
  rewrite Q, Q', nth_map_seq by assumption. reflexivity.
Qed.
End T.

(** ** Columns of an array *)

Definition placed (m : mem) (major width height a : Z) (ci : colinfo) : ecol :=
  if major =? 0 then {| ec_data := At a; ec_stride := width |}
  else {| ec_data := if ci_size ci =? major then At a else Buffer (transposed m a height major (ci_size ci)); ec_stride := ci_size ci |}.

Definition before_sizes (infos : list colinfo) (i : nat) : Z := sum (map ci_size (firstn i infos)).

Lemma fill_array_spec m major width height base : forall infos cols offset, length cols = length infos ->
  let r := fill_array m major width height base offset infos cols in
  (snd r = Ok tt \/ exists x, snd r = Throw x) /\
  (snd r = Ok tt -> Forall unset cols /\ (major = 0 -> infos <> [] -> width mod 8 = 0) /\ forall i ci, nth_error infos i = Some ci ->
     nth_error (fst r) i = Some (placed m major width height (base + offset + before_sizes infos i * (if major =? 0 then 1 else height)) ci)) /\
  (Forall unset cols -> Forall (fun ci => ci_size ci mod 8 = 0) infos -> (major = 0 -> width mod 8 = 0) -> snd r = Ok tt).
Proof.
  induction infos as [|ci infos IH]; intros cols offset L; destruct cols as [|c cols]; try discriminate L.
  - cbn. split; [now left|]. split; [|auto]. intros _. split; [constructor|]. split; [congruence|]. intros [|i] ci; discriminate.
  - cbn [fill_array]. destruct (negb (ci_size ci mod 8 =? 0)) eqn:E1.
    { cbn [orb fst snd]. split; [right; eauto|]. split; [discriminate|]. intros _ F. inversion F; subst. lia. }
    destruct (negb (match ec_data c with Null => true | _ => false end)) eqn:E2.
    { cbn [orb fst snd]. split; [right; eauto|]. split; [discriminate|]. intros F. inversion F as [|? ? [U _] _]; subst. rewrite U in E2. discriminate. }
    destruct (negb (ec_stride c =? 0)) eqn:E3.
    { cbn [orb fst snd]. split; [right; eauto|]. split; [discriminate|]. intros F. inversion F as [|? ? [_ U] _]; subst. lia. }
    assert (U : unset c) by (split; [destruct (ec_data c); try discriminate; reflexivity|lia]).
    cbn [orb]. fold (placed m major width height (base + offset) ci). cbv zeta.
    destruct (negb (ec_stride (placed m major width height (base + offset) ci) mod 8 =? 0)) eqn:E4.
    { cbn [fst snd]. split; [right; eauto|]. split; [discriminate|]. intros _ _ W. unfold placed in E4. destruct (Z.eqb_spec major 0) as [Z|Z]; cbn [ec_stride] in E4; [specialize (W Z); lia|lia]. }
    destruct (IH cols (offset + (if major =? 0 then ci_size ci else ci_size ci * height)) ltac:(cbn in L; lia)) as (I1 & I2 & I3). cbn [fst snd]. split; [exact I1|]. split.
    + intros Q. destruct (I2 Q) as (A & B & C). split; [now constructor|]. split.
      * intros Z _. unfold placed in E4. rewrite Z in E4. cbn in E4. lia.
      * intros [|i] ci' Hi; cbn [nth_error] in *.
        -- inversion Hi; subst ci'. unfold before_sizes. cbn [firstn map sum fold_right]. f_equal. f_equal. lia.
        -- rewrite (C i ci' Hi). f_equal. f_equal. unfold before_sizes. cbn [firstn map]. unfold sum. cbn [fold_right]. destruct (major =? 0); lia.
    + intros F1 F2 W. inversion F1; inversion F2; subst. auto.
Qed.

Lemma fill_columns_spec2 : forall infos cols, length cols = length infos -> Forall (fun ci => 0 <= ci_size ci /\ ci_size ci mod 8 = 0) infos ->
  Forall (fun c => 0 <= ec_stride c /\ ec_stride c mod 8 = 0) cols ->
  let r := fill_columns infos cols in
  (snd r = Ok tt \/ exists x, snd r = Throw x) /\ (snd r = Ok tt <-> Forall (fun c => ec_data c <> Null) cols) /\
  (snd r = Ok tt -> forall i ci c, nth_error infos i = Some ci -> nth_error cols i = Some c ->
     nth_error (fst r) i = Some {| ec_data := ec_data c; ec_stride := if ec_stride c =? 0 then ci_size ci else ec_stride c |}).
Proof.
  induction infos as [|ci infos IH]; intros cols L F1 F2; destruct cols as [|c cols]; try discriminate L.
  - cbn. split; [now left|]. split; [split; constructor|]. intros _ [|i] ci c; discriminate.
  - inversion F1 as [|? ? A1 A2]; inversion F2 as [|? ? B1 B2]; subst. cbn in L. destruct (IH cols ltac:(lia) A2 B2) as (I1 & I2 & I3). cbn [fill_columns].
    assert (Q : negb ((if ec_stride c =? 0 then ci_size ci else ec_stride c) mod 8 =? 0) || negb (ci_size ci mod 8 =? 0) = false) by (destruct (ec_stride c =? 0); lia).
    destruct (ec_data c) as [|a|b|] eqn:E; cbv zeta; cbn [ec_stride ec_data]; rewrite ?Q; cbn [fst snd].
    { split; [right; eauto|]. split; [split; [discriminate|intros F; inversion F; congruence]|discriminate]. }
    all: (split; [exact I1|]); (split; [rewrite I2; split; intros F; [constructor; [congruence|assumption]|now inversion F]|]);
      intros K [|i] ci' c' Hi Hc; cbn [nth_error] in *; [inversion Hi; inversion Hc; subst; now rewrite E|now apply I3].
Qed.

Lemma map_out_nth {A B} (f : A -> outcome B) : forall l l', length l = length l' -> (forall i x y, nth_error l i = Some x -> nth_error l' i = Some y -> f x = Ok y) -> map_out f l = Ok l'.
Proof.
  induction l as [|x l IH]; intros [|y l'] L H; try discriminate; [reflexivity|]. cbn [map_out]. rewrite (H 0%nat x y eq_refl eq_refl). cbn [bind].
  rewrite (IH l'); [reflexivity|cbn in L; lia|]. intros i. exact (H (S i)).
Qed.

Lemma map_out_map {A B} (f : A -> outcome B) (g : A -> B) : forall l, (forall x, In x l -> f x = Ok (g x)) -> map_out f l = Ok (map g l).
Proof.
  induction l as [|x l IH]; intros H; [reflexivity|]. cbn [map_out map]. rewrite (H x) by now left. cbn [bind]. rewrite IH; [reflexivity|]. intros y Hy. apply H. now right.
Qed.

Lemma signed_small r : Z.of_nat r < 2 ^ 31 -> signed 32 (Z.of_nat r mod 2 ^ 32) = Z.of_nat r.
Proof. intros H. rewrite Z.mod_small by lia. unfold signed. destruct (Z.ltb_spec (Z.of_nat r) (2 ^ (32 - 1))); lia. Qed.

Lemma load_map m a n : load m a n = map (fun b => m (a + Z.of_nat b)) (seq 0 n).
Proof. reflexivity. Qed.

Lemma element_placed m major width height a ci r : 0 < ci_size ci -> Z.of_nat r < 2 ^ 31 -> Z.of_nat r < height ->
  major = 0 \/ 0 < major < 2 ^ 31 /\ ci_size ci mod major = 0 ->
  element m (ci_size ci) (placed m major width height a ci) r =
  Ok (map (fun b => m (if major =? 0 then a + Z.of_nat r * width + Z.of_nat b
                       else a + (Z.of_nat b / major * height + Z.of_nat r) * major + Z.of_nat b mod major)) (seq 0 (Z.to_nat (ci_size ci)))).
Proof.
  intros Hs Hr Hh Hm. unfold element, placed. destruct (Z.eqb_spec major 0) as [E|E].
  - cbn [ec_data ec_stride]. rewrite signed_small, load_map by assumption. reflexivity.
  - destruct Hm as [Hm|[Hm1 Hm2]]; [contradiction|]. cbn [ec_data ec_stride]. rewrite signed_small by assumption. destruct (Z.eqb_spec (ci_size ci) major) as [Es|Es].
    + rewrite load_map. f_equal. apply map_ext_in. intros b Hb. apply in_seq in Hb. rewrite Es in *. rewrite Z.div_small, Z.mod_small by lia. f_equal; lia.
    + assert (T : transposed m a height major (ci_size ci) =
        concat (map (fun y => concat (map (fun x => load m (a + (Z.of_nat y + Z.of_nat x * Z.of_nat (Z.to_nat height)) * Z.of_nat (Z.to_nat major)) (Z.to_nat major)) (seq 0 (Z.to_nat (ci_size ci / major))))) (seq 0 (Z.to_nat height)))).
      { unfold transposed, to_size. rewrite (Z.mod_small major) by lia. rewrite !Z2Nat.id by lia. reflexivity. }
      assert (D : ci_size ci = major * (ci_size ci / major)) by (apply Z_div_exact_full_2; lia). set (q := ci_size ci / major) in *.
      assert (Hq : 0 < q) by nia.
      assert (W : (0 < Z.to_nat major)%nat) by lia. assert (W' : (0 < Z.to_nat q)%nat) by lia.
      pose proof (buf_length m a (Z.to_nat height) (Z.to_nat q) (Z.to_nat major)) as BL. cbv beta zeta in BL. rewrite <- T in BL.
      pose proof (buf_row m a (Z.to_nat height) (Z.to_nat q) (Z.to_nat major) W W' r ltac:(lia)) as BR. cbv beta zeta in BR. rewrite <- T in BR.
      assert (Sz : (Z.to_nat q * Z.to_nat major = Z.to_nat (ci_size ci))%nat) by (rewrite D, Z2Nat.inj_mul by lia; lia).
      rewrite Sz in BL, BR.
      replace ((0 <=? Z.of_nat r * ci_size ci) && (Z.of_nat r * ci_size ci + ci_size ci <=? Z.of_nat (List.length (transposed m a height major (ci_size ci))))) with true.
      2:{ symmetry. apply andb_true_intro. split; [apply Z.leb_le; nia|]. apply Z.leb_le. rewrite BL, Nat2Z.inj_mul, !Z2Nat.id by lia. nia. }
      replace (Z.to_nat (Z.of_nat r * ci_size ci)) with (r * Z.to_nat (ci_size ci))%nat by (rewrite Z2Nat.inj_mul, Nat2Z.id by lia; reflexivity).
      rewrite BR. f_equal. apply nth_ext with (d := 0) (d' := 0).
      { rewrite map_length, seq_length. pose proof (row_length m a (Z.to_nat height) (Z.to_nat q) (Z.to_nat major) r) as RL. cbv beta zeta in RL. rewrite RL. exact Sz. }
      intros b Hb. pose proof (row_length m a (Z.to_nat height) (Z.to_nat q) (Z.to_nat major) r) as RL. cbv beta zeta in RL. rewrite RL, Sz in Hb.
      pose proof (row_nth m a (Z.to_nat height) (Z.to_nat q) (Z.to_nat major) W W' r b ltac:(lia)) as RN. cbv beta zeta in RN. rewrite RN. rewrite nth_map_seq by assumption.
      f_equal. rewrite Nat2Z.inj_div, Nat2Z.inj_mod, !Z2Nat.id by lia. reflexivity.
Qed.

Lemma default_described ci : default_size ci = described ci.
Proof. unfold default_size, described, value_size, with_size. destruct (ci_size ci =? 0); [reflexivity|now destruct ci]. Qed.

Lemma described_before infos i : before_sizes (map described infos) i = bytes_before infos i.
Proof. unfold before_sizes, bytes_before. rewrite firstn_map, map_map. reflexivity. Qed.

(** The data of the columns that [fill_in] has set up are the values. *)
Lemma data_values m e cols : length cols = length (ce_infos e) ->
  (forall i ci c, nth_error (ce_infos e) i = Some ci -> nth_error cols i = Some c -> forall r, (r < Z.to_nat (ce_nrows e))%nat ->
     element m (value_size ci) c r = Ok (map (fun b => m (value_byte e i r (Z.of_nat b))) (seq 0 (Z.to_nat (value_size ci))))) ->
  map_out (column_data m (Z.to_nat (ce_nrows e))) (combine (map described (ce_infos e)) cols) = Ok (table_values m e).
Proof.
  intros L H. apply map_out_nth; [unfold table_values; rewrite map_length, !combine_length, map_length, seq_length; lia|].
  intros i [ci' c] y Hx Hy. unfold table_values in Hy. rewrite nth_error_map in Hy.
  destruct (nth_error (combine (seq 0 (length (ce_infos e))) (ce_infos e)) i) as [[j ci]|] eqn:E; [|discriminate]. cbn [option_map] in Hy. inversion Hy; subst y. clear Hy.
  assert (N : forall A B (l : list A) (l' : list B) i a b, nth_error (combine l l') i = Some (a, b) -> nth_error l i = Some a /\ nth_error l' i = Some b).
  { clear. induction l as [|x l IH]; intros [|y l'] [|i] a b Q; cbn in Q; try discriminate; [inversion Q; auto|cbn; apply IH; assumption]. }
  apply N in Hx as [H1 H2]. apply N in E as [E1 E2].
  assert (j = i). { assert (i < length (ce_infos e))%nat by (apply nth_error_Some; congruence). apply (nth_error_nth _ _ 0%nat) in E1. rewrite seq_nth in E1 by assumption. lia. }
  subst j. rewrite nth_error_map, E2 in H1. cbn in H1. inversion H1; subst ci'. clear H1. cbn [fst snd]. unfold column_data, values. cbn [fst snd described ci_size].
  rewrite (map_out_map _ (fun r => map (fun b => m (value_byte e i r (Z.of_nat b))) (seq 0 (Z.to_nat (value_size ci))))); [reflexivity|].
  intros r Hr. apply in_seq in Hr. apply (H i ci c E2 H2). lia.
Qed.

Section E.
Variables (md5 : list Z -> list Z) (version : list Z) (st : settings).

Lemma handle_spec : forall m e, sound e -> readable e ->
  let r := snd (encode_handle md5 version st m e) in
  (configured e /\ encode_api md5 version (Z.to_nat (ce_nrows e)) st LE (map described (ce_infos e)) (table_values m e) (ce_props e) (Z.to_nat (ce_max e)) = Some r) \/
  (~ configured e /\ exists x, r = ([], Throw x)).
Proof using All.
  intros m e S0 [R1 R2] r. assert (Hr : r = snd (encode_handle md5 version st m e)) by reflexivity. clearbody r. pose proof S0 as [S1 S2 S3 S4 S5 (S6 & S7 & S8 & S9)]. unfold encode_handle in Hr.
  destruct (Z.eqb_spec (ce_nrows e) 0) as [Z1|Z1].
  { cbn [orb] in Hr. right. split; [unfold configured; lia|]. subst r. cbn. eauto. }
  rewrite S1, Nat.eqb_refl in Hr. cbn [negb orb] in Hr. destruct (Z.eqb_spec (ce_max e) 0) as [Z2|Z2].
  { right. split; [unfold configured; lia|]. subst r. cbn. eauto. }
  assert (VS : Forall (fun ci => 0 < value_size ci /\ value_size ci mod 8 = 0) (ce_infos e)).
  { eapply Forall_impl; [|exact S2]. intros ci [A B]. unfold value_size. destruct (Z.eqb_spec (ci_size ci) 0); [split; [lia|reflexivity]|lia]. }
  assert (DI : map default_size (ce_infos e) = map described (ce_infos e)) by (apply map_ext; apply default_described).
  assert (DS : Forall (fun ci => 0 <= ci_size ci /\ ci_size ci mod 8 = 0) (map described (ce_infos e))) by (rewrite <- DI; now apply default_sizes).
  destruct (fill_in m e) as [e1 x] eqn:E. unfold fill_in in E. rewrite DI in E.
  assert (EM : length (ce_cols e) = 0%nat <-> ce_infos e = []) by (rewrite S1; destruct (ce_infos e); cbn; split; congruence).
  assert (Done : forall cols', length cols' = length (ce_infos e) -> map_out (column_data m (Z.to_nat (ce_nrows e))) (combine (map described (ce_infos e)) cols') = Ok (table_values m e) ->
    ce_infos e <> [] -> encode_api md5 version (Z.to_nat (ce_nrows e)) st LE (map described (ce_infos e)) (table_values m e) (ce_props e) (Z.to_nat (ce_max e)) =
    Some (match map_out (column_data m (Z.to_nat (ce_nrows e))) (combine (map described (ce_infos e)) cols') with
              | Ok data =>
                  match encode_api md5 version (Z.to_nat (ce_nrows e)) st LE (map described (ce_infos e)) data (ce_props e) (Z.to_nat (ce_max e)) with
                  | Some x => x
                  | None => ([], UB)
                  end
              | Throw x => ([], Throw x)
              | UB => ([], UB)
              end)).
  { intros cols' L Q NE. rewrite Q. destruct (C46_frames md5 version st LE (map described (ce_infos e)) (table_values m e) (ce_props e) (Z.to_nat (ce_nrows e)) (Z.to_nat (ce_max e))) as (fs & res & H & _).
    - lia.
    - unfold rectangular, table_values. split; [rewrite !map_length, combine_length, seq_length; lia|]. split.
      + destruct (ce_infos e); [congruence|discriminate].
      + apply Forall_forall. intros d Hd. apply in_map_iff in Hd as (ic & <- & _). unfold values. cbn [cd_cells]. now rewrite map_length, seq_length.
    - rewrite H by lia. reflexivity. }
  destruct (ce_array e) as [base|] eqn:Ea.
  - destruct (Z.ltb_spec (ce_height e) (ce_nrows e)) as [L1|L1].
    { inversion E; subst e1 x. right. split; [unfold configured; rewrite Ea; lia|]. subst r. cbn. eauto. }
    assert (W : fold_right Z.add 0 (map ci_size (map described (ce_infos e))) = bytes_per_row (ce_infos e)) by (unfold bytes_per_row, sum; now rewrite map_map).
    rewrite W in E. destruct (Z.ltb_spec (ce_width e) (bytes_per_row (ce_infos e))) as [L2|L2].
    { inversion E; subst e1 x. right. split; [unfold configured; rewrite Ea; lia|]. subst r. cbn. eauto. }
    destruct (fill_array_spec m (ce_major e) (ce_width e) (ce_height e) base (map described (ce_infos e)) (ce_cols e) 0 ltac:(rewrite map_length; exact S1)) as (F1 & F2 & F3).
    pose proof (fill_array_length m (ce_major e) (ce_width e) (ce_height e) base (map described (ce_infos e)) (ce_cols e) 0) as FL.
    set (fa := fill_array m (ce_major e) (ce_width e) (ce_height e) base 0 (map described (ce_infos e)) (ce_cols e)) in *.
    inversion E; subst e1 x. clear E. cbn [with_cols with_infos ce_infos ce_cols ce_nrows ce_props ce_max snd] in Hr. destruct F1 as [F1|[x F1]].
    2:{ rewrite F1 in Hr. right. split; [|subst r; eauto]. intros (_ & _ & _ & C). rewrite Ea in C. destruct C as (_ & _ & C1 & C2).
        rewrite F3 in F1; [discriminate|assumption| |assumption]. eapply Forall_impl; [|exact DS]. cbn. tauto. }
    rewrite F1 in Hr. destruct (F2 F1) as (U & Wd & P). rewrite FL in Hr. destruct (Nat.eqb_spec (length (ce_cols e)) 0) as [Z3|Z3].
    { right. split; [|subst r; eauto]. intros (_ & _ & C & _). apply C. now apply EM. }
    assert (NE : ce_infos e <> []) by (intros Q; apply Z3; now apply EM).
    left. split.
    { unfold configured. rewrite Ea. split; [lia|]. split; [lia|]. split; [assumption|]. split; [assumption|]. split; [assumption|]. split; [assumption|]. intros Q. apply Wd; [assumption|]. destruct (ce_infos e); [congruence|discriminate]. }
    rewrite Hr. apply Done; [now rewrite FL| |assumption]. apply data_values; [now rewrite FL|].
    intros i ci c Hi Hc r0 Hr0. assert (Hd : nth_error (map described (ce_infos e)) i = Some (described ci)) by (rewrite nth_error_map, Hi; reflexivity).
    rewrite (P i _ Hd) in Hc. inversion Hc; subst c. clear Hc. rewrite Forall_forall in VS. destruct (VS ci (nth_error_In _ _ Hi)) as [V1 V2].
    change (value_size ci) with (ci_size (described ci)). rewrite element_placed; cbn [described ci_size]; try lia.
    2:{ destruct (R2 ltac:(discriminate)) as [Q|[Q1 Q2]]; [now left|right]. split; [exact Q1|]. rewrite Forall_forall in Q2. apply Q2. eapply nth_error_In; eassumption. }
    f_equal. apply map_ext. intros b. f_equal. unfold value_byte, array_byte. rewrite Ea, described_before. destruct (ce_major e =? 0); lia.
  - assert (C2 := fill_columns_spec2 (map described (ce_infos e)) (ce_cols e) ltac:(rewrite map_length; exact S1) DS (S3 eq_refl)).
    pose proof (proj1 (fill_columns_spec (map described (ce_infos e)) (ce_cols e))) as FL. cbv zeta in C2, FL.
    set (fa := fill_columns (map described (ce_infos e)) (ce_cols e)) in *. destruct C2 as (F1 & F2 & F3).
    assert (OW : Forall (fun c => ec_data c <> Null) (ce_cols e) <-> Forall own_array (ce_cols e)).
    { specialize (S4 eq_refl). rewrite !Forall_forall in *. split; intros H c Hc; specialize (H c Hc); specialize (S4 c Hc); unfold own_array in *.
      - destruct (ec_data c); try contradiction; try congruence; eauto.
      - destruct H as [a Ha]. congruence. }
    inversion E; subst e1 x. clear E. cbn [with_cols with_infos ce_infos ce_cols ce_nrows ce_props ce_max snd] in Hr. destruct F1 as [F1|[x F1]].
    2:{ rewrite F1 in Hr. right. split; [|subst r; eauto]. intros (_ & _ & _ & C). rewrite Ea in C. apply OW, F2 in C. congruence. }
    rewrite F1 in Hr. rewrite FL in Hr. destruct (Nat.eqb_spec (length (ce_cols e)) 0) as [Z3|Z3].
    { right. split; [|subst r; eauto]. intros (_ & _ & C & _). apply C. now apply EM. }
    assert (NE : ce_infos e <> []) by (intros Q; apply Z3; now apply EM). pose proof (proj1 OW (proj1 F2 F1)) as OA.
    left. split.
    { unfold configured. rewrite Ea. split; [lia|]. split; [lia|]. split; assumption. }
    rewrite Hr. apply Done; [now rewrite FL| |assumption]. apply data_values; [now rewrite FL|].
    intros i ci c Hi Hc r0 Hr0. assert (Hd : nth_error (map described (ce_infos e)) i = Some (described ci)) by (rewrite nth_error_map, Hi; reflexivity).
    destruct (nth_error (ce_cols e) i) as [c0|] eqn:H0.
    2:{ exfalso. apply nth_error_None in H0. assert (i < length (ce_infos e))%nat by (apply nth_error_Some; congruence). lia. }
    rewrite (F3 F1 i _ c0 Hd H0) in Hc. inversion Hc; subst c. clear Hc. rewrite Forall_forall in OA. destruct (OA c0 (nth_error_In _ _ H0)) as [a Ha].
    unfold element. cbn [ec_data ec_stride]. rewrite Ha, signed_small by lia. rewrite load_map. f_equal. apply map_ext. intros b. f_equal.
    unfold value_byte, column_byte. rewrite Ea, H0, Hi, Ha. reflexivity.
Qed.
End E.

(** ** The call is the encode() of the values, or is refused with nothing written *)

Theorem C50_encode : forall md5 version st calls m fuel, let e := reached md5 version st calls in
  readable e -> ce_nrows e <= Z.of_nat fuel ->
  let r := snd (encode_handle md5 version st m e) in
  (configured e -> encode_api md5 version fuel st LE (map described (ce_infos e)) (table_values m e) (ce_props e) (Z.to_nat (ce_max e)) = Some r) /\
  (~ configured e -> exists x, r = ([], Throw x)).
Proof.
  intros md5 version st calls m fuel e R Hf r. destruct (handle_spec md5 version st m e (reached_sound md5 version st calls) R) as [[C E]|[C E]]; fold r in E; [|split; [contradiction|auto]].
  split; [intros _|contradiction]. pose proof C as (C1 & C2 & C3 & _).
  destruct (C46_frames md5 version st LE (map described (ce_infos e)) (table_values m e) (ce_props e) (Z.to_nat (ce_nrows e)) (Z.to_nat (ce_max e))) as (fs & res & H & _).
  - lia.
  - unfold rectangular, table_values. split; [rewrite !map_length, combine_length, seq_length; lia|]. split.
    + destruct (ce_infos e); [congruence|discriminate].
    + apply Forall_forall. intros d Hd. apply in_map_iff in Hd as (ic & <- & _). unfold values. cbn [cd_cells]. now rewrite map_length, seq_length.
  - rewrite H in * by lia. exact E.
Qed.
Print Assumptions C50_encode.

(** ** Only the array is read *)

Lemma sum_nonneg l : Forall (fun x => 0 <= x) l -> 0 <= sum l.
Proof. induction 1; unfold sum in *; cbn; lia. Qed.

Lemma before_within infos i ci : Forall (fun ci => 0 < value_size ci) infos -> nth_error infos i = Some ci -> 0 <= bytes_before infos i /\ bytes_before infos i + value_size ci <= bytes_per_row infos.
Proof.
  intros F. revert i. induction F as [|c infos Hc F IH]; intros [|i] E; try discriminate; unfold bytes_before, bytes_per_row in *; cbn [nth_error firstn map] in *; unfold sum in *; cbn [fold_right].
  - inversion E; subst c. split; [lia|]. pose proof (sum_nonneg (map value_size infos)) as Q. unfold sum in Q. rewrite Forall_map in Q. assert (0 <= fold_right Z.add 0 (map value_size infos)); [|lia].
    apply Q. eapply Forall_impl; [|exact F]. cbn. lia.
  - destruct (IH i E). lia.
Qed.

Theorem C50_inside : forall md5 version st calls, let e := reached md5 version st calls in forall base, readable e -> configured e -> ce_array e = Some base ->
  forall i ci r b, nth_error (ce_infos e) i = Some ci -> Z.of_nat r < ce_nrows e -> 0 <= b < value_size ci ->
  base <= value_byte e i r b < base + ce_width e * ce_height e.
Proof.
  intros md5 version st calls e base R C Ea i ci r b Hi Hr Hb. pose proof (reached_sound md5 version st calls) as [_ S2 _ _ _ _]. fold e in S2.
  unfold configured in C. rewrite Ea in C. destruct C as (_ & _ & _ & H1 & H2 & _ & _). destruct R as [_ R]. specialize (R ltac:(congruence)).
  assert (VS : Forall (fun ci => 0 < value_size ci) (ce_infos e)).
  { eapply Forall_impl; [|exact S2]. intros c [A B]. unfold value_size. destruct (Z.eqb_spec (ci_size c) 0); lia. }
  destruct (before_within (ce_infos e) i ci VS Hi) as [B1 B2]. set (bi := bytes_before (ce_infos e) i) in *. set (s := value_size ci) in *.
  unfold value_byte, array_byte. rewrite Ea. fold bi. destruct (Z.eqb_spec (ce_major e) 0) as [M|M]; [nia|]. destruct R as [R|[R1 R2]]; [contradiction|].
  rewrite Forall_forall in R2. specialize (R2 ci (nth_error_In _ _ Hi)). fold s in R2.
  set (mj := ce_major e) in *. assert (D : s = mj * (s / mj)) by (apply Z_div_exact_full_2; lia). set (q := s / mj) in *.
  assert (0 <= b / mj < q) by (split; [apply Z.div_pos; lia|apply Z.div_lt_upper_bound; lia]). pose proof (Z.mod_pos_bound b mj ltac:(lia)).
  set (bq := b / mj) in *. set (bm := b mod mj) in *. set (ht := ce_height e) in *.
  assert (X : (bq * ht + Z.of_nat r) * mj + bm < s * ht). { assert ((bq * ht + Z.of_nat r) <= q * ht - 1) by nia. assert ((bq * ht + Z.of_nat r) * mj <= (q * ht - 1) * mj) by nia. nia. }
  assert ((bi + s) * ht <= ce_width e * ht) by nia. assert (0 <= (bq * ht + Z.of_nat r) * mj) by nia. nia.
Qed.
Print Assumptions C50_inside.

(** two memories that agree on the array give the same file *)
Theorem C50_reads : forall md5 version st calls m m', let e := reached md5 version st calls in forall base, readable e -> configured e -> ce_array e = Some base ->
  (forall a, base <= a < base + ce_width e * ce_height e -> m a = m' a) ->
  snd (encode_handle md5 version st m e) = snd (encode_handle md5 version st m' e).
Proof.
  intros md5 version st calls m m' e base R C Ea A.
  assert (T : table_values m e = table_values m' e).
  { unfold table_values. apply map_ext_in. intros [i ci] Hi. cbn [fst snd]. unfold values. f_equal. apply map_ext_in. intros r Hr. apply map_ext_in. intros b Hb. apply A.
    apply in_seq in Hr, Hb. pose proof C as (C1 & _). apply (C50_inside md5 version st calls base R C Ea i ci r); try (fold e; lia).
    apply In_nth_error in Hi as (j & Hj).
    assert (N : forall A B (l : list A) (l' : list B) i a b, nth_error (combine l l') i = Some (a, b) -> nth_error l i = Some a /\ nth_error l' i = Some b).
    { clear. induction l as [|x l IH]; intros [|y l'] [|i] a b Q; cbn in Q; try discriminate; [inversion Q; auto|cbn; apply IH; assumption]. }
    apply N in Hj as [E1 E2]. assert (j < length (ce_infos e))%nat by (apply nth_error_Some; congruence).
    apply (nth_error_nth _ _ 0%nat) in E1. rewrite seq_nth in E1 by assumption. replace i with j by lia. exact E2. }
  pose proof C as (C1 & _).
  destruct (C50_encode md5 version st calls m (Z.to_nat (ce_nrows e)) R ltac:(fold e; lia)) as [E _]. destruct (C50_encode md5 version st calls m' (Z.to_nat (ce_nrows e)) R ltac:(fold e; lia)) as [E' _].
  fold e in E, E'. specialize (E C). specialize (E' C). rewrite T in E. rewrite E in E'. now inversion E'.
Qed.
Print Assumptions C50_reads.

(** ** Outputs *)

(** A caller-supplied buffer is never overrun; the call succeeds if and only if the file
    fits and could be encoded, and then reports its length. *)
Theorem C50_buffer : forall md5 version st m e capacity, 0 <= capacity ->
  let r := snd (encode_handle md5 version st m e) in
  let o := snd (encode_buffer md5 version st m capacity e) in
  len (fst o) <= capacity /\ (exists rest, fst r = fst o ++ rest) /\
  (forall n, snd o = Ok n <-> snd r = Ok tt /\ len (fst r) <= capacity /\ n = len (fst r)) /\
  (forall n, snd o = Ok n -> fst o = fst r).
Proof.
  intros md5 version st m e capacity Hc r o. unfold encode_buffer in o. destruct (encode_handle md5 version st m e) as [e1 [b res]]. cbn [snd fst] in r. subst r. cbn [fst snd]. unfold len.
  destruct (Z.ltb_spec capacity (Z.of_nat (List.length b))) as [L|L]; cbn [fst snd] in o; subst o; cbn [fst snd].
  - split; [rewrite firstn_length; lia|]. split; [exists (skipn (Z.to_nat capacity) b); now rewrite firstn_skipn|]. split; [|discriminate].
    intros n. split; [discriminate|]. intros (_ & Q & _). lia.
  - split; [assumption|]. split; [exists []; now rewrite app_nil_r|]. split; [|auto]. intros n. destruct res as [[]|x|]; cbn [bind].
    + split; [intros Q; inversion Q; auto|intros (_ & _ & ->); reflexivity].
    + split; [discriminate|intros [Q _]; discriminate].
    + split; [discriminate|intros [Q _]; discriminate].
Qed.
Print Assumptions C50_buffer.

(** ** Bitfield members *)

Definition int_call (c : call) : Prop := match c with AddBitfield _ _ nbits => - 2 ^ 31 <= nbits < 2 ^ 31 | _ => True end.

(** every run of leading members occupies between 0 and 32 bits *)
Definition packed (ci : colinfo) : Prop := forall k, 0 <= bits_total (firstn k (ci_bits ci)) <= 32.

Lemma bits_total_snoc l x : bits_total (l ++ [x]) = bits_total l + snd x.
Proof. unfold bits_total. rewrite map_app, fold_right_app. cbn [map fold_right]. induction l as [|y l IH]; cbn [map fold_right]; lia. Qed.

Lemma after_packed md5 version st e c : int_call c -> Forall packed (ce_infos e) -> Forall packed (ce_infos (after md5 version st e c)).
Proof.
  intros I0 P. destruct c; cbn [after int_call] in *; try exact P.
  - unfold set_data_array. destruct (ce_array e), (Z.rem major 8 =? 0); exact P.
  - cbn [add_column with_cols with_infos ce_infos]. apply Forall_app. split; [exact P|]. constructor; [|constructor]. intros k. cbn [ci_bits]. rewrite firstn_nil. cbn. lia.
  - unfold column_set_data_size. destruct (col_at e col) as [ci| |] eqn:Ec; cbn [bind kept]; try exact P. destruct (whole_doubles size); cbn [assert bind kept]; [|exact P].
    cbn [with_infos ce_infos]. apply put_forall; [exact P|]. unfold col_at in Ec. destruct (0 <=? col); [|discriminate]. destruct (nth_error (ce_infos e) (Z.to_nat col)) as [ci'|] eqn:En; [|discriminate].
    inversion Ec; subst ci'. rewrite Forall_forall in P. exact (P ci (nth_error_In _ _ En)).
  - unfold column_set_data_array. destruct (col_at e col) as [ci| |] eqn:Ec; cbn [bind kept]; try exact P. destruct (whole_doubles size); cbn [assert bind kept]; [|exact P].
    destruct (whole_doubles stride); cbn [assert bind kept]; [|exact P].
    cbn [with_infos with_cols ce_infos]. apply put_forall; [exact P|]. unfold col_at in Ec. destruct (0 <=? col); [|discriminate]. destruct (nth_error (ce_infos e) (Z.to_nat col)) as [ci'|] eqn:En; [|discriminate].
    inversion Ec; subst ci'. rewrite Forall_forall in P. exact (P ci (nth_error_In _ _ En)).
  - unfold column_add_bitfield. destruct (col_at e col) as [ci| |] eqn:Ec; cbn [bind kept]; try exact P. destruct (to_size _ <=? 32) eqn:T; cbn [assert bind kept]; [|exact P].
    cbn [with_infos ce_infos]. apply put_forall; [exact P|]. unfold col_at in Ec. destruct (0 <=? col); [|discriminate]. destruct (nth_error (ce_infos e) (Z.to_nat col)) as [ci'|] eqn:En; [|discriminate].
    inversion Ec; subst ci'. rewrite Forall_forall in P. specialize (P ci (nth_error_In _ _ En)). intros k. cbn [ci_bits].
    pose proof (P (length (ci_bits ci))) as P0. rewrite firstn_all in P0. apply Z.leb_le in T. unfold to_size in T. rewrite <- Zplus_mod in T.
    assert (Q : 0 <= bits_total (ci_bits ci) + nbits <= 32).
    { destruct (Z.lt_ge_cases (bits_total (ci_bits ci) + nbits) 0) as [N|N]; [|rewrite Z.mod_small in T; lia].
      exfalso. rewrite <- (Z_mod_plus_full _ 1) in T. rewrite Z.mod_small in T; lia. }
    destruct (Nat.le_gt_cases k (length (ci_bits ci))) as [L|L].
    + rewrite firstn_app. replace (k - length (ci_bits ci))%nat with 0%nat by lia. cbn [firstn]. rewrite app_nil_r. apply P.
    + rewrite firstn_all2 by (rewrite app_length; cbn; lia). rewrite bits_total_snoc. exact Q.
  - unfold encode_handle. destruct (_ || _ || _); [exact P|]. destruct (fill_in m e) as [e1 r] eqn:E. cbn [fst release with_cols ce_infos].
    assert (Q : ce_infos e1 = map default_size (ce_infos e)).
    { unfold fill_in in E. destruct (ce_array e); [destruct (_ <? _); [|destruct (_ <? _)]|]; now inversion E. }
    unfold release. cbn [with_cols ce_infos]. rewrite Q. rewrite Forall_map. eapply Forall_impl; [|exact P]. intros ci Hci. unfold packed. unfold default_size. destruct (ci_size ci =? 0); exact Hci.
Qed.

Theorem C50_bitfields : forall md5 version st calls, Forall int_call calls ->
  Forall (fun ci => packed ci /\ Forall (fun b => - 32 <= snd b <= 32) (ci_bits ci)) (ce_infos (reached md5 version st calls)).
Proof.
  intros md5 version st calls F. unfold reached.
  assert (X : forall e, Forall packed (ce_infos e) -> Forall packed (ce_infos (fold_left (after md5 version st) calls e))).
  { induction F as [|c calls Hc F IH]; intros e He; [exact He|]. cbn [fold_left]. apply IH. now apply after_packed. }
  eapply Forall_impl; [|apply X; constructor]. intros ci P. split; [exact P|]. apply Forall_forall. intros b Hb. apply In_nth_error in Hb as (k & Hk).
  pose proof (P k) as P1. pose proof (P (S k)) as P2. rewrite <- (firstn_snoc b (ci_bits ci) k Hk), bits_total_snoc in P2. lia.
Qed.
Print Assumptions C50_bitfields.
