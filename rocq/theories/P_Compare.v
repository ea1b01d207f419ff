(** C43: comparing two files. *)
From Verif Require Import Base Fp FpProofs Stream StreamProofs StreamLocal Codec Meta Header Table Writer Reader RowReader Spec
  RealProofs RealColumn Comparator ComparatorSpec ComparatorProofs TableProofs.
Open Scope Z_scope.

(** ** Cells *)

Lemma bits_64 c : is64 (bits c).
Proof. unfold is64, bits. apply Z.mod_pos_bound. reflexivity. Qed.

Lemma is_missing_spec any c x : is_missing any c x = true <-> missing any c x.
Proof.
  unfold is_missing, missing, first_double, bits. rewrite Bool.andb_true_iff, Bool.orb_true_iff, Bool.negb_true_iff, Z.eqb_neq, Z.eqb_eq. tauto.
Qed.

Lemma nan_single v : is64 v -> is_nan f64 v = true -> is64 (as_single v) /\ is_fin f64 (as_single v) = false.
Proof.
  intros Hv N. pose proof (mag_range v Hv) as M.
  assert (L : forall a k n, 0 <= a < 2 ^ n -> 0 <= k < n -> 0 <= Z.lor a (2 ^ k) < 2 ^ n).
  { intros a k n Ha Hk. assert (0 <= Z.lor a (2 ^ k)) by (apply Z.lor_nonneg; split; [lia|apply Z.pow_nonneg; lia]).
    split; [assumption|]. destruct (Z.eq_dec (Z.lor a (2 ^ k)) 0) as [->|NZ]; [apply pow2_pos; lia|].
    apply Z.log2_lt_pow2; [lia|]. rewrite Z.log2_lor by (try apply Z.pow_nonneg; lia). rewrite Z.log2_pow2 by lia.
    destruct (Z.eq_dec a 0) as [->|]; [cbn; lia|]. apply Z.max_lub_lt; [apply Z.log2_lt_pow2; lia|lia]. }
  assert (LB : forall a k, 0 <= a -> 0 <= k -> 2 ^ k <= Z.lor a (2 ^ k)).
  { intros a k Ha Hk. assert (0 <= Z.lor a (2 ^ k)) by (apply Z.lor_nonneg; split; [lia|apply Z.pow_nonneg; lia]).
    destruct (Z.lt_ge_cases (Z.lor a (2 ^ k)) (2 ^ k)) as [G|]; [|assumption]. exfalso.
    destruct (Z.eq_dec (Z.lor a (2 ^ k)) 0) as [E|NZ].
    - apply Z.lor_eq_0_iff in E as [_ E]. pose proof (pow2_pos k Hk). lia.
    - assert (Z.log2 (Z.lor a (2 ^ k)) < k) by (apply Z.log2_lt_pow2; lia).
      rewrite Z.log2_lor in * by (try apply Z.pow_nonneg; lia). rewrite Z.log2_pow2 in * by lia. lia. }
  assert (D : exists s r, d2f v = s + (inf_mag f32 + r) /\ (s = 2 ^ 31 \/ s = 0) /\ 2 ^ 22 <= r < 2 ^ 23).
  { unfold d2f. rewrite N. eexists _, _. split; [reflexivity|]. split; [destruct (negb_ f64 v); auto|].
    assert (0 <= mag f64 v mod 2 ^ 52 / 2 ^ 29 < 2 ^ 23).
    { pose proof (Z.mod_pos_bound (mag f64 v) (2 ^ 52) ltac:(lia)). split; [apply Z.div_pos; lia|].
      apply Z.div_lt_upper_bound; lia. }
    split; [apply LB; lia|apply L; lia]. }
  destruct D as (s & r & E & Hs & Hr). unfold as_single. rewrite E. clear E.
  assert (I32 : inf_mag f32 = 2139095040) by reflexivity. assert (S32 : sign_bit f32 = 2 ^ 31) by reflexivity.
  assert (Mg : mag f32 (s + (inf_mag f32 + r)) = inf_mag f32 + r).
  { unfold mag, negb_. rewrite S32, I32. destruct Hs as [->| ->]; [destruct (Z.leb_spec (2 ^ 31) (2 ^ 31 + (2139095040 + r)))|destruct (Z.leb_spec (2 ^ 31) (0 + (2139095040 + r)))]; lia. }
  unfold f2d. rewrite Mg. assert (is_nan f32 (s + (inf_mag f32 + r)) = true) as -> by (unfold is_nan; rewrite Mg; lia).
  set (q := Z.lor ((inf_mag f32 + r) mod 2 ^ 23 * 2 ^ 29) (2 ^ 51)).
  assert (Q : 2 ^ 51 <= q < 2 ^ 52).
  { pose proof (Z.mod_pos_bound (inf_mag f32 + r) (2 ^ 23) ltac:(lia)). split; [apply LB; lia|apply L; lia]. }
  assert (I64 := inf64). set (s' := if negb_ f32 (s + (inf_mag f32 + r)) then 2 ^ 63 else 0).
  assert (Hs' : s' = 2 ^ 63 \/ s' = 0) by (unfold s'; destruct (negb_ _ _); auto).
  split; [unfold is64; rewrite I64; lia|]. unfold is_fin. apply Z.ltb_ge. unfold mag, negb_. rewrite sign64.
  destruct (Z.leb_spec (2 ^ 63) (s' + (inf_mag f64 + q))); lia.
Qed.

Lemma single_64 v : is64 v -> is64 (as_single v).
Proof.
  intros H. destruct (is_nan f64 v) eqn:N; [now apply nan_single|].
  unfold as_single. apply f2d_64; [now apply d2f_32|]. apply d2f_not_nan. now split.
Qed.

Lemma numbers_sound nans f a b : is64 (f a) -> is64 (f b) ->
  same (f a) (f b) || both_nan nans a b = true -> numbers closer nans f a b.
Proof.
  intros Ha Hb H. apply Bool.orb_true_iff in H as [H|H].
  - left. now apply same_closer.
  - right. unfold both_nan in H. apply andb_prop in H as [-> H]. apply andb_prop in H as [-> ->]. auto.
Qed.

Lemma numbers_complete nans f a b : is64 (f a) -> is64 (f b) ->
  numbers near nans f a b -> same (f a) (f b) || both_nan nans a b = true.
Proof.
  intros Ha Hb [(F1 & F2 & N)|(-> & N1 & N2)].
  - rewrite near_same by assumption. reflexivity.
  - unfold both_nan. rewrite N1, N2. apply Bool.orb_true_r.
Qed.

Lemma types_eqb t : (t =? ty_INTEGER) || (t =? ty_BITFIELD) || (t =? ty_DOUBLE) = true <->
  t = ty_INTEGER \/ t = ty_BITFIELD \/ t = ty_DOUBLE.
Proof. rewrite !Bool.orb_true_iff, !Z.eqb_eq. tauto. Qed.

Lemma cell_sound any nans c1 c2 x y : compare_cell any nans c1 c2 x y = true -> cells_agree closer any nans c1 c2 x y.
Proof.
  unfold compare_cell, cells_agree. rewrite <- !is_missing_spec.
  destruct (is_missing any c1 x), (is_missing any c2 y); cbn [Bool.eqb negb]; intros H; try discriminate; [auto|].
  right. split; [discriminate|]. split; [discriminate|].
  destruct (Z.eqb_spec (col_type c1) ty_STRING) as [E|_].
  { left. split; [exact E|]. now apply bytes_eqb_eq. }
  destruct (_ || _) eqn:E.
  { right. left. split; [now apply types_eqb|]. apply numbers_sound; [apply bits_64..|exact H]. }
  destruct (Z.eqb_spec (col_type c1) ty_REAL) as [E2|_]; [|discriminate].
  right. right. split; [exact E2|]. apply numbers_sound; [apply single_64, bits_64..|exact H].
Qed.

Lemma cell_complete any nans c1 c2 x y : cells_agree near any nans c1 c2 x y -> compare_cell any nans c1 c2 x y = true.
Proof.
  unfold compare_cell, cells_agree. rewrite <- !is_missing_spec. intros [[-> ->]|(M1 & M2 & H)]; [reflexivity|].
  destruct (is_missing any c1 x); [congruence|]. destruct (is_missing any c2 y); [congruence|]. cbn [Bool.eqb negb].
  destruct H as [[E H]|[[E H]|[E H]]].
  - rewrite E, H. cbn [Z.eqb Pos.eqb ty_STRING]. change (ty_STRING =? ty_STRING) with true. apply bytes_eqb_refl.
  - assert (col_type c1 =? ty_STRING = false) as -> by (destruct E as [->|[->| ->]]; reflexivity).
    apply types_eqb in E. rewrite E. apply (numbers_complete nans (fun v => v)); [apply bits_64..|exact H].
  - rewrite E. change (ty_REAL =? ty_STRING) with false. change (ty_REAL =? ty_REAL) with true.
    change ((ty_REAL =? ty_INTEGER) || (ty_REAL =? ty_BITFIELD) || (ty_REAL =? ty_DOUBLE)) with false. cbv iota.
    apply (numbers_complete nans as_single); [apply single_64, bits_64..|exact H].
Qed.

(** ** Columns and rows *)

Section Files.
Variables any nans : bool.
Variables no_type excluded : list (list Z).

Lemma listed_spec l n : listed l n = true <-> In n l.
Proof.
  unfold listed. rewrite existsb_exists. split.
  - intros (m & Hm & E). apply bytes_eqb_eq in E. now subst.
  - intros H. exists n. split; [exact H|apply bytes_eqb_refl].
Qed.

Lemma list_eqb_spec {A} (eqb : A -> A -> bool) : (forall x y, eqb x y = true <-> x = y) ->
  forall l m, list_eqb eqb l m = true <-> l = m.
Proof.
  intros H. induction l as [|x l IH]; intros [|y m]; cbn [list_eqb]; try (split; discriminate || reflexivity).
  rewrite Bool.andb_true_iff, H, IH. split; [intros [-> ->]; reflexivity|intros E; injection E as -> ->; auto].
Qed.

Lemma bytes_eqb_iff a b : bytes_eqb a b = true <-> a = b.
Proof. split; [apply bytes_eqb_eq|intros ->; apply bytes_eqb_refl]. Qed.

Lemma columns_match_spec c1 c2 : columns_match any no_type c1 c2 = true <->
  (In (col_name c1) no_type \/
      col_type c1 = col_type c2 /\
      (col_type c1 = ty_BITFIELD -> col_bfnames c1 = col_bfnames c2 /\ col_bfsizes c1 = col_bfsizes c2)) /\
   (any = true \/ c_hasMissing (col_coder c1) = c_hasMissing (col_coder c2)).
Proof.
  unfold columns_match. rewrite !Bool.andb_true_iff, !Bool.orb_true_iff, !Bool.andb_true_iff, Bool.orb_true_iff, Bool.andb_true_iff.
  rewrite listed_spec, Bool.negb_true_iff, !Z.eqb_eq, Z.eqb_neq, (list_eqb_spec _ bytes_eqb_iff), (list_eqb_spec Z.eqb Z.eqb_eq).
  destruct (Z.eq_dec (col_type c1) ty_BITFIELD); tauto.
Qed.

Notation cfrom := (compare_columns_from any no_type excluded).
Notation ccols := (compare_columns any no_type excluded).

Lemma cfrom_ok : forall cs1 cs2 i, length cs1 = length cs2 ->
  ((exists s, cfrom i cs1 cs2 = Ok s) <-> Forall2 (alike any no_type excluded) cs1 cs2).
Proof.
  induction cs1 as [|c1 cs1 IH]; intros [|c2 cs2] i L; try discriminate.
  { split; [constructor|]. intros _. now exists []. }
  cbn [compare_columns_from]. cbn [length] in L. specialize (IH cs2 (S i) ltac:(lia)).
  assert (X : forall P Q : Prop, (P <-> Q) -> P -> Q) by tauto.
  split.
  - intros (s & H). unfold assert in H. destruct (bytes_eqb (col_name c1) (col_name c2)) eqn:N; cbn [bind] in H; [|discriminate].
    apply bytes_eqb_eq in N. destruct (listed excluded (col_name c1)) eqn:E.
    + apply listed_spec in E. destruct (cfrom (S i) cs1 cs2) as [s'| |] eqn:F; try discriminate.
      constructor; [split; auto|]. apply IH. now exists s'.
    + destruct (columns_match any no_type c1 c2) eqn:M; cbn [bind] in H; [|discriminate]. apply columns_match_spec in M.
      constructor; [split; auto|]. apply IH. now exists s.
  - intros H. inversion H as [|? ? ? ? [N A] F]; subst. apply IH in F as (s & Es). rewrite N, bytes_eqb_refl. cbn [assert bind].
    rewrite <- N. destruct (listed excluded (col_name c1)) eqn:E.
    + rewrite Es. eexists. reflexivity.
    + destruct A as [A|A]; [apply listed_spec in A; congruence|]. apply columns_match_spec in A. rewrite A. cbn [assert bind]. now exists s.
Qed.

Lemma ccols_ok cs1 cs2 : (exists s, ccols cs1 cs2 = Ok s) <-> Forall2 (alike any no_type excluded) cs1 cs2.
Proof.
  unfold compare_columns. destruct (Nat.eqb_spec (length cs1) (length cs2)) as [E|E]; cbn [assert bind].
  - now apply cfrom_ok.
  - split; [intros (s & H); discriminate|]. intros F. elim E. apply (Forall2_length _ _ _ F).
Qed.

Lemma cfrom_ge : forall cs1 cs2 i s, cfrom i cs1 cs2 = Ok s -> Forall (fun k => (i <= k)%nat) s.
Proof.
  induction cs1 as [|c1 cs1 IH]; intros [|c2 cs2] i s; cbn [compare_columns_from].
  1,2,3: intros E; assert (s = []) by congruence; subst; constructor.
  unfold assert. destruct (bytes_eqb _ _); cbn [bind]; [|discriminate]. destruct (listed _ _).
  - destruct (cfrom (S i) cs1 cs2) as [s'| |] eqn:F; cbn [bind]; try discriminate. intros E. assert (s = i :: s') by congruence. subst.
    constructor; [lia|]. eapply Forall_impl; [|apply (IH _ _ _ F)]. cbn. intros; lia.
  - destruct (columns_match _ _ _ _); cbn [bind]; [|discriminate]. intros F.
    eapply Forall_impl; [|apply (IH _ _ _ F)]. cbn. intros; lia.
Qed.

Notation ccell := (compare_cell any nans).

Lemma differences_spec : forall cs1 cs2 r1 r2 i s, cfrom i cs1 cs2 = Ok s ->
  length cs1 = length cs2 -> length r1 = length cs1 -> length r2 = length cs2 ->
  (differences any nans i s cs1 cs2 r1 r2 = O <->
   forall j c1 c2 x y, nth_error cs1 j = Some c1 -> nth_error cs2 j = Some c2 -> nth_error r1 j = Some x -> nth_error r2 j = Some y ->
     In (col_name c1) excluded \/ ccell c1 c2 x y = true).
Proof.
  induction cs1 as [|c1 cs1 IH]; intros [|c2 cs2] [|x r1] [|y r2] i s H L L1 L2; try discriminate.
  { split; [|reflexivity]. intros _ [|j]; discriminate. }
  cbn [length] in L, L1, L2. cbn [compare_columns_from] in H. unfold assert in H.
  destruct (bytes_eqb _ _); cbn [bind] in H; [|discriminate].
  cbn [differences].
  assert (Step : forall s', cfrom (S i) cs1 cs2 = Ok s' ->
    (differences any nans (S i) s' cs1 cs2 r1 r2 = O <->
     forall j a b u v, nth_error cs1 j = Some a -> nth_error cs2 j = Some b -> nth_error r1 j = Some u -> nth_error r2 j = Some v ->
       In (col_name a) excluded \/ ccell a b u v = true)).
  { intros s' E. apply IH; [exact E|lia..]. }
  destruct (listed excluded (col_name c1)) eqn:E.
  - destruct (cfrom (S i) cs1 cs2) as [s'| |] eqn:F; cbn [bind] in H; try discriminate. assert (s = i :: s') by congruence. subst s.
    rewrite Nat.eqb_refl. rewrite (Step s' eq_refl). apply listed_spec in E. split.
    + intros Q [|j] a b u v; cbn [nth_error]; [|apply Q]. intros. left. congruence.
    + intros Q j a b u v. apply (Q (S j)).
  - destruct (columns_match _ _ _ _); cbn [bind] in H; [|discriminate].
    assert (Ge := cfrom_ge _ _ _ _ H).
    assert (D : match s with
      | [] => ((if ccell c1 c2 x y then 0 else 1) + differences any nans (S i) s cs1 cs2 r1 r2)%nat
      | k :: skip' => if (k =? i)%nat then differences any nans (S i) skip' cs1 cs2 r1 r2
          else ((if ccell c1 c2 x y then 0 else 1) + differences any nans (S i) s cs1 cs2 r1 r2)%nat
      end = ((if ccell c1 c2 x y then 0 else 1) + differences any nans (S i) s cs1 cs2 r1 r2)%nat).
    { destruct s as [|k s]; [reflexivity|]. apply Forall_inv in Ge. destruct (Nat.eqb_spec k i); [lia|reflexivity]. }
    cbv zeta. rewrite D. clear D. specialize (Step s H).
    assert (NE : ~ In (col_name c1) excluded) by (rewrite <- listed_spec; congruence).
    split.
    + intros Q [|j] a b u v; cbn [nth_error].
      * intros E1 E2 E3 E4. right. assert (a = c1) by congruence. assert (b = c2) by congruence. assert (u = x) by congruence.
        assert (v = y) by congruence. subst. destruct (ccell c1 c2 x y); [reflexivity|lia].
      * apply Step. lia.
    + intros Q. destruct (Q O c1 c2 x y eq_refl eq_refl eq_refl eq_refl) as [X|X]; [contradiction|]. rewrite X.
      apply Step. intros j. apply (Q (S j)).
Qed.

Lemma row_sound cs1 cs2 r1 r2 s : ccols cs1 cs2 = Ok s -> length r1 = length cs1 -> length r2 = length cs2 ->
  compare_row any nans s cs1 cs2 r1 r2 = Ok tt -> rows_agree closer any nans no_type excluded (cs1, r1) (cs2, r2).
Proof.
  intros H L1 L2. assert (A : Forall2 (alike any no_type excluded) cs1 cs2) by (apply ccols_ok; eauto).
  unfold compare_columns in H. destruct (Nat.eqb_spec (length cs1) (length cs2)) as [E|]; cbn [assert bind] in H; [|discriminate].
  unfold compare_row. destruct (Nat.eqb_spec (differences any nans 0 s cs1 cs2 r1 r2) 0) as [D|]; [|discriminate]. intros _.
  rewrite (differences_spec cs1 cs2 r1 r2 0 s H E L1 L2) in D.
  split; [exact A|]. split; [exact L1|]. split; [exact L2|]. cbn [fst snd]. intros j c1 c2 x y E1 E2 E3 E4.
  destruct (D j c1 c2 x y E1 E2 E3 E4) as [|X]; [auto|]. right. now apply cell_sound.
Qed.

Lemma row_complete r1 r2 s : ccols (fst r1) (fst r2) = Ok s -> rows_agree near any nans no_type excluded r1 r2 ->
  compare_row any nans s (fst r1) (fst r2) (snd r1) (snd r2) = Ok tt.
Proof.
  intros H (A & L1 & L2 & Q). unfold compare_columns in H.
  destruct (Nat.eqb_spec (length (fst r1)) (length (fst r2))) as [E|]; cbn [assert bind] in H; [|discriminate].
  unfold compare_row. destruct (differences_spec _ _ _ _ 0 s H E L1 L2) as [_ D]. rewrite D; [reflexivity|].
  intros j c1 c2 x y E1 E2 E3 E4. destruct (Q j c1 c2 x y E1 E2 E3 E4) as [|X]; [auto|]. right. now apply cell_complete.
Qed.

(** ** Iterators *)

Section Iter.
Variables (md5 : list Z -> list Z) (st : settings) (junk : nat -> nat -> list Z).

Definition shaped (it : riter) : Prop := r_end it = false -> length (r_last it) = length (r_cols it).

Lemma init_row_length n : forall cols i, length (init_row junk n i cols) = length cols.
Proof. induction cols; intros i; cbn [init_row length]; [reflexivity|]. now rewrite IHcols. Qed.

Lemma load_shaped : forall fuel count cols file it, load_table md5 st junk fuel count cols file = Ok it ->
  shaped it /\ (r_end it = false -> r_new it = true).
Proof.
  induction fuel as [|f IH]; intros count cols file it; cbn [load_table]; [discriminate|].
  destruct (read_magic file) as [[s|]| |]; cbn [bind]; try discriminate.
  2: { intros E. assert (R : r_end it = true) by (injection E as <-; reflexivity). split; unfold shaped; congruence. }
  destruct (load_after_magic md5 st s) as [[h rest]| |]; cbn [bind]; try discriminate.
  destruct (h_dataSize h =? 0).
  { unfold assert. destruct (h_rows h =? 0); cbn [bind]; [apply IH|discriminate]. }
  unfold assert. destruct (negb (h_rows h =? 0)); cbn [bind]; [|discriminate].
  destruct (_ || _); cbn [bind]; [|discriminate]. destruct (h_dataSize h <? 0); [discriminate|].
  destruct (_ =? 0)%nat; [discriminate|]. destruct (_ <? _); [discriminate|].
  intros E. assert (R : r_last it = init_row junk count 0 (h_cols h) /\ r_cols it = h_cols h /\ r_new it = true) by (injection E as <-; auto).
  destruct R as (R1 & R2 & R3). split; [intros _; rewrite R1, R2; apply init_row_length|auto].
Qed.

Lemma next_cells_length : forall cols last start s row s1, length last = length cols ->
  next_cells start cols last s = Ok (row, s1) -> length row = length cols.
Proof.
  induction cols as [|c cs IH]; intros [|x xs] start s row s1 L; try discriminate; cbn [next_cells].
  { intros E. assert (row = []) by congruence. now subst. }
  cbn [length] in L. destruct start as [|p].
  - destruct (decode (col_coder c) s) as [[out s2]| |]; cbn [bind]; try discriminate.
    destruct (store x out) as [y| |]; cbn [bind]; try discriminate.
    destruct (next_cells 0 cs xs s2) as [[r s3]| |] eqn:E; cbn [bind]; try discriminate.
    intros Q. assert (row = y :: r) by congruence. subst. cbn [length]. f_equal. apply (IH xs O s2 r s3); [lia|exact E].
  - destruct (next_cells p cs xs s) as [[r s3]| |] eqn:E; cbn [bind]; try discriminate.
    intros Q. assert (row = x :: r) by congruence. subst. cbn [length]. f_equal. apply (IH xs p s r s3); [lia|exact E].
Qed.

(** what a step gives: the row the iterator now stands on *)
Lemma next_step it it1 o : shaped it -> next_row md5 st junk it = Ok (it1, o) ->
  shaped it1 /\
  (r_end it1 = true /\ o = None \/
   r_end it1 = false /\ o = Some (r_last it1) /\ (r_new it1 = true \/ r_end it = false /\ r_cols it1 = r_cols it)).
Proof.
  intros Sh. unfold next_row. destruct (r_end it) eqn:E.
  { intros Q. assert (it1 = it) by congruence. assert (o = None) by congruence. subst. split; [exact Sh|auto]. }
  destruct (if r_left it =? 0 then _ else Ok it) as [i1| |] eqn:L; cbn [bind]; try discriminate.
  assert (S1 : shaped i1 /\ (r_left it =? 0 = true \/ i1 = it)).
  { destruct (r_left it =? 0).
    - split; [apply (load_shaped _ _ _ _ _ L)|auto].
    - assert (i1 = it) by congruence. subst. auto. }
  destruct S1 as (S1 & C). destruct (r_end i1) eqn:E1.
  { intros Q. assert (it1 = i1) by congruence. assert (o = None) by congruence. subst. split; [exact S1|auto]. }
  destruct (read_raw 2 (r_data i1)) as [[m s]| |]; cbn [bind]; try discriminate.
  destruct (next_cells (marker_val m) (r_cols i1) (r_last i1) s) as [[row s1]| |] eqn:N; cbn [bind]; try discriminate.
  intros Q. assert (Qs : r_end it1 = false /\ r_last it1 = row /\ r_cols it1 = r_cols i1 /\ r_new it1 = (r_left it =? 0) /\ o = Some row).
  { injection Q as <- <-. cbn. auto. }
  destruct Qs as (Q1 & Q2 & Q3 & Q4 & ->). split.
  - intros _. rewrite Q2, Q3. apply (next_cells_length _ _ _ _ _ _ (S1 E1) N).
  - right. split; [exact Q1|]. split; [now rewrite Q2|]. destruct C as [C|C]; [left; congruence|]. right. subst i1. auto.
Qed.

(** the rows from the one the iterator stands on *)
Definition ahead (it : riter) (rs : list arow) : Prop :=
  (r_end it = true /\ rs = []) \/
  (r_end it = false /\ exists rest : list arow, rs = (r_cols it, r_last it) :: rest /\
    forall fuel, (length rest < fuel)%nat -> list_rows md5 st junk fuel it = (rest, Clean)).

Lemma ahead_next it it1 o rs : shaped it -> r_end it = false -> next_row md5 st junk it = Ok (it1, o) -> ahead it1 rs ->
  ahead it ((r_cols it, r_last it) :: rs).
Proof.
  intros Sh E N A. right. split; [exact E|]. exists rs. split; [reflexivity|].
  destruct (next_step it it1 o Sh N) as (_ & C). intros [|f] Hf; [lia|]. cbn [list_rows]. rewrite N.
  destruct A as [[A ->]|(A & rest & -> & R)], C as [[C ->]|(C & -> & _)]; try (exfalso; congruence); try reflexivity.
  rewrite R by (cbn [length] in Hf; lia). reflexivity.
Qed.

(** the same, read backwards *)
Lemma ahead_step it rs : shaped it -> r_end it = false -> ahead it rs ->
  exists it1 o rest, rs = (r_cols it, r_last it) :: rest /\ next_row md5 st junk it = Ok (it1, o) /\ ahead it1 rest.
Proof.
  intros Sh E [[A _]|(_ & rest & -> & R)]; [congruence|].
  pose proof (R (S (length rest)) ltac:(lia)) as R1. cbn [list_rows] in R1.
  destruct (next_row md5 st junk it) as [[it1 o]| |] eqn:N; try discriminate.
  exists it1, o, rest. split; [reflexivity|]. split; [reflexivity|].
  destruct (next_step it it1 o Sh N) as (_ & [[C Eo]|(C & Eo & _)]); rewrite Eo in *.
  - left. split; [exact C|]. congruence.
  - destruct (list_rows md5 st junk (length rest) it1) as [rows e] eqn:Q. right. split; [exact C|].
    exists rows. split; [injection R1 as <-; reflexivity|]. intros fuel Hf.
    assert (Er : rest = (r_cols it1, r_last it1) :: rows) by congruence. 
    pose proof (R (S fuel)) as R2. cbn [list_rows] in R2. rewrite N in R2.
    destruct (list_rows md5 st junk fuel it1) as [rows2 e2].
    assert (X : (length rest < S fuel)%nat) by (rewrite Er; cbn [length]; lia).
    specialize (R2 X). rewrite Er in R2. injection R2 as -> ->. reflexivity.
Qed.

Lemma begin_ahead file it rs : begin_rows md5 st junk file = Ok it ->
  (shaped it) /\ (ahead it rs <-> forall fuel, (length rs < fuel)%nat -> file_rows md5 st junk fuel file = (rs, Clean)).
Proof.
  unfold begin_rows, open_rows, file_rows, open_rows. destruct (load_table md5 st junk _ 0 [] file) as [it0| |] eqn:L; cbn [bind]; try discriminate.
  destruct (next_row md5 st junk it0) as [[it1 o]| |] eqn:N; cbn [bind]; try discriminate. intros E. assert (it = it1) by congruence. subst it.
  destruct (load_shaped _ _ _ _ _ L) as (Sh & _). destruct (next_step it0 it1 o Sh N) as (Sh1 & C). split; [exact Sh1|]. split.
  - intros A [|f] Hf; [lia|]. cbn [list_rows]. rewrite N.
    destruct A as [[A ->]|(A & rest & -> & R)], C as [[C ->]|(C & -> & _)]; try (exfalso; congruence); try reflexivity.
    rewrite R by (cbn [length] in Hf; lia). reflexivity.
  - intros H. pose proof (H (S (length rs)) ltac:(lia)) as H1. cbn [list_rows] in H1. rewrite N in H1.
    destruct C as [[C Eo]|(C & Eo & _)]; rewrite Eo in *; [left; split; [exact C|congruence]|].
    destruct (list_rows md5 st junk (length rs) it1) as [rows e] eqn:Q. right. split; [exact C|]. exists rows. split; [congruence|].
    intros fuel Hf. assert (Er : rs = (r_cols it1, r_last it1) :: rows) by congruence.
    pose proof (H (S fuel)) as H2. cbn [list_rows] in H2. rewrite N in H2.
    destruct (list_rows md5 st junk fuel it1) as [rows2 e2].
    assert (X : (length rs < S fuel)%nat) by (rewrite Er; cbn [length]; lia).
    specialize (H2 X). rewrite Er in H2. injection H2 as -> ->. reflexivity.
Qed.

End Iter.

Section Two.
Variables (md5 : list Z -> list Z) (st1 st2 : settings) (junk1 junk2 : nat -> nat -> list Z).
Notation loop := (compare_loop any nans no_type excluded md5 st1 st2 junk1 junk2).

(** the columns to skip are those of the current tables *)
Definition current (skip : list nat) (it1 it2 : riter) : Prop :=
  r_end it1 = false -> r_end it2 = false -> r_new it1 = true \/ r_new it2 = true \/ ccols (r_cols it1) (r_cols it2) = Ok skip.

Lemma choose_skip skip it1 it2 s1 s2 : current skip it1 it2 -> r_end it1 = false -> r_end it2 = false ->
  (if r_new it1 then ccols (r_cols it1) (r_cols it2) else Ok skip) = Ok s1 ->
  (if r_new it2 then ccols (r_cols it1) (r_cols it2) else Ok s1) = Ok s2 ->
  ccols (r_cols it1) (r_cols it2) = Ok s2.
Proof.
  intros C E1 E2 H1 H2. destruct (r_new it2) eqn:W2; [exact H2|]. assert (s1 = s2) by congruence. subst s2.
  destruct (r_new it1) eqn:W1; [exact H1|]. assert (skip = s1) by congruence. subst. destruct (C E1 E2) as [X|[X|X]]; congruence.
Qed.

Lemma keep_current s2 it1 it2 i1 i2 o1 o2 : shaped it1 -> shaped it2 -> ccols (r_cols it1) (r_cols it2) = Ok s2 ->
  next_row md5 st1 junk1 it1 = Ok (i1, o1) -> next_row md5 st2 junk2 it2 = Ok (i2, o2) -> current s2 i1 i2.
Proof.
  intros S1 S2 CC N1 N2 E1 E2. destruct (next_step _ _ _ _ _ _ S1 N1) as (_ & [[X _]|(_ & _ & [X|[_ X]])]); [congruence|auto|].
  destruct (next_step _ _ _ _ _ _ S2 N2) as (_ & [[Y _]|(_ & _ & [Y|[_ Y]])]); [congruence|auto|]. right. right. now rewrite X, Y.
Qed.

Lemma loop_sound : forall fuel skip it1 it2, shaped it1 -> shaped it2 -> current skip it1 it2 ->
  loop fuel skip it1 it2 = Ok tt ->
  exists rs1 rs2, ahead md5 st1 junk1 it1 rs1 /\ ahead md5 st2 junk2 it2 rs2 /\
    Forall2 (rows_agree closer any nans no_type excluded) rs1 rs2.
Proof.
  induction fuel as [|f IH]; intros skip it1 it2 S1 S2 C; cbn [compare_loop]; [discriminate|].
  destruct (r_end it1) eqn:E1, (r_end it2) eqn:E2; cbn [negb andb assert bind]; try discriminate.
  { intros _. exists [], []. split; [left; auto|]. split; [left; auto|constructor]. }
  destruct (if r_new it1 then _ else _) as [s1| |] eqn:H1; cbn [bind]; try discriminate.
  destruct (if r_new it2 then _ else _) as [s2| |] eqn:H2; cbn [bind]; try discriminate.
  pose proof (choose_skip _ _ _ _ _ C E1 E2 H1 H2) as CC.
  destruct (compare_row any nans s2 _ _ _ _) as [[]| |] eqn:CR; cbn [bind]; try discriminate.
  destruct (next_row md5 st1 junk1 it1) as [[i1 o1]| |] eqn:N1; cbn [bind]; try discriminate.
  destruct (next_row md5 st2 junk2 it2) as [[i2 o2]| |] eqn:N2; cbn [bind]; try discriminate.
  intros H. destruct (IH s2 i1 i2) as (rs1 & rs2 & A1 & A2 & F).
  - apply (next_step _ _ _ _ _ _ S1 N1).
  - apply (next_step _ _ _ _ _ _ S2 N2).
  - apply (keep_current _ _ _ _ _ _ _ S1 S2 CC N1 N2).
  - exact H.
  - exists ((r_cols it1, r_last it1) :: rs1), ((r_cols it2, r_last it2) :: rs2).
    split; [apply (ahead_next _ _ _ _ _ _ _ S1 E1 N1 A1)|]. split; [apply (ahead_next _ _ _ _ _ _ _ S2 E2 N2 A2)|].
    constructor; [|exact F]. apply (row_sound _ _ _ _ s2); auto.
Qed.

Lemma loop_complete rs1 rs2 : Forall2 (rows_agree near any nans no_type excluded) rs1 rs2 ->
  forall fuel skip it1 it2, (length rs1 < fuel)%nat -> shaped it1 -> shaped it2 -> current skip it1 it2 ->
  ahead md5 st1 junk1 it1 rs1 -> ahead md5 st2 junk2 it2 rs2 ->
  loop fuel skip it1 it2 = Ok tt.
Proof.
  induction 1 as [|r1 r2 rs1 rs2 RA F IH]; intros fuel skip it1 it2 Hf S1 S2 C A1 A2; (destruct fuel as [|f]; [cbn in Hf; lia|]); cbn [compare_loop].
  - destruct A1 as [[-> _]|(_ & rest & Q & _)]; [|discriminate]. destruct A2 as [[-> _]|(_ & rest & Q & _)]; [|discriminate]. reflexivity.
  - assert (E1 : r_end it1 = false) by (destruct A1 as [[_ Q]|[Q _]]; [discriminate|exact Q]).
    assert (E2 : r_end it2 = false) by (destruct A2 as [[_ Q]|[Q _]]; [discriminate|exact Q]).
    destruct (ahead_step _ _ _ _ _ S1 E1 A1) as (i1 & o1 & rest1 & Q1 & N1 & B1).
    destruct (ahead_step _ _ _ _ _ S2 E2 A2) as (i2 & o2 & rest2 & Q2 & N2 & B2).
    assert (r1 = (r_cols it1, r_last it1)) by congruence. assert (rest1 = rs1) by congruence.
    assert (r2 = (r_cols it2, r_last it2)) by congruence. assert (rest2 = rs2) by congruence. subst. clear Q1 Q2.
    rewrite E1, E2. cbn [negb andb].
    assert (exists s, ccols (r_cols it1) (r_cols it2) = Ok s) as (s & CC) by (apply ccols_ok; apply RA).
    assert (exists s1, (if r_new it1 then ccols (r_cols it1) (r_cols it2) else Ok skip) = Ok s1) as (s1 & H1).
    { destruct (r_new it1); eauto. }
    assert (exists s2, (if r_new it2 then ccols (r_cols it1) (r_cols it2) else Ok s1) = Ok s2) as (s2 & H2).
    { destruct (r_new it2); eauto. }
    pose proof (choose_skip _ _ _ _ _ C E1 E2 H1 H2) as CC2. rewrite H1. cbn [bind]. rewrite H2. cbn [bind].
    pose proof (row_complete (r_cols it1, r_last it1) (r_cols it2, r_last it2) s2 CC2 RA) as RC. cbn [fst snd] in RC. rewrite RC. cbn [bind]. rewrite N1. cbn [bind]. rewrite N2. cbn [bind].
    apply IH; [cbn [length] in Hf; lia| | | |exact B1|exact B2].
    + apply (next_step _ _ _ _ _ _ S1 N1).
    + apply (next_step _ _ _ _ _ _ S2 N2).
    + apply (keep_current _ _ _ _ _ _ _ S1 S2 CC2 N1 N2).
Qed.

End Two.
End Files.

(** ** The theorems *)

(** A comparison that finds no difference: both files are read to their ends, have equally
    many rows, and the rows agree one by one. *)
Theorem C43_sound : forall any nans no_type excluded md5 st1 st2 junk1 junk2 fuel file1 file2,
  compare_files any nans no_type excluded md5 st1 st2 junk1 junk2 fuel file1 file2 = Ok tt ->
  exists rs1 rs2,
    (forall n, (length rs1 < n)%nat -> file_rows md5 st1 junk1 n file1 = (rs1, Clean)) /\
    (forall n, (length rs2 < n)%nat -> file_rows md5 st2 junk2 n file2 = (rs2, Clean)) /\
    Forall2 (rows_agree closer any nans no_type excluded) rs1 rs2.
Proof.
  intros any nans no_type excluded md5 st1 st2 junk1 junk2 fuel file1 file2. unfold compare_files.
  destruct (begin_rows md5 st1 junk1 file1) as [i1| |] eqn:B1; cbn [bind]; try discriminate.
  destruct (begin_rows md5 st2 junk2 file2) as [i2| |] eqn:B2; cbn [bind]; try discriminate.
  destruct (compare_columns any no_type excluded (r_cols i1) (r_cols i2)) as [skip| |] eqn:CC; cbn [bind]; try discriminate.
  intros H. destruct (begin_ahead _ _ _ _ _ [] B1) as (S1 & _). destruct (begin_ahead _ _ _ _ _ [] B2) as (S2 & _).
  destruct (loop_sound any nans no_type excluded md5 st1 st2 junk1 junk2 fuel skip i1 i2 S1 S2) as (rs1 & rs2 & A1 & A2 & F); [intros _ _; auto|exact H|].
  exists rs1, rs2. split; [now apply (begin_ahead _ _ _ _ _ rs1 B1)|]. split; [now apply (begin_ahead _ _ _ _ _ rs2 B2)|exact F].
Qed.
Print Assumptions C43_sound.

(** Conversely, no difference is found in files with rows that agree. *)
Theorem C43_complete : forall any nans no_type excluded md5 st1 st2 junk1 junk2 fuel file1 file2 rs1 rs2,
  (forall n, (length rs1 < n)%nat -> file_rows md5 st1 junk1 n file1 = (rs1, Clean)) ->
  (forall n, (length rs2 < n)%nat -> file_rows md5 st2 junk2 n file2 = (rs2, Clean)) ->
  rs1 <> [] -> Forall2 (rows_agree near any nans no_type excluded) rs1 rs2 -> (length rs1 < fuel)%nat ->
  compare_files any nans no_type excluded md5 st1 st2 junk1 junk2 fuel file1 file2 = Ok tt.
Proof.
  intros any nans no_type excluded md5 st1 st2 junk1 junk2 fuel file1 file2 rs1 rs2 H1 H2 NE F Hf.
  assert (Beg : forall st junk file rs, rs <> [] -> (forall n, (length rs < n)%nat -> file_rows md5 st junk n file = (rs, Clean)) ->
    exists it, begin_rows md5 st junk file = Ok it).
  { intros st junk file rs N H. specialize (H (S (length rs)) ltac:(lia)). unfold file_rows in H. unfold begin_rows.
    destruct (open_rows md5 st junk file) as [it| |]; try discriminate. cbn [bind]. cbn [list_rows] in H.
    destruct (next_row md5 st junk it) as [[it1 o]| |]; try discriminate. cbn [bind]. eauto. }
  destruct (Beg st1 junk1 file1 rs1 NE H1) as (i1 & B1).
  destruct (Beg st2 junk2 file2 rs2) as (i2 & B2); [intros ->; inversion F; subst; contradiction|exact H2|].
  destruct (begin_ahead _ _ _ _ _ rs1 B1) as (S1 & _ & A1). destruct (begin_ahead _ _ _ _ _ rs2 B2) as (S2 & _ & A2).
  specialize (A1 H1). specialize (A2 H2). unfold compare_files. rewrite B1, B2. cbn [bind].
  assert (exists s, compare_columns any no_type excluded (r_cols i1) (r_cols i2) = Ok s) as (s & CC).
  { apply ccols_ok. destruct F as [|r1 r2 rs1 rs2 RA F]; [contradiction|].
    destruct A1 as [[_ Q]|(_ & rest1 & Q1 & _)]; [discriminate|]. destruct A2 as [[_ Q]|(_ & rest2 & Q2 & _)]; [discriminate|].
    assert (r1 = (r_cols i1, r_last i1)) by congruence. assert (r2 = (r_cols i2, r_last i2)) by congruence. subst. apply RA. }
  rewrite CC. cbn [bind]. apply (loop_complete any nans no_type excluded md5 st1 st2 junk1 junk2 rs1 rs2); auto. intros _ _. auto.
Qed.
Print Assumptions C43_complete.

(** Two doubles: taken to be the same only if they are finite and closer than [tol], and
    always if they are at most [tol_below] apart; in either order. *)
Theorem C43_numbers : forall x y, is64 x -> is64 y ->
  (same x y = true -> is_fin f64 x = true /\ is_fin f64 y = true /\ closer (val f64 x) (val f64 y)) /\
  (is_fin f64 x = true -> is_fin f64 y = true -> near (val f64 x) (val f64 y) -> same x y = true) /\
  same x y = same y x.
Proof.
  intros x y Hx Hy. split; [now apply same_closer|]. split; [now apply near_same|]. now apply same_sym.
Qed.
Print Assumptions C43_numbers.

(** A cell that agrees with itself: missing, a text, or a finite number (or a NaN, if
    these are allowed); a REAL is taken in single precision. *)
Definition comparable (any nans : bool) (c : column) (x : list Z) : Prop :=
  missing any c x \/ col_type c = ty_STRING \/
  (col_type c = ty_INTEGER \/ col_type c = ty_BITFIELD \/ col_type c = ty_DOUBLE) /\
    (is_fin f64 (bits x) = true \/ nans = true /\ is_nan f64 (bits x) = true) \/
  col_type c = ty_REAL /\ (is_fin f64 (as_single (bits x)) = true \/ nans = true /\ is_nan f64 (bits x) = true).

Lemma near_refl a : near a a.
Proof.
  unfold near. rewrite Z.sub_diag. cbn [Z.abs]. pose proof tol_below_pos. pose proof tol_pos.
  destruct (Z.le_gt_cases (Z.abs a) tol); [left|right]; nia.
Qed.

Lemma comparable_self any nans c x : comparable any nans c x -> cells_agree near any nans c c x x.
Proof.
  intros H. destruct (is_missing any c x) eqn:M.
  - apply is_missing_spec in M. left. auto.
  - assert (NM : ~ missing any c x) by (rewrite <- is_missing_spec; congruence).
    right. split; [exact NM|]. split; [exact NM|]. destruct H as [H|[H|[[T H]|[T H]]]]; [contradiction|auto|..].
    + right. left. split; [exact T|]. destruct H as [H|[H1 H2]]; [left|right; auto]. split; [exact H|]. split; [exact H|apply near_refl].
    + right. right. split; [exact T|]. destruct H as [H|[H1 H2]]; [left|right; auto]. split; [exact H|]. split; [exact H|apply near_refl].
Qed.

(** A file with such cells does not differ from itself.  (Two readers have different
    uninitialised memory, [junk1] and [junk2]; none of it must show in the rows.) *)
Theorem C43_self : forall any nans no_type excluded md5 st junk1 junk2 fuel file rs,
  (forall n, (length rs < n)%nat -> file_rows md5 st junk1 n file = (rs, Clean)) ->
  (forall n, (length rs < n)%nat -> file_rows md5 st junk2 n file = (rs, Clean)) ->
  rs <> [] -> (length rs < fuel)%nat ->
  (forall cols row, In (cols, row) rs -> Forall2 (comparable any nans) cols row) ->
  compare_files any nans no_type excluded md5 st st junk1 junk2 fuel file file = Ok tt.
Proof.
  intros any nans no_type excluded md5 st junk1 junk2 fuel file rs H1 H2 NE Hf P.
  apply (C43_complete any nans no_type excluded md5 st st junk1 junk2 fuel file file rs rs); auto.
  clear H1 H2 NE Hf. induction rs as [|[cols row] rs IH]; constructor.
  - specialize (P cols row (or_introl eq_refl)). split; cbn [fst snd].
    + clear. induction cols; constructor; [|assumption]. split; [reflexivity|]. right. split; [right; auto|auto].
    + pose proof (Forall2_length _ _ _ P) as L. split; [lia|]. split; [lia|].
      intros i c1 c2 x y E1 E2 E3 E4. assert (c2 = c1) by congruence. assert (y = x) by congruence. subst. right.
      apply comparable_self. clear E2 E4. revert i E1 E3. clear - P. induction P as [|c x0 cs xs H P IH]; intros [|i]; cbn [nth_error]; try discriminate.
      * intros E1 E2. assert (c1 = c) by congruence. assert (x = x0) by congruence. now subst.
      * apply IH.
  - apply IH. intros. apply P. now right.
Qed.
Print Assumptions C43_self.
