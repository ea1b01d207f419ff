(** Reading tables from concatenations of frames. *)
From Verif Require Import Base Fp Stream StreamProofs StreamLocal Codec Meta Header Table Reader ReadSpec.

Definition oda : list Z := [79; 68; 65].

Lemma nth_ext_error {A} (a : list A) : forall b, (forall i, nth_error a i = nth_error b i) -> a = b.
Proof.
  induction a as [|x a IH]; intros [|y b] H; [reflexivity|now specialize (H 0%nat)|now specialize (H 0%nat)|].
  f_equal; [specialize (H 0%nat); cbn in H; congruence|]. apply IH. intros i. exact (H (S i)).
Qed.

Lemma firstn_snoc {A} (x : A) : forall l j, nth_error l j = Some x -> firstn j l ++ [x] = firstn (S j) l.
Proof.
  intros l j; revert l; induction j as [|j IH]; intros [|y l] E; try discriminate; cbn in *; [congruence|].
  f_equal. now apply IH.
Qed.

Section R.
Variable md5 : list Z -> list Z.
Variable st : settings.
Local Notation len l := (Z.of_nat (length l)).

Lemma skip_add (s : list Z) : forall a b, skipn b (skipn a s) = skipn (a + b) s.
Proof. induction s as [|x s IH]; intros [|a] b; cbn [skipn Nat.add]; try reflexivity; [now rewrite skipn_nil|apply IH]. Qed.

Lemma load_header_split o s h r : load_header md5 st o s = Ok (h, r) ->
  exists b, (48 <= length b)%nat /\ s = b ++ r /\ (forall r', load_header md5 st o (b ++ r') = Ok (h, r')) /\
    forall k, (k < length b)%nat -> load_header md5 st o (firstn k b) = Throw Incomplete.
Proof.
  unfold load_header. destruct (Nat.ltb_spec (length s) 48) as [|L]; [discriminate|].
  intros H. apply bind_ok in H as ([dg hs] & B & H). destruct (Z.ltb_spec hs 0) as [|Hh]; [discriminate|].
  destruct (Z.ltb_spec (len (skipn 48 s)) hs) as [|L2]; [discriminate|].
  destruct (bytes_eqb dg _) eqn:D; [|discriminate]. apply bind_ok in H as (h' & V & H). assert (Er : r = skipn (Z.to_nat hs) (skipn 48 s)) by congruence.
  assert (Eh : h' = h) by congruence. subst h' r. clear H. rewrite skipn_length in L2.
  set (n := (48 + Z.to_nat hs)%nat). assert (Hn : (n <= length s)%nat) by lia.
  exists (firstn n s).
  assert (Lb : length (firstn n s) = n) by (rewrite firstn_length; lia).
  assert (F48 : forall r', firstn 48 (firstn n s ++ r') = firstn 48 s).
  { intros r'. rewrite firstn_app, Lb. replace (48 - n)%nat with 0%nat by lia. rewrite firstn_O, app_nil_r.
    rewrite firstn_firstn, Nat.min_l by lia. reflexivity. }
  assert (S48 : forall r', skipn 48 (firstn n s ++ r') = firstn (Z.to_nat hs) (skipn 48 s) ++ r').
  { intros r'. rewrite skipn_app, Lb. replace (48 - n)%nat with 0%nat by lia. rewrite skipn_O. f_equal.
    rewrite skipn_firstn_comm. f_equal. lia. }
  assert (L3 : length (firstn (Z.to_nat hs) (skipn 48 s)) = Z.to_nat hs) by (rewrite firstn_length, skipn_length; lia).
  split; [lia|]. split; [|split].
  - rewrite skip_add. fold n. symmetry. apply firstn_skipn.
  - intros r'. rewrite app_length, Lb. destruct (Nat.ltb_spec (n + length r') 48); [lia|].
    rewrite F48, B. cbn [bind]. destruct (Z.ltb_spec hs 0); [lia|]. rewrite S48.
    rewrite app_length, L3. destruct (Z.ltb_spec (Z.of_nat (Z.to_nat hs + length r')) hs); [lia|].
    rewrite firstn_app, L3, Nat.sub_diag, firstn_O, app_nil_r, firstn_all2 by (rewrite L3; lia).
    rewrite D, V. cbn [bind]. do 2 f_equal. rewrite skipn_app, L3, Nat.sub_diag, skipn_all2 by (rewrite L3; lia). reflexivity.
  - intros k Hk. rewrite Lb in Hk. rewrite firstn_firstn, (Nat.min_l k n) by lia.
    rewrite firstn_length. destruct (Nat.ltb_spec (Nat.min k (length s)) 48) as [|K]; [reflexivity|].
    rewrite firstn_firstn, (Nat.min_l 48 k) by lia. rewrite B. cbn [bind].
    destruct (Z.ltb_spec hs 0); [lia|]. rewrite skipn_length, firstn_length.
    destruct (Z.ltb_spec (Z.of_nat (Nat.min k (length s) - 48)) hs); [reflexivity|lia].
Qed.

Lemma load_split s h r : load_after_magic md5 st s = Ok (h, r) ->
  exists b, (52 <= length b)%nat /\ s = b ++ r /\ (forall r', load_after_magic md5 st (b ++ r') = Ok (h, r')) /\
    forall k, (k < length b)%nat -> load_after_magic md5 st (firstn k b) = Throw Incomplete.
Proof.
  unfold load_after_magic. destruct (Nat.ltb_spec (length s) 4) as [|L]; [discriminate|]. intros H.
  destruct (load_header_split _ _ _ _ H) as (b & B1 & B2 & B3 & B4).
  assert (L4 : length (firstn 4 s) = 4%nat) by (rewrite firstn_length; lia).
  exists (firstn 4 s ++ b). split; [rewrite app_length; lia|]. split; [|split].
  - rewrite <- app_assoc, <- B2. symmetry. apply firstn_skipn.
  - intros r'. rewrite <- app_assoc, app_length. destruct (Nat.ltb_spec (length (firstn 4 s) + length (b ++ r')) 4); [lia|].
    rewrite firstn_app, skipn_app, L4, Nat.sub_diag, firstn_O, skipn_O, app_nil_r, firstn_firstn, Nat.min_id.
    rewrite (skipn_all2 (firstn 4 s)) by lia. cbn [app]. apply B3.
  - intros k Hk. rewrite app_length, L4 in Hk.
    destruct (Nat.ltb_spec (length (firstn k (firstn 4 s ++ b))) 4) as [|K]; [reflexivity|].
    rewrite firstn_length in K. rewrite app_length, L4 in K.
    assert (E : firstn k (firstn 4 s ++ b) = firstn 4 s ++ firstn (k - 4) b).
    { rewrite firstn_app, L4. f_equal. apply firstn_all2. lia. }
    rewrite E, firstn_app, skipn_app, L4, Nat.sub_diag, firstn_O, skipn_O, app_nil_r, firstn_firstn, Nat.min_id.
    rewrite (skipn_all2 (firstn 4 s)) by lia. cbn [app]. apply B4. lia.
Qed.

Lemma from_app (pre l : list Z) : from (pre ++ l) (len pre) = l.
Proof. unfold from. rewrite Nat2Z.id, skipn_app, skipn_all, Nat.sub_diag. reflexivity. Qed.

(** What makes up a frame: magic, header, data. *)
Lemma frame_shape f t : frame md5 st f t ->
  exists hb body h, f = ([255; 255] ++ oda) ++ hb ++ body /\ (52 <= length hb)%nat /\
    (forall r, load_after_magic md5 st (hb ++ r) = Ok (h, r)) /\
    (forall k, (k < length hb)%nat -> load_after_magic md5 st (firstn k hb) = Throw Incomplete) /\
    h_dataSize h = len body /\
    t = {| t_start := 0; t_data := 5 + len hb; t_next := len f; t_size := len body; t_order := h_order h; t_props := h_props h;
           t_cols := h_cols h; t_rows := h_rows h mod 2 ^ 64 |}.
Proof.
  intros [R N]. unfold read_table in R. unfold from in R. change (Z.to_nat 0) with 0%nat in R. cbn [skipn] in R.
  apply bind_ok in R as ([s|] & M & R); [|discriminate].
  unfold read_magic in M. destruct f as [|b0 f0] eqn:Ef; [discriminate|]. rewrite <- Ef in *.
  destruct (Nat.ltb_spec (length f) 5) as [|L]; [discriminate|].
  destruct (bytes_eqb (firstn 5 f) _) eqn:Q; [|discriminate]. apply bytes_eqb_eq in Q. assert (s = skipn 5 f) by congruence. subst s. clear M.
  assert (Q' : firstn 5 f = [255; 255] ++ oda) by exact Q. clear Q.
  apply bind_ok in R as ([h r] & Lh & R). destruct (load_split _ _ _ Lh) as (hb & B1 & B2 & B3 & B4).
  exists hb, r, h.
  assert (Efull : f = ([255; 255] ++ oda) ++ hb ++ r).
  { rewrite <- B2, <- Q'. symmetry. apply firstn_skipn. }
  split; [exact Efull|]. split; [assumption|]. split; [assumption|]. split; [assumption|].
  assert (L2 : len f = 5 + len hb + len r).
  { rewrite Efull at 1. rewrite !app_length. change (length oda) with 3%nat. cbn [length]. lia. }
  rewrite andb_comm in R. cbn [negb Z.eqb andb] in R.
  inversion R; subst t. clear R. cbn [t_next] in N. rewrite Ef in N. rewrite <- Ef in N.
  assert (D : h_dataSize h = len r) by lia. split; [exact D|]. f_equal; lia.
Qed.

Lemma frame_nonempty f t : frame md5 st f t -> (57 <= length f)%nat.
Proof.
  intros H. destruct (frame_shape f t H) as (hb & body & h & -> & L & _). rewrite !app_length.
  change (length oda) with 3%nat. cbn [length]. lia.
Qed.

Lemma magic_app l : read_magic (([255; 255] ++ oda) ++ l) = Ok (Some l).
Proof. reflexivity. Qed.

Lemma read_table_at f t pre post est : frame md5 st f t -> est = 0 \/ len (pre ++ f) <= est ->
  read_table md5 st est (pre ++ f ++ post) (len pre) = Ok (Some (moved (len pre) t)).
Proof.
  intros H He. destruct (frame_shape f t H) as (hb & body & h & Ef & L & L1 & L2 & D & ->).
  unfold read_table. rewrite from_app. rewrite Ef at 1. rewrite <- !app_assoc. rewrite app_assoc, magic_app. cbn [bind].
  rewrite L1. cbn [bind].
  assert (Lf : len f = 5 + len hb + len body).
  { rewrite Ef at 1. rewrite !app_length. change (length oda) with 3%nat. cbn [length]. lia. }
  assert (E : len (pre ++ f ++ post) - len (body ++ post) = len pre + 5 + len hb).
  { rewrite !app_length, !Nat2Z.inj_add. lia. }
  rewrite E. cbn [t_next]. rewrite D.
  assert (C : (est <? len pre + 5 + len hb + len body) && negb (est =? 0) = false).
  { rewrite app_length, Nat2Z.inj_add in He. destruct He as [-> | He]; [cbn; now rewrite andb_false_r|].
    apply andb_false_iff. left. apply Z.ltb_ge. lia. }
  rewrite C. do 2 f_equal. unfold moved. cbn [t_start t_data t_next t_size t_order t_props t_cols t_rows].
  f_equal; lia.
Qed.

Lemma read_table_cut f t pre k : frame md5 st f t -> (0 < k < length f)%nat ->
  read_table md5 st (len pre + Z.of_nat k) (pre ++ firstn k f) (len pre) = Throw Incomplete.
Proof.
  intros H Hk. destruct (frame_shape f t H) as (hb & body & h & Ef & L & L1 & L2 & D & ->).
  unfold read_table. rewrite from_app.
  assert (Lf : len f = 5 + len hb + len body).
  { rewrite Ef at 1. rewrite !app_length. change (length oda) with 3%nat. cbn [length]. lia. }
  set (mg := [255; 255] ++ oda) in *. assert (Lm : length mg = 5%nat) by reflexivity.
  destruct (Nat.le_gt_cases 5 k) as [K|K].
  - assert (E : firstn k f = mg ++ firstn (k - 5) (hb ++ body)).
    { rewrite Ef, firstn_app, Lm. f_equal. apply firstn_all2. lia. }
    rewrite E. unfold mg at 1. rewrite magic_app. cbn [bind].
    destruct (Nat.lt_ge_cases (k - 5) (length hb)) as [K2|K2].
    + rewrite firstn_app. replace (k - 5 - length hb)%nat with 0%nat by lia. cbn [firstn]. rewrite app_nil_r, L2 by assumption. reflexivity.
    + assert (E2 : firstn (k - 5) (hb ++ body) = hb ++ firstn (k - 5 - length hb) body).
      { rewrite firstn_app. f_equal. apply firstn_all2. lia. }
      rewrite E2, L1. cbn [bind t_next]. rewrite D.
      assert (E3 : len (pre ++ mg ++ hb ++ firstn (k - 5 - length hb) body) - len (firstn (k - 5 - length hb) body) = len pre + 5 + len hb).
      { rewrite !app_length, !Nat2Z.inj_add, Lm. lia. }
      rewrite E3.
      assert (C : (len pre + Z.of_nat k <? len pre + 5 + len hb + len body) && negb (len pre + Z.of_nat k =? 0) = true).
      { apply andb_true_iff. split; [apply Z.ltb_lt; lia|]. apply negb_true_iff, Z.eqb_neq. lia. }
      rewrite C. reflexivity.
  - unfold read_magic. destruct (firstn k f) eqn:E.
    + apply (f_equal (@length Z)) in E. rewrite firstn_length in E. cbn in E. lia.
    + rewrite <- E. destruct (Nat.ltb_spec (length (firstn k f)) 5) as [_|X]; [reflexivity|]. rewrite firstn_length in X. lia.
Qed.

Lemma read_table_end pre est : read_table md5 st est pre (len pre) = Ok None.
Proof. unfold read_table. rewrite <- (app_nil_r pre) at 1. now rewrite from_app. Qed.

(** ** The tables of a concatenation *)

Fixpoint place (off : Z) (l : list (list Z * table)) : list table :=
  match l with
  | [] => []
  | (f, t) :: l' => moved off t :: place (off + len f) l'
  end.

Lemma place_length off l : length (place off l) = length l.
Proof. revert off; induction l as [|[f t] l IH]; intros off; cbn; [reflexivity|now rewrite IH]. Qed.

Lemma place_nth l : forall off i f t, nth_error l i = Some (f, t) ->
  nth_error (place off l) i = Some (moved (off + len (concat (firstn i (map fst l)))) t).
Proof.
  induction l as [|[f0 t0] l IH]; intros off i f t H; [destruct i; discriminate|]. destruct i as [|i]; cbn [nth_error place map firstn concat] in *.
  - inversion H; subst. cbn [length]. now rewrite Z.add_0_r.
  - rewrite (IH _ _ _ _ H), app_length, Nat2Z.inj_add, Z.add_assoc. reflexivity.
Qed.

Lemma place_app l l' : forall off, place off (l ++ l') = place off l ++ place (off + len (concat (map fst l))) l'.
Proof.
  induction l as [|[f t] l IH]; intros off; cbn [app place map concat]; [now rewrite Z.add_0_r|].
  rewrite IH, app_length, Nat2Z.inj_add, Z.add_assoc. reflexivity.
Qed.

Definition good (l : list (list Z * table)) : Prop := Forall (fun p => frame md5 st (fst p) (snd p)) l.

Lemma frames_good fs : frames md5 st fs -> exists l, good l /\ map fst l = fs.
Proof.
  induction 1 as [|f fs (t & H) _ (l & L1 & L2)]; [exists []; split; [constructor|reflexivity]|].
  exists ((f, t) :: l). split; [constructor; assumption|]. cbn. now rewrite L2.
Qed.

Lemma tables_of_place fs tables : tables_of md5 st fs tables -> exists l, good l /\ map fst l = fs /\ tables = place 0 l.
Proof.
  intros [L H].
  assert (F : frames md5 st fs).
  { apply Forall_forall. intros f Hf. apply In_nth_error in Hf as (i & Hi). destruct (H i f Hi) as (t & Ht & _). eauto. }
  destruct (frames_good fs F) as (l & G & M). exists l. split; [assumption|]. split; [assumption|].
  apply nth_ext_error. intros i. destruct (nth_error l i) as [[f t]|] eqn:E.
  - rewrite (place_nth l 0 i f t E), M. cbn [Z.add].
    assert (Ef : nth_error fs i = Some f) by (rewrite <- M; now rewrite nth_error_map, E).
    destruct (H i f Ef) as (t' & Ht' & E'). rewrite E'. unfold good in G. rewrite Forall_forall in G.
    specialize (G (f, t) (nth_error_In _ _ E)). cbn in G. destruct G as [G _], Ht' as [G' _]. congruence.
  - apply nth_error_None in E. assert (length l = length fs) by (rewrite <- M; now rewrite map_length).
    transitivity (@None table); [apply nth_error_None; lia|]. symmetry. apply nth_error_None. rewrite place_length. lia.
Qed.

Lemma place_tables_of l : good l -> tables_of md5 st (map fst l) (place 0 l).
Proof.
  intros G. split; [now rewrite place_length, map_length|]. intros i f E. rewrite nth_error_map in E.
  destruct (nth_error l i) as [[f' t]|] eqn:E'; [|discriminate]. cbn in E. inversion E; subst f'.
  exists t. split; [unfold good in G; rewrite Forall_forall in G; exact (G _ (nth_error_In _ _ E'))|].
  rewrite (place_nth l 0 i f t E'). reflexivity.
Qed.

(** next_position of the tables read so far *)
Lemma next_place l : good l -> next_position (place 0 l) = len (concat (map fst l)).
Proof.
  intros G. destruct l as [|p l _] using rev_ind; [reflexivity|]. destruct p as [f t].
  apply Forall_app in G as [_ G]. inversion G as [|? ? F _]; subst. cbn [fst snd] in F.
  rewrite place_app, map_app, concat_app. cbn [place map fst concat]. unfold next_position. rewrite last_last.
  cbn [moved t_next]. destruct F as [_ ->]. rewrite app_nil_r, app_length, Nat2Z.inj_add. lia.
Qed.

(** ** ensure_table *)
Section File.
Variable l : list (list Z * table).
Variable est : Z.
Hypothesis G : good l.
Hypothesis He : est = 0 \/ len (concat (map fst l)) <= est.
Let file := concat (map fst l).

Lemma good_firstn n : good (firstn n l).
Proof using G.
  clear -G. unfold good in *. rewrite Forall_forall in *. intros x Hx. apply G. rewrite <- (firstn_skipn n l). apply in_or_app. now left.
Qed.

Lemma ensure_more (j i : nat) rest : (i <= j)%nat -> (j < length l)%nat ->
  ensure_table md5 st est (file ++ rest) (firstn j (place 0 l)) (Z.of_nat i) =
    if (i <? j)%nat then Ok (true, firstn j (place 0 l)) else Ok (true, firstn (S j) (place 0 l)).
Proof using G He.
  intros Hi H2. unfold ensure_table.
  assert (Lj : length (firstn j (place 0 l)) = j) by (rewrite firstn_length, place_length; lia).
  destruct (Z.leb_spec 0 (Z.of_nat i)); [|lia]. rewrite Lj.
  destruct (Z.leb_spec (Z.of_nat i) (Z.of_nat j)); [|lia]. cbn [assert bind].
  destruct (Nat.ltb_spec i j) as [H1|H1].
  { destruct (Z.eqb_spec (Z.of_nat i) (Z.of_nat j)); [lia|reflexivity]. }
  assert (i = j) by lia. subst i. rewrite Z.eqb_refl.
  assert (Ep : firstn j (place 0 l) = place 0 (firstn j l)).
  { rewrite <- (firstn_skipn j l) at 1. rewrite place_app, firstn_app, place_length, firstn_length.
    replace (j - Nat.min j (length l))%nat with 0%nat by lia. rewrite firstn_O, app_nil_r.
    apply firstn_all2. rewrite place_length, firstn_length. lia. }
  assert (Np : next_position (firstn j (place 0 l)) = len (concat (map fst (firstn j l)))).
  { rewrite Ep. apply next_place, good_firstn. }
  rewrite Np.
  assert (Sp : file = concat (map fst (firstn j l)) ++ concat (map fst (skipn j l))).
  { unfold file. rewrite <- concat_app, <- map_app, firstn_skipn. reflexivity. }
  assert (Le : est = 0 \/ len (concat (map fst (firstn j l))) + len (concat (map fst (skipn j l))) <= est).
  { destruct He as [->|H']; [now left|right]. fold file in H'. rewrite Sp, app_length, Nat2Z.inj_add in H'. exact H'. }
  assert (A : (len (concat (map fst (firstn j l))) <=? est) || (est =? 0) = true).
  { destruct Le as [->|Q]; [now rewrite orb_true_r|]. apply orb_true_iff. left. apply Z.leb_le. lia. }
  rewrite A. cbn [assert bind]. destruct (Z.ltb_spec (len (concat (map fst (firstn j l)))) 0); [lia|].
  destruct (nth_error l j) as [[f t]|] eqn:Ej; [|apply nth_error_None in Ej; lia].
  assert (Es : skipn j l = (f, t) :: skipn (S j) l).
  { clear -Ej. revert l Ej. induction j as [|j IH]; intros [|x l] E; try discriminate; cbn in *; [congruence|auto]. }
  rewrite Es in Sp. cbn [map fst concat] in Sp. rewrite Sp, <- !app_assoc.
  assert (Fr : frame md5 st f t).
  { clear -G Ej. unfold good in G. rewrite Forall_forall in G. exact (G _ (nth_error_In _ _ Ej)). }
  rewrite (read_table_at f t _ _ est Fr).
  2:{ destruct Le as [->|Q]; [now left|right]. rewrite Es in Q. cbn [map fst concat] in Q. rewrite app_length in *. lia. }
  cbn [bind]. do 2 f_equal.
  assert (En : nth_error (place 0 l) j = Some (moved (len (concat (map fst (firstn j l)))) t)).
  { rewrite (place_nth l 0 j f t Ej), firstn_map. reflexivity. }
  apply firstn_snoc. exact En.
Qed.

Lemma ensure_prefix (j i : nat) : (i <= j <= length l)%nat ->
  ensure_table md5 st est file (firstn j (place 0 l)) (Z.of_nat i) =
    if (i <? j)%nat then Ok (true, firstn j (place 0 l))
    else if (j <? length l)%nat then Ok (true, firstn (S j) (place 0 l))
         else Ok (false, firstn j (place 0 l)).
Proof using G He.
  intros Hi. destruct (Nat.ltb_spec j (length l)) as [H2|H2].
  { rewrite <- (app_nil_r file), ensure_more by lia. reflexivity. }
  assert (j = length l) by lia. subst j. clear H2. rewrite firstn_all2 by (rewrite place_length; lia).
  unfold ensure_table. rewrite place_length.
  destruct (Z.leb_spec 0 (Z.of_nat i)); [|lia]. destruct (Z.leb_spec (Z.of_nat i) (len l)); [|lia]. cbn [assert bind].
  destruct (Nat.ltb_spec i (length l)) as [H1|H1].
  { destruct (Z.eqb_spec (Z.of_nat i) (len l)); [lia|reflexivity]. }
  destruct (Z.eqb_spec (Z.of_nat i) (len l)); [|lia]. rewrite next_place by assumption. fold file.
  assert (A : (len file <=? est) || (est =? 0) = true).
  { destruct He as [->|Q]; [now rewrite orb_true_r|]. apply orb_true_iff. left. apply Z.leb_le. exact Q. }
  rewrite A. cbn [assert bind]. destruct (Z.ltb_spec (len file) 0); [lia|]. rewrite read_table_end. reflexivity.
Qed.

(** A sequential read finds them all, then the end of the data. *)
Lemma read_tables_prefix fuel j : (j <= length l)%nat -> (length l - j < fuel)%nat ->
  read_tables md5 st est file fuel (firstn j (place 0 l)) = (place 0 l, Clean).
Proof using G He.
  revert j. induction fuel as [|fuel IH]; intros j Hj Hf; [lia|]. cbn [read_tables].
  assert (Lj : length (firstn j (place 0 l)) = j) by (rewrite firstn_length, place_length; lia).
  rewrite Lj, ensure_prefix by lia. rewrite (proj2 (Nat.ltb_ge j j)) by lia.
  destruct (Nat.ltb_spec j (length l)) as [H|H]; [apply IH; lia|].
  f_equal. apply firstn_all2. rewrite place_length. lia.
Qed.
End File.

(** ** Truncation *)

(** With a handle that knows its size, a cut inside a frame is an error. *)
Lemma ensure_cut l f t k rest : good l -> frame md5 st f t -> (0 < k < length f)%nat ->
  rest = firstn k f ->
  ensure_table md5 st (len (concat (map fst l) ++ rest)) (concat (map fst l) ++ rest) (place 0 l) (len l) = Throw Incomplete.
Proof.
  intros G F Hk ->. unfold ensure_table. rewrite place_length. destruct (Z.leb_spec 0 (len l)); [|lia].
  rewrite Z.leb_refl, Z.eqb_refl. cbn [assert bind]. rewrite next_place by assumption.
  rewrite app_length, firstn_length, Nat.min_l, Nat2Z.inj_add by lia.
  destruct (Z.leb_spec (len (concat (map fst l))) (len (concat (map fst l)) + Z.of_nat k)); [|lia]. cbn [orb assert bind].
  destruct (Z.ltb_spec (len (concat (map fst l))) 0); [lia|].
  rewrite (read_table_cut f t _ k F Hk). reflexivity.
Qed.

(** Reading a truncated file. *)
Lemma read_tables_cut l f t k fuel j : good l -> frame md5 st f t -> (0 < k < length f)%nat ->
  (j <= length l)%nat -> (length l - j < fuel)%nat ->
  read_tables md5 st (len (concat (map fst l) ++ firstn k f)) (concat (map fst l) ++ firstn k f) fuel (firstn j (place 0 l))
    = (place 0 l, Failed Incomplete).
Proof.
  intros G F Hk. revert j. induction fuel as [|fuel IH]; intros j Hj Hf; [lia|]. cbn [read_tables].
  assert (Lj : length (firstn j (place 0 l)) = j) by (rewrite firstn_length, place_length; lia). rewrite Lj.
  destruct (Nat.eq_dec j (length l)) as [->|N].
  - rewrite (firstn_all2 (place 0 l)) by (rewrite place_length; lia). rewrite (ensure_cut l f t k _ G F Hk eq_refl). reflexivity.
  - rewrite (ensure_more l _ G) by (try lia; right; rewrite app_length; lia).
    rewrite (proj2 (Nat.ltb_ge j j)) by lia. apply IH; lia.
Qed.
End R.
