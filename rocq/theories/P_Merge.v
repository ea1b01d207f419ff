(** C53: the rows of several files side by side. *)
From Coq Require Import String.
From Verif Require Import IntProofs Spec Base Fp FpProofs Stream StreamProofs StreamLocal Codec Meta Header HeaderProofs Encoder Table TableProofs Reader
  FrameProofs Through Writer RowReader RowList WriterSpec WriterProofs WriterRun WriterRead Comparator P_Compare Copy CopySpec CopyProofs P_Copy
  P_Tables P_Set Merge MergeSpec.
Open Scope Z_scope.
Local Notation length := List.length.

(** ** Columns *)

Section Columns.
Variable st : settings.

Lemma copy_again c c1 : copyable c -> copy_column st c = Ok c1 -> info c1 = info c /\ copyable c1.
Proof.
  intros (B & M) H. unfold copy_column in H.
  destruct (clone_codec st (col_type c) (col_coder c)) as [k| |] eqn:E; cbn [bind] in H; try discriminate.
  assert (K : c_kind k = c_kind (col_coder c) /\ data_size_doubles k = data_size_doubles (col_coder c) /\ c_min k = c_min (col_coder c) /\ c_max k = c_max (col_coder c)).
  { unfold clone_codec in E. destruct (chars_based (c_kind (col_coder c))) eqn:Ch.
    - destruct (M eq_refl) as (M1 & M2). cbn [set_stats new_codec c_min c_max] in E. rewrite M1, M2 in E. cbn [assert bind] in E.
      injection E as <-. unfold data_size_doubles. cbn. rewrite Ch. auto.
    - injection E as <-. unfold data_size_doubles. cbn. rewrite Ch. auto. }
  destruct K as (K1 & K2 & K3 & K4). injection H as <-. split.
  - unfold info. cbn [col_name col_type col_bfnames col_bfsizes col_coder]. rewrite K2. destruct (col_type c =? ty_BITFIELD); reflexivity.
  - split; cbn [col_type col_bfnames col_bfsizes col_coder].
    + intros T. rewrite T. cbn. auto.
    + rewrite K1, K3, K4. exact M.
Qed.

Lemma made_copyable ci c : known_type ci -> (ci_type ci <> ty_BITFIELD -> ci_bits ci = []) -> make_column st ci = Ok c -> info c = ci /\ copyable c /\ col_name c = ci_name ci.
Proof.
  intros K Hb H. unfold make_column in H.
  destruct (working_codec st LE (ci_type ci)) as [k| |] eqn:E1; cbn [bind] in H; try discriminate.
  destruct (ci_size ci mod 8 =? 0) eqn:E2; cbn [assert bind] in H; try discriminate.
  destruct (set_data_size k (ci_size ci / 8)) as [k1| |] eqn:E3; cbn [bind] in H; try discriminate. injection H as <-.
  assert (D : data_size_doubles k1 = ci_size ci / 8) by (apply set_data_size_missing in E3; apply E3).
  assert (P : forall l : list (list Z * Z), combine (map fst l) (map snd l) = l) by (induction l as [|[? ?] l IH]; cbn; congruence).
  split; [|split; [|reflexivity]].
  - unfold info. cbn [col_name col_type col_bfnames col_bfsizes col_coder]. rewrite D. destruct ci as [nm ty sz bits]. cbn [ci_name ci_type ci_size ci_bits] in *. f_equal.
    + rewrite Z.mul_comm. apply Z.eqb_eq in E2. pose proof (Z.div_mod sz 8). lia.
    + destruct (Z.eqb_spec ty ty_BITFIELD) as [T|T]; [apply P|now rewrite Hb].
  - split; cbn [col_type col_bfnames col_bfsizes col_coder].
    + intros _. now rewrite !map_length.
    + assert (Kk : c_kind k1 = c_kind k /\ c_min k1 = c_min k /\ c_max k1 = c_max k).
      { unfold set_data_size in E3. destruct (chars_based (c_kind k)); [injection E3 as <-; cbn; auto|]. destruct (ci_size ci / 8 =? 1); [injection E3 as <-; auto|discriminate]. }
      destruct Kk as (-> & -> & ->). clear E3 D. unfold known_type in K. destruct K as [([[T|T]|[T|T]] & _)|(T & _)]; rewrite T in E1.
      * injection E1 as <-. discriminate.
      * destruct st as [[] l]; vm_compute in E1; injection E1 as <-; discriminate.
      * injection E1 as <-. discriminate.
      * injection E1 as <-. discriminate.
      * injection E1 as <-. intros _. destruct st as [[] l]; split; vm_compute; reflexivity.
Qed.

Definition made (done base : list column) : Prop := Forall2 (fun ci c => make_column st ci = Ok c) (map info done) base.
Definition can (c : column) : Prop := known_type (info c) /\ copyable c.

Lemma made_can done base : made done base -> Forall can done -> map info base = map info done /\ Forall can base /\ map col_name base = map col_name done.
Proof.
  intros M. remember (map info done) as l eqn:El. unfold made in M. rewrite <- El in M. revert done El. induction M as [|ci c l base H _ IH]; intros [|d done] El K; try discriminate; cbn [map] in *.
  - auto.
  - inversion K as [|? ? (K1 & K2) K3]; subst. injection El as -> ->. destruct (IH done eq_refl K3) as (I1 & I2 & I3).
    destruct (made_copyable (info d) c K1) as (A1 & A2 & A3); [|exact H|].
    { intros T. cbn [info ci_bits ci_type] in *. destruct (Z.eqb_spec (col_type d) ty_BITFIELD); [contradiction|reflexivity]. }
    split; [congruence|]. split; [|now rewrite A3, I3]. constructor; [|exact I2]. split; [now rewrite A1|exact A2].
Qed.

Lemma copies cs : Forall can cs -> exists cs1, map_out (copy_column st) cs = Ok cs1 /\ map info cs1 = map info cs /\ Forall can cs1 /\ map col_name cs1 = map col_name cs.
Proof.
  induction 1 as [|c cs (K & C) _ (cs1 & E1 & E2 & E3 & E4)]; [exists []; cbn; auto|].
  destruct (copy_reset st c K C) as (c1 & _ & F & _). destruct (copy_again c c1 C F) as (I & C1).
  exists (c1 :: cs1). cbn [map_out map]. rewrite F. cbn [bind]. rewrite E1. cbn [bind]. split; [reflexivity|]. split; [congruence|].
  split; [constructor; [split; [now rewrite I|exact C1]|exact E3]|]. rewrite E4. f_equal. apply (f_equal ci_name) in I. exact I.
Qed.

(** a column of [cs] is called as one of [done] *)
Definition taken (done cs : list column) : Prop := exists c c', In c done /\ In c' cs /\ called (col_name c) (col_name c').

Lemma taken_names done cs done' cs' : map col_name done = map col_name done' -> map col_name cs = map col_name cs' -> taken done cs -> taken done' cs'.
Proof.
  intros E1 E2 (c & c' & H1 & H2 & H3). apply (in_map col_name) in H1, H2. rewrite E1 in H1. rewrite E2 in H2.
  apply in_map_iff in H1 as (d & Ed & H1), H2 as (d' & Ed' & H2). exists d, d'. rewrite Ed, Ed'. auto.
Qed.

Lemma taken_spec done cs : existsb (fun c => has_column done (col_name c)) cs = true <-> taken done cs.
Proof.
  rewrite existsb_exists. split.
  - intros (c & I & H). apply (proj2 (proj2 (proj2 (C39_column_index done (col_name c))))) in H as (i & d & Ei & D). exists d, c. split; [eapply nth_error_In; exact Ei|auto].
  - intros (d & c & I1 & I2 & D). exists c. split; [exact I2|]. apply (proj2 (proj2 (proj2 (C39_column_index done (col_name c))))).
    apply In_nth_error in I1 as (i & Ei). exists i, d. auto.
Qed.

Lemma columns_step w done cs : made done (w_cols w) -> Forall can done -> Forall can cs ->
  (taken done cs /\ forall rest, merge_columns st w (cs :: rest) = Throw UserError) \/
  (~ taken done cs /\ exists w', made (done ++ cs) (w_cols w') /\ w_rows w' = w_rows w /\ w_out w' = w_out w /\ w_size w' = w_size w /\
    forall rest, merge_columns st w (cs :: rest) = merge_columns st w' rest).
Proof.
  intros M K C. destruct (made_can _ _ M K) as (B1 & B2 & B3).
  destruct (copies cs C) as (cs1 & E1 & E2 & E3 & E4). cbn [merge_columns]. rewrite E1. cbn [bind].
  destruct (existsb (fun c => has_column (w_cols w) (col_name c)) cs1) eqn:X.
  - left. split; [|reflexivity]. apply taken_spec in X. now apply (taken_names _ _ _ _ B3 E4).
  - right. split. { intros T. symmetry in B3, E4. apply (taken_names _ _ _ _ B3 E4), taken_spec in T. congruence. }
    destruct (copies (w_cols w) B2) as (md & F1 & F2 & F3 & F4). destruct (copies cs1 E3) as (more & G1 & G2 & G3 & G4).
    assert (Kk : Forall (fun c => known_type (info c)) (md ++ more) /\ Forall copyable (md ++ more)).
    { split; apply Forall_app; split; eapply Forall_impl; try eassumption; intros ? (? & ?); assumption. }
    destruct (columns_ok st (md ++ more) (proj1 Kk) (proj2 Kk)) as (c2 & base & A1 & A2 & _ & A4 & _).
    exists {| w_cols := base; w_last := w_last w; w_rows := w_rows w; w_size := w_size w; w_out := w_out w; w_init := true |}.
    cbn [w_cols w_rows w_out w_size]. split.
    { unfold made. rewrite map_app in *. rewrite F2, G2, B1, E2 in A4. exact A4. }
    split; [reflexivity|]. split; [reflexivity|]. split; [reflexivity|]. intros rest. rewrite F1. cbn [bind]. rewrite G1. cbn [bind].
    unfold writer_columns. rewrite A1. cbn [bind]. rewrite A2. reflexivity.
Qed.

(** no column called as one of an earlier list *)
Fixpoint apart (done : list column) (ins : list (list column)) : Prop :=
  match ins with [] => True | cs :: rest => ~ taken done cs /\ apart (done ++ cs) rest end.

Lemma merge_columns_ok : forall ins w done, made done (w_cols w) -> Forall can done -> Forall can (concat ins) -> apart done ins ->
  exists w', merge_columns st w ins = Ok w' /\ made (done ++ concat ins) (w_cols w') /\ w_rows w' = w_rows w /\ w_out w' = w_out w /\ w_size w' = w_size w.
Proof.
  induction ins as [|cs ins IH]; intros w done M K C A.
  - exists w. rewrite app_nil_r. auto.
  - cbn [concat] in C. apply Forall_app in C as (C1 & C2). destruct A as (A1 & A2).
    destruct (columns_step w done cs M K C1) as [(T & _)|(_ & w1 & M1 & R1 & R2 & R3 & E)]; [contradiction|].
    destruct (IH w1 (done ++ cs) M1) as (w2 & E2 & M2 & S1 & S2 & S3); auto; [now apply Forall_app|].
    exists w2. rewrite E. cbn [concat]. rewrite app_assoc. split; [exact E2|]. split; [exact M2|]. repeat split; congruence.
Qed.

Lemma apart_dec : forall ins done, apart done ins \/ ~ apart done ins.
Proof.
  induction ins as [|cs ins IH]; intros done; cbn [apart]; [auto|].
  destruct (existsb (fun c => has_column done (col_name c)) cs) eqn:X.
  - apply taken_spec in X. tauto.
  - assert (~ taken done cs) by (intros T; apply taken_spec in T; congruence). destruct (IH (done ++ cs)); tauto.
Qed.

Lemma merge_columns_clash : forall ins w done, made done (w_cols w) -> Forall can done -> Forall can (concat ins) -> ~ apart done ins ->
  merge_columns st w ins = Throw UserError.
Proof.
  induction ins as [|cs ins IH]; intros w done M K C A; [elim A; exact I|].
  cbn [concat] in C. apply Forall_app in C as (C1 & C2).
  destruct (columns_step w done cs M K C1) as [(T & E)|(T & w1 & M1 & _ & _ & _ & E)]; [apply E|].
  rewrite E. apply (IH w1 (done ++ cs)); auto; [now apply Forall_app|]. intros Q. apply A. split; auto.
Qed.
End Columns.

(** ** One row *)

(** the first doubles of [xs] put into the cells [olds] *)
Fixpoint puts (xs olds : list (list Z)) : list (list Z) :=
  match xs, olds with
  | x :: xs, o :: olds => (firstn 8 x ++ skipn 8 o) :: puts xs olds
  | _, _ => olds
  end.

Lemma puts_length : forall xs olds, length (puts xs olds) = length olds.
Proof. induction xs as [|x xs IH]; intros [|o olds]; cbn [puts length]; auto. Qed.

Lemma put_cell_mid A o C x : put_cell (A ++ o :: C) (length A) x = A ++ (firstn 8 x ++ skipn 8 o) :: C.
Proof.
  unfold put_cell. rewrite nth_error_app2, Nat.sub_diag by lia. cbn [nth_error]. induction A as [|a A IH]; cbn [length app list_set]; [reflexivity|]. now rewrite IH.
Qed.

Lemma put_cells_ok n : forall xs A olds, (length xs <= length olds)%nat -> n = (length A + length olds)%nat ->
  put_cells n (A ++ olds) (length A) xs = Ok (A ++ puts xs olds, (length A + length xs)%nat).
Proof.
  induction xs as [|x xs IH]; intros A olds L E; cbn [put_cells puts length].
  - now rewrite Nat.add_0_r.
  - destruct olds as [|o olds]; [cbn in L; lia|]. cbn [length] in *. rewrite (proj2 (Nat.ltb_lt _ _)) by lia. cbn [assert bind].
    rewrite put_cell_mid. replace (A ++ (firstn 8 x ++ skipn 8 o) :: olds) with ((A ++ [firstn 8 x ++ skipn 8 o]) ++ olds) by (now rewrite <- app_assoc).
    replace (S (length A)) with (length (A ++ [firstn 8 x ++ skipn 8 o])) by (rewrite app_length; cbn; lia).
    rewrite IH; [|lia|rewrite app_length; cbn; lia]. rewrite <- app_assoc, app_length. cbn [app length puts]. f_equal. f_equal. lia.
Qed.

Lemma puts_app xs ys : forall olds, puts (xs ++ ys) olds = puts xs (firstn (length xs) olds) ++ puts ys (skipn (length xs) olds).
Proof. induction xs as [|x xs IH]; intros [|o olds]; cbn [app puts length firstn skipn]; try reflexivity; [now destruct ys|]. now rewrite IH. Qed.

Lemma puts_firstn xs : forall olds, (length xs <= length olds)%nat -> puts xs olds = puts xs (firstn (length xs) olds) ++ skipn (length xs) olds.
Proof. induction xs as [|x xs IH]; intros [|o olds] L; cbn [puts length firstn skipn app] in *; try reflexivity; try lia. rewrite IH by lia. reflexivity. Qed.

Section Run.
Variables st st' : settings.
Variables (pr : props) (md5 : list Z -> list Z).
Hypothesis Hd : digest md5.
Variable N : nat.
Hypothesis HN : (0 < N)%nat.
Variable junk : nat -> nat -> list Z.

(** an input of [fst p] columns with the rows [snd p] to come *)
Definition input (it : riter) (p : nat * list arow) : Prop :=
  shaped it /\ ahead md5 st junk it (snd p) /\ forall r, In r (snd p) -> length (fst r) = fst p.

Definition advanced (p : nat * list arow) (h : arow * (nat * list arow)) : Prop :=
  fst (snd h) = fst p /\ snd p = fst h :: snd (snd h) /\ length (snd (fst h)) = fst p.

Definition total (ps : list (nat * list arow)) : nat := fold_right Nat.add 0%nat (map fst ps).

Lemma round_ok n : forall its ps A olds, Forall2 input its ps -> length olds = total ps -> n = (length A + length olds)%nat ->
  (In [] (map snd ps) /\ merge_round md5 st junk n (A ++ olds) (length A) its = Ok None) \/
  (exists hs its', Forall2 advanced ps hs /\ Forall2 input its' (map snd hs) /\
     merge_round md5 st junk n (A ++ olds) (length A) its = Ok (Some (A ++ puts (concat (map snd (map fst hs))) olds, its'))).
Proof.
  induction its as [|it its IH]; intros ps A olds F L E; inversion F as [|? p ? ps' (I1 & I2 & I3) F']; subst; cbn [merge_round].
  - right. exists [], []. cbn. auto.
  - unfold total in L. cbn [map fold_right] in L. fold (total ps') in L. destruct p as [k rows]. cbn [fst snd] in *. destruct (r_end it) eqn:Ee.
    + left. destruct I2 as [(_ & ->)|(Q & _)]; [|congruence]. split; [now left|reflexivity].
    + destruct (ahead_step md5 st junk it rows I1 Ee I2) as (it1 & o & rest & -> & Nx & A1). destruct (next_step md5 st junk it it1 o I1 Nx) as (Sh1 & _).
      assert (Lk : length (r_last it) = k) by (rewrite (I1 Ee); apply (I3 (r_cols it, r_last it)); now left).
      rewrite (put_cells_ok _ (r_last it) A olds) by lia. cbn [bind]. rewrite Nx. cbn [bind].
      rewrite (puts_firstn (r_last it) olds) by lia. rewrite app_assoc. set (A' := A ++ puts (r_last it) (firstn (length (r_last it)) olds)).
      assert (LA : length A' = (length A + length (r_last it))%nat) by (unfold A'; rewrite app_length, puts_length, firstn_length; lia). rewrite <- LA.
      destruct (IH ps' A' (skipn (length (r_last it)) olds) F') as [(J & R)|(hs & its' & J1 & J2 & R)].
      * rewrite skipn_length. lia.
      * rewrite LA, skipn_length. lia.
      * left. rewrite R. split; [now right|reflexivity].
      * right. rewrite R. exists (((r_cols it, r_last it), (k, rest)) :: hs), (it1 :: its'). cbn [map concat fst snd]. split.
        { constructor; [|exact J1]. repeat split; cbn [fst snd]; auto. }
        split. { constructor; [|exact J2]. repeat split; cbn [fst snd]; auto. intros r Hr. apply I3. now right. }
        cbn [bind]. f_equal. f_equal. f_equal. unfold A'. rewrite <- app_assoc. f_equal. now rewrite puts_app.
Qed.

Variable out : list arow.
Hypothesis HC : rows_copyable st N pr out.
Variable cs0 : list column.
Hypothesis Hin : In cs0 (map fst out).
Hypothesis Hsame : forall r, In r out -> map shape (fst r) = map shape cs0.

(** a cell of the row being prepared: zero after the first double *)
Definition blank (ci : colinfo) (cell : list Z) : Prop :=
  Z.of_nat (length cell) = ci_size ci /\ skipn 8 cell = repeat 0 (Z.to_nat (ci_size ci) - 8).

Lemma first_eight_length x : length (first_eight x) = length x.
Proof. unfold first_eight. rewrite app_length, firstn_length, repeat_length. lia. Qed.

Lemma puts_cut : forall cols xs olds, Forall2 blank cols olds -> Forall2 (fun ci x => Z.of_nat (length x) = ci_size ci) cols (map first_eight xs) ->
  Forall (fun ci => 8 <= ci_size ci) cols -> puts xs olds = map first_eight xs /\ Forall2 blank cols (map first_eight xs).
Proof.
  induction cols as [|ci cols IH]; intros xs olds B X W.
  - destruct xs; [|inversion X]. inversion B; subst. cbn. auto.
  - destruct xs as [|x xs]; [inversion X|]. cbn [map] in X. inversion X as [|? ? ? ? X1 X2]; subst. inversion B as [|? o ? os (B1 & B2) B3]; subst. inversion W as [|? ? W1 W2]; subst.
    destruct (IH xs os B3 X2 W2) as (I1 & I2). cbn [puts map]. rewrite I1. rewrite first_eight_length in X1.
    assert (E : firstn 8 x ++ skipn 8 o = first_eight x) by (unfold first_eight; rewrite B2; repeat f_equal; lia).
    split; [now rewrite E|]. constructor; [|exact I2]. split; [now rewrite first_eight_length|]. unfold first_eight.
    rewrite skipn_app, firstn_length, Nat.min_l by lia. rewrite skipn_all2 by (rewrite firstn_length; lia). rewrite Nat.sub_diag. cbn [skipn app]. f_equal. lia.
Qed.

Lemma wide_enough : Forall (fun ci => 8 <= ci_size ci) (map info cs0).
Proof using All.
  destruct (known st pr N out HC cs0 Hin) as (_ & _ & W). pose proof (wc_types _ _ W) as K. eapply Forall_impl; [|exact K].
  intros ci [(_ & ->)|(_ & d & D & -> & _)]; lia.
Qed.

Lemma alloc_blank cols : map shape cols = map shape cs0 -> Forall2 blank (map info cs0) (alloc_buffers cols).
Proof using All.
  pose proof wide_enough as W. intros E. unfold alloc_buffers. revert cols E. clear -W. induction cs0 as [|c cs IH]; intros [|d cols] E; try discriminate; cbn [map]; constructor.
  - cbn [map] in E. assert (Q : shape d = shape c) by congruence. unfold shape in Q. assert (Qd : data_size_doubles (col_coder d) = data_size_doubles (col_coder c)) by congruence.
    inversion W as [|? ? W1 _]; subst. cbn [info ci_size] in W1. unfold blank, initial_cell, width. cbn [info ci_size]. rewrite Qd. split.
    + rewrite app_length, le_bytes_length, repeat_length. lia.
    + rewrite skipn_app, le_bytes_length, skipn_all2 by (rewrite le_bytes_length; lia). cbn [Nat.sub skipn app]. f_equal. lia.
  - apply IH; [now inversion W|cbn [map] in E; congruence].
Qed.

Lemma advanced_rows ps hs : Forall2 advanced ps hs ->
  Forall2 (fun rows r => nth_error rows 0 = Some r) (map snd ps) (map fst hs) /\
  total (map snd hs) = total ps /\ ~ In [] (map snd ps) /\
  (forall k rs, Forall2 (fun rows r => nth_error rows (S k) = Some r) (map snd ps) rs <-> Forall2 (fun rows r => nth_error rows k = Some r) (map snd (map snd hs)) rs) /\
  (forall k, (forall rows, In rows (map snd ps) -> (S k < length rows)%nat) <-> (forall rows, In rows (map snd (map snd hs)) -> (k < length rows)%nat)).
Proof.
  induction 1 as [|[n rows] [h [n' rest]] ps hs (A1 & A2 & A3) F (I1 & I2 & I3 & I4 & I5)]; cbn [map fst snd] in *; subst.
  - split; [constructor|]. split; [reflexivity|]. split; [intros []|]. split; [intros k rs; split; intros Q; inversion Q; constructor|]. intros k. split; intros _ ? [].
  - split; [constructor; [reflexivity|exact I1]|]. split; [unfold total in *; cbn [map fold_right fst]; congruence|]. split; [intros [Q|Q]; [discriminate|contradiction]|]. split.
    + intros k rs. split; intros Q; inversion Q as [|? ? ? ? Q1 Q2]; subst; constructor; try exact Q1; now apply I4.
    + intros k. split; intros Q rows' [<-|Hr].
      * specialize (Q _ (or_introl eq_refl)). cbn [length] in Q. lia.
      * apply (proj1 (I5 k)); [|exact Hr]. intros r Hr'. apply Q. now right.
      * specialize (Q _ (or_introl eq_refl)). cbn [length]. lia.
      * apply (proj2 (I5 k)); [|exact Hr]. intros r Hr'. apply Q. now right.
Qed.

Lemma loop_ok : forall rest its ps w nr p done, out = done ++ rest -> Forall2 input its ps -> total ps = length cs0 ->
  side_by_side_cut (map snd ps) rest -> Forall2 blank (map info cs0) nr -> session st st' pr md5 N out w cs0 p done ->
  forall fuel, (length rest < fuel)%nat -> exists w' p', merge_loop md5 st junk N pr fuel w nr its = Ok w' /\ session st st' pr md5 N out w' cs0 p' out.
Proof using All.
  induction rest as [|[cs row] rest IH]; intros its ps w nr p done E F T B Bl Se [|fuel] Hf; try (cbn in Hf; lia); cbn [merge_loop].
  all: assert (Sw : map shape (w_cols w) = map shape cs0) by (destruct Se as [_ (base & B1 & B2 & B3) _ _ _]; rewrite (pending_shape st _ base B1 w p _ B3); exact B2).
  all: assert (Ln : length (w_cols w) = length nr) by (rewrite <- (map_length shape), Sw, <- (TableProofs.Forall2_length _ _ _ Bl), !map_length; reflexivity).
  all: assert (Lo : length nr = total ps) by (rewrite T, <- (TableProofs.Forall2_length _ _ _ Bl), map_length; reflexivity).
  all: destruct (round_ok (length (w_cols w)) its ps [] nr F Lo) as [(Q & R)|(hs & its' & Q1 & Q2 & R)]; [cbn; exact Ln| |]; cbn [app length] in R; rewrite R; cbn [bind].
  - exists w, p. rewrite app_nil_r in E. split; [reflexivity|]. rewrite E at 2. exact Se.
  - exfalso. destruct (advanced_rows ps hs Q1) as (_ & _ & Q & _). pose proof (proj2 (sc_count _ _ B 0%nat)) as X. cbn in X.
    enough (0 < 0)%nat by lia. apply X. intros rows Hr. destruct rows; [contradiction|cbn; lia].
  - exfalso. pose proof (proj1 (sc_count _ _ B 0%nat)) as X. cbn [length] in X. specialize (X (Nat.lt_0_succ _) [] Q). cbn in X. lia.
  - destruct (advanced_rows ps hs Q1) as (H1 & H2 & H3 & H4 & H5).
    destruct (sc_row _ _ B 0%nat cs row eq_refl) as (rs & G1 & G2 & G3).
    assert (rs = map fst hs). { clear -H1 G1. revert rs G1. induction H1 as [|a b l l' X _ IH]; intros rs G; inversion G; subst; f_equal; auto. congruence. }
    subst rs. assert (Hr : In (cs, row) out) by (rewrite E; apply in_or_app; right; now left).
    pose proof (Hsame _ Hr) as Hs. cbn [fst] in Hs.
    assert (Sh : Forall2 (fun ci x => Z.of_nat (length x) = ci_size ci) (map info cs0) row).
    { pose proof (part_ok st pr N out HC cs0 [row] Hin) as W. pose proof (wr_shape _ _ _ _ (W ltac:(discriminate) ltac:(cbn; lia) ltac:(intros r [<-|[]]; eauto))) as X. now inversion X. }
    rewrite G3 in Sh. destruct (puts_cut (map info cs0) _ nr Bl Sh wide_enough) as (P1 & P2). rewrite P1, <- G3. rewrite <- G3 in P2.
    destruct (write_ok st st' pr md5 Hd N HN junk out HC w cs0 p done row cs Se Hr Hs) as (w1 & p1 & W1 & W2). rewrite W1. cbn [bind].
    assert (Sw1 : map shape (w_cols w1) = map shape cs0) by (destruct W2 as [_ (base & B1 & B2 & B3) _ _ _]; rewrite (pending_shape st _ base B1 w1 p1 _ B3); exact B2).
    apply (IH its' (map snd hs) w1 _ p1 (done ++ [(cs, row)])); auto.
    + now rewrite <- app_assoc.
    + congruence.
    + split.
      * intros k. rewrite <- H5, <- (sc_count _ _ B (S k)). cbn [length]. lia.
      * intros k cs' row' Ek. destruct (sc_row _ _ B (S k) cs' row' Ek) as (rs & X1 & X2). exists rs. split; [now apply H4|exact X2].
    + destruct (w_rows w1); [now apply alloc_blank|exact P2].
    + cbn [length] in Hf. lia.
Qed.
End Run.

(** ** Names *)

Lemma apart_spec : forall css done, apart done css <-> forall j cs, nth_error css j = Some cs -> ~ taken (done ++ concat (firstn j css)) cs.
Proof.
  induction css as [|cs css IH]; intros done; cbn [apart].
  - split; [intros _ [|j] cs; discriminate|auto].
  - rewrite IH. split.
    + intros (A & B) [|j] cs' E; cbn [nth_error] in E.
      * injection E as <-. cbn. now rewrite app_nil_r.
      * cbn [firstn concat]. rewrite app_assoc. now apply B.
    + intros H. split; [specialize (H 0%nat cs eq_refl); cbn in H; now rewrite app_nil_r in H|].
      intros j cs' E. specialize (H (S j) cs' E). cbn [firstn concat] in H. now rewrite app_assoc in H.
Qed.

(** the columns of the first row of each input *)
Definition heads (css : list (list column)) (ins : list (list arow)) : Prop := Forall2 (fun cs rows => exists r rest, rows = r :: rest /\ cs = fst r) css ins.

Lemma clash_spec css ins : heads css ins -> (clash ins <-> ~ apart [] css).
Proof.
  intros H.
  assert (At : forall i cs, nth_error css i = Some cs <-> exists rows r, nth_error ins i = Some rows /\ hd_error rows = Some r /\ cs = fst r).
  { unfold heads in H. induction H as [|cs rows css ins (r & rest & -> & ->) _ IH]; intros [|i] cs'; cbn [nth_error].
    - split; [discriminate|]. intros (? & ? & ? & _). discriminate.
    - split; [discriminate|]. intros (? & ? & ? & _). discriminate.
    - split; [intros E; injection E as <-; exists (r :: rest), r; auto|]. intros (? & ? & E & E1 & ->). injection E as <-. cbn in E1. congruence.
    - apply IH. }
  assert (Tk : forall j cs, taken ([] ++ concat (firstn j css)) cs <-> exists i csi c c', (i < j)%nat /\ nth_error css i = Some csi /\ In c csi /\ In c' cs /\ called (col_name c) (col_name c')).
  { intros j cs. cbn [app]. unfold taken. split.
    - intros (c & c' & I1 & I2 & Q). apply in_concat in I1 as (csi & I1 & I3). apply In_nth_error in I1 as (i & Ei).
      assert (i < length (firstn j css))%nat as Li by (apply nth_error_Some; congruence). rewrite firstn_length in Li.
      exists i, csi, c, c'. split; [lia|]. split; [|auto]. rewrite <- (firstn_skipn j css), nth_error_app1 by (rewrite firstn_length; lia). exact Ei.
    - intros (i & csi & c & c' & L & Ei & I1 & I2 & Q). exists c, c'. split; [|auto]. apply in_concat. exists csi. split; [|exact I1].
      apply (nth_error_In _ i). assert (i < length css)%nat by (apply nth_error_Some; congruence).
      rewrite <- (firstn_skipn j css), nth_error_app1 in Ei by (rewrite firstn_length; lia). exact Ei. }
  split.
  - intros (i & j & rows & rows' & r & r' & c & c' & L & E1 & E2 & E3 & E4 & I1 & I2 & Q) A. rewrite apart_spec in A.
    apply (A j (fst r')); [apply At; eauto|]. apply Tk. exists i, (fst r), c, c'. split; [exact L|]. split; [apply At; eauto|auto].
  - intros NA.
    assert (exists j cs, nth_error css j = Some cs /\ taken ([] ++ concat (firstn j css)) cs) as (j & cs & Ej & T).
    { clear -NA. revert NA. generalize (@nil column) as done. induction css as [|cs css IH]; intros done NA; [elim NA; exact I|]. cbn [apart] in NA.
      destruct (existsb (fun c => has_column done (col_name c)) cs) eqn:X.
      - apply taken_spec in X. exists 0%nat, cs. split; [reflexivity|]. cbn. now rewrite app_nil_r.
      - assert (~ taken done cs) by (intros T; apply taken_spec in T; congruence). destruct (IH (done ++ cs)) as (j & cs' & E & T); [tauto|].
        exists (S j), cs'. split; [exact E|]. cbn [firstn concat]. now rewrite app_assoc. }
    apply Tk in T as (i & csi & c & c' & L & Ei & I1 & I2 & Q). apply At in Ej as (rows' & r' & X1 & X2 & ->), Ei as (rows & r & Y1 & Y2 & ->).
    exists i, j, rows, rows', r, r', c, c'. auto 12.
Qed.

(** ** The inputs *)

Definition reads (md5 : list Z -> list Z) (st : settings) (junk : nat -> nat -> list Z) (file : list Z) (rows : list arow) : Prop :=
  forall f, (length rows < f)%nat -> file_rows md5 st junk f file = (rows, Clean).

Lemma begin_ok md5 st junk file rows : reads md5 st junk file rows -> exists it, begin_rows md5 st junk file = Ok it /\ shaped it /\ ahead md5 st junk it rows.
Proof.
  intros R. assert (exists it, begin_rows md5 st junk file = Ok it) as (it & B).
  { pose proof (R (S (length rows)) ltac:(lia)) as Q. unfold file_rows in Q. unfold begin_rows.
    destruct (open_rows md5 st junk file) as [it0| |]; cbn [bind]; try discriminate. cbn [list_rows] in Q.
    destruct (next_row md5 st junk it0) as [[it1 o]| |]; cbn [bind]; try discriminate. eauto. }
  exists it. split; [exact B|]. destruct (begin_ahead md5 st junk file it rows B) as (Sh & AH). split; [exact Sh|]. now apply AH.
Qed.

Lemma begins_ok md5 st junk files ins : Forall2 (reads md5 st junk) files ins ->
  exists its, map_out (begin_rows md5 st junk) files = Ok its /\ Forall2 (fun it rows => shaped it /\ ahead md5 st junk it rows) its ins.
Proof.
  induction 1 as [|file rows files ins R _ (its & E & F)]; [exists []; split; [reflexivity|constructor]|].
  destruct (begin_ok md5 st junk file rows R) as (it & B & C). exists (it :: its). cbn [map_out]. rewrite B. cbn [bind]. rewrite E. split; [reflexivity|now constructor].
Qed.

Lemma heads_ok md5 st junk its ins : Forall2 (fun it rows => shaped it /\ ahead md5 st junk it rows) its ins -> (forall rows, In rows ins -> rows <> []) ->
  heads (map r_cols its) ins.
Proof.
  unfold heads. induction 1 as [|it rows its ins (Sh & A) _ IH]; intros H; cbn [map]; constructor.
  - destruct A as [(_ & ->)|(_ & rest & -> & _)]; [now elim (H [] (or_introl eq_refl))|]. eexists _, rest. split; reflexivity.
  - apply IH. intros rows' Hr. apply H. now right.
Qed.


(** ** The theorems *)

(** What is written, cells of any width. *)
Theorem C53_cut : forall md5 st st' N pr junk files ins out, digest md5 -> (0 < N)%nat -> out <> [] ->
  Forall2 (fun file rows => forall f, (length rows < f)%nat -> file_rows md5 st junk f file = (rows, Clean)) files ins ->
  (forall rows, In rows ins -> same_columns rows) -> ~ clash ins ->
  side_by_side_cut ins out -> rows_copyable st N pr out ->
  exists merged, (forall fuel, (length out < fuel)%nat -> merge_files md5 st junk N pr fuel files = Ok merged) /\
    forall junk', exists rows2, Forall2 (copied st st') out rows2 /\
      forall f, (length out < f)%nat -> file_rows md5 st' junk' f merged = (rows2, Clean).
Proof.
  intros md5 st st' N pr junk files ins out Hd HN Hne R Sc Cl B HC.
  destruct (begins_ok md5 st junk files ins R) as (its & Eb & F).
  assert (Ne : forall rows, In rows ins -> rows <> []).
  { intros rows Hr ->. pose proof (proj1 (sc_count _ _ B 0%nat)) as X. destruct out; [congruence|]. specialize (X (Nat.lt_0_succ _) _ Hr). cbn in X. lia. }
  pose proof (heads_ok md5 st junk its ins F Ne) as Hh.
  set (css := map r_cols its) in *. set (cs0 := concat css).
  destruct out as [|[cs1 row1] out1] eqn:Eout; [congruence|]. rewrite <- Eout in *. clear Hne.
  assert (Rs : forall k cs row, nth_error out k = Some (cs, row) -> map shape cs = map shape cs0 /\ (k = 0%nat -> cs = cs0)).
  { intros k cs row Ek. destruct (sc_row _ _ B k cs row Ek) as (rs & Q & -> & _). unfold cs0. clear -Q Hh Sc. unfold heads in Hh. 
    revert rs Q. induction Hh as [|cs rows css ins (r & rest & -> & ->) _ IH]; intros rs Q; inversion Q as [|? r1 ? rs' Q1 Q2]; subst; [cbn; auto|]. cbn [map concat].
    destruct (IH (fun rows Hr => Sc rows (or_intror Hr)) rs' Q2) as (I1 & I2). rewrite !map_app, I1. split.
    - f_equal. apply (Sc (r :: rest)); [now left|eapply nth_error_In; exact Q1|now left].
    - intros ->. rewrite (I2 eq_refl). cbn in Q1. congruence. }
  assert (Hin : In cs0 (map fst out)).
  { rewrite <- (proj2 (Rs 0%nat cs1 row1 ltac:(rewrite Eout; reflexivity)) eq_refl). rewrite Eout. now left. }
  assert (Hsame : forall r, In r out -> map shape (fst r) = map shape cs0).
  { intros [cs row] Hr. apply In_nth_error in Hr as (k & Ek). apply (Rs k cs row Ek). }
  destruct (known st pr N out HC cs0 Hin) as (K1 & K2 & K3).
  assert (Kc : Forall can (concat css)) by (apply Forall_forall; intros c Hc; rewrite Forall_forall in K1, K2; split; auto).
  assert (Ap : apart [] css) by (destruct (apart_dec css []) as [A|A]; [exact A|elim Cl; now apply (clash_spec css ins Hh)]).
  destruct (merge_columns_ok st css (new_writer []) [] (Forall2_nil _) (Forall_nil _) Kc Ap) as (w & Em & Md & W1 & W2 & W3).
  cbn [app new_writer w_rows w_out w_size] in *. fold cs0 in Md.
  assert (Pe : pending st (map info cs0) (w_cols w) (write_header w) [] []) by (pose proof (header_ok st (map info cs0) (w_cols w) Md w eq_refl W1) as X; now rewrite W2 in X).
  assert (Sb : map shape (w_cols w) = map shape cs0).
  { destruct (made_can st cs0 (w_cols w) Md) as (X & _); [exact Kc|]. clear -X. 
    revert X. generalize (w_cols w) as l. induction cs0 as [|c cs IH]; intros [|d l] X; try discriminate; [reflexivity|]. cbn [map] in *.
    assert (Xc : info d = info c) by congruence. assert (Xl : map info l = map info cs) by congruence. clear X. f_equal; [|auto].
    pose proof (f_equal ci_name Xc) as X1. pose proof (f_equal ci_type Xc) as X2. pose proof (f_equal ci_size Xc) as X3. cbn [info ci_name ci_type ci_size] in X1, X2, X3.
    unfold shape. rewrite X1, X2. f_equal. lia. }
  assert (Se : session st st' pr md5 N out (write_header w) cs0 [] []).
  { split; auto.
    - exists (w_cols w). change (w_out (write_header w)) with (w_out w). rewrite W2. auto.
    - intros ? [].
    - exists []. change (w_out (write_header w)) with (w_out w). rewrite W2. split; [apply hold_nil|constructor]. }
  set (ps := map (fun rows => (length (fst (hd ([], []) rows)), rows)) ins).
  assert (Ps : map snd ps = ins) by (unfold ps; rewrite map_map; cbn [snd]; apply map_id).
  assert (Fi : Forall2 (input st md5 junk) its ps).
  { unfold ps. clear -F Sc. induction F as [|it rows its ins (A1 & A2) _ IH]; cbn [map]; constructor.
    - repeat split; cbn [fst snd]; auto. intros r Hr. destruct rows as [|r0 rows]; [destruct Hr|]. cbn [hd].
      assert (Q : map shape (fst r) = map shape (fst r0)) by (apply (Sc (r0 :: rows)); [now left|exact Hr|now left]). apply (f_equal (@length _)) in Q. now rewrite !map_length in Q.
    - apply IH. intros rows' Hr. apply Sc. now right. }
  assert (Tt : total ps = length cs0).
  { unfold ps, total, cs0. rewrite map_map. cbn [fst]. clear -Hh. unfold heads in Hh. induction Hh as [|cs rows css ins (r & rest & -> & ->) _ IH]; [reflexivity|].
    cbn [map fold_right concat hd]. rewrite app_length, IH. reflexivity. }
  assert (Bl : Forall2 blank (map info cs0) (alloc_buffers (w_cols (write_header w)))).
  { apply (alloc_blank st st' pr md5 Hd N HN junk out HC cs0 Hin Hsame). unfold write_header. cbn [w_cols]. rewrite <- Sb. clear. induction (w_cols w) as [|c l IH]; [reflexivity|]. cbn [map]. rewrite IH. f_equal. }
  assert (Core : forall fuel, (length out < fuel)%nat -> exists copy r1, merge_files md5 st junk N pr fuel files = Ok copy /\
            frames_hold st st' pr md5 copy r1 /\ Forall2 (matched out) out r1).
  { intros fuel Hf.
    destruct (loop_ok st st' pr md5 Hd N HN junk out HC cs0 Hin Hsame out its ps (write_header w) (alloc_buffers (w_cols (write_header w))) [] [] eq_refl Fi Tt) with (fuel := fuel)
      as (w1 & p1 & L1 & [S1 (base1 & B1 & B2 & B3) S3 S4 (r1 & D1 & D2)]); [now rewrite Ps|exact Bl|exact Se|exact Hf|].
    unfold merge_files. rewrite Eb. cbn [bind]. fold css. rewrite Em. cbn [bind]. rewrite L1. cbn [bind].
    destruct (session_flush st st' pr md5 Hd N HN (map info cs0) base1 K3 B1 w1 p1 (w_out w1) B3) as (w2 & Dd & F1 & F2 & F3);
      [lia|intros Hp; apply (part_ok st pr N out HC); auto; lia|].
    unfold Writer.close. destruct B3 as [-> _ _ _ _ _ _]. rewrite F1. cbn [bind]. destruct F2 as [Q1 _ Q3 Q4 _ _ _].
    eexists (w_out w2), _. split; [reflexivity|]. split; [|exact D2]. rewrite Q4. now apply hold_app. }
  destruct (Core (S (length out)) (Nat.lt_succ_diag_r _)) as (mg & r1 & Kk & (fs & bs & -> & Ff & <-) & M).
  exists (concat bs). split.
  - intros fuel Hf. destruct (Core fuel Hf) as (mg' & _ & K' & _). rewrite K'. clear -Kk K' Eb Em. revert Kk K'. unfold merge_files. rewrite Eb. cbn [bind]. fold css. rewrite Em. cbn [bind].
    generalize (S (length out)) as f1. intros f1.
    assert (X : forall a b w nr its x y, merge_loop md5 st junk N pr a w nr its = Ok x -> merge_loop md5 st junk N pr b w nr its = Ok y -> x = y).
    { clear. induction a as [|a IH]; intros [|b] w nr its x y; cbn [merge_loop]; try discriminate.
      destruct (merge_round md5 st junk (length (w_cols w)) nr 0 its) as [[[nr1 its1]|]| |]; cbn [bind]; try discriminate; [|congruence].
      destruct (write_row md5 st N pr w (concat nr1)) as [w1| |]; cbn [bind]; try discriminate. apply IH. }
    destruct (merge_loop md5 st junk N pr f1 (write_header w) _ its) as [x| |] eqn:E1; cbn [bind]; try discriminate.
    destruct (merge_loop md5 st junk N pr fuel (write_header w) _ its) as [y| |] eqn:E2; cbn [bind]; try discriminate.
    rewrite (X _ _ _ _ _ _ _ E2 E1). congruence.
  - intros junk'. destruct (read_file st st' pr md5 Hd junk' fs bs Ff) as (rows2 & C & RR).
    assert (Ll : length (flat fs) = length out) by (symmetry; apply (TableProofs.Forall2_length _ _ _ M)).
    exists rows2. split; [|now rewrite <- Ll]. now apply (copied_of_matched st st' out (flat fs)).
Qed.
Print Assumptions C53_cut.

(** Cells of eight bytes: nothing is lost. *)
Theorem C53_merge : forall md5 st st' N pr junk files ins out, digest md5 -> (0 < N)%nat -> out <> [] ->
  Forall2 (fun file rows => forall f, (length rows < f)%nat -> file_rows md5 st junk f file = (rows, Clean)) files ins ->
  (forall rows cs row x, In rows ins -> In (cs, row) rows -> In x row -> length x = 8%nat) ->
  (forall rows, In rows ins -> same_columns rows) -> ~ clash ins ->
  side_by_side ins out -> rows_copyable st N pr out ->
  exists merged, (forall fuel, (length out < fuel)%nat -> merge_files md5 st junk N pr fuel files = Ok merged) /\
    forall junk', exists rows2, Forall2 (copied st st') out rows2 /\
      forall f, (length out < f)%nat -> file_rows md5 st' junk' f merged = (rows2, Clean).
Proof.
  intros md5 st st' N pr junk files ins out Hd HN Hne R E Sc Cl B HC. apply (C53_cut md5 st st' N pr junk files ins out); auto.
  destruct B as [B1 B2]. split; [exact B1|]. intros k cs row Ek. destruct (B2 k cs row Ek) as (rs & F & -> & ->). exists rs. split; [exact F|]. split; [reflexivity|].
  symmetry. rewrite <- (map_id (concat (map snd rs))) at 2. apply map_ext_in. intros x Hx. apply in_concat in Hx as (cells & Hc & Hx). apply in_map_iff in Hc as ([cs' row'] & <- & Hr). cbn [snd] in Hx.
  assert (exists rows, In rows ins /\ In (cs', row') rows) as (rows & I1 & I2).
  { clear -F Hr. induction F as [|rows r ins rs H _ IH]; [destruct Hr|]. destruct Hr as [->|Hr]; [exists rows; split; [now left|eapply nth_error_In; exact H]|].
    destruct (IH Hr) as (rows' & A & C). exists rows'. split; [now right|exact C]. }
  unfold first_eight. rewrite (E rows cs' row' x I1 I2 Hx), firstn_all2 by (rewrite (E rows cs' row' x I1 I2 Hx); lia). cbn [Nat.sub repeat]. apply app_nil_r.
Qed.
Print Assumptions C53_merge.

(** There always are such rows, and only one choice of them. *)
Theorem C53_exists : forall ins : list (list arow), ins <> [] -> exists out, side_by_side ins out /\ forall other, side_by_side ins other -> other = out.
Proof.
  intros ins Hne.
  assert (Ex : forall n ins, (exists rows : list arow, In rows ins /\ length rows = n) -> exists out, side_by_side ins out).
  { clear. induction n as [|n IH]; intros ins (rows & I & L).
    - exists []. destruct rows; [|discriminate]. split; [|intros [|k]; discriminate]. intros k. split; [cbn; lia|]. intros H. apply (H [] I).
    - assert (D : (exists hts : list (arow * list arow), ins = map (fun p => fst p :: snd p) hts) \/ In [] ins).
      { clear. induction ins as [|[|r rows] ins IHi]; [left; now exists []|right; now left|]. destruct IHi as [(hts & ->)|H]; [left; now exists ((r, rows) :: hts)|right; now right]. }
      destruct D as [(hts & ->)|D].
      2:{ exists []. split; [|intros [|k]; discriminate]. intros k. split; [cbn; lia|]. intros H. apply (H [] D). }
      destruct (IH (map snd hts)) as (out & [O1 O2]).
      { apply in_map_iff in I as ((h, t) & E & I). cbn in E. subst rows. exists t. split; [apply (in_map snd) in I; exact I|cbn in L; lia]. }
      exists ((concat (map fst (map fst hts)), concat (map snd (map fst hts))) :: out). split.
      + intros [|k].
        * split; [|cbn [length]; lia]. intros _ rows' H. apply in_map_iff in H as (p & <- & _). cbn [length]. lia.
        * transitivity (k < length out)%nat; [cbn [length]; lia|]. rewrite O1. split; intros H rows' Hr.
          -- apply in_map_iff in Hr as (p & <- & Hp). cbn [length]. specialize (H (snd p) (in_map snd _ _ Hp)). lia.
          -- apply in_map_iff in Hr as (p & <- & Hp). specialize (H (fst p :: snd p)). cbn [length] in H. enough (S k < S (length (snd p)))%nat by lia. apply H. apply in_map_iff. eauto.
      + intros [|k] cs row E; cbn [nth_error] in E.
        * injection E as <- <-. exists (map fst hts). split; [|auto]. clear. induction hts as [|p hts IHt]; cbn [map]; constructor; [reflexivity|exact IHt].
        * destruct (O2 k cs row E) as (rs & F & Q). exists rs. split; [|exact Q]. clear -F. revert rs F. induction hts as [|p hts IHt]; intros rs F; inversion F; subst; cbn [map]; constructor; [assumption|]. now apply IHt. }
  assert (exists out, side_by_side ins out) as (out & O).
  { destruct ins as [|rows ins]; [congruence|]. apply (Ex (length rows)). exists rows. split; [now left|reflexivity]. }
  exists out. split; [exact O|]. intros other P.
  assert (L : length other = length out).
  { destruct (Nat.lt_trichotomy (length other) (length out)) as [H|[H|H]]; [|exact H|].
    - rewrite (sb_count _ _ O), <- (sb_count _ _ P) in H. lia.
    - rewrite (sb_count _ _ P), <- (sb_count _ _ O) in H. lia. }
  apply ReaderProofs.nth_ext_error. intros k. destruct (nth_error other k) as [[cs row]|] eqn:E1, (nth_error out k) as [[cs' row']|] eqn:E2; try reflexivity.
  - destruct (sb_row _ _ P k cs row E1) as (rs & F & -> & ->), (sb_row _ _ O k cs' row' E2) as (rs' & F' & -> & ->).
    enough (rs = rs') by (now subst). clear -F F'. revert rs' F'. induction F as [|a b l l' H _ IH]; intros rs' F'; inversion F'; subst; [reflexivity|]. f_equal; [congruence|auto].
  - apply nth_error_None in E2. assert (k < length other)%nat by (apply nth_error_Some; congruence). lia.
  - apply nth_error_None in E1. assert (k < length out)%nat by (apply nth_error_Some; congruence). lia.
Qed.
Print Assumptions C53_exists.

(** A name taken twice is refused. *)
Theorem C53_clash : forall md5 st N pr junk files ins,
  Forall2 (fun file rows => forall f, (length rows < f)%nat -> file_rows md5 st junk f file = (rows, Clean)) files ins ->
  (forall rows, In rows ins -> rows <> []) ->
  (forall rows r c, In rows ins -> In r rows -> In c (fst r) -> known_type (info c) /\ copyable c) ->
  clash ins -> forall fuel, merge_files md5 st junk N pr fuel files = Throw UserError.
Proof.
  intros md5 st N pr junk files ins R Ne K Cl fuel. destruct (begins_ok md5 st junk files ins R) as (its & Eb & F).
  pose proof (heads_ok md5 st junk its ins F Ne) as Hh. unfold merge_files. rewrite Eb. cbn [bind].
  rewrite (merge_columns_clash st (map r_cols its) (new_writer []) [] (Forall2_nil _) (Forall_nil _)); [reflexivity| |now apply (clash_spec _ ins Hh)].
  apply Forall_forall. intros c Hc. apply in_concat in Hc as (cs & H1 & H2). revert H1. clear -Hh K H2. unfold heads in Hh.
  induction Hh as [|cs' rows css ins (r & rest & -> & ->) _ IH]; intros H1; [destruct H1|]. destruct H1 as [<-|H1].
  - apply (K (r :: rest) r); [now left|now left|exact H2].
  - apply IH; [|exact H1]. intros rows r' c' Hr. apply K. now right.
Qed.
Print Assumptions C53_clash.

(** An input without rows: nothing is written. *)
Theorem C53_none : forall md5 st N pr junk files ins fuel merged,
  Forall2 (fun file rows => forall f, (length rows < f)%nat -> file_rows md5 st junk f file = (rows, Clean)) files ins ->
  In [] ins -> merge_files md5 st junk N pr fuel files = Ok merged -> merged = [].
Proof.
  intros md5 st N pr junk files ins fuel merged R I H. destruct (begins_ok md5 st junk files ins R) as (its & Eb & F).
  unfold merge_files in H. rewrite Eb in H. cbn [bind] in H.
  assert (E : Exists (fun it => r_end it = true) its).
  { clear -F I. induction F as [|it rows its ins (_ & A) _ IH]; [destruct I|]. destruct I as [->|I]; [left|right; auto]. destruct A as [(A & _)|(_ & ? & A & _)]; [exact A|discriminate]. }
  assert (Mc : forall css w w', merge_columns st w css = Ok w' -> w_out w' = w_out w /\ w_rows w' = w_rows w).
  { clear. induction css as [|cs css IH]; intros w w'; cbn [merge_columns]; [intros Q; injection Q as <-; auto|].
    destruct (map_out (copy_column st) cs) as [cs1| |]; cbn [bind]; try discriminate. destruct (existsb _ cs1); try discriminate.
    destruct (map_out (copy_column st) (w_cols w)) as [md| |]; cbn [bind]; try discriminate. destruct (map_out (copy_column st) cs1) as [more| |]; cbn [bind]; try discriminate.
    unfold writer_columns. destruct (map_out (copy_column st) (md ++ more)) as [c2| |]; cbn [bind]; try discriminate. destruct (map_out (reset_codec st) c2) as [c3| |]; cbn [bind]; try discriminate.
    intros Q. apply IH in Q. exact Q. }
  destruct (merge_columns st (new_writer []) (map r_cols its)) as [w| |] eqn:Em; cbn [bind] in H; try discriminate. destruct (Mc _ _ _ Em) as (M1 & M2). cbn in M1, M2.
  assert (Rd : forall nr i n r, merge_round md5 st junk n nr i its = Ok r -> r = None).
  { clear -E. induction its as [|it its IH]; intros nr i n r; [inversion E|]. cbn [merge_round]. destruct (r_end it) eqn:Ee; [congruence|].
    inversion E as [? ? Q|? ? Q]; subst; [congruence|]. destruct (put_cells n nr i (r_last it)) as [[nr1 i1]| |]; cbn [bind]; try discriminate.
    destruct (next_row md5 st junk it) as [[it1 o]| |]; cbn [bind]; try discriminate.
    destruct (merge_round md5 st junk n nr1 i1 its) as [r1| |] eqn:Em; cbn [bind]; try discriminate. apply (IH Q) in Em. subst r1. congruence. }
  destruct fuel as [|fuel]; cbn [merge_loop bind] in H; [discriminate|].
  destruct (merge_round md5 st junk _ _ 0 its) as [r| |] eqn:Er; cbn [bind] in H; try discriminate. apply Rd in Er. subst r. cbn [bind] in H.
  unfold Writer.close, flush in H. unfold write_header in H. cbn [w_init assert bind w_rows w_out] in H. rewrite M2 in H.
  destruct (negb (w_size w =? 0) && (w_size w <? row_bytes (w_cols w))) in H; cbn [bind w_out] in H; congruence.
Qed.
Print Assumptions C53_none.
