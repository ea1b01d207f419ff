(** C57: the ODB file written from a query's results. *)
From Coq Require Import String.
From Verif Require Import IntProofs Spec Base Fp FpProofs Stream StreamProofs StreamLocal Codec Meta Header HeaderProofs Encoder Table TableProofs Reader
  FrameProofs Through Writer RowReader RowList WriterSpec WriterProofs WriterRun WriterRead OrdinaryProofs Copy CopySpec CopyProofs P_Tables OdaOut OdaSpec.
Open Scope Z_scope.
Local Notation length := List.length.

(** ** Texts *)

Lemma until_nul_repeat t k : ~ In 0 t -> until_nul (t ++ repeat 0 k) = t.
Proof.
  induction t as [|b t IH]; intros H; cbn [app until_nul].
  - destruct k; reflexivity.
  - destruct (Z.eqb_spec b 0) as [->|_]; [elim H; now left|]. rewrite IH; [reflexivity|]. intros Q. apply H. now right.
Qed.
Lemma until_nul_no : forall t, ~ In 0 (until_nul t).
Proof.
  induction t as [|b t IH]; cbn [until_nul]; [auto|]. destruct (Z.eqb_spec b 0) as [->|E]; [auto|]. intros [Q|Q]; [congruence|contradiction].
Qed.
Lemma until_nul_le : forall t, (length (until_nul t) <= length t)%nat.
Proof. induction t as [|b t IH]; cbn [until_nul length]; [lia|]. destruct (b =? 0); cbn [length]; lia. Qed.

Lemma strncpy_ok : forall n val, (n <= length val)%nat \/ In 0 val ->
  strncpy val n = Ok (until_nul (firstn n val) ++ repeat 0 (n - length (until_nul (firstn n val)))).
Proof.
  induction n as [|n IH]; intros val H; [reflexivity|]. cbn [strncpy]. destruct val as [|b val].
  - destruct H as [H|[]]. cbn in H. lia.
  - cbn [firstn until_nul]. destruct (Z.eqb_spec b 0) as [->|E]; [reflexivity|].
    rewrite IH. { cbn [bind length app Nat.sub]. reflexivity. }
    destruct H as [H|[H|H]]; [left; cbn in H; lia|congruence|right; exact H].
Qed.

Lemma skipn_repeat {A} (x : A) : forall n k, skipn n (repeat x k) = repeat x (k - n).
Proof. induction n as [|n IH]; intros [|k]; cbn [skipn repeat Nat.sub]; auto. Qed.

Section Oda.
Variable st : settings.

Lemma cell_ok ci old v : suits ci v -> len old = ci_size ci -> (ci_type ci <> ty_STRING -> ci_size ci = 8) ->
  oda_cell old (ci_size ci) (missing_bits st (ci_type ci)) v = Ok (cell_of st ci v) /\ len (cell_of st ci v) = ci_size ci.
Proof.
  intros H L T. destruct v as [bits m|val n m]; cbn [suits oda_cell cell_of] in *.
  - destruct H as (H & _). specialize (T H). unfold len in *. rewrite skipn_all2 by lia. rewrite app_nil_r, le_bytes_length. split; [reflexivity|lia].
  - destruct H as (_ & H1 & H2). unfold len in *. destruct (Z.ltb_spec (Z.of_nat (length old)) (ci_size ci)); [lia|].
    destruct (Z.leb_spec n (ci_size ci)); [|lia]. cbn [assert bind]. rewrite (skipn_all2 old) by lia. rewrite app_nil_r.
    destruct m.
    + cbn [app length]. rewrite repeat_length. split; [f_equal; f_equal; lia|lia].
    + set (t := until_nul (firstn (Z.to_nat n) val)). rewrite strncpy_ok by (destruct (H2 eq_refl); [left; lia|auto]). fold t. cbn [bind].
      assert (length t <= Z.to_nat n)%nat as Lt by (pose proof (until_nul_le (firstn (Z.to_nat n) val)) as Q; rewrite firstn_length in Q; unfold t; lia).
      split; [|rewrite app_length, repeat_length; lia].
      rewrite skipn_repeat, <- app_assoc, <- repeat_app. do 3 f_equal. lia.
Qed.

Lemma cells_ok : forall cols next vals, Forall2 suits cols vals -> Forall2 (fun ci x => len x = ci_size ci) cols next ->
  Forall (fun ci => ci_type ci <> ty_STRING -> ci_size ci = 8) cols ->
  oda_cells next (map ci_size cols) (map (fun ci => missing_bits st (ci_type ci)) cols) vals = Ok (row_of st (cols, vals)) /\
  Forall2 (fun ci x => len x = ci_size ci) cols (row_of st (cols, vals)).
Proof.
  unfold row_of. cbn [fst snd]. induction cols as [|ci cols IH]; intros next vals S L T; inversion S as [|? v ? vs S1 S2]; inversion L as [|? o ? os L1 L2]; inversion T as [|? ? T1 T2]; subst.
  - split; [reflexivity|constructor].
  - destruct (IH os vs S2 L2 T2) as (A & B). destruct (cell_ok ci o v S1 L1 T1) as (C & D).
    cbn [oda_cells map combine fst snd]. rewrite C. cbn [bind]. rewrite A. cbn [bind]. split; [reflexivity|]. constructor; assumption.
Qed.

(** ** Columns *)

Lemma made_missing ci c : known_type ci -> make_column st ci = Ok c -> missing_value (col_coder c) = missing_bits st (ci_type ci).
Proof.
  intros K H. destruct ci as [nm ty sz bits]. unfold make_column in H. cbn [ci_type ci_size ci_name ci_bits] in *.
  apply bind_ok in H as (k & H1 & H). apply bind_ok in H as (u & H2 & H). apply bind_ok in H as (k1 & H3 & H). assert (col_coder c = k1) as -> by (apply (f_equal (fun o => match o with Ok x => col_coder x | _ => k1 end)) in H; cbn in H; congruence).
  assert (missing_value k1 = missing_value k) as ->.
  { unfold set_data_size in H3. destruct (chars_based (c_kind k)); [injection H3 as <-; reflexivity|]. destruct (sz / 8 =? 1); [injection H3 as <-; reflexivity|discriminate]. }
  unfold known_type in K. cbn [ci_type ci_size] in K. destruct K as [([[T|T]|[T|T]] & _)|(T & _)]; rewrite T in *; clear T; destruct st as [[] l]; vm_compute in H1; injection H1 as <-; vm_compute; reflexivity.
Qed.

Lemma resized ci c d : make_column st ci = Ok c -> ci_type ci = ty_STRING ->
  exists k, set_data_size (col_coder c) d = Ok k /\
    make_column st {| ci_name := ci_name ci; ci_type := ci_type ci; ci_size := 8 * d; ci_bits := ci_bits ci |} = Ok (with_coder c k).
Proof.
  intros H T. destruct ci as [nm ty sz bits]. cbn [ci_type ci_size ci_name ci_bits] in *. subst ty.
  unfold make_column in *. cbn [ci_type ci_size ci_name ci_bits] in *.
  apply bind_ok in H as (k & H1 & H). apply bind_ok in H as (u & H2 & H). apply bind_ok in H as (k1 & H3 & H).
  rewrite H1. cbn [bind]. rewrite Z.mul_comm, Z_mod_mult. cbn [Z.eqb assert bind]. rewrite Z.div_mul by lia.
  assert (Ek : chars_based (c_kind k) = true) by (destruct st as [[] l]; vm_compute in H1; injection H1 as <-; reflexivity).
  unfold set_data_size in *. rewrite Ek in *. injection H3 as <-. injection H as <-. cbn [col_coder with_coder col_name col_type col_bfnames col_bfsizes].
  change (c_kind (set_strings k (c_strings k) (c_lookup k) (sz / 8))) with (c_kind k). rewrite Ek. eexists. split; [reflexivity|]. reflexivity.
Qed.

(** the columns that grow *)
Fixpoint grow_list (cols news : list colinfo) : list (list Z * Z) :=
  match cols, news with
  | c :: cs, n :: ns => (if (ci_type c =? ty_STRING) && (ci_size c <? ci_size n) then [(ci_name n, ci_size n / 8)] else []) ++ grow_list cs ns
  | _, _ => []
  end.

Definition looks (ci : colinfo) (c : column) : Prop := col_name c = ci_name ci /\ col_type c = ci_type ci /\ 8 * data_size_doubles (col_coder c) = ci_size ci.

Lemma grown_ok : forall cols news cs, same_titles cols news -> Forall known_type cols -> Forall2 looks cols cs ->
  oda_grown cs (map ci_size cols) news = Ok (map ci_size (widen cols news), grow_list cols news).
Proof.
  intros cols news cs H. revert cs. induction H as [|c n cols news (H1 & H2 & H3) H IH]; intros cs K L; inversion L as [|? d ? ds (L1 & L2 & L3) L']; inversion K as [|? ? K1 K2]; subst; [reflexivity|].
  cbn [oda_grown map widen grow_list]. specialize (IH ds K2 L').
  rewrite H2, L2, Z.eqb_refl. cbn [assert bind]. rewrite H1, L1, bytes_eqb_refl. cbn [assert bind].
  destruct (Z.eqb_spec (ci_type c) ty_STRING) as [T|T].
  - destruct (H3 ltac:(congruence)) as (e & E1 & E2 & E3). rewrite E2. rewrite (Z.mul_comm 8 e), Z_mod_mult. cbn [Z.eqb assert bind]. rewrite IH. cbn [bind andb].
    rewrite Z.div_mul by lia. destruct (Z.ltb_spec (data_size_doubles (col_coder d)) e) as [Q|Q].
    + destruct (Z.ltb_spec (ci_size c) (e * 8)); [|lia]. cbn [app map widest ci_size]. rewrite E2, Z.max_r by lia. rewrite (Z.mul_comm 8 e). reflexivity.
    + destruct (Z.ltb_spec (ci_size c) (e * 8)); [lia|]. cbn [app map widest ci_size]. rewrite E2, Z.max_l by lia. reflexivity.
  - assert (ci_size c = 8) as S8 by (destruct K1 as [(_ & ?)|(? & _)]; [assumption|congruence]).
    destruct (Z.eqb_spec (data_size_doubles (col_coder d)) 1); [|lia]. cbn [assert bind andb app]. rewrite IH. reflexivity.
Qed.

Lemma widen_same : forall cols news, grow_list cols news = [] -> widen cols news = cols.
Proof.
  induction cols as [|c cols IH]; intros [|n news] H; cbn [widen grow_list] in *; auto.
  apply app_eq_nil in H as (H1 & H2). rewrite (IH _ H2). destruct (ci_type c =? ty_STRING); [|reflexivity]. cbn [andb] in H1.
  destruct (Z.ltb_spec (ci_size c) (ci_size n)); [discriminate|]. f_equal. destruct c as [a b k d]. unfold widest. cbn [ci_name ci_type ci_size ci_bits] in *. f_equal. lia.
Qed.

Lemma made_looks cols base : Forall2 (fun ci c => make_column st ci = Ok c) cols base -> Forall2 looks cols base.
Proof.
  intros H. induction H as [|ci c cols base H _ IH]; constructor; [|exact IH]. pose proof (make_column_facts st ci c H) as (_ & _ & _ & _ & _ & W & _).
  unfold make_column in H. apply bind_ok in H as (k & H1 & H). apply bind_ok in H as (u & H2 & H). apply bind_ok in H as (k1 & H3 & H). injection H as <-.
  unfold looks, width in *. auto.
Qed.

Lemma resize_ok : forall cols news A B, same_titles cols news -> Forall2 (fun ci c => make_column st ci = Ok c) cols B ->
  (forall i c, nth_error B i = Some c -> col_type c = ty_STRING -> forall j d, nth_error (A ++ B) j = Some d -> called (col_name d) (col_name c) -> j = (length A + i)%nat) ->
  exists B', oda_resize (A ++ B) (grow_list cols news) = Ok (A ++ B') /\ Forall2 (fun ci c => make_column st ci = Ok c) (widen cols news) B'.
Proof.
  intros cols news A B H. revert A B. induction H as [|c n cols news (H1 & H2 & H3) H IH]; intros A B M U; inversion M as [|? b ? B0 M1 M2]; subst.
  - exists []. cbn. split; [reflexivity|constructor].
  - cbn [grow_list widen].
    assert (Next : forall b', col_name b' = col_name b -> forall i d, nth_error B0 i = Some d -> col_type d = ty_STRING ->
              forall j e, nth_error ((A ++ [b']) ++ B0) j = Some e -> called (col_name e) (col_name d) -> j = (length (A ++ [b']) + i)%nat).
    { intros b' Eb i d Ei Ti j e Ej Cj. rewrite app_length. cbn [length].
      assert (exists e', nth_error (A ++ b :: B0) j = Some e' /\ col_name e' = col_name e) as (e' & Ej' & Ne).
      { clear -Ej Eb. rewrite <- app_assoc in Ej. cbn [app] in Ej. destruct (Nat.lt_ge_cases j (length A)) as [L|L].
        - rewrite nth_error_app1 in * by lia. eauto.
        - rewrite nth_error_app2 in * by lia. destruct (j - length A)%nat; cbn [nth_error] in *; [injection Ej as <-; eauto|eauto]. }
      rewrite <- Ne in Cj. rewrite (U (S i) d Ei Ti j e' Ej' Cj). lia. }
    pose proof (made_looks [c] [b] ltac:(now constructor)) as LK. inversion LK as [|? ? ? ? (L1 & L2 & L3) _]; subst. clear LK.
    destruct (Z.eqb_spec (ci_type c) ty_STRING) as [T|T]; cbn [andb app].
    + destruct (Z.ltb_spec (ci_size c) (ci_size n)) as [G|G]; cbn [app].
      * destruct (H3 ltac:(congruence)) as (e & E1 & E2 & E3). destruct (resized c b e M1 T) as (k & S1 & S2).
        cbn [oda_resize]. assert (column_index (A ++ b :: B0) (ci_name n) = Ok (Z.of_nat (length A))) as ->.
        { apply (proj1 (C39_column_index (A ++ b :: B0) (ci_name n))). split; [lia|]. intros j. rewrite H1, <- L1. split.
          - intros (d & Ed & Cd). f_equal. rewrite (U 0%nat b eq_refl ltac:(congruence) j d Ed Cd). lia.
          - intros Ej. assert (j = length A) by lia. subst j. exists b. rewrite nth_error_app2, Nat.sub_diag by lia. split; [reflexivity|now left]. }
        cbn [bind]. rewrite Nat2Z.id, nth_error_app2, Nat.sub_diag by lia. cbn [nth_error]. rewrite E2, (Z.mul_comm 8 e), Z.div_mul, S1 by lia. cbn [bind].
        rewrite StringProofs.list_set_app. destruct (IH (A ++ [with_coder b k]) B0 M2 (Next (with_coder b k) eq_refl)) as (B' & R1 & R2).
        exists (with_coder b k :: B'). rewrite <- !app_assoc in R1. cbn [app] in R1. rewrite R1. split; [reflexivity|]. constructor; [|exact R2].
        unfold widest. replace (Z.max (ci_size c) (ci_size n)) with (8 * e) by lia. exact S2.
      * destruct (IH (A ++ [b]) B0 M2 (Next _ eq_refl)) as (B' & R1 & R2). exists (b :: B'). rewrite <- !app_assoc in R1. cbn [app] in R1. rewrite R1.
        split; [reflexivity|]. constructor; [|exact R2]. unfold widest. replace (Z.max (ci_size c) (ci_size n)) with (ci_size c) by lia. now destruct c.
    + destruct (IH (A ++ [b]) B0 M2 (Next _ eq_refl)) as (B' & R1 & R2). exists (b :: B'). rewrite <- !app_assoc in R1. cbn [app] in R1. rewrite R1.
      split; [reflexivity|]. constructor; [exact M1|exact R2].
Qed.

Lemma widen_names : forall cols news, map ci_name (widen cols news) = map ci_name cols /\ map ci_type (widen cols news) = map ci_type cols /\
  map ci_bits (widen cols news) = map ci_bits cols.
Proof.
  induction cols as [|c cols IH]; intros [|n news]; cbn [widen map]; auto. destruct (IH news) as (-> & -> & ->).
  destruct (ci_type c =? ty_STRING); auto.
Qed.

Lemma widen_writable cols news pr : same_titles cols news -> writable_columns cols pr -> writable_columns (widen cols news) pr.
Proof.
  intros H [W1 W2 W3 W4 W5 W6 W7]. destruct (widen_names cols news) as (N1 & N2 & N3).
  assert (Lw : length (widen cols news) = length cols) by (rewrite <- (map_length ci_name), N1, map_length; reflexivity).
  split; auto.
  - intros E. rewrite E in Lw. destruct cols; [congruence|discriminate].
  - now rewrite Lw.
  - now rewrite N1.
  - clear -W4 N1. rewrite Forall_forall in *. intros ci I E. apply (in_map ci_name) in I. rewrite N1, in_map_iff in I. destruct I as (x & Ex & I). apply (W4 x I). congruence.
  - clear -H W5. revert W5. induction H as [|c n cols news (H1 & H2 & H3) H IH]; intros K; cbn [widen]; [constructor|]. inversion K as [|? ? K1 K2]; subst. constructor; [|auto].
    destruct (Z.eqb_spec (ci_type c) ty_STRING) as [T|T]; [|exact K1]. destruct (H3 ltac:(congruence)) as (e & E1 & E2 & E3).
    destruct K1 as [([[?|?]|[?|?]] & _)|(_ & d & D1 & D2 & D3)]; try (unfold ty_INTEGER, ty_BITFIELD, ty_REAL, ty_DOUBLE, ty_STRING in *; congruence).
    right. split; [exact T|]. exists (Z.max d e). cbn [widest ci_size]. lia.
  - clear -H W6. revert W6. induction H as [|c n cols news H0 H IH]; intros K; cbn [widen]; [constructor|]. inversion K as [|? ? K1 K2]; subst. constructor; [|auto].
    destruct (ci_type c =? ty_STRING); exact K1.
Qed.

Lemma widen_titles cols news : text_titles cols -> text_titles (widen cols news).
Proof.
  intros U i j ci cj Ei Ej T C. destruct (widen_names cols news) as (N1 & N2 & _).
  assert (X : forall k c, nth_error (widen cols news) k = Some c -> exists c', nth_error cols k = Some c' /\ ci_name c' = ci_name c /\ ci_type c' = ci_type c).
  { intros k c Ek. assert (E1 : nth_error (map ci_name cols) k = Some (ci_name c)) by (rewrite <- N1, nth_error_map, Ek; reflexivity).
    assert (E2 : nth_error (map ci_type cols) k = Some (ci_type c)) by (rewrite <- N2, nth_error_map, Ek; reflexivity).
    rewrite nth_error_map in E1, E2. destruct (nth_error cols k) as [c'|]; [|discriminate]. cbn in E1, E2. exists c'. split; [reflexivity|]. split; congruence. }
  apply X in Ei as (ai & Ei & A1 & A2), Ej as (aj & Ej & A3 & A4). apply (U i j ai aj Ei Ej); congruence.
Qed.

Lemma columns_first : forall cols done, NoDup (done ++ map ci_name cols) -> Forall (fun ci => ci_name ci <> []) cols ->
  Forall known_type (map osized cols) -> exists base, oda_columns st done cols = Ok base /\ Forall2 (fun ci c => make_column st ci = Ok c) (map osized cols) base.
Proof.
  induction cols as [|ci cols IH]; intros done ND NE KT; [exists []; split; [reflexivity|constructor]|].
  inversion NE as [|? ? N1 N2]; inversion KT as [|? ? K1 K2]; subst. cbn [oda_columns map] in *.
  assert (existsb (bytes_eqb (ci_name ci)) (done ++ map (fun _ => []) cols) = false) as ->.
  { apply Bool.not_true_iff_false. intros Q. apply existsb_exists in Q as (x & I & Q). apply bytes_eqb_eq in Q. subst x.
    apply in_app_or in I as [I|I].
    - apply NoDup_remove_2 in ND. apply ND, in_or_app. now left.
    - apply in_map_iff in I as (y & I & _). now apply N1. }
  rewrite Bool.andb_false_r.
  destruct (set_columns_ok st [osized ci] [] ltac:(constructor; [auto|constructor])) as (b & _ & Fb); [repeat constructor; exact N1|now constructor|].
  inversion Fb as [|? c ? ? Hc _]; subst. destruct (IH (done ++ [ci_name ci])) as (base & E & F); auto.
  { now rewrite <- app_assoc. }
  exists (c :: base). rewrite Hc. cbn [bind]. rewrite E. split; [reflexivity|]. now constructor.
Qed.

Lemma alloc_len cols cs : Forall2 looks cols cs -> Forall known_type cols -> Forall2 (fun ci x => len x = ci_size ci) cols (alloc_buffers cs).
Proof.
  intros H. induction H as [|ci c cols cs (L1 & L2 & L3) _ IH]; intros K; cbn [alloc_buffers map]; [constructor|]. inversion K as [|? ? K1 K2]; subst. constructor; [|now apply IH].
  unfold initial_cell, width, len. rewrite app_length, le_bytes_length, repeat_length, L3.
  assert (8 <= ci_size ci) by (destruct K1 as [(_ & ?)|(_ & d & ? & ? & _)]; lia). lia.
Qed.

Lemma looks_shape cols cs cs' : map shape cs' = map shape cs -> Forall2 looks cols cs -> Forall2 looks cols cs'.
Proof.
  intros E H. revert cs' E. induction H as [|ci c cols cs (L1 & L2 & L3) _ IH]; intros [|c' cs'] E; try discriminate; constructor; cbn [map] in E.
  - assert (shape c' = shape c) as Q by congruence. unfold shape in Q. unfold looks. repeat split; congruence.
  - apply IH. congruence.
Qed.

End Oda.

(** ** A query's session *)

Section Session.
Variables st st' : settings.
Variables (pr : props) (md5 : list Z -> list Z).
Hypothesis Hd : digest md5.
Variable N : nat.
Hypothesis HN : (0 < N)%nat.
Variable rows : list (list colinfo * list (list Z)).
Hypothesis HS : rows_storable st N pr rows.

Definition as_cells (r : list colinfo * list ovalue) : list colinfo * list (list Z) := (fst r, row_of st r).

Record osession (s : oda) (cols : list colinfo) (p : list (list (list Z))) (done : list (list colinfo * list ovalue)) : Prop := {
  os_columns : writable_columns cols pr;
  os_titles : text_titles cols;
  os_base : exists base, Forall2 (fun ci c => make_column st ci = Ok c) cols base /\ pending st cols base (o_w s) p (w_out (o_w s));
  os_short : (length p < N)%nat;
  os_next : Forall2 (fun ci x => len x = ci_size ci) cols (o_next s);
  os_sizes : o_sizes s = map ci_size cols;
  os_missing : o_missing s = map (fun ci => missing_bits st (ci_type ci)) cols;
  os_rows : forall row, In row p -> In (cols, row) rows;
  os_done : exists r1, frames_hold st st' pr md5 (w_out (o_w s)) r1 /\ map as_cells done = r1 ++ map (pair cols) p
}.

Lemma result_step s cols p done vals : osession s cols p done -> Forall2 suits cols vals -> In (cols, row_of st (cols, vals)) rows ->
  exists s' p', oda_result md5 st N pr s vals = Ok s' /\ osession s' cols p' (done ++ [(cols, vals)]).
Proof using All.
  intros [O1 O2 (base & B1 & B2) O4 O5 O6 O7 O8 (r1 & D1 & D2)] Hv Hin. pose proof (wc_types _ _ O1) as KT.
  destruct (cells_ok st cols (o_next s) vals Hv O5) as (C1 & C2).
  { eapply Forall_impl; [|exact KT]. intros ci [(_ & ?)|(? & _)] ?; [assumption|contradiction]. }
  unfold oda_result. rewrite O6, O7, C1. cbn [bind]. set (row := row_of st (cols, vals)) in *.
  assert (O8' : forall r, In r (p ++ [row]) -> In (cols, r) rows) by (intros r H; apply in_app_or in H as [H|[<-|[]]]; auto).
  destruct (session_row st st' pr md5 Hd N HN cols base O1 B1 (o_w s) p (w_out (o_w s)) row B2 O4) as (w' & p' & D & rD & R1 & R2 & R3 & R4 & R5 & R6).
  { apply HS; [destruct p; discriminate|rewrite app_length; cbn; lia|exact O8']. }
  rewrite R1. cbn [bind]. assert (w_out w' = w_out (o_w s) ++ D) as Eo by (destruct R2 as [_ _ _ Q _ _ _]; exact Q).
  assert (w_rows w' = p') as Er by (destruct R2 as [_ _ Q _ _ _ _]; exact Q).
  eexists _, p'. split; [reflexivity|]. split; cbn [o_w o_next o_sizes o_missing]; auto.
  - exists base. rewrite Eo. auto.
  - destruct (w_rows w') eqn:Ew; [|exact C2]. apply alloc_len; [|exact KT].
    apply looks_shape with (cs := base); [|now apply (made_looks st)]. apply (pending_shape st cols base B1 w' p' _ R2).
  - destruct R6 as [-> | ->]; [exact O8'|intros ? []].
  - exists (r1 ++ rD). split; [rewrite Eo; now apply hold_app|].
    rewrite map_app, D2, <- !app_assoc. f_equal. rewrite <- R5, map_app. reflexivity.
Qed.

Lemma types_step s cols p done news : osession s cols p done -> same_titles cols news ->
  exists s' p', oda_update md5 st N pr s news = Ok s' /\ osession s' (widen cols news) p' done.
Proof using All.
  intros [O1 O2 (base & B1 & B2) O4 O5 O6 O7 O8 (r1 & D1 & D2)] Hn. pose proof (wc_types _ _ O1) as KT.
  unfold oda_update. rewrite O6, (grown_ok cols news (w_cols (o_w s)) Hn KT).
  2:{ apply looks_shape with (cs := base); [|now apply (made_looks st)]. apply (pending_shape st cols base B1 (o_w s) p _ B2). }
  cbn [bind]. destruct (grow_list cols news) as [|g0 g] eqn:Eg.
  - rewrite (widen_same _ _ Eg). eexists _, p. split; [reflexivity|]. split; cbn [o_w o_next o_sizes o_missing]; eauto.
  - destruct (session_flush st st' pr md5 Hd N HN cols base O1 B1 (o_w s) p (w_out (o_w s)) B2) as (w1 & D & F1 & F2 & F3); [lia|intros Hp; apply HS; auto; lia|].
    rewrite F1. cbn [bind]. assert (w_out w1 = w_out (o_w s) ++ D) as Eo by (destruct F2 as [_ _ _ Q _ _ _]; exact Q).
    assert (w_cols w1 = base) as Ec by (destruct F2 as [_ _ _ _ _ Q _]; cbn [gather_rows] in Q; congruence).
    assert (w_rows w1 = []) as Er by (destruct F2 as [_ _ Q _ _ _ _]; exact Q).
    destruct (resize_ok st cols news [] base Hn B1) as (base' & R1 & R2).
    { intros i c Ei Ti j d Ej Cd. cbn [app length Nat.add] in *.
      assert (X : forall k c, nth_error base k = Some c -> exists ci, nth_error cols k = Some ci /\ looks ci c).
      { pose proof (made_looks st cols base B1) as F. clear -F. induction F as [|ci c cols base L F IH]; intros [|k] x E; try discriminate; cbn in *; [injection E as <-; eauto|auto]. }
      apply X in Ei as (ci & Ei & L1 & L2 & _), Ej as (cj & Ej & L3 & L4 & _). symmetry. apply (O2 i j ci cj Ei Ej); congruence. }
    rewrite Ec, <- Eg. cbn [app] in R1. rewrite R1. cbn [bind]. pose proof (widen_writable cols news pr Hn O1) as W'.
    eexists _, []. split; [reflexivity|]. split; cbn [o_w o_next o_sizes o_missing]; auto.
    + now apply widen_titles.
    + exists base'. split; [exact R2|]. 
      match goal with |- pending _ _ _ (write_header ?w2) _ _ => change (w_out (write_header w2)) with (w_out w2) end. apply (header_ok st _ base' R2); [reflexivity|exact Er].
    + apply alloc_len; [|exact (wc_types _ _ W')]. cbn [write_header w_cols]. rewrite (reset_base st _ base' R2). now apply (made_looks st).
    + rewrite O7. destruct (widen_names cols news) as (_ & N2 & _). rewrite <- !(map_map ci_type (missing_bits st)). now rewrite N2.
    + intros ? [].
    + exists (r1 ++ map (pair cols) p). cbn [write_header w_out map]. rewrite app_nil_r, Eo. split; [now apply hold_app|exact D2].
Qed.

Lemma events_ok : forall es s cols p done, osession s cols p done -> proper cols es ->
  (forall r, In r (answers cols es) -> In (as_cells r) rows) ->
  exists s' p', oda_events md5 st N pr s es = Ok s' /\ osession s' (in_effect cols es) p' (done ++ answers cols es).
Proof using All.
  induction es as [|[news|vals] es IH]; intros s cols p done O P Hr; cbn [oda_events oda_event answers proper in_effect] in *.
  - exists s, p. rewrite app_nil_r. auto.
  - destruct P as (P1 & P2). destruct (types_step s cols p done news O P1) as (s1 & p1 & E1 & O1). rewrite E1. cbn [bind]. eauto.
  - destruct P as (P1 & P2). destruct (result_step s cols p done vals O P1) as (s1 & p1 & E1 & O1); [apply (Hr (cols, vals)); now left|].
    rewrite E1. cbn [bind]. destruct (IH s1 cols p1 _ O1 P2) as (s2 & p2 & E2 & O2); [intros r H; apply Hr; now right|].
    exists s2, p2. split; [exact E2|]. rewrite <- app_assoc in O2. exact O2.
Qed.

Lemma init_core cols : writable_columns (map osized cols) pr -> text_titles (map osized cols) ->
  exists s, oda_init st cols = Ok s /\ osession s (map osized cols) [] [].
Proof using All.
  intros W T. unfold oda_init.
  assert (map ci_name (map osized cols) = map ci_name cols) as En by (rewrite map_map; reflexivity).
  destruct (columns_first st cols []) as (base & E & F).
  { cbn [app]. rewrite <- En. apply W. }
  { pose proof (wc_named _ _ W) as Q. rewrite Forall_map in Q. exact Q. }
  { apply W. }
  rewrite E. cbn [bind]. eexists. split; [reflexivity|].
  split; cbn [o_w o_next o_sizes o_missing]; auto.
  - exists base. split; [exact F|]. change (w_out (write_header (new_writer base))) with (w_out (new_writer base)). apply (header_ok st _ base F); reflexivity.
  - cbn [write_header w_cols new_writer]. rewrite (reset_base st _ base F). apply alloc_len; [now apply (made_looks st)|apply W].
  - now rewrite map_map.
  - clear -F W. pose proof (wc_types _ _ W) as K. clear W. revert K. induction F as [|ci c l base H _ IH]; intros K; cbn [map]; [reflexivity|]. inversion K; subst. rewrite IH by assumption. f_equal. now apply made_missing.
  - intros ? [].
  - exists []. split; [apply hold_nil|reflexivity].
Qed.

Lemma file_core cols es : writable_columns (map osized cols) pr -> text_titles (map osized cols) -> proper (map osized cols) es ->
  (forall r, In r (answers (map osized cols) es) -> In (as_cells r) rows) ->
  exists file, oda_file md5 st N pr cols es = Ok file /\ frames_hold st st' pr md5 file (map as_cells (answers (map osized cols) es)).
Proof using All.
  intros W T P Hr. unfold oda_file. destruct (init_core cols W T) as (s0 & E & O). rewrite E. cbn [bind].
  destruct (events_ok es _ _ _ _ O P Hr) as (s & p' & Es & [O1 O2 (base1 & B1 & B2) O4 O5 O6 O7 O8 (r1 & D1 & D2)]). rewrite Es. cbn [bind].
  unfold Writer.close. assert (w_init (o_w s) = true) as -> by apply B2.
  destruct (session_flush st st' pr md5 Hd N HN _ base1 O1 B1 (o_w s) p' (w_out (o_w s)) B2) as (w1 & D & F1 & F2 & F3); [lia|intros Hp; apply HS; auto; lia|].
  rewrite F1. cbn [bind]. assert (w_out w1 = w_out (o_w s) ++ D) as -> by (destruct F2 as [_ _ _ Q _ _ _]; exact Q).
  eexists. split; [reflexivity|]. cbn [app] in D2. rewrite D2. now apply hold_app.
Qed.

(** The state before a call that fails. *)
Lemma before_core cols es : writable_columns (map osized cols) pr -> text_titles (map osized cols) -> proper (map osized cols) es ->
  (forall r, In r (answers (map osized cols) es) -> In (as_cells r) rows) ->
  exists s p done, osession s (in_effect (map osized cols) es) p done /\
    forall e more x, oda_event md5 st N pr s e = Throw x -> oda_file md5 st N pr cols (es ++ e :: more) = Throw x.
Proof using All.
  intros W T P Hr. unfold oda_file. destruct (init_core cols W T) as (s0 & E & O). rewrite E. cbn [bind].
  destruct (events_ok es _ _ _ _ O P Hr) as (s & p' & Es & O'). exists s, p'. eexists. split; [exact O'|]. intros e more x Hx.
  assert (oda_events md5 st N pr s0 (es ++ e :: more) = Throw x) as ->; [|reflexivity].
  clear -Es Hx. revert s0 Es. induction es as [|e0 es IH]; intros s0 Es; cbn [oda_events app] in *.
  - assert (s0 = s) by congruence. subst. now rewrite Hx.
  - destruct (oda_event md5 st N pr s0 e0) as [s1| |]; cbn [bind] in *; try discriminate. auto.
Qed.

End Session.

(** ** C57 *)

Lemma cell_text st ci val n m : until_nul (cell_of st ci (OText val n m)) = if m then [] else until_nul (firstn (Z.to_nat n) val).
Proof.
  cbn [cell_of]. destruct m.
  - apply (until_nul_repeat []). auto.
  - apply until_nul_repeat, until_nul_no.
Qed.

Lemma as_shown st st' cols vals out : Forall2 suits cols vals -> comes_back st st' (as_cells st (cols, vals)) out -> shows st st' (cols, vals) out.
Proof.
  intros S' (D & L1 & L2 & V). unfold as_cells in *. cbn [fst snd] in *. pose proof (TableProofs.Forall2_length _ _ _ S') as L.
  split; cbn [fst snd]; auto. intros i ci v y Ei Ev Ey.
  assert (Ex : nth_error (row_of st (cols, vals)) i = Some (cell_of st ci v)).
  { unfold row_of. cbn [fst snd]. rewrite nth_error_map, (P_Threads.nth_error_combine cols vals i ci v Ei Ev). reflexivity. }
  specialize (V i ci _ y Ei Ex Ey). destruct v as [bits m|val n m]; [exact V|].
  cbn [shows_value]. rewrite <- (cell_text st ci val n m).
  assert (T : suits ci (OText val n m)).
  { clear -S' Ei Ev. revert i Ei Ev. induction S' as [|c v cols vals H _ IH]; intros [|i] Ei Ev; try discriminate; cbn [nth_error] in *; [|eauto]. assert (c = ci) as <- by congruence. assert (v = OText val n m) as <- by congruence. exact H. }
  destruct T as (T & _). destruct V as [([V|V] & _)|[(V & _)|[(V & _)|(_ & V)]]];
    try (exfalso; rewrite T in V; unfold ty_INTEGER, ty_BITFIELD, ty_REAL, ty_DOUBLE, ty_STRING in V; congruence). exact V.
Qed.

Lemma answers_suit : forall es cols, proper cols es -> Forall (fun r => Forall2 suits (fst r) (snd r)) (answers cols es).
Proof.
  induction es as [|[news|vals] es IH]; intros cols P; cbn [answers proper] in *; [constructor|apply IH, P|]. constructor; [apply P|apply IH, P].
Qed.

(** The file written from a query's results has one row for each row of results, in order,
    with the titles and types of the columns, the members of bitfields, and the values: a
    missing number as the format's missing value, a missing text as the empty one. *)
Theorem C57_output : forall md5 st st' N pr junk cols es, digest md5 -> (0 < N)%nat ->
  writable_columns (map announced cols) pr -> text_titles (map announced cols) -> proper (map announced cols) es ->
  rows_storable st N pr (map (fun r => (fst r, row_of st r)) (answers (map announced cols) es)) ->
  exists file, oda_file md5 st N pr cols es = Ok file /\
    exists rows', Forall2 (shows st st') (answers (map announced cols) es) rows' /\
      forall f, (length (answers (map announced cols) es) < f)%nat -> file_rows md5 st' junk f file = (rows', Clean).
Proof.
  change announced with osized.
  intros md5 st st' N pr junk cols es Hd HN W T P HS.
  destruct (file_core st st' pr md5 Hd N HN _ HS cols es W T P) as (file & E & (fs & bs & -> & F & Ef)).
  { intros r Hr. apply (in_map (as_cells st)) in Hr. exact Hr. }
  exists (concat bs). split; [exact E|]. destruct (read_file st st' pr md5 Hd junk fs bs F) as (rows' & C & RR).
  rewrite Ef in C. assert (L : length (flat fs) = length (answers (map osized cols) es)) by (rewrite Ef, map_length; reflexivity).
  exists rows'. split; [|now rewrite <- L]. pose proof (answers_suit es _ P) as Su. clear -C Su.
  revert rows' C. induction Su as [|[cs vs] l S1 _ IH]; intros rows' C; cbn [map] in C; inversion C as [|? out ? ? C1 C2]; subst; constructor; [|auto].
  now apply as_shown.
Qed.
Print Assumptions C57_output.

(** Results that are ordinary values, in columns small enough, can be written. *)
Theorem C57_ordinary : forall st N pr cols es,
  (forall r, In r (answers cols es) -> WriterSpec.small (Z.of_nat N) (fst r) pr /\ Forall2 (fun ci v => ordinary st ci (cell_of st ci v)) (fst r) (snd r)) ->
  rows_storable st N pr (map (fun r => (fst r, row_of st r)) (answers cols es)).
Proof.
  intros st N pr cols es H cs part Hne Hl Hp.
  assert (Hx : forall row, In row part -> exists vals, In (cs, vals) (answers cols es) /\ row = row_of st (cs, vals)).
  { intros row I. apply Hp in I. apply in_map_iff in I as ([c v] & E & I). cbn [fst] in E. exists v. assert (c = cs) by congruence. subst c. split; [exact I|congruence]. }
  destruct part as [|row0 part]; [congruence|]. destruct (Hx row0 ltac:(now left)) as (v0 & I0 & _).
  apply (ordinary_writable st cs pr (Z.of_nat N)); auto; [apply (H _ I0)| |unfold len; lia].
  apply Forall_forall. intros row I. destruct (Hx row I) as (vals & I' & ->). destruct (H _ I') as (_ & F). cbn [fst snd] in F.
  unfold row_of. cbn [fst snd]. clear -F. induction F as [|ci v cs vals H _ IH]; cbn [combine map]; [constructor|]. constructor; assumption.
Qed.
Print Assumptions C57_ordinary.

Lemma grown_asserts : forall news cols cs sizes, Forall2 looks cols cs -> length sizes = length cols -> (length news <= length cols)%nat ->
  match oda_grown cs sizes news with
  | Ok _ => forall i c n, nth_error cols i = Some c -> nth_error news i = Some n -> ci_name n = ci_name c /\ ci_type n = ci_type c
  | Throw AssertFailed => True
  | _ => False
  end.
Proof.
  induction news as [|n news IH]; intros cols cs sizes L Ls Ln; cbn [oda_grown].
  - intros [|i] c n _ E; discriminate.
  - inversion L as [|c d cols' cs' (L1 & L2 & L3) L']; subst; [cbn in Ln; lia|]. destruct sizes as [|s sizes]; [discriminate|].
    destruct (Z.eqb_spec (ci_type n) (col_type d)) as [Q1|_]; cbn [assert bind]; [|exact I].
    destruct (bytes_eqb (ci_name n) (col_name d)) eqn:Q2; cbn [assert bind]; [|exact I]. apply bytes_eqb_eq in Q2.
    specialize (IH cols' cs' sizes L' ltac:(cbn in Ls; lia) ltac:(cbn in Ln; lia)).
    assert (X : forall i c0 n0, (forall i c n, nth_error cols' i = Some c -> nth_error news i = Some n -> ci_name n = ci_name c /\ ci_type n = ci_type c) ->
       nth_error (c :: cols') i = Some c0 -> nth_error (n :: news) i = Some n0 -> ci_name n0 = ci_name c0 /\ ci_type n0 = ci_type c0).
    { intros [|i] c0 n0 Hi E1 E2; cbn in E1, E2; [split; congruence|eauto]. }
    destruct (ci_type n =? ty_STRING).
    + destruct (ci_size n mod 8 =? 0); cbn [assert bind]; [|exact I].
      destruct (oda_grown cs' sizes news) as [[ss g]|e|]; cbn [bind]; auto. destruct (_ <? _); eauto.
    + destruct (data_size_doubles (col_coder d) =? 1); cbn [assert bind]; [|exact I].
      destruct (oda_grown cs' sizes news) as [[ss g]|e|]; cbn [bind]; auto. eauto.
Qed.

(** Columns that change their title or type are refused. *)
Theorem C57_retyped : forall md5 st N pr cols es news more i c n, digest md5 -> (0 < N)%nat ->
  writable_columns (map announced cols) pr -> text_titles (map announced cols) -> proper (map announced cols) es ->
  rows_storable st N pr (map (fun r => (fst r, row_of st r)) (answers (map announced cols) es)) ->
  (length news <= length cols)%nat ->
  nth_error (in_effect (map announced cols) es) i = Some c -> nth_error news i = Some n -> (ci_name n <> ci_name c \/ ci_type n <> ci_type c) ->
  oda_file md5 st N pr cols (es ++ OTypes news :: more) = Throw AssertFailed.
Proof.
  change announced with osized.
  intros md5 st N pr cols es news more i c n Hd HN W T P HS Ln Ec En Hdiff.
  destruct (before_core st st pr md5 Hd N HN _ HS cols es W T P) as (s & p & done & [O1 O2 (base & B1 & B2) O4 O5 O6 O7 O8 O9] & K).
  { intros r Hr. apply (in_map (as_cells st)) in Hr. exact Hr. }
  apply K. cbn [oda_event]. unfold oda_update.
  assert (length (in_effect (map osized cols) es) = length cols) as Le.
  { rewrite <- (map_length osized cols). clear. generalize (map osized cols) as l. induction es as [|[news|vals] es IH]; intros l; cbn [in_effect]; auto.
    rewrite IH. destruct (widen_names l news) as (Q & _). rewrite <- (map_length ci_name), Q, map_length. reflexivity. }
  pose proof (grown_asserts news (in_effect (map osized cols) es) (w_cols (o_w s)) (o_sizes s)) as G. 
  destruct (oda_grown (w_cols (o_w s)) (o_sizes s) news) as [[ss g]|e|]; cbn [bind].
  - exfalso. destruct (G) with (i := i) (c := c) (n := n) as (G1 & G2); auto.
    + apply looks_shape with (cs := base); [|now apply (made_looks st)]. apply (pending_shape st _ base B1 (o_w s) p _ B2).
    + rewrite O6, map_length. reflexivity.
    + lia.
    + destruct Hdiff; contradiction.
  - destruct e; try (exfalso; apply G); auto; try (rewrite O6, map_length; reflexivity); try lia;
    apply looks_shape with (cs := base); try (now apply (made_looks st)); apply (pending_shape st _ base B1 (o_w s) p _ B2).
  - exfalso. apply G; try (rewrite O6, map_length; reflexivity); try lia. 
    apply looks_shape with (cs := base); try (now apply (made_looks st)); apply (pending_shape st _ base B1 (o_w s) p _ B2).
Qed.
Print Assumptions C57_retyped.

(** A text longer than its column is wide is refused. *)
Theorem C57_too_long : forall md5 st N pr cols es before ci val n missing after more, digest md5 -> (0 < N)%nat ->
  writable_columns (map announced cols) pr -> text_titles (map announced cols) -> proper (map announced cols) es ->
  rows_storable st N pr (map (fun r => (fst r, row_of st r)) (answers (map announced cols) es)) ->
  Forall2 suits (firstn (length before) (in_effect (map announced cols) es)) before ->
  nth_error (in_effect (map announced cols) es) (length before) = Some ci -> ci_size ci < n ->
  oda_file md5 st N pr cols (es ++ OResult (before ++ OText val n missing :: after) :: more) = Throw AssertFailed.
Proof.
  change announced with osized.
  intros md5 st N pr cols es before ci val n missing after more Hd HN W T P HS Hb Ec Hn.
  destruct (before_core st st pr md5 Hd N HN _ HS cols es W T P) as (s & p & done & [O1 O2 _ _ O5 O6 O7 _ _] & K).
  { intros r Hr. apply (in_map (as_cells st)) in Hr. exact Hr. }
  apply K. cbn [oda_event]. unfold oda_result. rewrite O6, O7. pose proof (wc_types _ _ O1) as KT.
  assert (oda_cells (o_next s) (map ci_size (in_effect (map osized cols) es)) (map (fun ci0 : colinfo => missing_bits st (ci_type ci0)) (in_effect (map osized cols) es))
    (before ++ OText val n missing :: after) = Throw AssertFailed) as ->; [|reflexivity].
  clear -Hb Ec Hn O5 KT. revert before Hb Ec. induction O5 as [|c x l next L _ IH]; intros before Hb Ec; [destruct before; discriminate|].
  inversion KT as [|? ? K1 K2]; subst. destruct before as [|v before]; cbn [app length firstn nth_error map] in *; cbn [oda_cells].
  - assert (c = ci) by congruence. subst c. cbn [oda_cell]. unfold len in L. destruct (Z.ltb_spec (Z.of_nat (length x)) (ci_size ci)); [lia|].
    destruct (Z.leb_spec n (ci_size ci)); [lia|]. reflexivity.
  - inversion Hb as [|? ? ? ? S1 S2]; subst. destruct (cell_ok st c x v S1 L) as (C & _).
    { intros Q. destruct K1 as [(_ & ?)|(? & _)]; [assumption|contradiction]. }
    rewrite C. cbn [bind]. rewrite (IH K2 before S2 Ec). reflexivity.
Qed.
Print Assumptions C57_too_long.
