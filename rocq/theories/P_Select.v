(** C61: the rows of a query in a buffer of doubles. *)
From Coq Require Import Lia.
From Verif Require Import Base Fp Stream Codec Meta Header Encoder StreamProofs TableProofs WriterSpec Spec OdaOut OdaSpec SelectOut SelectSpec.
Open Scope Z_scope.

(** ** Memory *)

Lemma get_length : forall m a n, length (get m a n) = Z.to_nat n.
Proof. intros. unfold get. rewrite map_length, seq_length. reflexivity. Qed.

Lemma get_ext : forall m m' a n, (forall x, a <= x < a + n -> m x = m' x) -> get m a n = get m' a n.
Proof. intros m m' a n H. unfold get. apply map_ext_in. intros i I. apply in_seq in I. apply H. lia. Qed.

Lemma get_app : forall m a n k, 0 <= n -> 0 <= k -> get m a (n + k) = get m a n ++ get m (a + n) k.
Proof.
  intros m a n k A B. unfold get. rewrite Z2Nat.inj_add by lia. rewrite seq_app, map_app. f_equal.
  replace (0 + Z.to_nat n)%nat with (Z.to_nat n + 0)%nat by lia.
  generalize (Z.to_nat k) as c. intros c. generalize O as i. induction c as [|c IH]; intros i; cbn [seq map]; [reflexivity|].
  f_equal; [f_equal; lia|]. rewrite <- IH. replace (S (Z.to_nat n + i)) with (Z.to_nat n + S i)%nat by lia. reflexivity.
Qed.

Lemma put_out : forall m a bs x, ~ (a <= x < a + Z.of_nat (length bs)) -> put m a bs x = m x.
Proof.
  intros m a bs x H. unfold put. destruct ((a <=? x) && (x <? a + Z.of_nat (length bs))) eqn:E; [|reflexivity].
  apply andb_true_iff in E. lia.
Qed.

Lemma get_put : forall m a bs, get (put m a bs) a (Z.of_nat (length bs)) = bs.
Proof.
  intros m a bs. unfold get. rewrite Nat2Z.id. apply nth_ext with (d := 0) (d' := 0).
  - rewrite map_length, seq_length. reflexivity.
  - intros n H. rewrite map_length, seq_length in H.
    rewrite nth_indep with (d' := put m a bs (a + Z.of_nat 0)) by (rewrite map_length, seq_length; exact H).
    rewrite map_nth with (d := O) (f := fun i => put m a bs (a + Z.of_nat i)). rewrite seq_nth by exact H. cbn [plus].
    unfold put. destruct ((a <=? a + Z.of_nat n) && (a + Z.of_nat n <? a + Z.of_nat (length bs))) eqn:E.
    + f_equal. lia.
    + apply andb_false_iff in E. lia.
Qed.

(** ** Cells *)

Lemma accepted_size : forall ci, accepted ci -> 8 <= ci_size ci /\ ci_size ci mod 8 = 0.
Proof. intros ci [_ H]. destruct (ci_type ci =? ty_STRING); [exact H|]. rewrite H. split; [lia|reflexivity]. Qed.

Lemma accepted_div : forall ci, accepted ci -> 8 * (ci_size ci / 8) = ci_size ci.
Proof. intros ci H. apply accepted_size in H. pose proof (Z.div_mod (ci_size ci) 8 ltac:(lia)). lia. Qed.

Lemma cell_length : forall st ci v, accepted ci -> typed ci v -> room ci v -> held v -> Z.of_nat (length (cell st ci v)) = ci_size ci.
Proof.
  intros st ci v A T R HV. pose proof (accepted_size ci A) as [P _]. destruct A as [_ A]. destruct v as [bits missing|val n missing]; cbn [cell typed room held] in *.
  - destruct T as [T _]. destruct (Z.eqb_spec (ci_type ci) ty_STRING) as [E|E]; [contradiction|]. rewrite A. rewrite le_bytes_length. reflexivity.
  - unfold len in *. destruct missing; cbn [length app].
    + rewrite repeat_length. lia.
    + specialize (HV eq_refl). rewrite app_length, repeat_length, firstn_length. lia.
Qed.

Lemma width_cons : forall ci cs, width (ci :: cs) = ci_size ci + width cs.
Proof. reflexivity. Qed.

Lemma width_pos : forall cs, Forall accepted cs -> 0 <= width cs.
Proof. induction 1 as [|ci cs A _ IH]; [cbn; lia|]. rewrite width_cons. apply accepted_size in A. lia. Qed.

Lemma width_div : forall cs, Forall accepted cs -> 8 * (width cs / 8) = width cs /\ width cs / 8 = fold_right Z.add 0 (map (fun ci => ci_size ci / 8) cs).
Proof.
  induction 1 as [|ci cs A _ [IH1 IH2]]; [split; reflexivity|]. rewrite width_cons. cbn [map fold_right]. rewrite <- IH2.
  pose proof (accepted_div ci A) as D. 
  assert ((ci_size ci + width cs) / 8 = ci_size ci / 8 + width cs / 8) as ->.
  { rewrite <- D, <- IH1 at 1. rewrite <- Z.mul_add_distr_l, Z.mul_comm, Z.div_mul by lia. reflexivity. }
  split; lia.
Qed.

Lemma width_app : forall a b, width (a ++ b) = width a + width b.
Proof. induction a as [|x a IH]; intros b; [reflexivity|]. cbn [app]. rewrite !width_cons, IH. lia. Qed.

(** ** The loop over the results *)

Lemma with_pos_twice : forall s p m p' m', with_pos (with_pos s p m) p' m' = with_pos s p' m'.
Proof. reflexivity. Qed.

Lemma skipn_cons : forall {A} i (l : list A) x r, skipn i l = x :: r -> nth_error l i = Some x /\ skipn (S i) l = r.
Proof.
  induction i as [|i IH]; intros l x r H; destruct l as [|y l]; try discriminate.
  - cbn in H. inversion H. subst. split; reflexivity.
  - cbn [skipn] in H. apply IH in H. exact H.
Qed.

Section Loop.
Variables (st : settings) (s : sout).

Definition laid (i : nat) (cs : list colinfo) : Prop :=
  skipn i (s_sizes s) = map (fun ci => ci_size ci / 8) cs /\
  skipn i (s_missing s) = map (fun ci => missing_bits st (ci_type ci)) cs.

Lemma laid_next : forall i ci cs, laid i (ci :: cs) ->
  nth_error (s_sizes s) i = Some (ci_size ci / 8) /\ nth_error (s_missing s) i = Some (missing_bits st (ci_type ci)) /\ laid (S i) cs.
Proof.
  intros i ci cs [A B]. cbn [map] in A, B. apply skipn_cons in A. apply skipn_cons in B. destruct A as [A1 A2], B as [B1 B2].
  split; [exact A1|]. split; [exact B1|]. split; assumption.
Qed.

Lemma value_told : forall i ci cs v p m k, laid i (ci :: cs) -> accepted ci -> typed ci v -> held v ->
  s_out s <= p -> s_end s = p + 8 * k ->
  exists p1 m1 r, output_value (with_pos s p m) i v = (with_pos s p1 m1, r) /\ r <> UB /\
    (r = Ok tt <-> room ci v /\ p + ci_size ci <= s_end s) /\
    (r = Ok tt -> p1 = p + ci_size ci /\ get m1 p (ci_size ci) = cell st ci v) /\
    (forall x, ~ (p <= x < p + ci_size ci) \/ r <> Ok tt -> m1 x = m x).
Proof.
  intros i ci cs v p m k L A T HV P E. apply laid_next in L. destruct L as (L1 & L2 & _).
  pose proof (accepted_size ci A) as [A8 _]. pose proof (accepted_div ci A) as AD.
  destruct v as [bits missing|val n missing].
  - destruct T as [T _].
    assert (ci_size ci = 8) as W.
    { destruct A as [_ A]. destruct (Z.eqb_spec (ci_type ci) ty_STRING); [contradiction|exact A]. }
    unfold output_value. cbn [with_pos s_out s_pos s_end s_missing s_mem].
    destruct ((s_out s <=? p) && (p <? s_end s)) eqn:B.
    + apply andb_true_iff in B. destruct B as [_ B]. apply Z.ltb_lt in B.
      replace (if missing then nth_error (s_missing s) i else Some bits) with (Some (if missing then missing_bits st (ci_type ci) else bits))
        by (destruct missing; [symmetry; exact L2|reflexivity]).
      cbv beta iota. rewrite with_pos_twice. eexists _, _, _. split; [reflexivity|]. split; [discriminate|].
      split; [split; [intros _; split; [exact Logic.I|lia]|reflexivity]|].
      split.
      * intros _. split; [lia|]. rewrite W. pose proof (get_put m p (le_bytes 8 (if missing then missing_bits st (ci_type ci) else bits))) as G.
        rewrite le_bytes_length in G. exact G.
      * intros x [X|X]; [|contradiction]. apply put_out. rewrite le_bytes_length. lia.
    + apply andb_false_iff in B. eexists _, _, _. split; [reflexivity|]. split; [discriminate|].
      split; [split; [discriminate|intros [_ X]; lia]|]. split; [discriminate|]. reflexivity.
  - destruct T as [T N]. unfold output_value. cbn [with_pos s_out s_pos s_end s_sizes s_mem]. rewrite L1. cbv beta iota.
    destruct ((s_out s <=? p) && (p + 8 * (ci_size ci / 8) <=? s_end s)) eqn:B.
    + apply andb_true_iff in B. destruct B as [_ B]. apply Z.leb_le in B. rewrite AD in *.
      destruct (Z.ltb_spec (ci_size ci) n) as [C|C].
      * eexists _, _, _. split; [reflexivity|]. split; [discriminate|].
        split; [split; [discriminate|intros [X _]; cbn in X; lia]|]. split; [discriminate|]. reflexivity.
      * replace (negb missing && (Z.of_nat (length val) <? n)) with false.
        2:{ symmetry. destruct missing; [reflexivity|]. cbn [held] in HV. specialize (HV eq_refl). unfold len in HV. cbn [negb andb]. apply Z.ltb_ge. lia. }
        cbv beta iota. rewrite with_pos_twice. eexists _, _, _. split; [reflexivity|]. split; [discriminate|].
        split; [split; [intros _; split; [exact C|exact B]|reflexivity]|].
        assert (Z.of_nat (length (cell st ci (OText val n missing))) = ci_size ci) as CL by (apply cell_length; [exact A|split; assumption|exact C|exact HV]).
        assert ((if missing then [] else firstn (Z.to_nat n) val) ++ repeat 0 (Z.to_nat (ci_size ci) - length (if missing then [] else firstn (Z.to_nat n) val)) = cell st ci (OText val n missing)) as CE.
        { cbn [cell]. f_equal. f_equal. unfold len. lia. }
        rewrite CE. split.
        -- intros _. split; [reflexivity|]. rewrite <- CL at 1. apply get_put.
        -- intros x [X|X]; [|contradiction]. apply put_out. rewrite CL. exact X.
    + apply andb_false_iff in B. rewrite AD in B. eexists _, _, _. split; [reflexivity|]. split; [discriminate|].
      split; [split; [discriminate|intros [_ X]; lia]|]. split; [discriminate|]. reflexivity.
Qed.

Lemma values_told : forall cs vs i p m k, laid i cs -> Forall accepted cs -> Forall2 typed cs vs -> Forall held vs ->
  s_out s <= p -> s_end s = p + 8 * k ->
  exists p1 m1 r, output_values (with_pos s p m) i vs = (with_pos s p1 m1, r) /\ r <> UB /\
    (r = Ok tt <-> Forall2 room cs vs /\ (p + width cs <= s_end s \/ cs = [])) /\
    (r = Ok tt -> p1 = p + width cs /\ get m1 p (width cs) = cells st cs vs) /\
    (forall x, ~ (p <= x < s_end s) -> m1 x = m x) /\ (forall x, x < p -> m1 x = m x).
Proof.
  intros cs vs i p m k L A T. revert i p m k L A. induction T as [|ci v cs vs T1 T IH]; intros i p m k L A HV P E.
  - cbn [output_values]. exists p, m, (Ok tt). split; [reflexivity|]. split; [discriminate|].
    split; [split; [intros _; split; [constructor|right; reflexivity]|reflexivity]|].
    split; [intros _; split; [cbn; lia|reflexivity]|]. split; reflexivity.
  - inversion A as [|? ? A1 A2]; subst. inversion HV as [|? ? HV1 HV2]; subst.
    destruct (value_told i ci cs v p m k L A1 T1 HV1 P E) as (p1 & m1 & r & V1 & V2 & V3 & V4 & V5).
    pose proof (accepted_size ci A1) as [A8 _]. pose proof (width_pos cs A2) as WP.
    cbn [output_values]. rewrite V1. cbv beta iota.
    destruct r as [[]|e|]; [| |contradiction].
    + destruct V3 as [V3 _]. destruct (V3 eq_refl) as [R1 R2]. destruct (V4 eq_refl) as [P1 G1]. subst p1.
      apply laid_next in L. destruct L as (_ & _ & L).
      destruct (IH (S i) (p + ci_size ci) m1 (k - ci_size ci / 8) L A2 HV2 ltac:(lia)
                  ltac:(pose proof (accepted_div ci A1); lia)) as (p2 & m2 & r2 & W1 & W2 & W3 & W4 & W5 & W6).
      exists p2, m2, r2. split; [exact W1|]. split; [exact W2|]. rewrite width_cons. split; [|split; [|split]].
      * rewrite W3. split.
        -- intros [X Y]. split; [constructor; assumption|]. left. destruct Y as [Y|Y]; [lia|]. subst cs. cbn in *. lia.
        -- intros [X Y]. inversion X; subst. split; [assumption|]. destruct Y as [Y|Y]; [left; lia|discriminate].
      * intros X. destruct (W4 X) as [Y1 Y2]. split; [lia|]. rewrite get_app by lia. rewrite Y2.
        change (cells st (ci :: cs) (v :: vs)) with (cell st ci v ++ cells st cs vs). f_equal.
        rewrite <- G1. apply get_ext. intros x B. apply W6. lia.
      * intros x X. rewrite W5 by lia. apply V5. left. lia.
      * intros x X. rewrite W6 by lia. apply V5. left. lia.
    + exists p1, m1, (Throw e). split; [reflexivity|]. split; [discriminate|]. split; [|split; [discriminate|split]].
      * split; [discriminate|]. intros [X Y]. inversion X; subst. exfalso. destruct V3 as [_ V3].
        assert (@Throw unit e = Ok tt) by (apply V3; split; [assumption|destruct Y as [Y|Y]; [rewrite width_cons in Y; lia|discriminate]]). discriminate.
      * intros x X. apply V5. right. discriminate.
      * intros x X. apply V5. right. discriminate.
Qed.
End Loop.

(** ** Announcing columns *)

Lemma ty_text : forall ci, accepted ci -> ci_type ci =? ty_STRING = false -> ci_size ci = 8.
Proof. intros ci [_ A] H. rewrite H in A. exact A. Qed.

Lemma working_told : forall st ty, In ty [ty_INTEGER; ty_REAL; ty_DOUBLE; ty_STRING; ty_BITFIELD] ->
  known_type ty = true /\
  exists k, working_codec st LE ty = Ok k /\ chars_based (c_kind k) = (ty =? ty_STRING) /\ missing_value k = missing_bits st ty.
Proof.
  intros [iad ls] ty A. split.
  - cbn in A. destruct A as [A|[A|[A|[A|[A|[]]]]]]; subst ty; reflexivity.
  - cbn [In] in A. destruct iad, ls, A as [A|[A|[A|[A|[A|[]]]]]]; subst ty;
    (eexists; split; [vm_compute; reflexivity|split; vm_compute; reflexivity]).
Qed.

Lemma column_told : forall st ci has, accepted ci ->
  exists c, sel_column st ci has = Ok c /\ tells (ci, has) c /\ missing_value (col_coder c) = missing_bits st (ci_type ci).
Proof.
  intros st ci has A. pose proof (accepted_div ci A) as AD. pose proof (ty_text ci A) as TX. destruct A as [A _].
  destruct (working_told st (ci_type ci) A) as (K & k & W1 & W2 & W3).
  unfold sel_column. rewrite K, W1. cbn [negb bind].
  assert (combine (map fst (ci_bits ci)) (map snd (ci_bits ci)) = ci_bits ci) as CB.
  { induction (ci_bits ci) as [|[x y] l IHl]; [reflexivity|]. cbn [map combine fst snd]. rewrite IHl. reflexivity. }
  unfold set_data_size. cbn [set_stats c_kind]. rewrite W2. destruct (ci_type ci =? ty_STRING) eqn:E.
  - cbn [bind]. eexists. split; [reflexivity|]. split; [|exact W3].
    split; [reflexivity|]. split; [reflexivity|]. split; [exact CB|]. split; [destruct has; reflexivity|].
    cbn [fst snd col_coder]. unfold data_size_doubles. cbn [set_strings set_stats c_kind c_dsd]. rewrite W2. exact AD.
  - rewrite (TX eq_refl). cbn [bind Z.div Z.eqb]. change (8 / 8 =? 1) with true. cbv beta iota. cbn [bind]. eexists. split; [reflexivity|].
    split; [|exact W3]. split; [reflexivity|]. split; [reflexivity|]. split; [exact CB|]. split; [destruct has; reflexivity|].
    cbn [fst snd col_coder]. unfold data_size_doubles. cbn [set_stats c_kind]. rewrite W2, (TX eq_refl). reflexivity.
Qed.

Definition starts (o : Z) (cols : list colinfo) : list Z :=
  map (fun i => o + start cols i / 8) (seq 0 (length cols)).

Lemma starts_cons : forall o ci cs, accepted ci -> Forall accepted cs -> starts o (ci :: cs) = o :: starts (o + ci_size ci / 8) cs.
Proof.
  intros o ci cs A B. unfold starts. cbn [length seq map]. f_equal; [cbn; lia|].
  rewrite <- seq_shift, map_map. apply map_ext. intros i. unfold start. cbn [firstn]. rewrite width_cons.
  assert (Forall accepted (firstn i cs)) as F.
  { revert i. induction B; intros [|i]; cbn [firstn]; constructor; auto. }
  pose proof (accepted_div ci A) as D. destruct (width_div _ F) as [D2 _].
  assert ((ci_size ci + width (firstn i cs)) / 8 = ci_size ci / 8 + width (firstn i cs) / 8) as ->.
  { rewrite <- D, <- D2 at 1. rewrite <- Z.mul_add_distr_l, Z.mul_comm, Z.div_mul by lia. reflexivity. }
  lia.
Qed.

Lemma push_told : forall st cols o, Forall accepted (map fst cols) ->
  exists p, sel_push st o cols = (p, Ok (o + width (map fst cols) / 8)) /\
    p_sizes p = map (fun ci => ci_size ci / 8) (map fst cols) /\
    p_missing p = map (fun ci => missing_bits st (ci_type ci)) (map fst cols) /\
    p_offsets p = starts o (map fst cols) /\ Forall2 tells cols (p_meta p).
Proof.
  intros st cols. induction cols as [|[ci has] cs IH]; intros o A.
  - eexists. split; [cbn; rewrite Z.add_0_r; reflexivity|]. repeat split; constructor.
  - cbn [map fst] in A |- *. inversion A as [|? ? A1 A2]; subst.
    cbn [sel_push]. pose proof (accepted_size ci A1) as [_ M]. rewrite M. cbn [Z.eqb negb].
    destruct (column_told st ci has A1) as (c & C1 & C2 & C3). rewrite C1. cbv beta iota.
    destruct (IH (o + ci_size ci / 8) A2) as (p & P1 & P2 & P3 & P4 & P5). rewrite P1. cbv beta iota.
    eexists. split.
    + f_equal. f_equal. destruct (width_div _ A2) as [_ W2]. destruct (width_div (ci :: map fst cs) A) as [_ W3].
      rewrite W2, W3. cbn [map fold_right]. lia.
    + cbn [p_sizes p_missing p_offsets p_meta]. rewrite P2, P3, P4, C3. repeat split; [|constructor; assumption].
      symmetry. apply starts_cons; assumption.
Qed.

(** ** The story *)

Record tracks (st : settings) (own : bool) (f : force) (first : bool) (s : sout) : Prop := {
  tr_own : s_own s = own;
  tr_cols : match f_cols f with
            | None => s_required s = None /\ f_buffer f = None
            | Some cols => cols <> [] /\ Forall accepted cols /\ laid st s 0 cols /\ s_offsets s = starts 0 cols /\
                s_required s = Some (width cols / 8)
            end;
  tr_buffer : match f_buffer f with
              | None => s_out s = 0 /\ s_end s = 0
              | Some (a, n) => s_out s = a /\ s_end s = a + 8 * n /\ 0 <= n
              end;
  tr_first : if first then s_new s = true /\ s_outputted s = false else s_outputted s = s_new s
}.

Lemma data_told : forall s a cols i, s_offsets s = starts 0 cols -> Forall accepted cols -> s_out s = a -> (i < length cols)%nat ->
  sel_data s i = Ok (a + start cols i).
Proof.
  intros s a cols i OF A B L. unfold sel_data. rewrite OF. unfold starts.
  rewrite nth_error_map. rewrite (nth_error_nth' _ O) by (rewrite seq_length; exact L). rewrite seq_nth by exact L. cbn [option_map plus].
  assert (Forall accepted (firstn i cols)) as F.
  { revert i L. clear -A. induction A; intros [|i] L; cbn [firstn]; constructor; auto. apply IHA. cbn in L. lia. }
  destruct (width_div _ F) as [D _]. unfold start. rewrite B. f_equal. lia.
Qed.

Lemma app_split : forall {A} (a b c d : list A), length a = length c -> a ++ b = c ++ d -> a = c /\ b = d.
Proof.
  induction a as [|x a IH]; intros b c d L H; destruct c as [|y c]; try discriminate; [split; [reflexivity|exact H]|].
  cbn in L, H. inversion H; subst. destruct (IH b c d ltac:(lia) H2) as [-> ->]. split; reflexivity.
Qed.

Lemma cells_at : forall st cols vals m a i ci v, Forall accepted cols -> Forall2 typed cols vals -> Forall2 room cols vals -> Forall held vals ->
  get m a (width cols) = cells st cols vals -> nth_error cols i = Some ci -> nth_error vals i = Some v ->
  get m (a + start cols i) (ci_size ci) = cell st ci v.
Proof.
  intros st cols vals m a i ci v A T. revert a i A. induction T as [|c w cs vs T1 T IH]; intros a i A R HV G C V; [destruct i; discriminate|].
  inversion A as [|? ? A1 A2]; subst. inversion R as [|? ? ? ? R1 R2]; subst. inversion HV as [|? ? H1 H2]; subst.
  pose proof (accepted_size c A1) as [C8 _]. pose proof (width_pos cs A2) as WP.
  rewrite width_cons in G. rewrite get_app in G by lia.
  change (cells st (c :: cs) (w :: vs)) with (cell st c w ++ cells st cs vs) in G.
  assert (length (get m a (ci_size c)) = length (cell st c w)) as EL.
  { rewrite get_length. rewrite <- (cell_length st c w A1 T1 R1 H1). lia. }
  assert (get m a (ci_size c) = cell st c w /\ get m (a + ci_size c) (width cs) = cells st cs vs) as [G1 G2].
  { apply app_split; [exact EL|exact G]. }
  destruct i as [|i].
  - inversion C; inversion V; subst. unfold start. cbn [firstn]. change (width []) with 0. rewrite Z.add_0_r. exact G1.
  - cbn [nth_error] in C, V. unfold start. cbn [firstn]. rewrite width_cons. 
    specialize (IH (a + ci_size c) i A2 R2 H2 G2 C V). unfold start in IH. rewrite <- IH. f_equal. lia.
Qed.

Lemma room_length : forall cols vals, Forall2 room cols vals -> length vals = length cols.
Proof. induction 1; cbn; congruence. Qed.

Theorem event_told : forall st own f first s e, tracks st own f first s -> possible f e ->
  let r := sel_event st s e in
  told st own f first e s (fst r) (snd r) /\
  tracks st own (after own f e) (match e, snd r with STypes _ _, _ => true | SRow _, Ok _ => false | _, _ => first end) (fst r).
Proof.
  intros st own f first s e TR P. pose proof TR as [T1 T2 T3 T4]. destruct e as [cols at_|out count|vals]; cbn [sel_event].
  - (* announcing *)
    cbn [possible] in P. destruct P as [NE A]. destruct (push_told st cols 0 A) as (p & P1 & P2 & P3 & P4 & P5).
    unfold update_types. rewrite P1. rewrite Z.add_0_l.
    destruct (width_div _ A) as [W1 W2]. pose proof (width_pos _ A) as WP.
    assert (fold_right Z.add 0 (p_sizes p) = width (map fst cols) / 8) as R by (rewrite P2; symmetry; exact W2).
    rewrite R. cbv zeta. rewrite T1. destruct own; cbv beta iota.
    + rewrite Z.leb_refl. cbn [fst snd].
      match goal with |- told _ _ _ _ _ _ ?x _ /\ _ => set (s3 := x) end.
      assert (forall i, (i < length cols)%nat -> sel_data s3 i = Ok (s_out s3 + start (map fst cols) i)) as D.
      { intros i L. apply data_told; [exact P4|exact A|reflexivity|rewrite map_length; exact L]. }
      split.
      * split.
        -- split; [intros _; exact Logic.I|reflexivity].
        -- discriminate.
        -- intros _. cbn [shown]. split; [exact P5|]. split; [reflexivity|]. split; [reflexivity|]. split; [exact D|reflexivity].
        -- intros N. exfalso. apply N. exact Logic.I.
        -- intros x X. cbn [may_change after f_buffer] in X. unfold s3. cbn [with_pos s_mem with_buffer with_types]. apply put_out.
           rewrite app_length, repeat_length, firstn_length, get_length. intros B. apply X. split; [reflexivity|]. lia.
      * split; cbn [after f_cols f_buffer].
        -- exact T1.
        -- split; [destruct cols; [contradiction|discriminate]|]. split; [exact A|]. split; [split; [exact P2|exact P3]|]. split; [exact P4|reflexivity].
        -- split; [reflexivity|]. split; [reflexivity|]. lia.
        -- split; reflexivity.
    + cbn [fst snd].
      match goal with |- told _ _ _ _ _ _ ?x _ /\ _ => set (s3 := x) end.
      assert (forall i, (i < length cols)%nat -> sel_data s3 i = Ok (s_out s3 + start (map fst cols) i)) as D.
      { intros i L. apply data_told; [exact P4|exact A|reflexivity|rewrite map_length; exact L]. }
      split.
      * split.
        -- split; [intros _; exact Logic.I|reflexivity].
        -- discriminate.
        -- intros _. cbn [shown]. split; [exact P5|]. split; [reflexivity|]. split; [reflexivity|]. split; [exact D|reflexivity].
        -- intros N. exfalso. apply N. exact Logic.I.
        -- intros x X. reflexivity.
      * split; cbn [after f_cols f_buffer].
        -- exact T1.
        -- split; [destruct cols; [contradiction|discriminate]|]. split; [exact A|]. split; [split; [exact P2|exact P3]|]. split; [exact P4|reflexivity].
        -- exact T3.
        -- split; reflexivity.
  - (* a buffer *)
    cbn [possible] in P. destruct P as [PC P0]. destruct (f_cols f) as [cols|] eqn:FC; [|contradiction].
    destruct T2 as (NE & A & L & OF & R). destruct (width_div _ A) as [W1 W2]. pose proof (width_pos _ A) as WP.
    unfold reset_buffer. rewrite R, T1. cbv zeta. destruct own; cbv beta iota.
    + cbn [fst snd]. split.
      * split.
        -- split; [discriminate|]. cbn [good]. intros [X _]. discriminate.
        -- discriminate.
        -- cbn [good]. intros [X _]. discriminate.
        -- intros _. split; reflexivity.
        -- reflexivity.
      * cbn [after]. rewrite FC. exact TR.
    + assert (forall b, tracks st false (after false f (SBuffer out count)) first (with_buffer s out (if count =? 0 then width cols / 8 else count)) /\ b = b :> bool) as TT.
      { intros b. split; [|reflexivity]. cbn [after]. rewrite FC. split; cbn [f_cols f_buffer].
        - exact T1.
        - split; [exact NE|]. split; [exact A|]. split; [exact L|]. split; [exact OF|exact R].
        - split; [reflexivity|]. split; [reflexivity|]. destruct (count =? 0); lia.
        - exact T4. }
      destruct (Z.leb_spec (width cols / 8) (if count =? 0 then width cols / 8 else count)) as [B|B]; cbn [fst snd].
      * split; [|apply (TT true)]. split.
        -- split; [|reflexivity]. intros _. cbn [good]. rewrite FC. split; [reflexivity|].
           destruct (Z.eqb_spec count 0); [left; assumption|right; lia].
        -- discriminate.
        -- intros _. split; [reflexivity|]. split; reflexivity.
        -- intros _. split; reflexivity.
        -- reflexivity.
      * split; [|apply (TT true)]. destruct (Z.eqb_spec count 0) as [Z0|Z0]; [lia|]. split.
        -- split; [discriminate|]. cbn [good]. rewrite FC. intros [_ [X|X]]; lia.
        -- discriminate.
        -- cbn [good]. rewrite FC. intros [_ [X|X]]; lia.
        -- intros _. split; reflexivity.
        -- reflexivity.
  - (* a row *)
    cbn [possible] in P. destruct (f_cols f) as [cols|] eqn:FC; [|contradiction].
    destruct T2 as (NE & A & L & OF & R). destruct (width_div _ A) as [W1 W2]. pose proof (width_pos _ A) as WP.
    assert (length (s_sizes s) = length cols) as LS.
    { destruct L as [L1 _]. cbn [skipn] in L1. rewrite L1, map_length. reflexivity. }
    cbn [after]. unfold output_row. rewrite LS.
    destruct (Nat.eqb_spec (length vals) (length cols)) as [EL|EL]; cbn [negb].
    2:{ assert (~ good own f (SRow vals)) as NG.
        { cbn [good]. rewrite FC. destruct (f_buffer f) as [[a n]|]; [|tauto]. intros [X _]. apply room_length in X. contradiction. }
        cbn [fst snd]. split; [|exact TR]. split; try tauto; try discriminate; try (intros _; split; reflexivity); try reflexivity.
        split; [discriminate|tauto]. }
    destruct (P EL) as [TY HE].
    assert (exists k, s_end s = s_out s + 8 * k) as [k EK].
    { destruct (f_buffer f) as [[a n]|]; [exists n; lia|exists 0; lia]. }
    destruct (values_told st s cols vals 0 (s_out s) (s_mem s) k L A TY HE ltac:(lia) EK) as (p1 & m1 & r & V1 & V2 & V3 & V4 & V5 & V6).
    rewrite V1. cbv beta iota.
    assert (forall x, ~ may_change own f (SRow vals) x -> m1 x = s_mem s x) as OUT.
    { intros x X. apply V5. intros B. apply X. cbn [may_change after]. destruct (f_buffer f) as [[a n]|]; [lia|]. lia. }
    assert (tracks st own f first (with_pos s p1 m1)) as TR1.
    { split.
      - exact T1.
      - rewrite FC. split; [exact NE|]. split; [exact A|]. split; [exact L|]. split; [exact OF|exact R].
      - exact T3.
      - exact T4. }
    destruct r as [[]|e|]; [| |contradiction].
    + destruct V3 as [V3 _]. destruct (V3 eq_refl) as [RM RW]. destruct (V4 eq_refl) as [E1 G]. cbn [s_pos s_end with_pos].
      destruct (Z.eqb_spec p1 (s_end s)) as [EP|EP]; cbn [negb].
      * destruct (f_buffer f) as [[a n]|] eqn:FB.
        2:{ exfalso. destruct cols as [|c0 cols]; [contradiction|]. inversion A as [|? ? A1 A2]; subst. apply accepted_size in A1.
            pose proof (width_pos _ A2). rewrite width_cons in *. destruct RW; [|discriminate]. lia. }
        destruct T3 as (B1 & B2 & B3).
        assert (good own f (SRow vals)) as GD. { cbn [good]. rewrite FC, FB. split; [exact RM|]. lia. }
        cbn [fst snd]. split.
        -- split.
           ++ split; [intros _; exact GD|reflexivity].
           ++ discriminate.
           ++ intros _. cbn [shown]. rewrite FC, FB. rewrite B1 in G. cbn [with_counts with_pos s_new s_count s_mem s_outputted s_out].
              split; [destruct first; [destruct T4 as [T4 T4']; rewrite T4, T4'; reflexivity|rewrite T4; destruct (s_new s); reflexivity]|].
              split; [reflexivity|]. split; [exact B1|]. split; [exact G|]. intros i ci v CI VI. split.
              ** apply data_told; [exact OF|exact A|exact B1|]. apply nth_error_Some. rewrite CI. discriminate.
              ** exact (cells_at st cols vals m1 a i ci v A TY RM HE G CI VI).
           ++ intros X. contradiction.
           ++ exact OUT.
        -- split.
           ++ exact T1.
           ++ rewrite FC. split; [exact NE|]. split; [exact A|]. split; [exact L|]. split; [exact OF|exact R].
           ++ rewrite FB. split; [exact B1|]. split; [exact B2|exact B3].
           ++ cbn [with_counts with_pos s_new s_count s_mem s_outputted]. destruct first; [destruct T4 as [T4 T4']; rewrite T4, T4'; reflexivity|rewrite T4; destruct (s_new s); reflexivity].
      * assert (~ good own f (SRow vals)) as NG.
        { cbn [good]. rewrite FC. destruct (f_buffer f) as [[a n]|]; [|tauto]. intros [_ X]. apply EP. lia. }
        cbn [fst snd]. split; [|exact TR1]. split; try tauto; try discriminate; try (intros _; split; reflexivity); try exact OUT.
        split; [discriminate|tauto].
    + assert (~ good own f (SRow vals)) as NG.
      { cbn [good]. rewrite FC. destruct (f_buffer f) as [[a n]|]; [|tauto]. intros [X Y]. destruct V3 as [_ V3].
        assert (@Throw unit e = Ok tt) by (apply V3; split; [exact X|left; lia]). discriminate. }
      cbn [fst snd]. split; [|exact TR1]. split; try tauto; try discriminate; try (intros _; split; reflexivity); try exact OUT.
      split; [discriminate|tauto].
Qed.

(** Whatever a query and its caller do, one after another. *)
Theorem C61_story : forall st own mem es, all_possible own nothing es ->
  story st own nothing true (sel_make own mem) es (sel_events st (sel_make own mem) es).
Proof.
  intros st own mem es.
  assert (tracks st own nothing true (sel_make own mem)) as T.
  { split; cbn; [reflexivity|split; reflexivity|split; reflexivity|split; reflexivity]. }
  revert T. generalize (sel_make own mem) as s. generalize true as first. generalize nothing as f.
  induction es as [|e es IH]; intros f first s T P; cbn [sel_events story]; [exact Logic.I|].
  destruct P as [P1 P2]. destruct (event_told st own f first s e T P1) as [A B]. cbv zeta in A, B.
  destruct (sel_event st s e) as [s1 r]. cbn [fst snd] in *. split; [exact A|]. apply IH; assumption.
Qed.
