(** C62: what filter refuses. *)
From Verif Require Import Base Fp Stream StreamLocal Codec Meta Header Encoder Writer WriterSpec Spec OdaOut OdaSpec SelectOut SelectSpec Copy Filter FilterSpec.
Open Scope Z_scope.

(** The output's sizes are those of the columns announced last; all are of a known type and
    whole doubles. *)
Record sized (cols : list colinfo) (s : sout) : Prop := {
  sz_sizes : s_sizes s = map (fun ci => ci_size ci / 8) cols;
  sz_whole : Forall (fun ci => ci_size ci mod 8 = 0) cols
}.

Definition of_known_type (ci : colinfo) : Prop := In (ci_type ci) [ty_INTEGER; ty_REAL; ty_DOUBLE; ty_STRING; ty_BITFIELD].

Lemma known_types ty : SelectOut.known_type ty = true -> In ty [ty_INTEGER; ty_REAL; ty_DOUBLE; ty_STRING; ty_BITFIELD].
Proof.
  unfold SelectOut.known_type. intros H. repeat (apply orb_true_iff in H as [H|H]); apply Z.eqb_eq in H; subst; cbn; tauto.
Qed.

Lemma push_ok st : forall cols o p t, sel_push st o cols = (p, Ok t) ->
  p_sizes p = map (fun ci => ci_size ci / 8) (map fst cols) /\ Forall (fun ci => ci_size ci mod 8 = 0) (map fst cols) /\ Forall of_known_type (map fst cols).
Proof.
  induction cols as [|[ci has] cols IH]; intros o p t; cbn [sel_push map fst].
  - intros H. injection H as <- _. auto.
  - destruct (Z.eqb_spec (ci_size ci mod 8) 0) as [E|E]; cbn [negb]; [|discriminate].
    destruct (sel_column st ci has) as [c| |] eqn:C; [|discriminate..].
    destruct (sel_push st (o + ci_size ci / 8) cols) as [p1 r1] eqn:P. intros H. injection H as <- ->. cbn [p_sizes].
    destruct (IH _ _ _ P) as (A & B & D). rewrite A. split; [reflexivity|]. split; [now constructor|]. constructor; [|exact D].
    unfold sel_column in C. destruct (SelectOut.known_type (ci_type ci)) eqn:K; [|discriminate]. now apply known_types.
Qed.

Lemma update_sized st s cols at_ s1 : update_types st s cols at_ = (s1, Ok tt) -> sized (map fst cols) s1 /\ Forall of_known_type (map fst cols).
Proof.
  unfold update_types. destruct (sel_push st 0 cols) as [p r] eqn:P. destruct r as [t|e|]; [|discriminate..].
  destruct (push_ok st cols 0 p t P) as (A & B & C). cbv zeta. intros H. split; [|exact C]. split; [|exact B]. rewrite <- A.
  destruct (s_own s); [destruct (_ <=? _); [|discriminate]|]; injection H as <-; reflexivity.
Qed.

Lemma value_sizes s i v : s_sizes (fst (output_value s i v)) = s_sizes s.
Proof.
  unfold output_value. destruct v as [b m|val n m].
  - destruct (_ && _); [|reflexivity]. destruct (if m then _ else _); reflexivity.
  - destruct (nth_error _ _); [|reflexivity]. destruct (_ && _); [|reflexivity]. destruct (_ <? _); [reflexivity|]. destruct (_ && _); reflexivity.
Qed.

Lemma values_room : forall vals s i cols s1, output_values s i vals = (s1, Ok tt) ->
  s_sizes s = map (fun ci => ci_size ci / 8) cols -> Forall (fun ci => ci_size ci mod 8 = 0) cols -> length vals = length (skipn i cols) ->
  s_sizes s1 = s_sizes s /\ Forall2 room (skipn i cols) vals /\ Forall held vals.
Proof.
  induction vals as [|v vals IH]; intros s i cols s1; cbn [output_values length]; intros H Z W L.
  - injection H as <-. destruct (skipn i cols); [auto|discriminate].
  - pose proof (value_sizes s i v) as VS. destruct (output_value s i v) as [s2 r] eqn:V. cbn [fst] in VS. destruct r as [[]|e|]; [|discriminate..].
    destruct (skipn i cols) as [|ci rest] eqn:Sk; [discriminate|].
    assert (Sk' : skipn (S i) cols = rest).
    { clear -Sk. revert cols Sk. induction i as [|i IH]; intros [|c cols] Sk; try discriminate; cbn [skipn] in *; [congruence|]. now apply IH. }
    assert (En : nth_error cols i = Some ci).
    { clear -Sk. revert cols Sk. induction i as [|i IH]; intros [|c cols] Sk; try discriminate; cbn [skipn nth_error] in *; [congruence|]. now apply IH. }
    destruct (IH s2 (S i) cols s1 H) as (A & B & C); [congruence|exact W|rewrite Sk'; cbn [length] in L; lia|].
    rewrite Sk' in B. split; [congruence|]. assert (Wi : ci_size ci mod 8 = 0) by (rewrite Forall_forall in W; apply W; now apply nth_error_In in En).
    assert (R : room ci v /\ held v).
    { destruct v as [b m|val n m]; [split; exact Logic.I|]. unfold output_value in V. rewrite Z, nth_error_map, En in V. cbn [option_map] in V.
      destruct (_ && _) in V; [|discriminate]. destruct (Z.ltb_spec (8 * (ci_size ci / 8)) n); [discriminate|].
      destruct m; cbn [negb andb] in V.
      - split; [cbn; pose proof (Z.div_mod (ci_size ci) 8); lia|cbn; discriminate].
      - destruct (Z.ltb_spec (Z.of_nat (length val)) n); [discriminate|]. split; cbn; [pose proof (Z.div_mod (ci_size ci) 8); lia|unfold len; lia]. }
    split; constructor; tauto.
Qed.

Lemma row_room s vals s1 cols : output_row s vals = (s1, Ok tt) -> sized cols s -> sized cols s1 /\ Forall2 room cols vals /\ Forall held vals.
Proof.
  unfold output_row. intros H [Z W]. destruct (Nat.eqb_spec (length vals) (length (s_sizes s))) as [L|L]; cbn [negb] in H; [|discriminate].
  destruct (output_values (with_pos s (s_out s) (s_mem s)) 0 vals) as [s2 r] eqn:V. destruct r as [[]|e|]; [|discriminate..].
  destruct (values_room vals (with_pos s (s_out s) (s_mem s)) 0 cols s2 V Z W) as (A & B & C). { rewrite L, Z, map_length. reflexivity. }
  destruct (negb _) in H; [discriminate|]. injection H as <-. split; [split; [|exact W]|auto]. cbn [with_counts s_sizes]. rewrite A. exact Z.
Qed.

Lemma process_room st s q s1 cols : process st s q = (s1, Ok tt) -> sized cols s ->
  sized (announced_last cols q) s1 /\ Forall2 room (announced_last cols q) (q_vals q) /\ Forall held (q_vals q) /\
  Forall (fun t => Forall of_known_type (map fst (fst t))) (q_types q).
Proof.
  destruct q as [types vals]. unfold process, announced_last. cbn [q_types q_vals]. revert s cols.
  induction types as [|[tc a] types IH]; intros s cols H Z; cbn [fold_left] in *.
  - destruct (row_room s vals s1 cols H Z) as (A & B & C). auto.
  - destruct (update_types st s tc a) as [s2 r] eqn:U. destruct r as [[]|e|]; [|discriminate..].
    destruct (update_sized st s tc a s2 U) as (Z2 & K). destruct (IH s2 (map fst tc) H Z2) as (A & B & C & D). cbn [fst] in *. auto.
Qed.

Definition roomy (r : list colinfo * list ovalue) : Prop := Forall2 room (fst r) (snd r) /\ Forall held (snd r).

Lemma loop_room md5 st N pr : forall rest fuel w s cols n w1 m,
  filter_loop md5 st N pr fuel w {| it_out := s; it_rest := rest; it_done := false |} n = Ok (w1, m) -> sized cols s ->
  m = n + 1 + Z.of_nat (length rest) /\ Forall roomy (map (fun cq => (fst cq, q_vals (snd cq))) (in_turn cols rest)) /\
  Forall (fun q => Forall (fun t => Forall of_known_type (map fst (fst t))) (q_types q)) rest.
Proof.
  induction rest as [|q rest IH]; intros [|fuel] w s cols n w1 m; cbn [filter_loop it_done it_out]; try discriminate; intros H Z; cbv zeta in H;
    apply bind_ok in H as (w2 & _ & H); unfold sel_next in H; cbn [it_done it_rest it_out] in H.
  - cbn [bind] in H. destruct fuel as [|fuel]; [discriminate|]. cbn [filter_loop it_done] in H. injection H as _ <-. cbn. split; [lia|auto].
  - destruct (process st s q) as [s2 r] eqn:P. destruct r as [[]|e|]; cbn [bind] in H; [|discriminate..].
    destruct (process_room st s q s2 cols P Z) as (Z2 & B & C & D). destruct (IH fuel w2 s2 _ _ _ _ H Z2) as (E & F & G).
    split; [cbn [length]; lia|]. cbn [in_turn map fst snd]. split; constructor; auto. now split.
Qed.

(** Whatever the query (no assumption about it): if filter returns, it has written all its
    rows; every row has a value for each column announced last, every text fits its column,
    and all columns announced are of one of the five types.  So a text that is too long, a row
    of the wrong length or an unknown type is never passed over: the call raises an
    exception. *)
Theorem C62_refuses : forall md5 st N pr mem q out n, filter_query md5 st N pr mem q = Ok (out, n) ->
  n = Z.of_nat (length (answer q)) /\
  Forall (fun r => Forall2 room (fst r) (snd r) /\ Forall held (snd r)) (answer q) /\
  Forall of_known_type (map fst (qy_cols q)) /\
  Forall (fun r => Forall (fun t => Forall of_known_type (map fst (fst t))) (q_types r)) (qy_rows q).
Proof.
  intros md5 st N pr mem q out n H. unfold filter_query in H.
  destruct (update_types st (sel_make true mem) (qy_cols q) (qy_at q)) as [s0 r0] eqn:U. destruct r0 as [[]|e|]; cbn [bind] in H; [|discriminate..].
  destruct (update_sized _ _ _ _ _ U) as (Z & K). unfold answer. rewrite map_length.
  unfold sel_next in H. cbn [it_done it_rest it_out] in H. destruct (qy_rows q) as [|q1 rest] eqn:R.
  - cbn [bind it_out] in H. apply bind_ok in H as (w & _ & H). cbn [length filter_loop it_done bind] in H.
    apply bind_ok in H as (w2 & _ & H). apply bind_ok in H as (w3 & _ & H). injection H as _ <-. cbn. auto.
  - destruct (process st s0 q1) as [s2 r] eqn:P. destruct r as [[]|e|]; cbn [bind] in H; [|discriminate..].
    destruct (process_room _ _ _ _ _ P Z) as (Z2 & B & C & D). cbn [it_out] in H. apply bind_ok in H as (w & _ & H).
    apply bind_ok in H as ((w1, m) & L & H). destruct (loop_room _ _ _ _ _ _ _ _ _ _ _ _ L Z2) as (E & F & G).
    apply bind_ok in H as (w2 & _ & H). apply bind_ok in H as (w3 & _ & H). injection H as _ <-.
    assert (Li : forall qs cols, length (in_turn cols qs) = length qs) by (clear; induction qs; intros cols; cbn; auto).
    cbn [in_turn map length fst snd]. rewrite Li. split; [lia|]. split; [constructor; [now split|exact F]|]. split; [exact K|]. constructor; auto.
Qed.
Print Assumptions C62_refuses.
