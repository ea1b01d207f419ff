(** C66: the command line of a tool. *)
From Verif Require Import Base Stream StreamProofs CommandLine CommandLineSpec.
Open Scope Z_scope.

Lemma is_parameter_spec w : is_parameter w = false <-> option_word w.
Proof.
  unfold is_parameter, option_word. destruct w as [|c [|d rest]]; cbn.
  - split; [discriminate|]. intros (c & r & H). discriminate H.
  - rewrite orb_true_r. split; [discriminate|]. intros (c' & r & H). discriminate H.
  - rewrite orb_false_r. split.
    + intros H. apply negb_false_iff in H. apply Z.eqb_eq in H. subst. now exists d, rest.
    + intros (c' & r & [= -> -> ->]). reflexivity.
Qed.

Lemma contains_spec s w : contains s w = true <-> In w s.
Proof.
  unfold contains. rewrite existsb_exists. split.
  - intros (x & I1 & E). apply bytes_eqb_eq in E. now subst.
  - intros H. exists w. split; [exact H|apply bytes_eqb_refl].
Qed.

(** What the loop adds for the items it reads. *)
Definition absorb (p : parser) (i : item) : parser :=
  match i with
  | Plain w => push_parameter p w
  | Flag o => insert_flag p o
  | Valued o a => set_valued p o a
  end.

Lemma absorb_words p i : p_words (absorb p i) = p_words p.
Proof. now destruct i. Qed.
Lemma absorb_registered p i : p_registered (absorb p i) = p_registered p.
Proof. now destruct i. Qed.

Lemma absorb_all_words items : forall p, p_words (fold_left absorb items p) = p_words p.
Proof. induction items as [|i l IH]; intros p; cbn; [reflexivity|]. rewrite IH. apply absorb_words. Qed.
Lemma absorb_all_registered items : forall p, p_registered (fold_left absorb items p) = p_registered p.
Proof. induction items as [|i l IH]; intros p; cbn; [reflexivity|]. rewrite IH. apply absorb_registered. Qed.

Lemma nth_error_mid {A} (l1 l2 : list A) x : nth_error (l1 ++ x :: l2) (length l1) = Some x.
Proof. rewrite nth_error_app2 by lia. now rewrite Nat.sub_diag. Qed.

(** The loop reads the items, then whatever follows. *)
Lemma parse_loop_items items : forall taking rest p n done,
  Forall (fits taking) items ->
  (forall w, In w taking <-> In w (p_registered p)) ->
  p_words p = done ++ flat_map spelled items ++ rest ->
  (length (flat_map spelled items ++ rest) <= n)%nat ->
  exists m, (length rest <= m)%nat /\
  parse_loop n (length done) p =
  parse_loop m (length (done ++ flat_map spelled items)) (fold_left absorb items p).
Proof.
  induction items as [|i items IH]; intros taking rest p n done F R W L.
  - cbn in *. rewrite app_nil_r. now exists n.
  - inversion F as [|? ? F1 F2]; subst.
    destruct i as [w|o|o a]; cbn [fits spelled flat_map app length absorb fold_left] in *.
    + destruct n as [|n]; [lia|]. cbn [parse_loop].
      rewrite (proj2 (Nat.ltb_lt _ _)) by (rewrite W, app_length; cbn; lia).
      unfold argv. rewrite W, nth_error_mid.
      destruct (is_parameter w) eqn:E; [|apply is_parameter_spec in E; contradiction].
      destruct (IH taking rest (push_parameter p w) n (done ++ [w]) F2 R) as (m & Lm & Em).
      * cbn. now rewrite W, <- app_assoc.
      * lia.
      * exists m. split; [exact Lm|]. rewrite <- app_assoc in Em. cbn [app] in Em. rewrite <- Em.
        f_equal. rewrite app_length. cbn. lia.
    + destruct F1 as [O1 O2]. destruct n as [|n]; [lia|]. cbn [parse_loop].
      rewrite (proj2 (Nat.ltb_lt _ _)) by (rewrite W, app_length; cbn; lia).
      unfold argv. rewrite W, nth_error_mid.
      rewrite (proj2 (is_parameter_spec o) O1).
      destruct (contains (p_registered p) o) eqn:E; [apply contains_spec in E; apply R in E; contradiction|].
      destruct (IH taking rest (insert_flag p o) n (done ++ [o]) F2 R) as (m & Lm & Em).
      * cbn. now rewrite W, <- app_assoc.
      * lia.
      * exists m. split; [exact Lm|]. rewrite <- app_assoc in Em. cbn [app] in Em. rewrite <- Em.
        f_equal. rewrite app_length. cbn. lia.
    + destruct F1 as [O1 O2]. destruct n as [|n]; [lia|]. cbn [parse_loop].
      rewrite (proj2 (Nat.ltb_lt _ _)) by (rewrite W, app_length; cbn; lia).
      unfold argv. rewrite W, nth_error_mid.
      rewrite (proj2 (is_parameter_spec o) O1).
      rewrite (proj2 (contains_spec _ _)) by (apply R; exact O2).
      assert (En : nth_error (done ++ o :: a :: flat_map spelled items ++ rest) (S (length done)) = Some a).
      { rewrite nth_error_app2 by lia. replace (S (length done) - length done)%nat with 1%nat by lia. reflexivity. }
      rewrite En.
      destruct (IH taking rest (set_valued p o a) n (done ++ [o; a]) F2 R) as (m & Lm & Em).
      * cbn. now rewrite W, <- app_assoc.
      * lia.
      * exists m. split; [exact Lm|]. rewrite <- app_assoc in Em. cbn [app] in Em. rewrite <- Em.
        f_equal. rewrite app_length. cbn. lia.
Qed.

Lemma parse_ok taking items p :
  reading taking items (p_words p) -> (forall w, In w taking <-> In w (p_registered p)) ->
  parse_command_line p = (set_parsed (fold_left absorb items p), Ok tt).
Proof.
  intros [F W] R. unfold parse_command_line.
  destruct (parse_loop_items items taking [] p (length (p_words p)) []) as (m & _ & E); try assumption.
  - cbn. now rewrite app_nil_r.
  - rewrite app_nil_r, W. lia.
  - cbn [length app] in E. rewrite E. destruct m as [|m]; cbn [parse_loop]; [reflexivity|].
    rewrite absorb_all_words, (proj2 (Nat.ltb_ge _ _)) by (rewrite W; lia). reflexivity.
Qed.

Lemma parse_incomplete taking items o p :
  Forall (fits taking) items -> p_words p = flat_map spelled items ++ [o] -> option_word o -> In o taking ->
  (forall w, In w taking <-> In w (p_registered p)) ->
  parse_command_line p = (fold_left absorb items p, Throw UserError).
Proof.
  intros F W O1 O2 R. unfold parse_command_line.
  destruct (parse_loop_items items taking [o] p (length (p_words p)) []) as (m & Lm & E); try assumption.
  - rewrite W. lia.
  - cbn [length app] in E, Lm. rewrite E. destruct m as [|m]; [lia|]. cbn [parse_loop].
    unfold argv. rewrite absorb_all_words, absorb_all_registered, W.
    rewrite (proj2 (Nat.ltb_lt _ _)) by (rewrite app_length; cbn; lia).
    rewrite nth_error_mid, (proj2 (is_parameter_spec o) O1), (proj2 (contains_spec _ _)) by (apply R; exact O2).
    rewrite (proj2 (nth_error_None _ _)) by (rewrite app_length; cbn; lia). reflexivity.
Qed.

(** The members after parsing. *)
Lemma absorb_params items : forall p, p_params (fold_left absorb items p) = p_params p ++ plain_words items.
Proof.
  induction items as [|i l IH]; intros p; cbn [fold_left plain_words flat_map]; [now rewrite app_nil_r|].
  rewrite IH. destruct i; cbn; [now rewrite <- app_assoc|reflexivity|reflexivity].
Qed.

Lemma absorb_flags items : forall p o,
  In o (p_flags (fold_left absorb items p)) <-> In o (p_flags p) \/ In (Flag o) items.
Proof.
  induction items as [|i l IH]; intros p o; cbn [fold_left In]; [tauto|].
  rewrite IH. destruct i as [w|o'|o' a]; cbn.
  - split; intros [H|H]; auto. destruct H as [H|H]; [discriminate H|auto].
  - split.
    + intros [[->|H]|H]; auto.
    + intros [H|[[= ->]|H]]; auto.
  - split; intros [H|H]; auto. destruct H as [H|H]; [discriminate H|auto].
Qed.

Lemma absorb_sorted items : forall p, msorted (p_valued p) -> msorted (p_valued (fold_left absorb items p)).
Proof.
  induction items as [|i l IH]; intros p S1; cbn [fold_left]; [exact S1|].
  apply IH. destruct i; cbn; [exact S1|exact S1|now apply mset_sorted].
Qed.

Lemma absorb_absent items : forall p o, msorted (p_valued p) ->
  (forall a, ~ In (Valued o a) items) -> mget (p_valued (fold_left absorb items p)) o = mget (p_valued p) o.
Proof.
  induction items as [|i l IH]; intros p o S1 A; cbn [fold_left]; [reflexivity|].
  rewrite IH.
  - destruct i as [w|f|f a]; cbn; [reflexivity|reflexivity|]. rewrite mget_mset by exact S1.
    destruct (bytes_eqb o f) eqn:E; [|reflexivity]. apply bytes_eqb_eq in E. subst. exfalso. apply (A a). now left.
  - destruct i; cbn; [exact S1|exact S1|now apply mset_sorted].
  - intros a H. apply (A a). now right.
Qed.

Lemma absorb_given p items o a : msorted (p_valued p) -> given items o a ->
  mget (p_valued (fold_left absorb items p)) o = Some a.
Proof.
  intros S1 (b & af & -> & N). rewrite fold_left_app. cbn [fold_left absorb].
  assert (S2 := absorb_sorted b p S1).
  rewrite absorb_absent; [|cbn; now apply mset_sorted|exact N].
  cbn. rewrite mget_mset by exact S2. now rewrite bytes_eqb_refl.
Qed.

Lemma word_dec (a b : word) : {a = b} + {a <> b}.
Proof. apply list_eq_dec. apply Z.eq_dec. Qed.

(** Every option with an argument has one given last. *)
Lemma given_dec items o : (exists a, given items o a) \/ (forall a, ~ In (Valued o a) items).
Proof.
  induction items as [|i l IH]; [right; intros a []|].
  destruct IH as [(a & b & af & -> & N)|N].
  - left. exists a, (i :: b), af. split; [reflexivity|exact N].
  - destruct i as [w|f|f a].
    + right. intros a [H|H]; [discriminate H|now apply (N a)].
    + right. intros a [H|H]; [discriminate H|now apply (N a)].
    + destruct (word_dec f o) as [->|D].
      * left. exists a, [], l. split; [reflexivity|exact N].
      * right. intros a' [[= -> ->]|H]; [now apply D|now apply (N a')].
Qed.

Lemma given_in items o a : given items o a -> In (Valued o a) items.
Proof. intros (b & af & -> & _). apply in_or_app. right. now left. Qed.

(** A parser that has read [items]. *)
Definition has_read (items : list item) (p : parser) : Prop :=
  p_parsed p = true /\ p_params p = plain_words items /\
  (forall o, In o (p_flags p) <-> In (Flag o) items) /\
  (forall o a, given items o a -> mget (p_valued p) o = Some a) /\
  (forall o, (forall a, ~ In (Valued o a) items) -> mget (p_valued p) o = None).

Lemma replies_read items p c : has_read items p ->
  has_read items (fst (apply p c)) /\ replies items c (snd (apply p c)).
Proof.
  intros H. assert (H' := H). destruct H' as (P & W & Fl & G & N).
  destruct c as [o| |i|o|o d|]; cbn [apply]; unfold query, ensure_parsed; rewrite ?P; cbn [fst snd replies].
  - split; [|reflexivity]. unfold has_read. cbn. auto.
  - split; [exact H|]. now rewrite W.
  - split; [exact H|]. intros w E. now rewrite W, E.
  - split; [exact H|]. destruct (contains (p_flags p) o) eqn:E.
    + exists true. split; [reflexivity|]. split; [|auto]. intros _. left. apply Fl. now apply contains_spec.
    + eexists. split; [reflexivity|]. destruct (given_dec items o) as [(a & Ga)|Na].
      * rewrite (G o a Ga). split; [|auto]. intros _. right. exists a. now apply given_in.
      * rewrite (N o Na). split; [discriminate|]. intros [F1|(a & Ha)].
        -- apply Fl in F1. apply contains_spec in F1. congruence.
        -- now destruct (Na a).
  - split; [exact H|]. split.
    + intros a Ga. now rewrite (G o a Ga).
    + intros Na. now rewrite (N o Na).
  - split; [exact H|]. reflexivity.
Qed.

Lemma answers_read items : forall cs p, has_read items p -> Forall2 (replies items) cs (answers p cs).
Proof.
  induction cs as [|c cs IH]; intros p H; cbn [answers]; [constructor|].
  destruct (replies_read items p c H) as [H1 H2].
  destruct (apply p c) as [p' a]. cbn [fst snd] in *. constructor; [exact H2|now apply IH].
Qed.

(** A parser that has not parsed yet. *)
Definition fresh (words taking : list word) (p : parser) : Prop :=
  p_parsed p = false /\ p_words p = words /\ (forall w, In w taking <-> In w (p_registered p)) /\
  p_valued p = [] /\ p_flags p = [] /\ p_params p = [].

Lemma fresh_reads words taking items p : fresh words taking p -> reading taking items words ->
  exists q, ensure_parsed p = (q, Ok tt) /\ has_read items q.
Proof.
  intros (P & W & R & V & Fl & Pa) Rd. unfold ensure_parsed. rewrite P.
  rewrite (parse_ok taking items p) by (rewrite ?W; assumption).
  eexists. split; [reflexivity|]. unfold has_read. cbn.
  assert (S1 : msorted (p_valued p)) by (rewrite V; exact Logic.I).
  rewrite absorb_params, Pa. split; [reflexivity|]. split; [reflexivity|]. split; [|split].
  - intros o. rewrite absorb_flags, Fl. cbn. tauto.
  - intros o a G. now apply absorb_given.
  - intros o N. rewrite absorb_absent by assumption. now rewrite V.
Qed.

Lemma query_read items p q f : ensure_parsed p = (q, Ok tt) -> has_read items q ->
  query p f = query q f.
Proof. intros E (P & _). unfold query. rewrite E. unfold ensure_parsed. now rewrite P. Qed.

Lemma answers_fresh items : forall cs words taking p, fresh words taking p ->
  reading (rev (registered_first cs) ++ taking) items words -> Forall2 (replies items) cs (answers p cs).
Proof.
  induction cs as [|c cs IH]; intros words taking p Fr Rd; [constructor|].
  assert (D : {o | c = Register o} + {is_query c}).
  { destruct c; cbn; auto. left. now eexists. }
  destruct D as [[o ->]|Q].
  - cbn [answers apply]. constructor; [reflexivity|].
    apply (IH words (o :: taking)).
    + destruct Fr as (P & W & R & V & Fl & Pa). unfold fresh. cbn. repeat split; auto.
      * intros [->|H]; [now left|right; now apply R].
      * intros [->|H]; [now left|right; now apply R].
    + cbn [registered_first rev] in Rd. now rewrite <- app_assoc in Rd.
  - assert (Rd' : reading taking items words) by (destruct c; cbn in Q, Rd; tauto).
    destruct (fresh_reads words taking items p Fr Rd') as (q & E & H).
    assert (A : apply p c = apply q c).
    { destruct c; cbn [apply]; cbn in Q; try tauto; now apply (query_read items). }
    cbn [answers]. rewrite A. apply (answers_read items (c :: cs) q H).
Qed.

Lemma fits_same taking taking' items : (forall w, In w taking <-> In w taking') ->
  Forall (fits taking) items -> Forall (fits taking') items.
Proof.
  intros H. apply Forall_impl. intros i. destruct i; cbn; [auto|rewrite H; auto|rewrite H; auto].
Qed.

(** C66: whatever is asked of the parser, in whatever order and however often, the answers are
    those of the one reading of the command line in which exactly the options registered before
    the first question take an argument. *)
Theorem C66_queries : forall words cs items,
  reading (registered_first cs) items words ->
  Forall2 (replies items) cs (answers (new_parser words) cs).
Proof.
  intros words cs items [F W]. apply (answers_fresh items cs words []).
  - unfold fresh, new_parser. cbn. repeat split; auto.
  - split; [|exact W]. rewrite app_nil_r. eapply fits_same; [|exact F]. intros w. apply in_rev.
Qed.

(** A command line that ends with an option whose argument is missing: every question is refused. *)
Theorem C66_incomplete : forall words taking items o cs,
  Forall (fits taking) items -> words = flat_map spelled items ++ [o] -> option_word o -> In o taking ->
  Forall is_query cs ->
  answers (new_parser words) (map Register taking ++ cs) =
  map (fun _ => Ok Done) taking ++ map (fun _ => Throw UserError) cs.
Proof.
  intros words taking items o cs F W O1 O2 Q.
  assert (X : forall l p, p_parsed p = false -> p_words p = words ->
    (forall w, In w taking <-> In w (rev l ++ p_registered p)) ->
    answers p (map Register l ++ cs) = map (fun _ => Ok Done) l ++ map (fun _ => Throw UserError) cs).
  { induction l as [|x l IH]; intros p P Wp R.
    - cbn [map app rev] in *. revert p P Wp R. induction cs as [|c cs IH]; intros p P Wp R; [reflexivity|].
      inversion Q as [|? ? Q1 Q2]; subst.
      assert (E : apply p c = (fold_left absorb items p, Throw UserError)).
      { assert (E1 : ensure_parsed p = (fold_left absorb items p, Throw UserError)).
        { unfold ensure_parsed. rewrite P. apply (parse_incomplete taking items o); assumption. }
        destruct c; cbn in Q1; try tauto; cbn [apply]; unfold query; now rewrite E1. }
      cbn [answers map]. rewrite E. f_equal. apply IH; [exact Q2| | |].
      + clear -P. revert p P. induction items as [|i l IH]; intros p P; cbn; [exact P|]. apply IH. now destruct i.
      + now rewrite absorb_all_words.
      + now rewrite absorb_all_registered.
    - cbn [map app answers apply]. f_equal. apply IH; [exact P|exact Wp|].
      cbn [rev p_registered] in *. intros w. rewrite R. rewrite <- app_assoc. reflexivity. }
  apply X; [reflexivity|reflexivity|]. intros w. cbn. rewrite app_nil_r. apply in_rev.
Qed.

(** Every command line has exactly one reading, or exactly one reading up to a last option whose
    argument is missing. *)
Theorem C66_reading : forall taking words,
  exists items rest,
  (rest = [] \/ exists o, rest = [o] /\ option_word o /\ In o taking) /\
  Forall (fits taking) items /\ words = flat_map spelled items ++ rest /\
  forall items' rest',
  (rest' = [] \/ exists o, rest' = [o] /\ option_word o /\ In o taking) ->
  Forall (fits taking) items' -> words = flat_map spelled items' ++ rest' -> items' = items /\ rest' = rest.
Proof.
  intros taking words.
  assert (U : forall items rest items' rest',
    (rest = [] \/ exists o, rest = [o] /\ option_word o /\ In o taking) ->
    (rest' = [] \/ exists o, rest' = [o] /\ option_word o /\ In o taking) ->
    Forall (fits taking) items -> Forall (fits taking) items' ->
    flat_map spelled items ++ rest = flat_map spelled items' ++ rest' -> items' = items /\ rest' = rest).
  { induction items as [|i items IH]; intros rest items' rest' D D' F F' E.
    - destruct items' as [|i' items']; [now cbn in E|]. exfalso.
      pose proof (Forall_inv F') as F1.
      destruct D as [->|(o & -> & O1 & O2)]; [destruct i'; discriminate E|].
      destruct i' as [w|f|f a]; cbn in E, F1; injection E as -> E; [tauto|tauto|discriminate E].
    - inversion F as [|? ? F1 F2]; subst.
      destruct items' as [|i' items'].
      + exfalso.
        destruct D' as [->|(o & -> & O1 & O2)]; [destruct i; discriminate E|].
        destruct i as [w|f|f a]; cbn in E, F1; injection E as -> E; [tauto|tauto|discriminate E].
      + inversion F' as [|? ? F1' F2']; subst. cbn [flat_map] in E. rewrite <- !app_assoc in E.
        assert (X : i' = i /\ flat_map spelled items ++ rest = flat_map spelled items' ++ rest').
        { destruct i as [w|f|f a], i' as [w'|f'|f' a']; cbn in E, F1, F1'; injection E; intros; subst; try tauto; now split. }
        destruct X as [Xi E2]. destruct (IH rest items' rest' D D' F2 F2' E2) as [Xj Xr]. now subst. }
  assert (X : forall n l, (length l <= n)%nat -> exists items rest,
    (rest = [] \/ exists o, rest = [o] /\ option_word o /\ In o taking) /\
    Forall (fits taking) items /\ l = flat_map spelled items ++ rest).
  { induction n as [|n IH]; intros l L.
    - destruct l; [|cbn in L; lia]. exists [], []. cbn. auto.
    - destruct l as [|w l]; [exists [], []; cbn; auto|]. cbn in L.
      destruct (is_parameter w) eqn:E.
      + destruct (IH l) as (items & rest & D & F & ->); [lia|].
        exists (Plain w :: items), rest. split; [exact D|]. split; [|reflexivity].
        constructor; [|exact F]. cbn. intros H. apply is_parameter_spec in H. congruence.
      + apply is_parameter_spec in E. destruct (in_dec word_dec w taking) as [T|T].
        * destruct l as [|a l].
          -- exists [], [w]. split; [right; exists w; auto|]. split; [constructor|reflexivity].
          -- destruct (IH l) as (items & rest & D & F & ->); [cbn in L; lia|].
             exists (Valued w a :: items), rest. split; [exact D|]. split; [|reflexivity].
             constructor; [|exact F]. now split.
        * destruct (IH l) as (items & rest & D & F & ->); [lia|].
          exists (Flag w :: items), rest. split; [exact D|]. split; [|reflexivity].
          constructor; [|exact F]. now split. }
  destruct (X (length words) words) as (items & rest & D & F & E); [lia|].
  exists items, rest. split; [exact D|]. split; [exact F|]. split; [exact E|].
  intros items' rest' D' F' E'. apply (U items rest); auto. now rewrite <- E, <- E'.
Qed.
