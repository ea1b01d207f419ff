(** Proofs about the dispatching writer. *)
From Verif Require Import IntProofs Spec Base Fp FpProofs Stream StreamProofs StreamLocal Codec Meta Header HeaderProofs Encoder Table Reader
  TableProofs FrameProofs Through Writer RowReader RowList WriterSpec WriterProofs WriterRun WriterRead Comparator P_Compare Copy CopySpec CopyProofs P_Copy
  P_Tables Dispatcher DispatchSpec DispatchNames.
Open Scope Z_scope.
Local Notation length := List.length.

(** ** Files *)
Lemma put_same k n c : files (put k n c) n = Some c.
Proof. cbn. now rewrite bytes_eqb_refl. Qed.
Lemma put_other k n c m : m <> n -> files (put k n c) m = files k m.
Proof. intros H. cbn. destruct (bytes_eqb m n) eqn:E; [|reflexivity]. apply bytes_eqb_eq in E. congruence. Qed.

Lemma emit_ok k h D k1 h1 c : files k (h_name h) = Some c -> (h_append h = false -> h_pos h = length c) -> emit k h D = (k1, h1) ->
  files k1 (h_name h) = Some (c ++ D) /\ (forall n, n <> h_name h -> files k1 n = files k n) /\ dirs k1 = dirs k /\
  h_name h1 = h_name h /\ (h_append h1 = false -> h_pos h1 = length (c ++ D)).
Proof.
  intros F P E. unfold emit in E. assert (content k (h_name h) = c) as Ec by (unfold content; now rewrite F). rewrite Ec in E.
  destruct (h_append h) eqn:A.
  - assert (k1 = put k (h_name h) (c ++ D)) by congruence. assert (h1 = h) by congruence. subst. rewrite A.
    split; [apply put_same|]. split; [intros n; apply put_other|]. split; [reflexivity|]. split; [reflexivity|discriminate].
  - rewrite (P eq_refl) in E. rewrite firstn_all, skipn_all2 in E by lia. rewrite app_nil_r in E.
    match type of E with (?x, ?y) = _ => assert (k1 = x) by congruence; assert (h1 = y) by congruence end. subst.
    split; [apply put_same|]. split; [intros n; apply put_other|]. split; [reflexivity|]. split; [reflexivity|].
    intros _. cbn [h_pos]. now rewrite app_length.
Qed.

(** ** Names depend on the names and types of the columns only *)
Lemma index_names nm : forall cs cs' i f, map col_name cs = map col_name cs' -> column_index_loop cs i nm f = column_index_loop cs' i nm f.
Proof.
  induction cs as [|c cs IH]; intros [|c' cs'] i f E; try discriminate; [reflexivity|]. cbn [map] in E.
  cbn [column_index_loop]. assert (col_name c = col_name c') as -> by congruence. assert (E' : map col_name cs = map col_name cs') by congruence.
  destruct (name_matches (col_name c') nm); [destruct f; [reflexivity|]|]; now apply IH.
Qed.
Lemma parse_names t cs cs' : map col_name cs = map col_name cs' -> forall fuel start, parse_from fuel t cs start = parse_from fuel t cs' start.
Proof.
  intros E. induction fuel as [|f IH]; intros start; [reflexivity|]. cbn [parse_from]. destruct (find_from 123 t start); [|reflexivity].
  destruct (find_from 125 t n); [|reflexivity]. unfold column_index. rewrite (index_names _ cs cs' 0 None E).
  destruct (column_index_loop cs' 0 _ None); cbn [bind]; try reflexivity. now rewrite IH.
Qed.
Lemma shape_names cs cs' : map shape cs = map shape cs' -> map col_name cs = map col_name cs'.
Proof. intros E. apply (f_equal (map (fun s : list Z * Z * Z => fst (fst s)))) in E. now rewrite !map_map in E. Qed.

Lemma key_eq_same a : forall b, key_eq a b = true <-> same_values a b.
Proof.
  induction a as [|x a IH]; intros [|y b]; cbn [key_eq].
  - split; [constructor|reflexivity].
  - split; [discriminate|]. inversion 1.
  - split; [discriminate|]. inversion 1.
  - rewrite andb_true_iff, IH. split; [intros (A & B); now constructor|]. inversion 1; auto.
Qed.

Section Routing.
Variables (template : list Z) (rows : list arow) (route : arow -> list Z).
Hypothesis HR : routed template rows route.

Definition rkey (r : arow) : list (list Z) :=
  match parse_template template (fst r) with
  | Ok ps => match map_out (fun p => value_at (snd r) (p_index p)) ps with Ok k => k | _ => [] end
  | _ => []
  end.

Lemma params_some cs off ps l : params_at cs off ps l -> (exists nm, In (Par nm) ps) -> l <> [].
Proof.
  induction 1 as [off | off t ps l P IH | off nm ps i l Hi P IH]; intros (nm' & H).
  - destruct H.
  - apply IH. destruct H as [H|H]; [discriminate|eauto].
  - discriminate.
Qed.

Lemma route_facts r cs : In r rows -> map shape cs = map shape (fst r) ->
  exists params, parse_template template cs = Ok params /\ params <> [] /\
    map_out (fun p => value_at (snd r) (p_index p)) params = Ok (rkey r) /\ rkey r <> [] /\
    generate_name template cs (snd r) params = Ok (route r).
Proof using HR.
  intros Hr Hs. destruct HR as [(ps & T & Hp & Fi & Na & _)]. specialize (Fi r Hr). specialize (Na r).
  assert (HP : forall nm, In (Par nm) ps -> exists i, forall j, positions (fst r) nm j <-> j = i).
  { clear -Fi. induction Fi as [|t ps n F IH|nm ps i c cell t n C Te F IH]; intros m H.
    - destruct H.
    - destruct H as [H|H]; [discriminate|auto].
    - destruct H as [H|H]; [|auto]. assert (nm = m) by congruence. subst. exists i. apply C. }
  destruct (parse_ok (fst r) template ps T HP [] [] (S (length template))) as (l & L1 & L2); [intros []|lia|]. cbn [app length Nat.add] in L1, L2.
  destruct (values_exist r ps (route r) Fi) as (vs & V).
  assert (K : map_out (fun p => value_at (snd r) (p_index p)) l = Ok vs).
  { eapply key_ok; eauto. }
  assert (Ek : rkey r = vs) by (unfold rkey, parse_template; rewrite L2, K; reflexivity).
  exists l. rewrite Ek. unfold parse_template. rewrite (parse_names template cs (fst r) (shape_names _ _ Hs)), L2.
  split; [reflexivity|]. split; [eapply params_some; eauto|]. split; [exact K|]. split.
  - destruct Hp as (nm & Hp). clear -V Hp. induction V; [destruct Hp| |discriminate]. apply IHV. destruct Hp as [Q|Q]; [discriminate|exact Q].
  - unfold generate_name. pose proof (fun H => generate_ok template cs r H ps template (route r) T Fi ltac:(intros; eapply Na; eauto) [] [] l eq_refl L1) as G.
    cbn [app] in G. apply G. clear -Hs. intros i c E.
    assert (E' : nth_error (map shape cs) i = Some (shape c)) by (rewrite Hs, nth_error_map, E; reflexivity).
    rewrite nth_error_map in E'. destruct (nth_error cs i) as [d|]; [|discriminate]. exists d. split; [reflexivity|]. cbn [option_map] in E'. unfold shape in E'. congruence.
Qed.

Lemma key_route r1 r2 : In r1 rows -> In r2 rows -> (key_eq (rkey r1) (rkey r2) = true <-> route r1 = route r2).
Proof using HR.
  intros H1 H2. rewrite key_eq_same. destruct HR as [(ps & T & Hp & Fi & Na & Ke)].
  assert (X : forall r, In r rows -> values_of r ps (rkey r)).
  { intros r Hr. pose proof (Fi r Hr) as F. destruct (values_exist r ps (route r) F) as (vs & V).
    assert (HP : forall nm, In (Par nm) ps -> exists i, forall j, positions (fst r) nm j <-> j = i).
    { clear -F. induction F as [|t ps n F IH|nm ps i c cell t n C Te F IH]; intros m H.
      - destruct H.
      - destruct H as [H|H]; [discriminate|auto].
      - destruct H as [H|H]; [|auto]. assert (nm = m) by congruence. subst. exists i. apply C. }
    destruct (parse_ok (fst r) template ps T HP [] [] (S (length template))) as (l & L1 & L2); [intros []|lia|]. cbn [app length Nat.add] in L1, L2.
    assert (K : map_out (fun p => value_at (snd r) (p_index p)) l = Ok vs) by (eapply key_ok; eauto).
    unfold rkey, parse_template. rewrite L2, K. exact V. }
  apply Ke; auto.
Qed.

Lemma key_nan r : In r rows -> has_nan (rkey r) = false.
Proof using HR.
  intros H. pose proof (proj2 (key_route r r H H) eq_refl) as E. unfold has_nan. induction (rkey r) as [|x k IH]; [reflexivity|].
  cbn [key_eq existsb] in *. apply andb_true_iff in E as (E1 & E2). rewrite (IH E2), orb_false_r.
  destruct (is_nan f64 (le_val x)) eqn:Q; [|reflexivity]. unfold deq, feq in E1. rewrite Q in E1. discriminate.
Qed.

End Routing.
