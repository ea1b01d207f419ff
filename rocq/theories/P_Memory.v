(** C48: decoding into arrays in memory. *)
From Verif Require Import Base Fp Stream Codec Meta Header Table TableProofs Strided P_Strided MemDecode MemProofs.
Open Scope Z_scope.

(** the content of an array, as the decoder of Table.v sees it *)
Definition content (m : mem) (s : strided) : facade := {| f_size := s_size s; f_elems := view m s |}.

(** no byte belongs to two of the arrays *)
Definition pairwise_disjoint (arrs : list strided) : Prop :=
  forall i j s s', nth_error arrs i = Some s -> nth_error arrs j = Some s' -> i <> j -> disjoint s s'.

(** ** Attaching *)

Lemma pairwise_apart arrs : pairwise_disjoint arrs -> apart (map Some arrs).
Proof.
  induction arrs as [|s arrs IH]; intros H; cbn [map apart]; [exact I|]. split.
  - intros a b [E|[]] Hb. injection E as <-. apply in_map_iff in Hb as (s' & E & Hs'). injection E as <-.
    apply In_nth_error in Hs' as (j & Hj). eapply (H 0%nat (S j)); [reflexivity|exact Hj|lia].
  - apply IH. intros i j a b Hi Hj N. eapply (H (S i) (S j)); [exact Hi|exact Hj|lia].
Qed.

Lemma apart_set l i s : apart l -> nth_error l i = Some None -> cross [Some s] l -> apart (list_set l i (Some s)).
Proof.
  revert i. induction l as [|a l IH]; intros i A E C; [destruct i; discriminate|]. destruct A as [A1 A2]. destruct i as [|i]; cbn [list_set apart].
  - split; [|exact A2]. intros x y [Ex|[]] Hy. apply (C x y); [left; exact Ex|right; exact Hy].
  - split; [|apply IH; [exact A2|exact E|intros x y Hx Hy; apply C; [exact Hx|right; exact Hy]]].
    intros x y [Ex|[]] Hy. assert (K : y = s \/ In (Some y) l).
    { clear -Hy. revert i Hy. induction l as [|b l IH]; intros [|i] Hy; cbn [list_set] in Hy; [destruct Hy|destruct Hy| |].
      - destruct Hy as [E|Hy]; [injection E as ->; auto|right; right; exact Hy].
      - destruct Hy as [E|Hy]; [right; left; exact E|]. destruct (IH i Hy); [auto|right; right; assumption]. }
    destruct K as [->|K].
    + intros z Z1 Z2. apply (C s x) with (x := z); [left; reflexivity|left; exact Ex|exact Z2|exact Z1].
    + apply A1; [left; exact Ex|exact K].
Qed.

Lemma arrays_set cs i c : arrays (list_set cs i c) = list_set (arrays cs) i (m_arr c).
Proof. revert i. induction cs as [|a cs IH]; intros [|i]; cbn; [reflexivity|reflexivity|reflexivity|]. f_equal. apply IH. Qed.

Lemma in_set {A} (l : list A) i x y : In y (list_set l i x) -> y = x \/ In y l.
Proof.
  revert i. induction l as [|b l IH]; intros [|i] Hy; cbn [list_set] in Hy; [destruct Hy|destruct Hy| |].
  - destruct Hy as [E|Hy]; [auto|right; right; exact Hy].
  - destruct Hy as [E|Hy]; [right; left; exact E|]. destruct (IH i Hy); [auto|right; right; assumption].
Qed.

Lemma Forall2_set {A B} (R : A -> B -> Prop) l l' i x y : Forall2 R l l' -> R x y -> Forall2 R (list_set l i x) (list_set l' i y).
Proof. intros F H. revert i. induction F as [|a b l l' R1 F IH]; intros [|i]; cbn [list_set]; constructor; auto. Qed.

Lemma Forall2_nth_error {A B} (R : A -> B -> Prop) l l' i : Forall2 R l l' ->
  match nth_error l i, nth_error l' i with Some a, Some b => R a b | None, None => True | _, _ => False end.
Proof. intros F. revert i. induction F as [|a b l l' R1 F IH]; intros [|i]; cbn [nth_error]; auto. apply IH. Qed.

Lemma attach_sim full simple nrows m : forall names arrs cs ds,
  Forall good arrs -> apart (map Some arrs) -> Forall2 (agree m) cs ds -> apart (arrays cs) -> cross (arrays cs) (map Some arrs) ->
  match attach full simple nrows names (map (content m) arrs) ds with
  | UB => mattach full simple nrows names arrs cs = UB
  | Throw e => mattach full simple nrows names arrs cs = Throw e
  | Ok ds' => exists cs', mattach full simple nrows names arrs cs = Ok cs' /\ Forall2 (agree m) cs' ds' /\ apart (arrays cs') /\
      (forall s, In (Some s) (arrays cs') -> In (Some s) (arrays cs) \/ In s arrs) /\
      (forall p s, nth_error (arrays cs) p = Some (Some s) -> nth_error (arrays cs') p = Some (Some s)) /\
      (length names = length arrs -> Forall2 (fun nm s => exists p, lookup_name full simple nm = Ok p /\ nth_error (arrays cs') (Z.to_nat p) = Some (Some s)) names arrs)
  end.
Proof.
  induction names as [|nm names IH]; intros arrs cs ds G A F AC X.
  - cbn [attach mattach]. exists cs. split; [destruct arrs; reflexivity|]. split; [exact F|]. split; [exact AC|]. split; [auto|]. split; [auto|].
    destruct arrs; [constructor|discriminate].
  - destruct arrs as [|s arrs].
    { cbn [attach mattach map]. exists cs. split; [reflexivity|]. split; [exact F|]. split; [exact AC|]. split; [auto|]. split; [auto|discriminate]. }
    cbn [attach mattach map]. destruct (lookup_name full simple nm) as [p|e|] eqn:EL; cbn [bind]; [|reflexivity|reflexivity].
    pose proof (Forall2_nth_error (agree m) cs ds (Z.to_nat p) F) as H.
    destruct (nth_error cs (Z.to_nat p)) as [c|] eqn:Ec, (nth_error ds (Z.to_nat p)) as [d|] eqn:Ed; try contradiction; [|reflexivity].
    pose proof H as (H1 & H2 & H3). destruct (m_arr c) as [s0|] eqn:Ea, (d_fac d) as [f0|] eqn:Ef; try contradiction; [reflexivity|].
    cbn [f_elems content]. rewrite view_length. unfold assert.
    inversion G as [|? ? G1 G2]; subst. cbn [map apart] in A. destruct A as [A1 A2].
    replace (Z.of_nat (Z.to_nat (s_nelem s))) with (s_nelem s) by (destruct G1; lia).
    destruct (nrows <=? s_nelem s); [|reflexivity]. cbn [bind].
    set (cs1 := list_set cs (Z.to_nat p) {| m_codec := m_codec c; m_arr := Some s; m_last := m_last c |}).
    set (ds1 := list_set ds (Z.to_nat p) {| d_codec := d_codec d; d_fac := Some (content m s); d_last := d_last d |}).
    assert (E1 : arrays cs1 = list_set (arrays cs) (Z.to_nat p) (Some s)) by (unfold cs1; now rewrite arrays_set).
    assert (Np : nth_error (arrays cs) (Z.to_nat p) = Some None) by (unfold arrays; rewrite nth_error_map, Ec; cbn; now rewrite Ea).
    assert (F1 : Forall2 (agree m) cs1 ds1).
    { apply Forall2_set; [exact F|]. split; [exact H1|]. split; [exact H2|]. cbn. split; [exact G1|]. split; reflexivity. }
    assert (AC1 : apart (arrays cs1)).
    { rewrite E1. apply apart_set; [exact AC|exact Np|]. apply cross_sym. intros x y Hx Hy. apply X; [exact Hx|]. destruct Hy as [Hy|[]]. left; exact Hy. }
    assert (X1 : cross (arrays cs1) (map Some arrs)).
    { intros x y Hx Hy. rewrite E1 in Hx. apply in_set in Hx as [Hx|Hx]; [injection Hx as ->; apply A1; [left; reflexivity|exact Hy]|]. apply X; [exact Hx|right; exact Hy]. }
    specialize (IH arrs cs1 ds1 G2 A2 F1 AC1 X1).
    destruct (attach full simple nrows names (map (content m) arrs) ds1) as [ds'|e|]; [|exact IH|exact IH].
    destruct IH as (cs' & M & F' & AC' & I1 & I2 & I3). exists cs'. split; [exact M|]. split; [exact F'|]. split; [exact AC'|]. split; [|split].
    + intros s1 Hs1. destruct (I1 s1 Hs1) as [K|K]; [|right; right; exact K]. rewrite E1 in K. apply in_set in K as [K|K]; [injection K as ->; right; left; reflexivity|left; exact K].
    + intros p1 s1 Hp1. apply I2. rewrite E1. rewrite nth_error_list_set by (apply nth_error_Some; congruence).
      destruct (Nat.eqb_spec p1 (Z.to_nat p)) as [->|]; [congruence|exact Hp1].
    + intros L. constructor; [|apply I3; cbn in L; lia]. exists p. split; [exact EL|]. apply I2. rewrite E1.
      rewrite nth_error_list_set by (apply nth_error_Some; congruence). now rewrite Nat.eqb_refl.
Qed.

(** ** C48 *)

Lemma memory_sim : forall file t names arrs m, Forall good arrs -> pairwise_disjoint arrs ->
  let tr := mdecode_table file t names arrs in
  let untouched m' := forall x, (forall s, In s arrs -> ~ in_array s x) -> m' x = m x in
  match decode_target file t names (map (content m) arrs) with
  | Ok outs => is_ok (snd tr) = true /\ Forall (inside (map Some arrs)) (fst tr) /\
      exists m', exec (fst tr) m = Ok m' /\ untouched m' /\ outs = map (fun s => Some (content m' s)) arrs
  | Throw e => snd tr = Throw e /\ Forall (inside (map Some arrs)) (fst tr) /\ exists m', exec (fst tr) m = Ok m' /\ untouched m'
  | UB => True
  end.
Proof.
  intros file t names arrs m G D tr untouched. unfold decode_target, tr, mdecode_table, decode_table.
  destruct (column_lookup (t_cols t)) as [[full simple]|e|]; cbn [bind lift tbind]; [| |exact I].
  2:{ split; [reflexivity|]. split; [constructor|]. exists m. split; [reflexivity|]. intros x _. reflexivity. }
  rewrite map_length. unfold assert.
  destruct (length names =? length arrs)%nat eqn:EL; cbn [bind lift tbind].
  2:{ split; [reflexivity|]. split; [constructor|]. exists m. split; [reflexivity|]. intros x _. reflexivity. }
  destruct (length names <=? length (t_cols t))%nat; cbn [bind lift tbind].
  2:{ split; [reflexivity|]. split; [constructor|]. exists m. split; [reflexivity|]. intros x _. reflexivity. }
  set (cs0 := map (fun c => {| m_codec := col_coder c; m_arr := None; m_last := 0 |}) (t_cols t)).
  set (ds0 := map (fun c => {| d_codec := col_coder c; d_fac := None; d_last := 0 |}) (t_cols t)).
  assert (F0 : Forall2 (agree m) cs0 ds0).
  { unfold cs0, ds0. induction (t_cols t) as [|c cols IH]; constructor; [|exact IH]. split; [reflexivity|]. split; [reflexivity|]. exact I. }
  assert (N0 : forall s, ~ In (Some s) (arrays cs0)).
  { intros s H. unfold arrays, cs0 in H. rewrite map_map in H. apply in_map_iff in H as (c & E & _). discriminate. }
  assert (A0 : apart (arrays cs0)).
  { unfold arrays, cs0. rewrite map_map. clear. induction (t_cols t) as [|c cols IH]; cbn [map apart]; [exact I|]. split; [|exact IH]. intros s s' [H|[]]. discriminate. }
  pose proof (attach_sim full simple (t_rows t) m names arrs cs0 ds0 G (pairwise_apart arrs D) F0 A0 ltac:(intros s s' H; now apply N0 in H)) as AT.
  cbn [fst snd].
  destruct (attach full simple (t_rows t) names (map (content m) arrs) ds0) as [ds|e|]; cbn [bind]; [| |exact I].
  2:{ rewrite AT. cbn [lift tbind]. split; [reflexivity|]. split; [constructor|]. exists m. split; [reflexivity|]. intros x _. reflexivity. }
  destruct AT as (cs & M & F & A & I1 & _ & I3). rewrite M. cbn [lift tbind].
  assert (OUT : forall x, (forall s, In s arrs -> ~ in_array s x) -> outside (arrays cs) x).
  { intros x Hx s Hs. apply Hx. destruct (I1 s Hs) as [K|K]; [now apply N0 in K|exact K]. }
  assert (IN : forall l, Forall (inside (arrays cs)) l -> Forall (inside (map Some arrs)) l).
  { intros l Hl. eapply Forall_impl; [|exact Hl]. intros [s r b|s a b] [Ho Ho']; (split; [|exact Ho']); apply in_map;
      (destruct (I1 s Ho) as [K|K]; [now apply N0 in K|exact K]). }
  assert (FIN : forall m' cs' ds', Forall2 (agree m') cs' ds' -> arrays cs' = arrays cs -> collect full simple names ds' = map (fun s => Some (content m' s)) arrs).
  { intros m' cs' ds' F' E'. apply Nat.eqb_eq in EL. specialize (I3 EL). rewrite <- E' in I3. clear -F' I3.
    unfold collect. induction I3 as [|nm s names arrs (p & L & Np) I3 IH]; [reflexivity|]. cbn [map]. f_equal; [|exact IH].
    rewrite L. pose proof (Forall2_nth_error _ _ _ (Z.to_nat p) F') as H. unfold arrays in Np. rewrite nth_error_map in Np.
    destruct (nth_error cs' (Z.to_nat p)) as [c|]; [|discriminate]. cbn in Np. injection Np as Np.
    destruct (nth_error ds' (Z.to_nat p)) as [d|]; [|contradiction]. destruct H as (_ & _ & H). rewrite Np in H.
    destruct (d_fac d) as [f|]; [|contradiction]. destruct H as (_ & H1 & H2). unfold content. rewrite <- H1, <- H2. now destruct f. }
  destruct (read_encoded file false t) as [buf|e|]; cbn [bind lift tbind]; [| |exact I].
  2:{ split; [reflexivity|]. split; [constructor|]. exists m. split; [reflexivity|]. intros x _. reflexivity. }
  cbn [app].
  set (body_m := if t_rows t =? 0 then tret cs else _).
  set (body_d := if t_rows t =? 0 then Ok ds else _).
  assert (B : simulates (arrays cs) m body_m body_d (same_cols cs)).
  { unfold body_m, body_d. destruct (t_rows t =? 0); [apply sim_ret; split; [exact F|reflexivity]|].
    eapply sim_bind; [apply (sim_map _ _ sim_prefill); eassumption|]. intros cs1 ds1 m1 [F1 E1].
    eapply sim_bind; [eapply sim_weaken; [apply sim_decode_rows; [exact F1|now rewrite E1]| |]|].
    { rewrite E1. auto. }
    { intros a b m' _ HQ. exact HQ. }
    intros cs2 ds2 m2 [F2 E2]. eapply sim_weaken; [apply sim_final_fill; [exact F2|rewrite E2, E1; exact A]| |].
    - rewrite E2, E1. auto.
    - intros a b m' _ [P1 P2]. split; [exact P1|congruence]. }
  clearbody body_m body_d. destruct body_m as [ops res]. cbn [fst snd].
  destruct body_d as [ds'|e|]; cbn [bind simulates] in *; [| |exact I].
  - destruct B as (cs' & m' & E & W & X & O & [F' E']). cbn [fst snd] in *. subst res. split; [reflexivity|]. split; [now apply IN|]. exists m'. split; [exact X|]. split.
    + intros x Hx. apply O. now apply OUT.
    + eapply FIN; eassumption.
  - destruct B as (E & W & m' & X & O). cbn [fst snd] in *. subst res. split; [reflexivity|]. split; [now apply IN|]. exists m'. split; [exact X|].
    intros x Hx. apply O. now apply OUT.
Qed.

(** Decoding into arrays that do not overlap does to their elements what decoding does to
    their contents; no other byte of memory changes, even when decoding fails. *)
Theorem C48_memory : forall file t names arrs m, Forall good arrs -> pairwise_disjoint arrs ->
  let tr := mdecode_table file t names arrs in
  let untouched m' := forall x, (forall s, In s arrs -> ~ in_array s x) -> m' x = m x in
  match decode_target file t names (map (content m) arrs) with
  | Ok outs => is_ok (snd tr) = true /\
      exists m', exec (fst tr) m = Ok m' /\ untouched m' /\ outs = map (fun s => Some (content m' s)) arrs
  | Throw e => snd tr = Throw e /\ exists m', exec (fst tr) m = Ok m' /\ untouched m'
  | UB => True
  end.
Proof.
  intros file t names arrs m G D tr untouched. pose proof (memory_sim file t names arrs m G D) as H. cbn beta zeta in H. fold tr in H.
  destruct (decode_target file t names (map (content m) arrs)) as [outs|e|]; [| |exact I].
  - destruct H as (H1 & _ & H2). split; [exact H1|exact H2].
  - destruct H as (H1 & _ & H2). split; [exact H1|exact H2].
Qed.
Print Assumptions C48_memory.
