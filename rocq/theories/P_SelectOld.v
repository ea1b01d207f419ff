(** C61: a query through the older C interface. *)
From Coq Require Import Lia.
From Verif Require Import Base Fp Stream Codec Meta Header Encoder StreamProofs TableProofs WriterSpec Spec OdaOut OdaSpec SelectOut SelectSpec P_Select.
Open Scope Z_scope.

Definition known (cols : list colinfo) (a n : Z) : force := {| f_cols := Some cols; f_buffer := Some (a, n) |}.

Lemma process_told : forall st s w data cols first q,
  tracks st false (known cols data (w / 8)) first s -> width cols = w ->
  Forall (fun t => fst t <> [] /\ Forall accepted (map fst (fst t)) /\ width (map fst (fst t)) = w) (q_types q) ->
  Forall2 typed (announced_last cols q) (q_vals q) -> Forall2 room (announced_last cols q) (q_vals q) -> Forall held (q_vals q) ->
  exists s1, process st s q = (s1, Ok tt) /\
    tracks st false (known (announced_last cols q) data (w / 8)) false s1 /\ width (announced_last cols q) = w /\
    s_new s1 = first || negb (length (q_types q) =? 0)%nat /\
    get (s_mem s1) data w = cells st (announced_last cols q) (q_vals q) /\
    (forall x, ~ (data <= x < data + w) -> s_mem s1 x = s_mem s x).
Proof.
  intros st s w data cols first [types vals] T W A TY RM HE. unfold process, announced_last in *. cbn [q_types q_vals] in *.
  revert s cols first T W TY RM. induction A as [|[tcols at_] types (A1 & A2 & A3) A IH]; intros s cols first T W TY RM; cbn [fold_left] in *.
  - destruct (event_told st false (known cols data (w / 8)) first s (SRow vals) T) as [E1 E2].
    { intros _. split; assumption. }
    cbv zeta in E1, E2. cbn [sel_event] in E1, E2. destruct E1 as [D1 D2 D3 D4 D5].
    assert (good false (known cols data (w / 8)) (SRow vals)) as G.
    { cbn [good known f_cols f_buffer]. split; [exact RM|]. rewrite W.
      destruct T as [_ T2 _ _]. destruct T2 as (_ & T2 & _). destruct (width_div _ T2) as [D _]. rewrite W in D. lia. }
    destruct (output_row s vals) as [s1 r] eqn:OE. cbn [fst snd] in *. assert (r = Ok tt) as -> by (apply D1; exact G). exists s1. split; [reflexivity|].
    split; [exact E2|]. split; [exact W|]. specialize (D3 G). cbn [shown known f_cols f_buffer] in D3. destruct D3 as (N & _ & _ & GM & _).
    cbn [length Nat.eqb negb]. rewrite orb_false_r. split; [exact N|]. rewrite <- W. split; [exact GM|].
    intros x X. apply D5. cbn [may_change after known f_buffer]. intros B. apply X.
    destruct T as [_ T2 _ _]. destruct T2 as (_ & T2 & _). destruct (width_div _ T2) as [D _]. rewrite W in *. lia.
  - cbn [fst] in *. destruct (event_told st false (known cols data (w / 8)) first s (STypes tcols at_) T) as [E1 E2].
    { split; [exact A1|exact A2]. }
    cbv zeta in E1, E2. cbn [sel_event after] in E1, E2. destruct E1 as [D1 D2 D3 D4 D5].
    destruct (update_types st s tcols at_) as [s1 r] eqn:UE. cbn [fst snd] in *.
    assert (r = Ok tt) as -> by (apply D1; exact Logic.I).
    change {| f_cols := Some (map fst tcols); f_buffer := f_buffer (known cols data (w / 8)) |} with (known (map fst tcols) data (w / 8)) in E2.
    destruct (IH s1 (map fst tcols) true E2 A3 TY RM) as (s2 & P1 & P2 & P3 & P4 & P5 & P6).
    exists s2. split; [exact P1|]. split; [exact P2|]. split; [exact P3|]. split; [|split; [exact P5|]].
    + rewrite P4. cbn [length Nat.eqb negb orb]. rewrite orb_true_r. reflexivity.
    + intros x X. rewrite P6 by exact X. apply D5. cbn [may_change after known f_buffer]. intros [B _]. discriminate.
Qed.

Lemma calls_end : forall st w first calls it cols f, tracks st false f first (it_out it) -> f_cols f = Some cols -> it_rest it = [] ->
  rows_given st w first (s_mem (it_out it)) [] calls (select_calls st it calls).
Proof.
  intros st w first calls. induction calls as [|[count data] calls IH]; intros it cols f T FC R; cbn [select_calls rows_given]; [exact Logic.I|].
  destruct (event_told st false f first (it_out it) (SBuffer data 0) T) as [E1 E2].
  { cbn [possible]. rewrite FC. split; [discriminate|lia]. }
  cbv zeta in E1, E2. cbn [sel_event after] in E1, E2. rewrite FC in E2. destruct E1 as [D1 D2 D3 D4 D5].
  assert (good false f (SBuffer data 0)) as G by (cbn [good]; rewrite FC; split; [reflexivity|left; reflexivity]).
  unfold old_select_next. destruct (reset_buffer (it_out it) data 0) as [s1 r]. cbn [fst snd] in *.
  assert (r = Ok tt) as -> by (apply D1; exact G). unfold sel_next. cbn [it_out it_rest it_done]. rewrite R.
  assert (forall x, s_mem s1 x = s_mem (it_out it) x) as M by (intros x; apply D5; intros []).
  destruct (it_done it); cbn [fst snd bind it_out]; (split; [reflexivity|]; split; [exact M|]).
  - apply (IH {| it_out := s1; it_rest := []; it_done := true |} cols _ E2); reflexivity.
  - apply (IH {| it_out := s1; it_rest := []; it_done := true |} cols _ E2); reflexivity.
Qed.

Lemma calls_told : forall st w qs calls it cols f first, tracks st false f first (it_out it) -> f_cols f = Some cols -> width cols = w ->
  it_rest it = qs -> it_done it = false -> steady w cols qs ->
  rows_given st w first (s_mem (it_out it)) (in_turn cols qs) calls (select_calls st it calls).
Proof.
  intros st w qs. induction qs as [|q qs IH]; intros calls it cols f first T FC W R DN SY.
  - apply (calls_end st w first calls it cols f T FC R).
  - destruct calls as [|[count data] calls]; cbn [select_calls rows_given in_turn]; [exact Logic.I|].
    destruct (event_told st false f first (it_out it) (SBuffer data 0) T) as [E1 E2].
    { cbn [possible]. rewrite FC. split; [discriminate|lia]. }
    cbv zeta in E1, E2. cbn [sel_event after] in E1, E2. rewrite FC in E2. destruct E1 as [D1 D2 D3 D4 D5].
    assert (good false f (SBuffer data 0)) as G by (cbn [good]; rewrite FC; split; [reflexivity|left; reflexivity]).
    unfold old_select_next. destruct (reset_buffer (it_out it) data 0) as [s1 r] eqn:RB. cbn [fst snd] in *.
    assert (r = Ok tt) as -> by (apply D1; exact G).
    assert (forall x, s_mem s1 x = s_mem (it_out it) x) as M by (intros x; apply D5; intros []).
    cbn [Z.eqb] in E2. rewrite W in E2.
    change {| f_cols := Some cols; f_buffer := Some (data, w / 8) |} with (known cols data (w / 8)) in E2.
    destruct SY as [SY1 SY2]. inversion SY1 as [|? ? Q1 Q2]; subst. cbn [in_turn] in SY2. inversion SY2 as [|? ? (V1 & V2 & V3) V4]; subst.
    cbn [fst snd] in V1, V2, V3.
    destruct (process_told st s1 (width cols) data cols first q E2 eq_refl Q1 V1 V2 V3) as (s2 & P1 & P2 & P3 & P4 & P5 & P6).
    unfold sel_next. cbn [it_out it_rest it_done]. rewrite DN, R, P1. cbn [fst snd bind it_out].
    split; [rewrite P4; reflexivity|]. split; [exact P5|].
    split; [intros x X; rewrite P6 by exact X; apply M|].
    apply (IH calls {| it_out := s2; it_rest := qs; it_done := false |} (announced_last cols q) _ false P2); [reflexivity|exact P3|reflexivity|reflexivity|].
    split; [exact Q2|exact V4].
Qed.

(** A query whose rows are all of one width. *)
Theorem C61_session : forall st mem cols qs calls, cols <> [] -> Forall accepted (map fst cols) ->
  steady (width (map fst cols)) (map fst cols) qs ->
  old_select_size (prepared st mem cols qs) = Ok (width (map fst cols) / 8) /\
  rows_given st (width (map fst cols)) true mem (in_turn (map fst cols) qs) calls (select_calls st (prepared st mem cols qs) calls).
Proof.
  intros st mem cols qs calls NE A SY.
  assert (tracks st false nothing true (sel_make false mem)) as T.
  { split; cbn; [reflexivity|split; reflexivity|split; reflexivity|split; reflexivity]. }
  destruct (event_told st false nothing true (sel_make false mem) (STypes cols 0) T (conj NE A)) as [E1 E2].
  cbv zeta in E1, E2. cbn [sel_event after] in E1, E2. destruct E1 as [D1 D2 D3 D4 D5].
  specialize (D3 Logic.I). cbn [shown] in D3. destruct D3 as (_ & _ & _ & _ & D3). split.
  - unfold old_select_size, prepared. cbn [it_out]. rewrite D3. reflexivity.
  - assert (s_mem (it_out (prepared st mem cols qs)) = mem) as M.
    { unfold prepared, update_types. cbn [it_out]. destruct (push_told st cols 0 A) as (p & P1 & _). rewrite P1. reflexivity. }
    rewrite <- M at 1. apply (calls_told st _ qs calls (prepared st mem cols qs) _ _ true E2); [reflexivity|reflexivity|reflexivity|reflexivity|exact SY].
Qed.
