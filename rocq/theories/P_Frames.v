(** C59: readers and frames of the C API. *)
From Verif Require Import Base Fp Stream StreamProofs StreamLocal Codec Meta Header Table TableProofs Reader ReadSpec ReaderProofs AggregateProofs P_Reader ColumnInfo CFrames FramesSpec FramesProofs.
Open Scope Z_scope.
Local Notation length := List.length.

Section R.
Variable md5 : list Z -> list Z.
Variable st : settings.
Local Notation data := (intact_data md5 st).

Definition described (t : table) : Prop := exists infos, column_infos [t] = Ok infos.
Definition presentable (fr : list table) : Prop := fr <> [] /\ exists infos, column_infos fr = Ok infos.

Definition reader_ok (r : creader) (a : areader) : Prop :=
  exists l, intact md5 st (cr_file r) (cr_est r) l /\ Forall described (place 0 l) /\
  match cr_impl r with
  | None => a_left a = place 0 l /\ a_mode a = None
  | Some (g, m, s) => a_mode a = Some (g, m) /\ exists p, (p <= length l)%nat /\ reached l p s /\ a_left a = skipn p (place 0 l)
  end.

Definition shown (objs : list (option (list table))) (o : option nat) (s : option (list table)) : Prop :=
  match o, s with
  | None, None => True
  | Some o, Some fr => nth_error objs o = Some (Some fr) /\ presentable fr
  | _, _ => False
  end.

Record frame_ok (objs : list (option (list table))) (c : cframe) (x : aframe) : Prop := {
  fo_reader : cf_reader c = a_reader x;
  fo_shown : shown objs (cf_obj c) (a_shows x);
  fo_listed : a_listed x = match cf_memo c with Some _ => true | None => false end;
  fo_memo : forall o o', cf_memo c = Some o -> cf_obj c = Some o' -> o = o'
}.

Definition both {A B} (P : A -> B -> Prop) (l : list (option A)) (l' : list (option B)) : Prop :=
  length l = length l' /\ forall i, match nth_error l i, nth_error l' i with
    | Some (Some x), Some (Some y) => P x y
    | Some None, Some None | None, None => True
    | _, _ => False
    end.

Record simulates (w : world) (a : aworld) : Prop := {
  si_readers : both reader_ok (w_readers w) (a_readers a);
  si_frames : both (frame_ok (w_objs w)) (w_frames w) (a_frames a);
  si_owned : forall f f' c c' o, nth_error (w_frames w) f = Some (Some c) -> nth_error (w_frames w) f' = Some (Some c') ->
    cf_obj c = Some o -> cf_obj c' = Some o -> f = f'
}.

Lemma both_get {A B} (P : A -> B -> Prop) l l' i y : both P l l' -> nth_error l' i = Some (Some y) -> exists x, nth_error l i = Some (Some x) /\ P x y.
Proof. intros [_ H] E. specialize (H i). rewrite E in H. destruct (nth_error l i) as [[x|]|]; [eauto|contradiction|contradiction]. Qed.
Lemma both_get_l {A B} (P : A -> B -> Prop) l l' i x : both P l l' -> nth_error l i = Some (Some x) -> exists y, nth_error l' i = Some (Some y) /\ P x y.
Proof. intros [_ H] E. specialize (H i). rewrite E in H. destruct (nth_error l' i) as [[y|]|]; [eauto|contradiction|contradiction]. Qed.

Lemma both_set {A B} (P Q : A -> B -> Prop) l l' i x y : both P l l' -> (i < length l)%nat ->
  (forall j x y, j <> i -> nth_error l j = Some (Some x) -> nth_error l' j = Some (Some y) -> P x y -> Q x y) ->
  match x, y with Some x, Some y => Q x y | None, None => True | _, _ => False end -> both Q (list_set l i x) (list_set l' i y).
Proof.
  intros [L H] Hi K N. split; [rewrite !list_set_length; exact L|]. intros j. rewrite !nth_error_list_set by (rewrite <- ?L; exact Hi).
  destruct (Nat.eqb_spec j i) as [->|Ne].
  - destruct x, y; auto.
  - specialize (H j). specialize (K j). destruct (nth_error l j) as [[u|]|], (nth_error l' j) as [[v|]|]; auto.
Qed.

Lemma both_app {A B} (P Q : A -> B -> Prop) l l' x y : both P l l' ->
  (forall j x y, nth_error l j = Some (Some x) -> nth_error l' j = Some (Some y) -> P x y -> Q x y) ->
  Q x y -> both Q (l ++ [Some x]) (l' ++ [Some y]).
Proof.
  intros [L H] K N. split; [rewrite !app_length, L; reflexivity|]. intros j. destruct (Nat.lt_trichotomy j (length l)) as [J|[J|J]].
  - rewrite !nth_error_app1 by (rewrite <- ?L; exact J). specialize (H j). specialize (K j). destruct (nth_error l j) as [[u|]|], (nth_error l' j) as [[v|]|]; auto.
  - subst j. rewrite nth_error_app2, Nat.sub_diag by lia. rewrite L, nth_error_app2, Nat.sub_diag by lia. exact N.
  - rewrite !(proj2 (nth_error_None _ _)); [exact I| |]; rewrite app_length; cbn; lia.
Qed.

Lemma live {A} (l : list (option A)) i x : nth_error l i = Some x -> (i < length l)%nat.
Proof. intros H. apply nth_error_Some. congruence. Qed.

Lemma same_shown objs objs' c x : frame_ok objs c x -> (forall o, cf_obj c = Some o -> nth_error objs' o = nth_error objs o) -> frame_ok objs' c x.
Proof.
  intros [F1 F2 F3 F4] K. constructor; auto. unfold shown in *. destruct (cf_obj c) as [o|]; [|exact F2]. rewrite (K o eq_refl). exact F2.
Qed.

Lemma asked_call c f : asked c = Some f -> match c with RowCount g | ColumnCount g | ColumnAttributes g _ | BitfieldAttributes g _ _ | PropertiesCount g | PropertyIdx g _ | Property g _ => g = f | _ => False end.
Proof. destruct c; cbn; intros E; congruence. Qed.

Lemma advances_call c f m : advances c = Some (f, m) -> apply md5 st = apply md5 st /\ forall w, apply md5 st w c = next md5 st (fst m) (snd m) f w.
Proof. destruct c; cbn; intros E; inversion E; subst; split; reflexivity. Qed.

Lemma skipn_In {A} (x : A) n l : In x (skipn n l) -> In x l.
Proof. intros H. rewrite <- (firstn_skipn n l). apply in_or_app. now right. Qed.

Lemma item_spec {A} (l : list A) i : (exists x, 0 <= i /\ nth_error l (Z.to_nat i) = Some x /\ item l i = Ok x) \/ (~ 0 <= i < Z.of_nat (length l) /\ item l i = Throw AssertFailed).
Proof.
  unfold item. destruct (Z.leb_spec 0 i); [|right; split; [lia|reflexivity]]. destruct (nth_error l (Z.to_nat i)) as [x|] eqn:E; [left; exists x; auto|].
  right. split; [|reflexivity]. apply nth_error_None in E. lia.
Qed.

(** advancing a frame *)
Lemma next_ok w a c f m x r : simulates w a -> advances c = Some (f, m) -> nth_error (a_frames a) f = Some (Some x) -> nth_error (a_readers a) (a_reader x) = Some (Some r) ->
  exists w' ans a', apply md5 st w c = Ok (w', ans) /\ serves data a c a' ans /\ simulates w' a'.
Proof.
  intros SI E Hf Hr. destruct (advances_call c f m E) as [_ ->]. destruct (both_get _ _ _ _ _ (si_frames _ _ SI) Hf) as (cf & Hcf & FO).
  destruct (both_get _ _ _ _ _ (si_readers _ _ SI) Hr) as (cr & Hcr & RO). destruct FO as [FR FS FL FM].
  unfold next, live_frame, live_reader. rewrite Hcf. cbn [bind]. rewrite FR, Hcr. cbn [bind].
  destruct RO as (l & In & De & RO).
  (* the Reader that is used *)
  assert (Q : exists s p, (p <= length l)%nat /\ reached l p s /\ a_left r = skipn p (place 0 l) /\
    reader_next md5 st (fst m) (snd m) cr =
      (let mo := mode_of r m in let n := next_after md5 st (cr_est cr) (cr_file cr) (S (S (length (cr_file cr)))) (fst mo) (snd mo) s in
       (with_impl cr (fst mo) (snd mo) (fst n), snd n))).
  { unfold reader_next. destruct (cr_impl cr) as [[[g li] s]|].
    - destruct RO as (RM & p & P1 & P2 & P3). exists s, p. split; [exact P1|]. split; [exact P2|]. split; [exact P3|]. unfold mode_of. rewrite RM. cbn [fst snd].
      cbv zeta. destruct (next_after _ _ _ _ _ _ _ _); reflexivity.
    - destruct RO as (RL & RM). destruct (opens md5 st _ _ l In) as (s & O & P2). rewrite O. exists s, 0%nat. split; [lia|]. split; [exact P2|]. split; [exact RL|]. unfold mode_of. rewrite RM.
      cbv zeta. destruct (next_after _ _ _ _ _ _ _ _); reflexivity. }
  destruct Q as (s & p & P1 & P2 & P3 & ->). cbv zeta. set (mo := mode_of r m). set (cr' := fun s' => with_impl cr (fst mo) (snd mo) s').
  assert (RK : forall s' q left', (q <= length l)%nat -> reached l q s' -> left' = skipn q (place 0 l) -> reader_ok (cr' s') {| a_left := left'; a_mode := Some mo |}).
  { intros s' q left' K1 K2 K3. exists l. cbn [cr' with_impl cr_file cr_est cr_impl a_left a_mode]. split; [exact In|]. split; [exact De|]. split; [now destruct mo|]. exists q. auto. }
  pose proof (live _ _ _ Hcr) as Lr. pose proof (live _ _ _ Hcf) as Lf.
  assert (RS : forall s' q left', (q <= length l)%nat -> reached l q s' -> left' = skipn q (place 0 l) ->
    both reader_ok (list_set (w_readers w) (a_reader x) (Some (cr' s'))) (list_set (a_readers a) (a_reader x) (Some {| a_left := left'; a_mode := Some mo |}))).
  { intros s' q left' K1 K2 K3. apply both_set with (P := reader_ok); [apply (si_readers _ _ SI)|exact Lr|auto|]. eapply RK; eassumption. }
  (* the FrameImpl of the frame is deleted; those of the others are not *)
  set (dropped := w_objs (drop (set_reader w (a_reader x) (cr' (fst (next_after md5 st (cr_est cr) (cr_file cr) (S (S (length (cr_file cr)))) (fst mo) (snd mo) s)))) (cf_obj cf))).
  assert (DK : forall j c2 x2, j <> f -> nth_error (w_frames w) j = Some (Some c2) -> frame_ok (w_objs w) c2 x2 -> forall o, cf_obj c2 = Some o -> nth_error dropped o = nth_error (w_objs w) o).
  { intros j c2 x2 Ne Hj F o Ho. unfold dropped, drop, set_reader. destruct (cf_obj cf) as [o1|] eqn:Eo; [|reflexivity]. cbn [w_objs].
    assert (o1 <> o). { intros ->. apply Ne. eapply (si_owned _ _ SI); eassumption. }
    unfold shown in FS. destruct (a_shows x); [|contradiction]. destruct FS as [FS _]. rewrite nth_error_list_set by (eapply live; eassumption). destruct (Nat.eqb_spec o o1); [congruence|reflexivity]. }
  assert (DL : length dropped = length (w_objs w)).
  { unfold dropped, drop, set_reader. destruct (cf_obj cf); cbn [w_objs]; [apply list_set_length|reflexivity]. }
  assert (OW : forall newf, (forall o, cf_obj newf = Some o -> o = length (w_objs w)) -> forall f1 f2 c1 c2 o,
    nth_error (list_set (w_frames w) f (Some newf)) f1 = Some (Some c1) -> nth_error (list_set (w_frames w) f (Some newf)) f2 = Some (Some c2) -> cf_obj c1 = Some o -> cf_obj c2 = Some o -> f1 = f2).
  { intros newf Hn f1 f2 c1 c2 o. rewrite !nth_error_list_set by exact Lf.
    assert (Old : forall j c3, nth_error (w_frames w) j = Some (Some c3) -> forall o, cf_obj c3 = Some o -> (o < length (w_objs w))%nat).
    { intros j c3 Hj o3 Ho3. destruct (both_get_l _ _ _ _ _ (si_frames _ _ SI) Hj) as (x3 & _ & F3). pose proof (fo_shown _ _ _ F3) as F4. unfold shown in F4. rewrite Ho3 in F4.
      destruct (a_shows x3); [|contradiction]. destruct F4 as [F4 _]. eapply live; eassumption. }
    destruct (Nat.eqb_spec f1 f) as [E1|E1], (Nat.eqb_spec f2 f) as [E2|E2]; intros H1 H2 O1 O2; [congruence| | |eapply (si_owned _ _ SI); eassumption].
    - injection H1 as <-. specialize (Hn o O1). specialize (Old f2 c2 H2 o O2). lia.
    - injection H2 as <-. specialize (Hn o O2). specialize (Old f1 c1 H1 o O1). lia. }
  destruct (delivers md5 st _ _ l In (fst mo) (snd mo) s p P2 P1) as [(D1 & D2 & D3)|[(fr & e & D0 & D1 & D2 & D3)|(t & left' & D1 & D2 & D3 & D4 & D5)]].
  - (* the end *)
    rewrite D2. do 3 eexists. split; [reflexivity|]. split; [eapply s_end; try eassumption; congruence|]. constructor.
    + cbn [put_frame put_reader a_readers set_frame w_readers]. unfold drop, set_reader. fold mo. destruct (cf_obj cf); cbn [w_readers]; (apply (RS _ p); [exact P1|exact D3|congruence]).
    + cbn [put_frame put_reader a_frames set_frame w_frames w_objs]. replace (w_frames (drop _ _)) with (w_frames w) by (unfold drop; destruct (cf_obj cf); reflexivity).
      apply both_set with (P := frame_ok (w_objs w)); [apply (si_frames _ _ SI)|exact Lf| |].
      * intros j c2 x2 Ne Hj _ F. eapply same_shown; [exact F|]. eapply DK; eassumption.
      * constructor; cbn [cf_reader a_reader cf_obj a_shows a_listed cf_memo]; [reflexivity|exact Logic.I|exact FL|discriminate].
    + cbn [set_frame w_frames]. replace (w_frames (drop _ _)) with (w_frames w) by (unfold drop; destruct (cf_obj cf); reflexivity). apply OW. discriminate.
  - (* a frame *)
    rewrite D2. rewrite <- P3 in D1. do 3 eexists. split; [reflexivity|]. split; [eapply s_next; try eassumption; reflexivity|]. fold mo. constructor.
    + cbn [put_frame put_reader a_readers set_frame w_readers make]. unfold drop, set_reader. destruct (cf_obj cf); cbn [w_readers]; (apply (RS _ e); [lia|exact D3|reflexivity]).
    + cbn [put_frame put_reader a_frames set_frame w_frames w_objs make]. replace (w_frames (drop _ _)) with (w_frames w) by (unfold drop; destruct (cf_obj cf); reflexivity).
      fold cr' dropped. apply both_set with (P := frame_ok (w_objs w)); [apply (si_frames _ _ SI)|exact Lf| |].
      * intros j c2 x2 Ne Hj _ F. eapply same_shown; [exact F|]. intros o Ho. pose proof (fo_shown _ _ _ F) as F4. unfold shown in F4. rewrite Ho in F4. destruct (a_shows x2); [|contradiction]. destruct F4 as [F4 _].
        rewrite nth_error_app1 by (rewrite DL; eapply live; eassumption). eapply DK; eassumption.
      * constructor; cbn [cf_reader a_reader cf_obj a_shows a_listed cf_memo]; [reflexivity| |reflexivity|discriminate].
        unfold shown. split; [rewrite nth_error_app2 by lia; rewrite DL, Nat.sub_diag; reflexivity|]. split; [apply (tk_some _ _ _ _ _ D1)|].
        pose proof (tk_all _ _ _ _ _ D1) as Q. pose proof (tk_some _ _ _ _ _ D1) as Q2. destruct fr as [|t0 fr]; [congruence|]. rewrite Forall_forall in De. apply (De t0). apply (skipn_In _ p). rewrite <- P3, Q. now left.
    + cbn [set_frame w_frames make]. replace (w_frames (drop _ _)) with (w_frames w) by (unfold drop; destruct (cf_obj cf); reflexivity). apply OW. cbn [cf_obj]. congruence.
  - (* a table that is too large *)
    rewrite D3. rewrite <- P3 in D1. do 3 eexists. split; [reflexivity|]. split; [eapply s_large; try eassumption; reflexivity|]. fold mo. constructor.
    + cbn [put_reader a_readers set_reader w_readers]. assert (p < length l)%nat. { assert (Q : length (skipn p (place 0 l)) <> 0%nat) by (rewrite <- P3, D1; discriminate). rewrite skipn_length, place_length in Q. lia. }
      apply (RS _ (S p)); [lia|exact D5|exact D4].
    + exact (si_frames _ _ SI).
    + exact (si_owned _ _ SI).
Qed.

(** asking a frame *)
Lemma ask_ok w a c f x : simulates w a -> asked c = Some f -> nth_error (a_frames a) f = Some (Some x) ->
  (forall idx, c = PropertyIdx f idx -> a_listed x = true -> exists fr, a_shows x = Some fr /\ 0 <= idx < Z.of_nat (length (frame_props fr))) ->
  exists w' ans a', apply md5 st w c = Ok (w', ans) /\ serves data a c a' ans /\ simulates w' a'.
Proof.
  intros SI E Hf Hp. destruct (both_get _ _ _ _ _ (si_frames _ _ SI) Hf) as (cf & Hcf & FO). destruct FO as [FR FS FL FM]. pose proof (live _ _ _ Hcf) as Lf.
  assert (Lg : live_frame w f = Ok cf) by (unfold live_frame; rewrite Hcf; reflexivity).
  destruct (a_shows x) as [fr|] eqn:Ex.
  - (* something is shown *)
    unfold shown in FS. destruct (cf_obj cf) as [o|] eqn:Eo; [|contradiction]. destruct FS as [FS [Fn (infos & Fi)]].
    assert (Ta : tables w cf = Ok fr) by (unfold tables; rewrite Eo, FS; reflexivity).
    assert (Same : simulates w (put_frame a f (Some {| a_reader := a_reader x; a_shows := Some fr; a_listed := a_listed x |}))).
    { replace {| a_reader := a_reader x; a_shows := Some fr; a_listed := a_listed x |} with x by (destruct x; cbn in *; congruence).
      assert (Q : list_set (a_frames a) f (Some x) = a_frames a).
      { clear -Hf. revert f Hf. induction (a_frames a) as [|y l IH]; intros [|f] H; try discriminate; cbn in *; [congruence|f_equal; auto]. }
      unfold put_frame. rewrite Q. destruct a; exact SI. }
    assert (Give : forall ans, by_position c ans = false -> tells fr c ans ->
      (forall idx, c = PropertyIdx f idx -> a_listed x = true -> 0 <= idx < Z.of_nat (length (frame_props fr))) ->
      apply md5 st w c = Ok (w, ans) -> exists w' ans a', apply md5 st w c = Ok (w', ans) /\ serves data a c a' ans /\ simulates w' a').
    { intros ans Bp T K A. exists w, ans. eexists. split; [exact A|]. split; [eapply s_tell; eassumption|]. rewrite Bp, orb_false_r. exact Same. }
    destruct c; try discriminate; cbn in E; injection E as ->; cbn [apply] in *; unfold property_idx in *; rewrite Lg in *; cbn [bind] in *; try rewrite Ta in *; cbn [bind wrapped] in *.
    + eapply Give; [reflexivity|constructor|discriminate|reflexivity].
    + destruct fr as [|t0 fr]; [congruence|]. eapply Give; [reflexivity|eapply t_ncols; reflexivity|discriminate|reflexivity].
    + rewrite Fi in *. cbn [bind] in *. destruct (item_spec infos col) as [(i & I1 & I2 & I3)|[I1 I3]]; rewrite I3 in *; cbn [bind wrapped] in *.
      * eapply Give; [reflexivity| |discriminate|reflexivity]. apply t_column. exists infos. auto.
      * eapply Give; [reflexivity| |discriminate|reflexivity]. apply t_no_column. intros i (infos' & Q1 & Q2 & Q3). apply I1. split; [exact Q2|]. assert (infos' = infos) by congruence. subst infos'. apply live in Q3 || (assert (Z.to_nat col < length infos)%nat by (apply nth_error_Some; congruence); lia).
    + rewrite Fi in *. cbn [bind] in *. destruct (item_spec infos col) as [(i & I1 & I2 & I3)|[I1 I3]]; rewrite I3 in *; cbn [bind wrapped] in *.
      * destruct (item_spec (i_bits i) field) as [(b & J1 & J2 & J3)|[J1 J3]]; rewrite J3 in *; cbn [bind wrapped] in *.
        -- eapply Give; [reflexivity| |discriminate|reflexivity]. eapply t_member; [exists infos; eauto|exact J1|exact J2].
        -- eapply Give; [reflexivity| |discriminate|reflexivity]. apply t_no_member. intros i' (infos' & Q1 & Q2 & Q3). assert (infos' = infos) by congruence. subst infos'. assert (i' = i) by congruence. subst i'. exact J1.
      * eapply Give; [reflexivity| |discriminate|reflexivity]. apply t_no_member. intros i (infos' & Q1 & Q2 & Q3). exfalso. apply I1. split; [exact Q2|]. assert (infos' = infos) by congruence. subst infos'.
        assert (Z.to_nat col < length infos)%nat by (apply nth_error_Some; congruence). lia.
    + eapply Give; [reflexivity|constructor|discriminate|reflexivity].
    + (* by position *)
      destruct (cf_memo cf) as [o'|] eqn:Em.
      * specialize (FM o' o eq_refl eq_refl). subst o'. destruct (Hp idx eq_refl FL) as (fr' & Q1 & Q2). injection Q1 as <-. rewrite FS.
        destruct (item_spec (frame_props fr) idx) as [([k v] & J1 & J2 & J3)|[J1 J3]]; [|lia]. rewrite J3. exists w, (Pair k v). eexists. split; [reflexivity|]. split.
        { eapply s_tell; [reflexivity|exact Hf|exact Ex|constructor; eassumption|]. intros idx' Q _. inversion Q; subst idx'. exact Q2. }
        cbn [by_position]. rewrite orb_true_r. replace true with (a_listed x) by exact FL. exact Same.
      * destruct (item_spec (frame_props fr) idx) as [([k v] & J1 & J2 & J3)|[J1 J3]]; rewrite J3 in *.
        -- do 3 eexists. split; [reflexivity|]. split.
           { eapply s_tell; [reflexivity|exact Hf|exact Ex|constructor; eassumption|]. intros idx' Q Q2. congruence. }
           cbn [by_position]. rewrite orb_true_r. constructor.
           ++ exact (si_readers _ _ SI).
           ++ cbn [set_frame put_frame w_frames a_frames w_objs]. apply both_set with (P := frame_ok (w_objs w)); [apply (si_frames _ _ SI)|exact Lf|auto|].
              constructor; cbn [cf_reader a_reader cf_obj a_shows a_listed cf_memo]; [exact FR| |rewrite Eo; reflexivity|].
              ** rewrite Eo. split; [exact FS|]. split; [exact Fn|eauto].
              ** intros o1 o2 Q1 Q2. congruence.
           ++ cbn [set_frame w_frames]. intros f1 f2 c1 c2 o1. rewrite !nth_error_list_set by exact Lf.
              destruct (Nat.eqb_spec f1 f) as [E1|E1], (Nat.eqb_spec f2 f) as [E2|E2]; intros H1 H2 O1 O2; [congruence| | |eapply (si_owned _ _ SI); eassumption].
              ** injection H1 as <-. cbn [cf_obj] in O1. subst f1. eapply (si_owned _ _ SI); eassumption.
              ** injection H2 as <-. cbn [cf_obj] in O2. subst f2. eapply (si_owned _ _ SI); eassumption.
        -- apply (Give (Error AssertFailed)); [reflexivity|apply t_no_prop; exact J1|intros; congruence|reflexivity].
    + eapply Give; [reflexivity|constructor|discriminate|reflexivity].
  - (* nothing is shown *)
    unfold shown in FS. destruct (cf_obj cf) as [o|] eqn:Eo; [contradiction|]. assert (Ta : tables w cf = Throw AssertFailed) by (unfold tables; rewrite Eo; reflexivity).
    assert (K : forall idx, c = PropertyIdx f idx -> a_listed x = false).
    { intros idx Q. destruct (a_listed x) eqn:El; [|reflexivity]. destruct (Hp idx Q eq_refl) as (fr & Q1 & _). discriminate. }
    exists w, (Error AssertFailed), a. split; [|split; [eapply s_blank; eassumption|exact SI]].
    destruct c; try discriminate; cbn in E; injection E as ->; cbn [apply]; unfold property_idx; rewrite Lg; cbn [bind]; try rewrite Ta; try reflexivity.
    rewrite (K idx eq_refl) in FL. destruct (cf_memo cf); [discriminate|]. rewrite ?Ta. reflexivity.
Qed.

Lemma step_ok w a c : simulates w a -> proper data a c -> exists w' ans a', apply md5 st w c = Ok (w', ans) /\ serves data a c a' ans /\ simulates w' a'.
Proof.
  intros SI P. destruct P as [file est ts H|r x H|r x H|f x H|c f m x r E Hf Hr|f x fr H Hs Hl|c f x E Hf Hp].
  - cbn [apply]. do 3 eexists. split; [reflexivity|]. split.
    { replace (length (w_readers w)) with (length (a_readers a)) by (symmetry; apply (si_readers _ _ SI)). apply (s_open data a file est ts H). }
    constructor; [|exact (si_frames _ _ SI)|exact (si_owned _ _ SI)]. cbn [w_readers a_readers]. apply both_app with (P := reader_ok); [apply (si_readers _ _ SI)|auto|].
    destruct H as (fs & T & -> & Es & Rw & De). destruct (tables_of_place md5 st fs ts T) as (l & G & M & ->). exists l. split; [|split; [exact De|split; reflexivity]].
    constructor; cbn [cr_file cr_est]; [exact G|now rewrite M| |exact Rw]. apply estimate_ok in Es. exact Es.
  - destruct (both_get _ _ _ _ _ (si_readers _ _ SI) H) as (cr & Hcr & RO). cbn [apply]. unfold live_reader. rewrite Hcr. cbn [bind]. do 3 eexists. split; [reflexivity|]. split; [eapply s_close; exact H|].
    constructor; [|exact (si_frames _ _ SI)|exact (si_owned _ _ SI)]. cbn [w_readers a_readers put_reader]. apply both_set with (P := reader_ok); [apply (si_readers _ _ SI)|eapply live; exact Hcr|auto|exact Logic.I].
  - destruct (both_get _ _ _ _ _ (si_readers _ _ SI) H) as (cr & Hcr & RO). cbn [apply]. unfold live_reader. rewrite Hcr. cbn [bind]. do 3 eexists. split; [reflexivity|]. split.
    { replace (length (w_frames w)) with (length (a_frames a)) by (symmetry; apply (si_frames _ _ SI)). eapply s_new; exact H. }
    constructor; [exact (si_readers _ _ SI)| |].
    + cbn [w_frames a_frames w_objs]. apply both_app with (P := frame_ok (w_objs w)); [apply (si_frames _ _ SI)|auto|]. constructor; cbn; auto; discriminate.
    + cbn [w_frames]. intros f1 f2 c1 c2 o H1 H2 O1 O2.
      assert (K : forall g c3, nth_error (w_frames w ++ [Some {| cf_reader := r; cf_obj := None; cf_memo := None |}]) g = Some (Some c3) -> cf_obj c3 = Some o -> nth_error (w_frames w) g = Some (Some c3)).
      { intros g c3 Hg Ho. destruct (Nat.lt_ge_cases g (length (w_frames w))) as [L|L]; [now rewrite nth_error_app1 in Hg by exact L|].
        rewrite nth_error_app2 in Hg by exact L. destruct (g - length (w_frames w))%nat as [|k]; cbn in Hg; [injection Hg as <-; discriminate|destruct k; discriminate]. }
      eapply (si_owned _ _ SI); eauto.
  - destruct (both_get _ _ _ _ _ (si_frames _ _ SI) H) as (cf & Hcf & FO). cbn [apply]. unfold live_frame. rewrite Hcf. cbn [bind]. do 3 eexists. split; [reflexivity|]. split; [eapply s_free; exact H|]. pose proof (live _ _ _ Hcf) as Lf.
    assert (WF : w_frames (drop w (cf_obj cf)) = w_frames w) by (unfold drop; destruct (cf_obj cf); reflexivity).
    constructor.
    + cbn [set_frame put_frame w_readers a_readers]. replace (w_readers (drop w (cf_obj cf))) with (w_readers w) by (unfold drop; destruct (cf_obj cf); reflexivity). exact (si_readers _ _ SI).
    + cbn [set_frame put_frame w_frames a_frames w_objs]. rewrite WF. apply both_set with (P := frame_ok (w_objs w)); [apply (si_frames _ _ SI)|exact Lf| |exact Logic.I].
      intros j c2 x2 Ne Hj _ F. eapply same_shown; [exact F|]. intros o Ho. unfold drop. destruct (cf_obj cf) as [o1|] eqn:Eo; [|reflexivity]. cbn [w_objs].
      assert (o1 <> o). { intros ->. apply Ne. eapply (si_owned _ _ SI); eassumption. }
      pose proof (fo_shown _ _ _ FO) as FS. unfold shown in FS. rewrite Eo in FS. destruct (a_shows x); [|contradiction]. destruct FS as [FS _]. rewrite nth_error_list_set by (eapply live; eassumption). destruct (Nat.eqb_spec o o1); [congruence|reflexivity].
    + cbn [set_frame w_frames]. rewrite WF. intros f1 f2 c1 c2 o. rewrite !nth_error_list_set by exact Lf. destruct (Nat.eqb_spec f1 f), (Nat.eqb_spec f2 f); try discriminate. intros. eapply (si_owned _ _ SI); eassumption.
  - eapply next_ok; eassumption.
  - destruct (both_get _ _ _ _ _ (si_frames _ _ SI) H) as (cf & Hcf & FO). destruct FO as [FR FS FL FM]. cbn [apply]. unfold copy_frame, live_frame. rewrite Hcf. cbn [bind].
    unfold shown in FS. rewrite Hs in FS. destruct (cf_obj cf) as [o|] eqn:Eo; [|contradiction]. destruct FS as [FS Pr]. rewrite FS. do 3 eexists. split; [reflexivity|]. split.
    { replace (length (w_frames w)) with (length (a_frames a)) by (symmetry; apply (si_frames _ _ SI)). eapply s_copy; eassumption. }
    constructor; [exact (si_readers _ _ SI)| |].
    + cbn [make w_frames a_frames w_objs]. apply both_app with (P := frame_ok (w_objs w)); [apply (si_frames _ _ SI)| |].
      * intros j c2 x2 Hj _ F. eapply same_shown; [exact F|]. intros o2 Ho2. pose proof (fo_shown _ _ _ F) as F4. unfold shown in F4. rewrite Ho2 in F4. destruct (a_shows x2); [|contradiction]. destruct F4 as [F4 _]. now rewrite nth_error_app1 by (eapply live; eassumption).
      * constructor; cbn [cf_reader a_reader cf_obj a_shows a_listed cf_memo]; [exact FR| |exact FL|].
        -- rewrite Hs. split; [rewrite nth_error_app2, Nat.sub_diag by lia; reflexivity|exact Pr].
        -- rewrite Hl in FL. destruct (cf_memo cf); [discriminate|discriminate].
    + cbn [make w_frames]. 
      assert (Old : forall j c3, nth_error (w_frames w) j = Some (Some c3) -> forall o, cf_obj c3 = Some o -> (o < length (w_objs w))%nat).
      { intros j c3 Hj o3 Ho3. destruct (both_get_l _ _ _ _ _ (si_frames _ _ SI) Hj) as (x3 & _ & F3). pose proof (fo_shown _ _ _ F3) as F4. unfold shown in F4. rewrite Ho3 in F4.
        destruct (a_shows x3); [|contradiction]. destruct F4 as [F4 _]. eapply live; eassumption. }
      assert (K : forall g c3, nth_error (w_frames w ++ [Some {| cf_reader := cf_reader cf; cf_obj := Some (length (w_objs w)); cf_memo := cf_memo cf |}]) g = Some (Some c3) ->
        nth_error (w_frames w) g = Some (Some c3) \/ (g = length (w_frames w) /\ cf_obj c3 = Some (length (w_objs w)))).
      { intros g c3 Hg. destruct (Nat.lt_ge_cases g (length (w_frames w))) as [L|L]; [rewrite nth_error_app1 in Hg by exact L; auto|].
        rewrite nth_error_app2 in Hg by exact L. destruct (g - length (w_frames w))%nat as [|k] eqn:Q; cbn in Hg; [injection Hg as <-; right; split; [lia|reflexivity]|destruct k; discriminate]. }
      intros f1 f2 c1 c2 o3 H1 H2 O1 O2. apply K in H1 as [H1|[H1 H1']]; apply K in H2 as [H2|[H2 H2']].
      * eapply (si_owned _ _ SI); eassumption.
      * specialize (Old f1 c1 H1 o3 O1). assert (o3 = length (w_objs w)) by congruence. lia.
      * specialize (Old f2 c2 H2 o3 O2). assert (o3 = length (w_objs w)) by congruence. lia.
      * congruence.
  - eapply ask_ok; eassumption.
Qed.

Lemma start : simulates nothing a_nothing.
Proof.
  constructor; [split; [reflexivity|]|split; [reflexivity|]|]; try (intros [|i]; exact Logic.I). intros [|f] f' c c' o; discriminate.
Qed.

Lemma program_ok : forall calls w a, simulates w a -> proper_program data a calls ->
  exists w' ans a', run md5 st w calls = Ok (w', ans) /\ history data a calls ans a'.
Proof.
  induction calls as [|c cs IH]; intros w a SI P; [exists w, [], a; split; [reflexivity|constructor]|]. inversion P as [|? ? ? P1 P2]; subst.
  destruct (step_ok w a c SI P1) as (w1 & ans & a1 & A & B & SI1). destruct (IH w1 a1 SI1 (P2 _ _ B)) as (w2 & l & a2 & C & D).
  exists w2, (ans :: l), a2. cbn [run]. rewrite A. cbn [bind]. rewrite C. cbn [bind]. split; [reflexivity|]. econstructor; eassumption.
Qed.
End R.

(** Any number of readers on intact data, any number of frames on each, calls in any order:
    every call returns what the windows on the data show. *)
Theorem C59_frames : forall md5 st calls, proper_program (intact_data md5 st) a_nothing calls ->
  exists w answers a, run md5 st nothing calls = Ok (w, answers) /\ history (intact_data md5 st) a_nothing calls answers a.
Proof. intros md5 st calls P. eapply program_ok; [apply start|exact P]. Qed.
Print Assumptions C59_frames.

(** ** Data that ends inside a frame *)

(** whole frames followed by the beginning of another one *)
Definition cut_data (md5 : list Z -> list Z) (st : settings) (file : list Z) (est : Z) : Prop :=
  exists fs f n, frames md5 st (fs ++ [f]) /\ (0 < n < length f)%nat /\ file = concat fs ++ firstn n f /\ est = Z.of_nat (length file).

Section C.
Variable md5 : list Z -> list Z.
Variable st : settings.

Record cut (file : list Z) (est : Z) (l : list (list Z * table)) (rest : list Z) : Prop := {
  cu_good : good md5 st l; cu_file : file = concat (map fst l) ++ rest; cu_est : est = 0 \/ Z.of_nat (length (concat (map fst l))) <= est;
  cu_end : ensure_table md5 st est file (place 0 l) (Z.of_nat (length l)) = Throw Incomplete
}.

Lemma cut_ok file est : cut_data md5 st file est -> exists l rest, cut file est l rest.
Proof.
  intros (fs & f & n & F & Hn & -> & ->). apply Forall_app in F as [F1 F2]. inversion F2 as [|? ? (t & Ft) _]; subst.
  destruct (frames_good md5 st fs F1) as (l & G & <-). exists l, (firstn n f). constructor; [exact G|reflexivity|right; rewrite app_length; lia|].
  apply (ensure_cut md5 st l f t n _ G Ft Hn eq_refl).
Qed.

Lemma cut_table file est l rest j idx : cut file est l rest -> (j <= length l)%nat -> 0 <= idx ->
  (exists x, ensure_table md5 st est file (firstn j (place 0 l)) idx = Throw x) \/
  exists j', (j' <= length l)%nat /\ ensure_table md5 st est file (firstn j (place 0 l)) idx = Ok (true, firstn j' (place 0 l)).
Proof.
  intros [G -> E En] Hj Hi. assert (Lj : Z.of_nat (length (firstn j (place 0 l))) = Z.of_nat j) by (rewrite firstn_length, place_length; lia).
  destruct (Z.leb_spec idx (Z.of_nat j)) as [L|L].
  2:{ left. eexists. unfold ensure_table. rewrite Lj. rewrite (proj2 (Z.leb_le _ _)) by lia. cbn [assert bind]. rewrite (proj2 (Z.leb_gt _ _)) by lia. reflexivity. }
  destruct (Nat.eq_dec j (length l)) as [->|Ne].
  - rewrite firstn_all2 by (rewrite place_length; lia). rewrite firstn_all2 in Lj by (rewrite place_length; lia).
    destruct (Z.eq_dec idx (Z.of_nat (length l))) as [->|Nl]; [left; eexists; exact En|].
    right. exists (length l). split; [lia|]. unfold ensure_table. rewrite Lj. rewrite (proj2 (Z.leb_le _ _)) by lia. cbn [assert bind]. rewrite (proj2 (Z.leb_le _ _)) by lia. cbn [assert bind].
    rewrite (proj2 (Z.eqb_neq _ _)) by lia. rewrite firstn_all2 by (rewrite place_length; lia). reflexivity.
  - right. replace idx with (Z.of_nat (Z.to_nat idx)) by lia. rewrite (ensure_more md5 st l est G E) by lia.
    destruct (Z.to_nat idx <? j)%nat; [exists j|exists (S j)]; (split; [lia|reflexivity]).
Qed.

Definition inside (l : list (list Z * table)) (ts : list table) (pos : Z) : Prop := 0 <= pos /\ exists j, (j <= length l)%nat /\ ts = firstn j (place 0 l).

Lemma cut_step file est l rest ts pos : cut file est l rest -> inside l ts pos ->
  (exists x, iter_next md5 st est file ts pos = Throw x) \/ exists ts', iter_next md5 st est file ts pos = Ok (ts', pos + 1) /\ inside l ts' (pos + 1).
Proof.
  intros C (P & j & Hj & ->). unfold iter_next. destruct (cut_table file est l rest j (pos + 1) C Hj ltac:(lia)) as [(x & ->)|(j' & J & ->)]; cbn [bind]; [left; eauto|right].
  eexists. split; [reflexivity|]. split; [lia|]. eauto.
Qed.

Lemma get_ok ts pos : 0 <= pos -> iter_get ts pos <> UB.
Proof. intros P. unfold iter_get. destruct (pos <? 0); [discriminate|]. destruct (nth_error ts (Z.to_nat pos)); discriminate. Qed.

Lemma cut_aggregate file est l rest limit : cut file est l rest -> forall fuel ts pos acc n, inside l ts pos ->
  let q := aggregate_after md5 st est file fuel limit ts pos acc n in inside l (fst (fst q)) (snd (fst q)) /\ snd q <> UB.
Proof.
  intros C. induction fuel as [|fuel IH]; intros ts pos acc n H; cbn [aggregate_after]; [split; [exact H|discriminate]|].
  destruct (cut_step file est l rest ts pos C H) as [(x & ->)|(ts' & -> & H')]; cbn [fst snd]; [split; [exact H|discriminate]|].
  rewrite (proj2 (Z.eqb_neq _ _)) by (destruct H'; lia). assert (H2 : inside l ts' pos) by (destruct H, H'; split; assumption).
  pose proof (get_ok ts' (pos + 1) ltac:(destruct H'; lia)) as U.
  destruct (iter_get ts' (pos + 1)) as [t| |]; cbn [fst snd]; [|split; [exact H2|discriminate]|congruence]. cbv zeta.
  destruct ((0 <=? limit) && _); [split; [exact H2|discriminate]|]. destruct (negb _); [split; [exact H2|discriminate]|]. apply IH. exact H'.
Qed.

Lemma cut_next file est l rest fuel agg limit r : cut file est l rest -> inside l (r_tables r) (r_pos r) ->
  let q := next_after md5 st est file fuel agg limit r in inside l (r_tables (fst q)) (r_pos (fst q)) /\ snd q <> Ok None /\ snd q <> UB.
Proof.
  intros C H. unfold next_after. rewrite (proj2 (Z.eqb_neq _ _)) by (destruct H; lia).
  assert (X : (exists x, (if r_first r then Ok (r_tables r, r_pos r) else iter_next md5 st est file (r_tables r) (r_pos r)) = Throw x) \/
    exists ts pos, (if r_first r then Ok (r_tables r, r_pos r) else iter_next md5 st est file (r_tables r) (r_pos r)) = Ok (ts, pos) /\ inside l ts pos).
  { destruct (r_first r); [right; eauto|]. destruct (cut_step file est l rest _ _ C H) as [Q|(ts' & Q & H')]; [left; exact Q|right; eauto]. }
  destruct X as [(x & ->)|(ts & pos & -> & H1)]; cbn [fst snd r_tables r_pos].
  - split; [|split; discriminate]. destruct H as (P & j & J & K). split; [lia|eauto].
  - rewrite (proj2 (Z.eqb_neq _ _)) by (destruct H1; lia). pose proof (get_ok ts pos ltac:(destruct H1; lia)) as U.
    destruct (iter_get ts pos) as [t| |]; cbn [fst snd r_tables r_pos]; [|split; [exact H1|split; discriminate]|congruence].
    pose proof (cut_aggregate file est l rest limit C fuel ts pos [t] (rows_long t) H1) as Ca. cbv zeta in Ca.
    destruct agg.
    + destruct (aggregate_after md5 st est file fuel limit ts pos [t] (rows_long t)) as [[ts' pos'] res]. cbn [fst snd r_tables r_pos] in *. destruct Ca as [Ca Cb]. split; [exact Ca|].
      destruct res as [[fr nr]| |]; cbn [bind]; [|split; discriminate|congruence]. destruct (_ || _); cbn [assert bind]; split; discriminate.
    + cbn [fst snd r_tables r_pos bind]. split; [exact H1|]. destruct (_ || _); cbn [assert bind]; split; discriminate.
Qed.

Definition cut_reader (r : creader) : Prop := exists l rest, cut (cr_file r) (cr_est r) l rest /\
  match cr_impl r with None => True | Some (_, _, s) => inside l (r_tables s) (r_pos s) end.

Lemma cut_reader_next agg limit r : cut_reader r -> let q := reader_next md5 st agg limit r in cut_reader (fst q) /\ snd q <> Ok None /\ snd q <> UB.
Proof.
  intros (l & rest & C & H). unfold reader_next.
  assert (Go : forall a m s, inside l (r_tables s) (r_pos s) ->
    let q := (let (s', res) := next_after md5 st (cr_est r) (cr_file r) (S (S (length (cr_file r)))) a m s in (with_impl r a m s', res)) in cut_reader (fst q) /\ snd q <> Ok None /\ snd q <> UB).
  { intros a m s Hs. pose proof (cut_next _ _ l rest (S (S (length (cr_file r)))) a m s C Hs) as Q. cbv zeta in *. destruct (next_after _ _ _ _ _ _ _ _) as [s' res]. cbn [fst snd] in *. destruct Q as [Q1 Q2].
    split; [|exact Q2]. exists l, rest. split; [exact C|exact Q1]. }
  destruct (cr_impl r) as [[[a m] s]|] eqn:Ei; [apply Go; exact H|]. unfold open_reader.
  destruct (cut_table _ _ l rest 0 0 C ltac:(lia) ltac:(lia)) as [(x & Q)|(j' & J & Q)]; cbn [firstn] in Q; rewrite Q; cbn [bind].
  - cbn [fst snd]. split; [|split; discriminate]. exists l, rest. split; [exact C|]. rewrite Ei. exact Logic.I.
  - apply Go. cbn [r_tables r_pos]. split; [lia|eauto].
Qed.

Definition all_cut (w : world) : Prop := forall i r, nth_error (w_readers w) i = Some (Some r) -> cut_reader r.

Lemma all_cut_same w w' : w_readers w' = w_readers w -> all_cut w -> all_cut w'.
Proof. intros E H i r. rewrite E. apply H. Qed.

Lemma cut_apply w c w' a : all_cut w -> match c with OpenReader file est => cut_data md5 st file est | _ => True end -> apply md5 st w c = Ok (w', a) -> all_cut w' /\ a <> Complete.
Proof.
  intros H O E.
  assert (N : forall agg limit f, next md5 st agg limit f w = Ok (w', a) -> all_cut w' /\ a <> Complete).
  { intros agg limit f. unfold next. destruct (live_frame w f) as [cf| |]; cbn [bind]; try discriminate. unfold live_reader. destruct (nth_error (w_readers w) (cf_reader cf)) as [[r|]|] eqn:Er; cbn [bind]; try discriminate.
    pose proof (cut_reader_next agg limit r (H _ _ Er)) as Q. cbv zeta in Q. destruct (reader_next md5 st agg limit r) as [r' res]. cbn [fst snd] in Q. destruct Q as (Q1 & Q2 & Q3).
    assert (K : all_cut (set_reader w (cf_reader cf) r')).
    { intros i x. cbn [set_reader w_readers]. rewrite nth_error_list_set by (eapply live; exact Er). destruct (Nat.eqb_spec i (cf_reader cf)); [intros X; inversion X; subst; exact Q1|apply H]. }
    destruct res as [[ts|]|x|]; try congruence; intros X; inversion X; subst; (split; [|discriminate]); [|exact K].
    eapply all_cut_same; [|exact K]. cbn [set_frame make w_readers]. unfold drop. destruct (cf_obj cf); reflexivity. }
  destruct c; cbn [apply] in E; try (now eapply N; exact E).
  - inversion E; subst. split; [|discriminate]. intros i r. cbn [w_readers]. intros Hi. destruct (Nat.lt_ge_cases i (length (w_readers w))) as [L|L]; [rewrite nth_error_app1 in Hi by exact L; eapply H; exact Hi|].
    rewrite nth_error_app2 in Hi by exact L. destruct (i - length (w_readers w))%nat as [|k]; [|destruct k; discriminate]. inversion Hi; subst r. destruct (cut_ok _ _ O) as (l & rest & C). exists l, rest. split; [exact C|exact Logic.I].
  - unfold live_reader in E. destruct (nth_error (w_readers w) r) as [[x|]|] eqn:Er; cbn [bind] in E; try discriminate. inversion E; subst. split; [|discriminate]. intros i y. cbn [w_readers].
    rewrite nth_error_list_set by (eapply live; exact Er). destruct (Nat.eqb_spec i r); [discriminate|apply H].
  - unfold live_reader in E. destruct (nth_error (w_readers w) r) as [[x|]|] eqn:Er; cbn [bind] in E; try discriminate. inversion E; subst. split; [exact H|discriminate].
  - unfold live_frame in E. destruct (nth_error (w_frames w) f) as [[x|]|] eqn:Er; cbn [bind] in E; try discriminate. inversion E; subst. split; [|discriminate]. eapply all_cut_same; [|exact H]. cbn [set_frame w_readers]. unfold drop. destruct (cf_obj x); reflexivity.
  - unfold copy_frame in E. destruct (live_frame w f) as [cf| |]; cbn [bind] in E; try discriminate. destruct (cf_obj cf) as [o|]; try discriminate. destruct (nth_error (w_objs w) o) as [[ts|]|]; try discriminate. inversion E; subst. split; [exact H|discriminate].
  - destruct (live_frame w f) as [cf| |]; cbn [bind] in E; try discriminate. unfold wrapped in E. destruct (tables w cf); cbn [bind] in E; inversion E; subst; (split; [exact H|discriminate]).
  - destruct (live_frame w f) as [cf| |]; cbn [bind] in E; try discriminate. unfold wrapped in E. destruct (tables w cf) as [[|t ts]| |]; cbn [bind] in E; inversion E; subst; (split; [exact H|discriminate]).
  - destruct (live_frame w f) as [cf| |]; cbn [bind] in E; try discriminate. unfold wrapped in E. destruct (tables w cf) as [ts| |]; cbn [bind] in E; try discriminate; try (inversion E; subst; split; [exact H|discriminate]).
    destruct (column_infos ts) as [infos| |]; cbn [bind] in E; try discriminate; try (inversion E; subst; split; [exact H|discriminate]). destruct (item infos col); cbn [bind] in E; inversion E; subst; (split; [exact H|discriminate]).
  - destruct (live_frame w f) as [cf| |]; cbn [bind] in E; try discriminate. unfold wrapped in E. destruct (tables w cf) as [ts| |]; cbn [bind] in E; try discriminate; try (inversion E; subst; split; [exact H|discriminate]).
    destruct (column_infos ts) as [infos| |]; cbn [bind] in E; try discriminate; try (inversion E; subst; split; [exact H|discriminate]). destruct (item infos col) as [i| |]; cbn [bind] in E; try discriminate; try (inversion E; subst; split; [exact H|discriminate]).
    destruct (item (i_bits i) field); cbn [bind] in E; inversion E; subst; (split; [exact H|discriminate]).
  - destruct (live_frame w f) as [cf| |]; cbn [bind] in E; try discriminate. unfold wrapped in E. destruct (tables w cf); cbn [bind] in E; inversion E; subst; (split; [exact H|discriminate]).
  - unfold property_idx in E. destruct (live_frame w f) as [cf| |]; cbn [bind] in E; try discriminate. destruct (cf_memo cf) as [o|].
    + destruct (nth_error (w_objs w) o) as [[ts|]|]; try discriminate. destruct (item (frame_props ts) idx) as [[k v]| |]; inversion E; subst. split; [exact H|discriminate].
    + destruct (tables w cf) as [ts| |]; try discriminate; try (inversion E; subst; split; [exact H|discriminate]). destruct (item (frame_props ts) idx) as [[k v]| |]; inversion E; subst; (split; [exact H|discriminate]).
  - destruct (live_frame w f) as [cf| |]; cbn [bind] in E; try discriminate. unfold wrapped in E. destruct (tables w cf); cbn [bind] in E; inversion E; subst; (split; [exact H|discriminate]).
Qed.

Lemma cut_run : forall calls w w' ans, all_cut w -> Forall (fun c => match c with OpenReader file est => cut_data md5 st file est | _ => True end) calls ->
  run md5 st w calls = Ok (w', ans) -> ~ In Complete ans.
Proof.
  induction calls as [|c cs IH]; intros w w' ans H O E; cbn [run] in E; [inversion E; subst; intros []|]. inversion O as [|? ? O1 O2]; subst.
  destruct (apply md5 st w c) as [[w1 a]| |] eqn:Ea; cbn [bind] in E; try discriminate. destruct (run md5 st w1 cs) as [[w2 l]| |] eqn:Er; cbn [bind] in E; try discriminate. inversion E; subst.
  destruct (cut_apply w c w1 a H O1 Ea) as [H1 N]. intros [X|X]; [congruence|]. exact (IH w1 w' l H1 O2 Er X).
Qed.
End C.

(** Data cut inside a frame is never reported as complete, however the program goes on after
    errors. *)
Theorem C59_truncated : forall md5 st calls w answers,
  Forall (fun c => match c with OpenReader file est => cut_data md5 st file est | _ => True end) calls ->
  run md5 st nothing calls = Ok (w, answers) -> ~ In Complete answers.
Proof. intros md5 st calls w ans O E. eapply cut_run; [|exact O|exact E]. intros [|i] r; discriminate. Qed.
Print Assumptions C59_truncated.
