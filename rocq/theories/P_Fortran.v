(** C60: the Fortran interface. *)
From Verif Require Import Base Stream Codec Meta Header Table Strided ColumnInfo Fortran FortranSpec.
From Verif Require CFrames FramesSpec P_Frames CEncoder.
Open Scope Z_scope.

(** ** Texts *)

Lemma trim_spec t : exists blanks, t = trim t ++ blanks /\ Forall (fun b => b = 32) blanks /\ forall s' b, trim t = s' ++ [b] -> b <> 32.
Proof.
  induction t as [|b t (blanks & E & F & L)]; [exists []; repeat split; auto; intros [|? ?] ? Q; discriminate|]. cbn [trim].
  destruct (trim t) as [|c r] eqn:T.
  - destruct (Z.eqb_spec b 32) as [->|N].
    + exists (32 :: blanks). cbn [app] in *. repeat split; [now rewrite <- E|now constructor|intros [|? ?] ? Q; discriminate].
    + exists blanks. cbn [app] in *. repeat split; [now rewrite <- E|exact F|]. intros [|x s'] b' Q; inversion Q; subst; [exact N|destruct s'; discriminate].
  - exists blanks. rewrite E at 1. repeat split; [exact F|]. intros [|x s'] b' Q; [discriminate|]. cbn [app] in Q. inversion Q; subst. eapply L. eassumption.
Qed.

Lemma until_nul_spec s : (~ In 0 s -> until_nul (s ++ [0]) = s) /\ (In 0 s -> exists rest, s = until_nul (s ++ [0]) ++ 0 :: rest) /\ ~ In 0 (until_nul (s ++ [0])).
Proof.
  induction s as [|b s (I1 & I2 & I3)]; cbn [app until_nul]; [cbn; repeat split; auto; intros []|]. destruct (Z.eqb_spec b 0) as [->|N].
  - repeat split; [intros H; destruct H; now left|intros _; now exists s|now intros []].
  - repeat split; [intros H; rewrite I1; auto; intros Q; apply H; now right|intros [Q|Q]; [congruence|]; destruct (I2 Q) as [rest E]; exists rest; cbn [app]; now rewrite <- E|].
    intros [Q|Q]; [congruence|now apply I3].
Qed.

Lemma c_string_text t : text t (c_string t).
Proof.
  destruct (trim_spec t) as (blanks & E & F & L). destruct (until_nul_spec (trim t)) as (U1 & U2 & U3). exists blanks. split; [exact F|]. unfold c_string. split; [exact U3|].
  destruct (in_dec Z.eq_dec 0 (trim t)) as [I|N].
  - right. destruct (U2 I) as [rest Q]. exists (rest ++ blanks). rewrite E at 1. rewrite Q at 1. now rewrite <- app_assoc.
  - left. rewrite (U1 N). now split.
Qed.

(** A C text without trailing blank, padded with blanks, is that text. *)
Lemma text_unique t s s' : text t s -> text t s' -> s = s'.
Proof.
  assert (K : forall s s' blanks rest, ~ In 0 s -> ~ In 0 s' -> Forall (fun b => b = 32) blanks -> s ++ blanks = s' ++ 0 :: rest -> False).
  { intros a a' bl rest H H' F E. assert (I : In 0 (a ++ bl)) by (rewrite E; apply in_or_app; right; now left). apply in_app_or in I as [I|I]; [now apply H|]. rewrite Forall_forall in F. specialize (F 0 I). discriminate. }
  assert (Q : forall s s' rest rest', ~ In 0 s -> ~ In 0 s' -> s ++ 0 :: rest = s' ++ 0 :: rest' -> s = s').
  { induction s0 as [|b s0 IH]; intros [|b' s0'] r r' H H' E; cbn [app] in E; inversion E; subst; [reflexivity|destruct H'; now left|destruct H; now left|].
    f_equal. eapply IH; [intros I; apply H; now right|intros I; apply H'; now right|eassumption]. }
  assert (M : forall s s' bl bl', Forall (fun b => b = 32) bl -> Forall (fun b => b = 32) bl' -> (forall x b, s = x ++ [b] -> b <> 32) -> (forall x b, s' = x ++ [b] -> b <> 32) -> s ++ bl = s' ++ bl' -> s = s').
  { assert (N : forall s s' bl bl', Forall (fun b => b = 32) bl -> (forall x b, s' = x ++ [b] -> b <> 32) -> s ++ bl = s' ++ bl' -> (length s' <= length s)%nat).
    { intros a a' bl bl' F L E. destruct (Nat.le_gt_cases (length a') (length a)) as [G|G]; [exact G|exfalso].
      destruct (exists_last (l := a')) as (x & b & ->); [destruct a'; [cbn in G; lia|discriminate]|]. apply (L x b eq_refl).
      rewrite Forall_forall in F. apply F. rewrite app_length in G. cbn [length] in G.
      apply (f_equal (fun l => nth_error l (length x))) in E. rewrite nth_error_app2 in E by lia. rewrite <- app_assoc in E. rewrite (nth_error_app2 x) in E by lia. rewrite Nat.sub_diag in E. cbn in E.
      eapply nth_error_In. exact E. }
    intros a a' bl bl' F F' L L' E. assert (LE : length a = length a') by (apply Nat.le_antisymm; [eapply N; [exact F'|exact L|symmetry; exact E]|eapply N; [exact F|exact L'|exact E]]).
    apply (f_equal (firstn (length a))) in E. rewrite firstn_app, firstn_all, Nat.sub_diag, firstn_O, app_nil_r in E. rewrite LE, firstn_app, firstn_all, Nat.sub_diag, firstn_O, app_nil_r in E. exact E. }
  intros (bl & F & Z1 & H) (bl' & F' & Z2 & H'). destruct H as [[E L]|[rest E]], H' as [[E' L']|[rest' E']]; rewrite E in E'.
  - exact (M _ _ _ _ F F' L L' E').
  - exfalso. eapply K; [exact Z1|exact Z2|exact F|exact E'].
  - exfalso. eapply K; [exact Z2|exact Z1|exact F'|symmetry; exact E'].
  - exact (Q _ _ _ _ Z1 Z2 E').
Qed.

(** ** Calls *)

Lemma assign_sized size doubles l : assign (eight doubles) (assign size l) = given_size size doubles l.
Proof. destruct doubles, size; cbn [eight assign given_size given]; try reflexivity; lia. Qed.

Lemma means_saved s c : means s c (snd (issue s c)).
Proof.
  destruct c; cbn [issue snd]; rewrite ?assign_sized; try (constructor; try (unfold counts; lia); try apply c_string_text); try (unfold counts; lia); try apply c_string_text.
  - destruct aggregated as [[|]|], maximum_rows as [mx|]; cbn [assign]; try (now constructor).
    + destruct (next_aggregated s) eqn:E; [apply m_next_group|constructor]; exact E.
  - destruct data as [b n1 n2 s1 s2]. change (assign column_major (ddata_major s)) with (given column_major (ddata_major s)). unfold width. rewrite Z.mul_comm. apply m_ddata.
    unfold shaped, height. destruct (given column_major (ddata_major s)); cbn; auto.
  - destruct data as [b n1 n2 s1 s2]. change (assign column_major (edata_major s)) with (given column_major (edata_major s)). unfold width. rewrite Z.mul_comm. apply m_edata.
    unfold shaped, height. destruct (given column_major (edata_major s)); cbn; auto.
Qed.

Lemma latest_snoc {A} (passes : fcall -> option A) d p v c : latest passes d p v -> latest passes d (p ++ [c]) (match passes c with Some x => x | None => v end).
Proof.
  intros H. destruct (passes c) as [x|] eqn:E; [left; exists p, c, []; auto|]. destruct H as [(p1 & c1 & q & -> & H1 & H2)|[H ->]].
  - left. exists p1, c1, (q ++ [c]). rewrite <- app_assoc. repeat split; auto. apply Forall_app. auto.
  - right. split; [apply Forall_app; auto|reflexivity].
Qed.

Lemma remembered_after p : remembered p (saved_after p).
Proof.
  induction p as [|c p IH] using rev_ind; [constructor; right; auto|]. unfold saved_after in *. rewrite fold_left_app. cbn [fold_left]. set (s := fold_left _ p start) in *.
  destruct IH. constructor;
    match goal with H : latest ?P ?d p (?f s) |- latest ?P ?d (p ++ [c]) _ => apply (latest_snoc P d p (f s) c) in H; match type of H with latest _ _ _ ?x => replace (f (fst (issue s c))) with x; [exact H|] end end;
    destruct c; cbn -[Z.mul]; try reflexivity;
    repeat match goal with |- context [match ?o with Some _ => _ | None => _ end] => is_var o; destruct o; cbn -[Z.mul] end; try reflexivity; destruct element_size, element_size_doubles; cbn -[Z.mul]; try reflexivity; lia.
Qed.

Lemma issued_app p q s : issued s (p ++ q) = issued s p ++ issued (fold_left (fun s c => fst (issue s c)) p s) q.
Proof. revert s. induction p as [|c p IH]; intros s; cbn [app issued fold_left]; [reflexivity|]. now rewrite IH, app_assoc. Qed.

(** What a call asks of the C API: an omitted argument has the value passed last. *)
Theorem C60_calls : forall earlier c, exists v l, remembered earlier v /\ means v c l /\ issued start (earlier ++ [c]) = issued start earlier ++ l.
Proof.
  intros p c. exists (saved_after p), (snd (issue (saved_after p) c)). split; [apply remembered_after|]. split; [apply means_saved|].
  rewrite issued_app. cbn [issued]. now rewrite app_nil_r.
Qed.
Print Assumptions C60_calls.

Lemma unaffected_latest {A} (passes : fcall -> option A) d p v : latest passes d p v -> unaffected passes d p -> v = d.
Proof.
  intros [(p1 & c & q & -> & E & _)|[_ E]] U; [|exact E]. unfold unaffected in U. apply Forall_app in U as [_ U]. inversion U; subst. eauto.
Qed.

Lemma means_documented p c l v : remembered p v -> untouched p c -> means v c l -> means documented c l.
Proof.
  intros [R1 R2 R3 R4 R5 R6 R7 R8 R9 R10 R11 R12] U M. inversion M; subst; try (now constructor).
  - apply m_next. destruct a as [b|], l0 as [x|]; cbn in *; try assumption. reflexivity.
  - destruct a as [b|], l0 as [x|]; cbn [grouped given] in *; subst; try (now constructor).
    + cbn [untouched] in U. rewrite (unaffected_latest _ _ _ _ R1 U). now apply m_next_group.
    + cbn [untouched] in U. rewrite (unaffected_latest _ _ _ _ R2 U) in H. discriminate.
  - destruct cm; cbn [given untouched] in *; [apply (m_dinit documented d (Some b))|]. rewrite (unaffected_latest _ _ _ _ R3 U). apply (m_dinit documented d None).
  - destruct cm; cbn [given untouched] in *; [now apply (m_ddata documented d a (Some b))|]. rewrite (unaffected_latest _ _ _ _ R4 U) in *. now apply (m_ddata documented d a None).
  - cbn [untouched] in U. destruct U as (U1 & U2 & U3).
    replace (given size (dcol_size v)) with (given size (dcol_size documented)) by (destruct size; [reflexivity|cbn; now rewrite (unaffected_latest _ _ _ _ R5 (U1 eq_refl))]).
    replace (given stride (dcol_stride v)) with (given stride (dcol_stride documented)) by (destruct stride; [reflexivity|cbn; now rewrite (unaffected_latest _ _ _ _ R6 (U2 eq_refl))]).
    replace (given data (dcol_data v)) with (given data (dcol_data documented)) by (destruct data; [reflexivity|cbn; now rewrite (unaffected_latest _ _ _ _ R7 (U3 eq_refl))]).
    now constructor.
  - destruct cm; cbn [given untouched] in *; [now apply (m_edata documented e a (Some b))|]. rewrite (unaffected_latest _ _ _ _ R8 U) in *. now apply (m_edata documented e a None).
  - destruct doubles as [n|], size as [z|]; cbn [given_size given untouched] in *; try rewrite (unaffected_latest _ _ _ _ R9 U).
    + now apply (m_esize documented e i col (Some z) (Some n)).
    + now apply (m_esize documented e i col None (Some n)).
    + now apply (m_esize documented e i col (Some z) None).
    + now apply (m_esize documented e i col None None).
  - cbn [untouched] in U. destruct U as (U1 & U2 & U3).
    replace (given_size size doubles (earr_size v)) with (given_size size doubles (earr_size documented))
      by (destruct doubles, size; try reflexivity; cbn; now rewrite (unaffected_latest _ _ _ _ R10 (U1 (conj eq_refl eq_refl)))).
    replace (given stride (earr_stride v)) with (given stride (earr_stride documented)) by (destruct stride; [reflexivity|cbn; now rewrite (unaffected_latest _ _ _ _ R11 (U2 eq_refl))]).
    replace (given data (earr_data v)) with (given data (earr_data documented)) by (destruct data; [reflexivity|cbn; now rewrite (unaffected_latest _ _ _ _ R12 (U3 eq_refl))]).
    now constructor.
Qed.

(** In a program where no omitted argument was passed a value before, every procedure does
    what is documented. *)
Theorem C60_documented : forall p, no_leftovers p -> exists ls, Forall2 (means documented) p ls /\ issued start p = concat ls.
Proof.
  intros p. induction p as [|c p IH] using rev_ind; intros N; [exists []; now split|].
  destruct IH as (ls & F & E); [intros q c' r ->; apply (N q c' (r ++ [c])); now rewrite <- app_assoc|].
  destruct (C60_calls p c) as (v & l & R & M & Q). exists (ls ++ [l]). split.
  - apply Forall2_app; [exact F|]. constructor; [|constructor]. eapply means_documented; [exact R|apply (N p c []); reflexivity|exact M].
  - rewrite Q, E, concat_app. cbn [concat]. now rewrite app_nil_r.
Qed.
Print Assumptions C60_documented.

(** The documented meaning is one, so it is the only thing that can happen. *)
Theorem C60_means_one : forall v c l l', means v c l -> means v c l' -> l = l'.
Proof.
  intros v c l l' M M'. destruct M; inversion M'; subst; try reflexivity;
    repeat match goal with H : counts ?i ?a, H' : counts ?i ?b |- _ => assert (a = b) by (unfold counts in *; lia); subst; clear H' end;
    repeat match goal with H : text ?t ?a, H' : text ?t ?b |- _ => assert (a = b) by (eapply text_unique; eassumption); subst; clear H' end; try reflexivity; try congruence.
  - unfold shaped in *. destruct (given cm (ddata_major v)); repeat match goal with H : _ /\ _ |- _ => destruct H end; congruence.
  - unfold shaped in *. destruct (given cm (edata_major v)); repeat match goal with H : _ /\ _ |- _ => destruct H end; congruence.
Qed.
Print Assumptions C60_means_one.

(** ** Reading *)

(** Programs on readers and frames are told what C59's specification says of the documented
    C calls. *)
Theorem C60_frames : forall md5 st p cs, no_leftovers p -> Forall2 (fun c x => means documented c [CFrame x]) p cs ->
  FramesSpec.proper_program (FramesSpec.intact_data md5 st) FramesSpec.a_nothing cs ->
  exists w answers a, CFrames.run md5 st CFrames.nothing (frame_calls p) = Ok (w, answers) /\
    FramesSpec.history (FramesSpec.intact_data md5 st) FramesSpec.a_nothing cs answers a.
Proof.
  intros md5 st p cs N F P. destruct (C60_documented p N) as (ls & M & E).
  assert (Q : frame_calls p = cs).
  { unfold frame_calls. rewrite E. clear E N P. revert cs F. induction M as [|c l p ls M1 M IH]; intros cs F; inversion F; subst; [reflexivity|].
    rewrite (C60_means_one _ _ _ _ M1 H1). cbn [concat app]. unfold on_frames in *. cbn [map concat app]. f_equal. now apply IH. }
  rewrite Q. now apply P_Frames.C59_frames.
Qed.
Print Assumptions C60_frames.

(** Texts without NUL are told in full, and sizes in doubles are sizes. *)
Theorem C60_replies : forall nm ty size nbits, ~ In 0 nm -> size mod 8 = 0 -> 0 <= size ->
  reply_of (CFrames.Described nm ty size nbits) = RColumn nm ty size (size / 8) nbits /\ 8 * (size / 8) = size /\
  reply_of (CFrames.Pair nm nm) = RPair nm nm /\ reply_of (CFrames.Value (Some nm)) = RValue (Some nm).
Proof.
  intros nm ty size nbits N M P. assert (U : until_nul nm = nm).
  { clear -N. induction nm as [|b nm IH]; [reflexivity|]. cbn [until_nul]. destruct (Z.eqb_spec b 0) as [->|_]; [destruct N; now left|]. rewrite IH; [reflexivity|]. intros H; apply N; now right. }
  cbn [reply_of]. rewrite U, Z.quot_div_nonneg by lia. pose proof (Z.div_mod size 8). repeat split. lia.
Qed.
Print Assumptions C60_replies.
