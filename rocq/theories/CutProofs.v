(** Decoding does not depend on how many elements the arrays claim to have, as long as the
    rows fit. *)
From Verif Require Import Base Fp Stream Codec Meta Header Table TableProofs Strided P_Strided MemDecode MemProofs P_Memory Frame ThreadProofs P_Threads.
Open Scope Z_scope.

Definition cut (n : Z) (s : strided) : strided := {| s_base := s_base s; s_nelem := n; s_size := s_size s; s_stride := s_stride s |}.
Definition cut_op (n : Z) (o : op) : op := match o with OStore s r b => OStore (cut n s) r b | OFill s a b => OFill (cut n s) a b end.
Definition cut_col (n : Z) (c : mcol) : mcol := {| m_codec := m_codec c; m_arr := option_map (cut n) (m_arr c); m_last := m_last c |}.
Definition omap {A B} (f : A -> B) (x : outcome A) : outcome B := match x with Ok a => Ok (f a) | Throw e => Throw e | UB => UB end.
Definition tmap {A B} (n : Z) (g : A -> B) (x : traced A) : traced B := (map (cut_op n) (fst x), omap g (snd x)).

Lemma fill_copies_cut n s src fin : forall fuel row m, fill_copies fuel (cut n s) src row fin m = fill_copies fuel s src row fin m.
Proof.
  induction fuel as [|f IH]; intros row m; cbn [fill_copies]; [reflexivity|]. destruct (fin <? row); [reflexivity|].
  change (get (cut n s)) with (get s). change (s_size (cut n s)) with (s_size s). destruct (_ <? s_size s); [reflexivity|]. apply IH.
Qed.

Lemma exec_cut n : forall ops m, exec (map (cut_op n) ops) m = exec ops m.
Proof.
  induction ops as [|o ops IH]; intros m; [reflexivity|]. cbn [map exec].
  assert (E : exec_op (cut_op n o) m = exec_op o m).
  { destruct o as [s r b|s a b]; cbn [cut_op exec_op]; [reflexivity|]. unfold mfill. change (get (cut n s)) with (get s).
    change (s_size (cut n s)) with (s_size s). change (s_stride (cut n s)) with (s_stride s). now rewrite fill_copies_cut. }
  rewrite E. destruct (exec_op o m); cbn [bind]; auto.
Qed.

Lemma tmap_bind {A A' B B'} n (g : A -> A') (h : B -> B') (x : traced A) k k' :
  (forall a, snd x = Ok a -> k' (g a) = tmap n h (k a)) -> tbind (tmap n g x) k' = tmap n h (tbind x k).
Proof.
  intros H. destruct x as [ops [a|e|]]; cbn [tmap tbind fst snd omap]; [|reflexivity|reflexivity].
  cbn [snd] in H. rewrite (H a eq_refl). destruct (k a) as [ops' r]. unfold tmap. cbn [fst snd]. now rewrite map_app.
Qed.

Lemma tmap_lift {A B B'} n (h : B -> B') (x : outcome A) k k' : (forall a, x = Ok a -> k' a = tmap n h (k a)) -> tbind (lift x) k' = tmap n h (tbind (lift x) k).
Proof.
  intros H. destruct x as [a|e|]; cbn [lift tbind]; [|reflexivity|reflexivity]. rewrite (H a eq_refl). destruct (k a) as [ops r]. reflexivity.
Qed.

Section C.
Variable n : Z.

Lemma map_mcols_cut f : (forall c, f (cut_col n c) = tmap n (cut_col n) (f c)) -> forall cs, map_mcols f (map (cut_col n) cs) = tmap n (map (cut_col n)) (map_mcols f cs).
Proof.
  intros H. induction cs as [|c cs IH]; [reflexivity|]. cbn [map map_mcols]. rewrite H, IH. apply tmap_bind. intros c' _. apply tmap_bind. reflexivity.
Qed.

Lemma mprefill_cut c : mprefill (cut_col n c) = tmap n (cut_col n) (mprefill c).
Proof. unfold mprefill. destruct c as [k [s|] l]; reflexivity. Qed.

Lemma mfill_col_cut l c : mfill_col l (cut_col n c) = tmap n (cut_col n) (mfill_col l c).
Proof. unfold mfill_col. destruct c as [k [s|] l']; cbn [cut_col m_arr m_last option_map]; [|reflexivity]. unfold assert. destruct (l' <=? l)%nat; reflexivity. Qed.

Lemma mdecode_cols_cut row : forall cs st, mdecode_cols row (map (cut_col n) cs) st = tmap n (fun r => (map (cut_col n) (fst r), snd r)) (mdecode_cols row cs st).
Proof.
  induction cs as [|c cs IH]; intros st; [reflexivity|]. cbn [map mdecode_cols].
  rewrite <- (tmap_bind n (fun r => (cut_col n (fst r), snd r)) (fun r => (map (cut_col n) (fst r), snd r)) _ _
     (fun r => tbind (mdecode_cols row (map (cut_col n) cs) (snd r)) (fun rs => tret (fst r :: fst rs, snd rs)))).
  - f_equal. destruct c as [k [s|] l]; cbn [cut_col m_arr option_map m_codec]; apply tmap_lift; intros [b st'] _; reflexivity.
  - intros [c' st'] _. cbn [fst snd]. rewrite IH. apply tmap_bind. intros [cs' st''] _. reflexivity.
Qed.

Lemma mdecode_row_cut row ls cs st : mdecode_row row ls (map (cut_col n) cs) st = tmap n (fun r => (fst (fst r), map (cut_col n) (snd (fst r)), snd r)) (mdecode_row row ls cs st).
Proof.
  unfold mdecode_row. apply tmap_lift. intros [mk st'] _. cbn [fst snd]. rewrite map_length. set (start := marker_val mk).
  match goal with |- tbind ?a ?k = tmap n ?h (tbind ?b ?k') => assert (E : a = tmap n (map (cut_col n)) b) end.
  { destruct (start <? ls)%nat; [|reflexivity]. destruct (length cs <? ls)%nat; [reflexivity|].
    rewrite skipn_map, !firstn_map, (map_mcols_cut _ (mfill_col_cut (row - 1))). apply tmap_bind. intros mid _.
    unfold tmap, tret. cbn [fst snd map omap]. f_equal. f_equal. now rewrite !map_app, skipn_map. }
  rewrite E. apply tmap_bind. intros cs1 _. rewrite skipn_map, mdecode_cols_cut. apply tmap_bind. intros [ds st2] _.
  unfold tmap, tret. cbn [fst snd map omap]. now rewrite map_app, firstn_map.
Qed.

Lemma mdecode_rows_cut : forall k row ls cs st, mdecode_rows k row ls (map (cut_col n) cs) st = tmap n (map (cut_col n)) (mdecode_rows k row ls cs st).
Proof.
  induction k as [|k IH]; intros row ls cs st; [reflexivity|]. cbn [mdecode_rows]. rewrite mdecode_row_cut. apply tmap_bind. intros [[s c] r] _. cbn [fst snd]. apply IH.
Qed.

Lemma mfinal_fill_cut k : forall cs, mfinal_fill k (map (cut_col n) cs) = tmap n (map (cut_col n)) (mfinal_fill k cs).
Proof.
  induction cs as [|c cs IH]; [reflexivity|]. cbn [map mfinal_fill]. change (m_last (cut_col n c)) with (m_last c). destruct (m_last c <? k - 1)%nat; [|reflexivity].
  rewrite mfill_col_cut, IH. apply tmap_bind. intros c' _. apply tmap_bind. reflexivity.
Qed.

Lemma mattach_cut full simple nrows : nrows <= n -> forall names arrs cs, Forall (fun s => nrows <= s_nelem s) arrs ->
  mattach full simple nrows names (map (cut n) arrs) (map (cut_col n) cs) = omap (map (cut_col n)) (mattach full simple nrows names arrs cs).
Proof.
  intros Hn. induction names as [|nm names IH]; intros [|s arrs] cs F; try reflexivity. cbn [map mattach].
  destruct (lookup_name full simple nm) as [p|e|]; cbn [bind]; [|reflexivity|reflexivity]. rewrite nth_error_map.
  destruct (nth_error cs (Z.to_nat p)) as [c|]; [|reflexivity]. cbn [option_map]. destruct c as [k [a|] l]; cbn [cut_col m_arr option_map m_codec m_last]; [reflexivity|].
  inversion F as [|? ? F1 F2]; subst. cbn [s_nelem cut]. unfold assert. rewrite (proj2 (Z.leb_le _ _) Hn), (proj2 (Z.leb_le _ _) F1). cbn [bind].
  rewrite <- IH by exact F2. f_equal. symmetry. clear. set (i := Z.to_nat p). clearbody i. revert i. induction cs as [|c cs IH]; intros [|i]; cbn [list_set map]; try reflexivity. now rewrite IH.
Qed.

Lemma mdecode_table_cut file t names arrs : t_rows t <= n -> Forall (fun s => t_rows t <= s_nelem s) arrs ->
  mdecode_table file t names (map (cut n) arrs) = tmap n (map (cut_col n)) (mdecode_table file t names arrs).
Proof.
  intros Hn F. unfold mdecode_table. rewrite map_length. apply tmap_lift. intros lk _. apply tmap_lift. intros u _. apply tmap_lift. intros u' _.
  assert (FC : map (cut_col n) (map (fun c => {| m_codec := col_coder c; m_arr := None; m_last := 0 |}) (t_cols t)) = map (fun c => {| m_codec := col_coder c; m_arr := None; m_last := 0 |}) (t_cols t)).
  { rewrite map_map. reflexivity. }
  rewrite <- FC at 1. rewrite mattach_cut by assumption. set (at0 := mattach _ _ _ _ _ _). clearbody at0.
  change (lift (omap (map (cut_col n)) at0)) with (tmap n (map (cut_col n)) (lift at0)). apply tmap_bind. intros cs _. apply tmap_lift. intros buf _.
  destruct (t_rows t =? 0); [reflexivity|]. rewrite (map_mcols_cut _ mprefill_cut). apply tmap_bind. intros cs1 _. rewrite mdecode_rows_cut. apply tmap_bind. intros cs2 _. apply mfinal_fill_cut.
Qed.
End C.

Lemma slice_all_cut off k n : forall arrs, Forall (fun s => off + k <= s_nelem s) arrs -> off + k <= n -> slice_all (map (cut n) arrs) off k = slice_all arrs off k.
Proof.
  induction arrs as [|s arrs IH]; intros F Hn; [reflexivity|]. inversion F as [|? ? F1 F2]; subst. cbn [map slice_all]. unfold slice, assert. cbn [s_nelem cut].
  rewrite (proj2 (Z.leb_le _ _) Hn), (proj2 (Z.leb_le _ _) F1). cbn [bind]. rewrite IH by assumption. reflexivity.
Qed.

Lemma serial_cut file names n arrs : forall ts off, Forall (fun t => 0 <= t_rows t) ts -> Forall (fun s => off + total_rows ts <= s_nelem s) arrs -> off + total_rows ts <= n ->
  serial_decode file ts names (map (cut n) arrs) off = serial_decode file ts names arrs off.
Proof.
  induction ts as [|t ts IH]; intros off R F Hn; [reflexivity|]. cbn [serial_decode total_rows] in *. inversion R as [|? ? R1 R2]; subst. pose proof (total_nonneg _ R2).
  rewrite slice_all_cut; [|eapply Forall_impl; [|exact F]; cbn beta; lia|lia]. destruct (slice_all arrs off (t_rows t)); cbn [lift tbind]; try reflexivity.
  rewrite IH; [reflexivity|exact R2|eapply Forall_impl; [|exact F]; cbn beta; lia|lia].
Qed.

Lemma targets_cut n arrs : forall ts off, Forall (fun t => 0 <= t_rows t) ts -> Forall (fun s => off + total_rows ts <= s_nelem s) arrs -> off + total_rows ts <= n ->
  frame_targets ts (map (cut n) arrs) off = frame_targets ts arrs off.
Proof.
  induction ts as [|t ts IH]; intros off R F Hn; [reflexivity|]. cbn [frame_targets total_rows] in *. inversion R as [|? ? R1 R2]; subst. pose proof (total_nonneg _ R2).
  rewrite slice_all_cut; [|eapply Forall_impl; [|exact F]; cbn beta; lia|lia]. destruct (slice_all arrs off (t_rows t)); cbn [bind]; try reflexivity.
  rewrite IH; [reflexivity|exact R2|eapply Forall_impl; [|exact F]; cbn beta; lia|lia].
Qed.

Lemma runs_cut n file names ts arrs m r m' : Forall (fun t => 0 <= t_rows t) ts -> Forall (fun s => total_rows ts <= s_nelem s) arrs ->
  runs (frame_decode n file names ts (map (cut (total_rows ts)) arrs)) m r m' <-> runs (frame_decode n file names ts arrs) m r m'.
Proof.
  intros R F. assert (M : length ts <> 1%nat -> frame_decode n file names ts (map (cut (total_rows ts)) arrs) = frame_decode n file names ts arrs).
  { intros L. unfold frame_decode. destruct ts as [|t1 [|t2 l]]; [reflexivity|cbn in L; lia|]. rewrite (serial_cut file names (total_rows (t1 :: t2 :: l)) arrs (t1 :: t2 :: l) 0 R F ltac:(lia)).
    now rewrite (targets_cut (total_rows (t1 :: t2 :: l)) arrs (t1 :: t2 :: l) 0 R F ltac:(lia)). }
  destruct ts as [|t [|t2 l]]; [rewrite M by discriminate; tauto| |rewrite M by discriminate; tauto]. clear M.
  cbn [frame_decode total_rows] in *. unfold table_job. rewrite Z.add_0_r in *. rewrite mdecode_table_cut by (assumption || lia).
  set (tr := mdecode_table file t names arrs). clearbody tr.
  assert (E : tbind (tmap (t_rows t) (map (cut_col (t_rows t))) tr) (fun _ => tret tt) = tmap (t_rows t) (fun u => u) (tbind tr (fun _ => tret tt))) by (apply tmap_bind; reflexivity).
  rewrite E. destruct (tbind tr (fun _ => tret tt)) as [ops o]. unfold tmap. cbn [fst snd]. replace (omap (fun u : unit => u) o) with o by (destruct o; reflexivity).
  split; intros H; inversion H as [? ? ? ? X|]; subst; constructor; [now rewrite exec_cut in X|now rewrite exec_cut].
Qed.

(** Decoding with any number of threads, for one table or several. *)
Lemma frame_runs file names ts arrs m0 : Forall good arrs -> pairwise_disjoint arrs -> ts <> [] -> Forall (fun t => 0 <= t_rows t) ts ->
  Forall (fun s => s_nelem s = total_rows ts) arrs ->
  (forall i t, nth_error ts i = Some t -> is_ok (decode_target file t names (map (content m0) (target_of arrs ts i))) = true) ->
  exists ms, runs (frame_decode 1 file names ts arrs) m0 (Ok tt) ms /\
    (forall i t, nth_error ts i = Some t ->
       decode_target file t names (map (content m0) (target_of arrs ts i)) = Ok (map (fun s => Some (content ms s)) (target_of arrs ts i))) /\
    (forall x, (forall s, In s arrs -> ~ in_array s x) -> ms x = m0 x) /\
    (forall n, (1 <= n)%nat -> exists m', runs (frame_decode n file names ts arrs) m0 (Ok tt) m') /\
    forall n r m', (1 <= n)%nat -> runs (frame_decode n file names ts arrs) m0 r m' -> r = Ok tt /\ forall x, m' x = ms x.
Proof.
  intros G D N R Ro De. destruct ts as [|t [|t2 l]]; [congruence| |].
  - assert (T : target_of arrs [t] 0 = arrs).
    { unfold target_of. cbn [nth_error firstn total_rows] in *. rewrite <- (map_id arrs) at 2. apply map_ext_in. intros s Hs. rewrite Forall_forall in Ro. specialize (Ro s Hs). cbn beta in Ro.
      destruct s as [b k z st]. unfold part. cbn in *. f_equal; lia. }
    specialize (De 0%nat t eq_refl). rewrite T in De. pose proof (C48_memory file t names arrs m0 G D) as H. cbn beta zeta in H.
    cbn [frame_decode]. unfold table_job.
    destruct (decode_target file t names (map (content m0) arrs)) as [outs|e|] eqn:ED; try discriminate. destruct H as (H1 & ms & X & U & O).
    destruct (mdecode_table file t names arrs) as [ops res]. cbn [fst snd] in *. destruct res as [cs| |]; try discriminate. cbn [tbind tret]. rewrite app_nil_r.
    exists ms. split; [now constructor|]. split; [|split; [exact U|split]].
    + intros [|i] t' E; [|destruct i; discriminate]. injection E as <-. rewrite T, ED. now rewrite O.
    + intros n _. exists ms. now constructor.
    + intros n r m' _ H. inversion H as [? ? ? ? X2|]; subst. rewrite X in X2. injection X2 as <-. auto.
  - assert (DC : decodable file names (t :: t2 :: l) arrs m0).
    { constructor; [exact G|exact D|cbn [length]; lia|exact R| |exact De]. eapply Forall_impl; [|exact Ro]. cbn beta. intros; lia. }
    destruct (C31_threads _ _ _ _ _ DC) as (ms & A & B & C & E). exists ms. split; [exact A|]. split; [exact B|]. split; [exact C|]. split; [|exact E].
    intros n Hn. destruct (Nat.eq_dec n 1) as [->|]; [exists ms; exact A|].
    pose proof (decodable_safe _ _ _ _ _ DC) as SF. pose proof (frame_plan _ _ _ _ _ n SF ltac:(lia)) as P.
    destruct (C31_completes _ _ _ _ _ n _ (start n m0) SF ltac:(lia) P ltac:(constructor)) as (st & S1 & S2).
    assert (Q : runs (frame_decode n file names (t :: t2 :: l) arrs) m0 (joined (p_threads st)) (p_mem st)) by (rewrite P; now constructor).
    destruct (E n _ _ Hn Q) as [J _]. rewrite J in Q. eexists; exact Q.
Qed.
