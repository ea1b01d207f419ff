(** C54: the argument of "odc mdset", and the columns after it. *)
From Coq Require Import String.
From Verif Require Import CsvSpec CsvText Csv Base Fp Stream StreamProofs StreamLocal Codec Meta Header Encoder Table Reader ReadSpec
  ColumnProofs HeaderProofs ReaderProofs TableProofs P_Tables ScanSpec LoadProofs MdSet MdSpec.
Open Scope Z_scope.
Local Notation length := List.length.

(** ** The argument *)

Section Parse.
Variable to_double : list Z -> outcome Z.

Record means (u : update) (ch : change) : Prop := {
  mn_name : u_name u = ch_name ch;
  mn_bits : u_bits u = [];
  mn_type : match ch_type ch with None => given (u_type u) = false
            | Some ty => given (u_type u) = true /\ column_type (u_type u) = Ok ty end;
  mn_value : match ch_value ch with None => given (u_value u) = false
             | Some v => given (u_value u) = true /\ translate to_double (u_value u) = Ok v end
}.

Lemma type_word_ok w ty : type_word w ty -> column_type w = Ok ty /\ given w = true /\ hd 0 w <> 91.
Proof.
  intros (s & Hin & C).
  assert (L : Forall (fun d => 65 <= d <= 90) (str s)).
  { cbn [In] in Hin. repeat (destruct Hin as [Hin|Hin]; [injection Hin as <- <-; apply Forall_forall; intros d Hd; cbn in Hd; intuition lia|]). destruct Hin. }
  assert (H91 : w <> [] -> hd 0 w <> 91).
  { intros N. destruct w as [|c w]; [congruence|]. cbn [hd]. pose proof (capitals_letters _ _ c C L (or_introl eq_refl)). lia. }
  apply upper_iff in C.
  assert (N : w <> []). { intros ->. cbn [In] in Hin. repeat (destruct Hin as [Hin|Hin]; [injection Hin as <- <-; discriminate|]). destruct Hin. }
  assert (Up : upper none_text = none_text) by reflexivity.
  split; [|split; [|exact (H91 N)]].
  - unfold column_type. rewrite C. cbn [In] in Hin.
    repeat (destruct Hin as [Hin|Hin]; [injection Hin as <- <-; reflexivity|]). destruct Hin.
  - unfold given. apply andb_true_iff. split; [destruct w; [congruence|reflexivity]|].
    apply negb_true_iff. apply bytes_eqb_neq. intros ->. rewrite Up in C. clear -Hin C.
    cbn [In] in Hin. repeat (destruct Hin as [Hin|Hin]; [injection Hin as <- <-; discriminate|]). destruct Hin.
Qed.

Lemma last_snoc {A} (l : list A) x d : last (l ++ [x]) d = x.
Proof. induction l as [|a l IH]; [reflexivity|]. cbn [app last]. rewrite IH. destruct (l ++ [x]) eqn:E; [destruct l; discriminate|reflexivity]. Qed.

Lemma quoted_ok w body : quoted w body -> in_quotes w = true /\ unquoted w = body.
Proof.
  intros (q & Hq & ->). assert (I : in_quotes (q :: body ++ [q]) = true).
  { unfold in_quotes. cbn [hd]. change (q :: body ++ [q]) with ((q :: body) ++ [q]) at 2 3. rewrite last_snoc.
    apply andb_true_iff. split; [apply Nat.ltb_lt; cbn [length]; rewrite app_length; cbn; lia|].
    destruct Hq as [-> | ->]; reflexivity. }
  split; [exact I|]. unfold unquoted. rewrite I. cbn [skipn length]. rewrite app_length. cbn [length].
  replace (S (length body + 1) - 2)%nat with (length body) by lia.
  rewrite firstn_app, Nat.sub_diag, firstn_all. cbn. apply app_nil_r.
Qed.

Lemma in_quotes_inv w : in_quotes w = true -> exists body, quoted w body.
Proof.
  unfold in_quotes. intros H. apply andb_true_iff in H as [L H]. apply Nat.ltb_lt in L.
  destruct w as [|q w]; [cbn in L; lia|]. cbn [hd] in H. destruct (@exists_last _ w) as (body & x & ->); [intros ->; cbn in L; lia|].
  change (q :: body ++ [x]) with ((q :: body) ++ [x]) in H. rewrite last_snoc in H. exists body.
  apply orb_true_iff in H as [H|H]; apply andb_true_iff in H as [H1 H2]; apply Z.eqb_eq in H1, H2; subst q x; [exists 34|exists 39]; auto.
Qed.

Lemma value_word_ok w v : value_word to_double w v -> given w = true /\ translate to_double w = Ok v \/ w = [].
Proof.
  intros [body Q L -> |N D NN].
  - left. destruct (quoted_ok w body Q) as [I U]. split.
    + destruct Q as (q & Hq & ->). unfold given. apply andb_true_iff. split; [reflexivity|]. apply negb_true_iff, bytes_eqb_neq.
      unfold none_text. cbn. intros E. injection E as E _. lia.
    + unfold translate. rewrite I, U. unfold cast_as_double. rewrite (proj2 (Nat.leb_le _ _) L). reflexivity.
  - destruct w as [|c w]; [now right|]. left. split.
    + unfold given. apply andb_true_iff. split; [reflexivity|]. apply negb_true_iff, bytes_eqb_neq. exact NN.
    + unfold translate. destruct (in_quotes (c :: w)) eqn:I; [|exact D]. destruct (in_quotes_inv _ I) as (b & Q). now elim (N b).
Qed.

Lemma assignment_ok a ch : assignment to_double a ch -> exists u, parse_assignment a = Ok u /\ means u ch.
Proof.
  intros [nm ty v tt vt (N1 & N2) Ht Hv].
  assert (Lhs : (forall x, In x (nm ++ tt) -> ~ In x [61]) /\ nm ++ tt <> [] /\
                split_text [58] (nm ++ tt) = nm :: match tt with [] => [] | _ :: w => [w] end).
  { split; [|split].
    - intros x Hx [E|[]]. subst x. apply in_app_or in Hx as [Hx|Hx]; [now destruct (N2 _ Hx)|].
      destruct ty as [ty|]; [|now rewrite Ht in Hx]. destruct Ht as (w & -> & (_ & W) & _). destruct Hx as [Hx|Hx]; [lia|]. now destruct (W _ Hx).
    - destruct nm; [congruence|discriminate].
    - destruct ty as [ty|].
      + destruct Ht as (w & -> & (W1 & W2) & _). rewrite split_at; [|exact N1| |now left].
        * rewrite split_one; [reflexivity|exact W1|]. intros x Hx [E|[]]. subst x. now destruct (W2 _ Hx) as (_ & ? & _).
        * intros x Hx [E|[]]. subst x. now destruct (N2 _ Hx) as (_ & ? & _).
      + rewrite Ht, app_nil_r. apply split_one; [exact N1|]. intros x Hx [E|[]]. subst x. now destruct (N2 _ Hx) as (_ & ? & _). }
  destruct Lhs as (L1 & L2 & L3).
  assert (Sp : split_text [61] (nm ++ tt ++ vt) = (nm ++ tt) :: match vt with [] => [] | _ :: w => [w] end).
  { rewrite app_assoc. destruct v as [v|].
    - destruct Hv as (w & -> & W & Wn & _). rewrite split_at; [|exact L2|exact L1|now left].
      rewrite split_one; [reflexivity|exact Wn|]. intros x Hx [E|[]]. subst x. now destruct (W _ Hx).
    - rewrite Hv, app_nil_r. now apply split_one. }
  assert (G0 : given none_text = false) by reflexivity.
  unfold parse_assignment. rewrite Sp, L3.
  assert (B : forall t, hd 0 t <> 91 -> bit_members t = Ok []).
  { intros [|c t] H; [reflexivity|]. cbn [hd] in H. unfold bit_members. now rewrite (proj2 (Z.eqb_neq c 91) H). }
  destruct ty as [ty|]; [destruct Ht as (w & -> & _ & Tw); destruct (type_word_ok _ _ Tw) as (T1 & T2 & T3); rewrite (B w T3)
                        |rewrite Ht; rewrite (B none_text) by discriminate];
  (destruct v as [v|]; [destruct Hv as (w' & -> & _ & Wn & Vw); destruct (value_word_ok _ _ Vw) as [[V1 V2]|]; [|congruence]
                       |rewrite Hv]); cbn [bind]; eexists; (split; [reflexivity|]); split; cbn; auto.
Qed.

Lemma assignment_commas a ch : assignment to_double a ch -> a <> [] /\ forall x, In x a -> ~ In x [44].
Proof.
  intros [nm ty v tt vt (N1 & N2) Ht Hv]. split; [destruct nm; [congruence|discriminate]|].
  intros x Hx [E|[]]. subst x. apply in_app_or in Hx as [Hx|Hx]; [now destruct (N2 _ Hx)|].
  apply in_app_or in Hx as [Hx|Hx].
  - destruct ty as [ty|]; [|now rewrite Ht in Hx]. destruct Ht as (w & -> & (_ & W) & _). destruct Hx as [Hx|Hx]; [lia|]. now destruct (W _ Hx).
  - destruct v as [v|]; [|now rewrite Hv in Hx]. destruct Hv as (w & -> & W & _). destruct Hx as [Hx|Hx]; [lia|]. now destruct (W _ Hx).
Qed.

Theorem asks_ok arg chs : asks to_double arg chs -> exists us, parse_md_updates arg = Ok us /\ Forall2 means us chs.
Proof.
  unfold parse_md_updates. induction 1 as [a ch A|a ch arg chs A _ (us & E & F)].
  - destruct (assignment_commas _ _ A) as [N C]. rewrite split_one by assumption.
    destruct (assignment_ok _ _ A) as (u & E & M). cbn [map_out]. rewrite E. cbn [bind]. exists [u]. auto.
  - destruct (assignment_commas _ _ A) as [N C]. rewrite split_at by (assumption || now left).
    destruct (assignment_ok _ _ A) as (u & E' & M). cbn [map_out]. rewrite E'. cbn [bind]. rewrite E. cbn [bind]. exists (u :: us). auto.
Qed.

(** What the values and the types can be. *)
Definition sane (ch : change) : Prop :=
  (forall v, ch_value ch = Some v -> is64 v) /\ (forall ty, ch_type ch = Some ty -> - 2 ^ 31 <= ty < 2 ^ 31).

Lemma asks_sane arg chs : (forall w v, to_double w = Ok v -> is64 v) -> bytes_ok arg -> asks to_double arg chs -> Forall sane chs.
Proof.
  intros D.
  assert (One : forall a ch, bytes_ok a -> assignment to_double a ch -> sane ch).
  { intros a ch B A. revert B. destruct A as [nm ty v tt vt _ Ht Hv]. intros B. split; cbn.
    - intros x ->. destruct Hv as (w & -> & _ & _ & [body Q L -> |_ E _]); [|eauto].
      apply bytes_ok_app in B as [_ B]. apply bytes_ok_app in B as [_ B]. destruct Q as (q & _ & ->).
      apply le_val_64; [rewrite app_length, repeat_length; lia|]. apply bytes_ok_app. split.
      + unfold bytes_ok. apply Forall_forall. intros y Hy. apply repeat_spec in Hy. subst y. vm_compute. split; congruence.
      + inversion B as [|? ? _ B1]; subst. inversion B1 as [|? ? _ B2]; subst. now apply bytes_ok_app in B2.
    - intros x ->. destruct Ht as (w & -> & _ & (s & Hin & _)). cbn [In] in Hin.
      repeat (destruct Hin as [Hin|Hin]; [injection Hin as _ <-; vm_compute; split; congruence|]). destruct Hin. }
  intros B K. revert B. induction K as [a ch A|a ch arg chs A _ IH]; intros B.
  - constructor; [|constructor]. eauto.
  - apply bytes_ok_app in B as [B1 B2]. inversion B2; subst. constructor; eauto.
Qed.
End Parse.

(** ** The columns *)

Lemma calls_matches nm : forall full, calls nm full = name_matches full nm.
Proof.
  induction nm as [|a nm IH]; intros full.
  - destruct full as [|b full]; reflexivity.
  - destruct full as [|b full]; [reflexivity|]. cbn [calls]. rewrite IH. unfold name_matches. cbn [starts_with length nth].
    now rewrite !andb_assoc.
Qed.

Lemma calls_positions cs nm i : positions cs nm i <-> exists c, nth_error cs i = Some c /\ calls nm (col_name c) = true.
Proof.
  unfold positions. split; intros (c & E & H); exists c; (split; [exact E|]).
  - rewrite calls_matches. now apply name_matches_called.
  - apply name_matches_called. now rewrite <- calls_matches.
Qed.

Definition value_set (k : codec) (v : Z) : codec := set_stats k (c_hasMissing k) v v (c_missing k).

Definition step (ch : change) (c : column) : column :=
  if calls (ch_name ch) (col_name c) then
    {| col_name := col_name c; col_type := or_else (ch_type ch) (col_type c); col_bfnames := col_bfnames c;
       col_bfsizes := col_bfsizes c;
       col_coder := match ch_value ch with Some v => value_set (col_coder c) v | None => col_coder c end |}
  else c.

Definition steps (chs : list change) (c : column) : column := fold_left (fun c ch => step ch c) chs c.

Lemma step_name ch c : col_name (step ch c) = col_name c.
Proof. unfold step. destruct (calls _ _); reflexivity. Qed.

Lemma step_kind ch c : c_kind (col_coder (step ch c)) = c_kind (col_coder c).
Proof. unfold step. destruct (calls _ _); [|reflexivity]. destruct (ch_value ch); reflexivity. Qed.

Lemma constant_text k : contains (str "constant") (kname k) = true <-> constant_kind k.
Proof. unfold constant_kind. destruct k; vm_compute; intuition (congruence || discriminate). Qed.

Lemma set_step (cs : list column) i c ch : nth_error cs i = Some c ->
  (forall j c', nth_error cs j = Some c' -> calls (ch_name ch) (col_name c') = true <-> j = i) ->
  list_set cs i (step ch c) = map (step ch) cs.
Proof.
  intros E U. apply nth_ext_error. intros j. rewrite nth_error_map.
  assert (Li : (i < length cs)%nat) by (apply nth_error_Some; congruence).
  destruct (Nat.eq_dec j i) as [-> |Nj].
  - rewrite nth_error_list_set by exact Li. rewrite Nat.eqb_refl. now rewrite E.
  - rewrite nth_error_list_set by exact Li. rewrite (proj2 (Nat.eqb_neq j i) Nj).
    destruct (nth_error cs j) as [c'|] eqn:E'; [|reflexivity]. cbn. f_equal. unfold step.
    destruct (calls (ch_name ch) (col_name c')) eqn:C; [|reflexivity]. exfalso. apply Nj, (U j c' E'). exact C.
Qed.

Lemma column_eta c : c = {| col_name := col_name c; col_type := col_type c; col_bfnames := col_bfnames c;
  col_bfsizes := col_bfsizes c; col_coder := col_coder c |}.
Proof. destruct c; reflexivity. Qed.

Section Columns.
Variable to_double : list Z -> outcome Z.

Lemma update_column_ok u ch c : means to_double u ch -> calls (ch_name ch) (col_name c) = true ->
  (ch_value ch <> None -> constant_kind (c_kind (col_coder c))) -> update_column to_double u c = Ok (step ch c).
Proof.
  intros [_ B T V] C K. unfold update_column, step. rewrite C, B.
  assert (T1 : (if given (u_type u) then
              do ty <- column_type (u_type u);
              Ok {| col_name := col_name c; col_type := ty; col_bfnames := col_bfnames c;
                    col_bfsizes := col_bfsizes c; col_coder := col_coder c |}
            else Ok c) = Ok {| col_name := col_name c; col_type := or_else (ch_type ch) (col_type c); col_bfnames := col_bfnames c;
                    col_bfsizes := col_bfsizes c; col_coder := col_coder c |}).
  { destruct (ch_type ch) as [ty|]; [destruct T as [T1 T2]; rewrite T1, T2; reflexivity|]. rewrite T. cbn [or_else]. f_equal. apply column_eta. }
  rewrite T1. cbn [bind]. destruct (ch_value ch) as [v|].
  - destruct V as [V1 V2]. rewrite V1. cbn [col_coder].
    rewrite (proj2 (constant_text _)) by (apply K; discriminate). rewrite V2. reflexivity.
  - rewrite V. reflexivity.
Qed.

Lemma not_constant u ch c v : means to_double u ch -> ch_value ch = Some v ->
  ~ constant_kind (c_kind (col_coder c)) -> update_column to_double u c = Throw UserError.
Proof.
  intros [_ B T V] E K. unfold update_column. rewrite B, E in *. destruct V as [V1 V2].
  assert (N : contains (str "constant") (kname (c_kind (col_coder c))) = false).
  { destruct (contains _ _) eqn:X; [|reflexivity]. apply constant_text in X. contradiction. }
  destruct (ch_type ch) as [ty|].
  - destruct T as [T1 T2]. rewrite T1, T2. cbn [bind]. rewrite V1. cbn [col_coder]. now rewrite N.
  - rewrite T. cbn [bind]. rewrite V1. now rewrite N.
Qed.

Lemma fits_index cs ch : fits cs ch -> exists i c, column_index cs (ch_name ch) = Ok (Z.of_nat i) /\ nth_error cs i = Some c /\
  (forall j c', nth_error cs j = Some c' -> calls (ch_name ch) (col_name c') = true <-> j = i) /\
  calls (ch_name ch) (col_name c) = true /\ (ch_value ch <> None -> constant_kind (c_kind (col_coder c))).
Proof.
  intros (i & c & E & U & K). exists i, c. split.
  - apply (C39_column_index cs (ch_name ch)). split; [lia|]. intros j. rewrite calls_positions. split.
    + intros (c' & E' & C). apply (U j c' E') in C. lia.
    + intros J. assert (j = i) by lia. subst j. exists c. split; [exact E|]. now apply (U i c E).
  - split; [exact E|]. split; [exact U|]. split; [now apply (U i c E)|exact K].
Qed.

Lemma fits_step cs ch ch' : fits cs ch -> fits (map (step ch') cs) ch.
Proof.
  intros (i & c & E & U & K). exists i, (step ch' c). split; [now rewrite nth_error_map, E|]. split.
  - intros j c' E'. rewrite nth_error_map in E'. destruct (nth_error cs j) as [c0|] eqn:E0; [|discriminate]. cbn in E'.
    injection E' as <-. rewrite step_name. now apply U.
  - intros N. rewrite step_kind. now apply K.
Qed.

Theorem update_columns_ok : forall us chs, Forall2 (means to_double) us chs -> forall cs, Forall (fits cs) chs ->
  update_columns to_double us cs = Ok (map (steps chs) cs).
Proof.
  induction 1 as [|u ch us chs M _ IH]; intros cs F; cbn [update_columns].
  - f_equal. symmetry. apply map_id.
  - inversion F as [|? ? F1 F2]; subst. destruct (fits_index cs ch F1) as (i & c & I & E & U & C & K).
    destruct M as [M1 M2 M3 M4] eqn:HM. rewrite M1, I. cbn [bind]. rewrite Nat2Z.id, E.
    rewrite (update_column_ok u ch c M C K). cbn [bind]. rewrite (set_step cs i c ch E U). rewrite IH.
    + f_equal. rewrite map_map. reflexivity.
    + eapply Forall_impl; [|exact F2]. intros x Hx. now apply fits_step.
Qed.

Lemma misfit_step cs ch ch' e : misfit cs ch e -> misfit (map (step ch') cs) ch e.
Proof.
  intros [(-> & H)|[(-> & i & j & c & c' & N & E & E' & C & C')|(-> & V & i & c & E & U & K)]].
  - left. split; [reflexivity|]. intros j c E. rewrite nth_error_map in E. destruct (nth_error cs j) as [c0|] eqn:E0; [|discriminate].
    cbn in E. injection E as <-. rewrite step_name. eauto.
  - right. left. split; [reflexivity|]. exists i, j, (step ch' c), (step ch' c'). rewrite !nth_error_map, E, E', !step_name. auto.
  - right. right. split; [reflexivity|]. split; [exact V|]. exists i, (step ch' c). split; [now rewrite nth_error_map, E|]. split.
    + intros j c' E'. rewrite nth_error_map in E'. destruct (nth_error cs j) as [c0|] eqn:E0; [|discriminate]. cbn in E'.
      injection E' as <-. rewrite step_name. now apply U.
    + now rewrite step_kind.
Qed.

Theorem update_columns_misfit e : forall us chs, Forall2 (means to_double) us chs -> forall cs good bad rest, chs = good ++ bad :: rest ->
  Forall (fits cs) good -> misfit cs bad e -> update_columns to_double us cs = Throw e.
Proof.
  induction 1 as [|u ch us chs M _ IH]; intros cs good bad rest Ec G B; [destruct good; discriminate|]. cbn [update_columns].
  destruct good as [|g good]; cbn [app] in Ec.
  - injection Ec as -> Ec. pose proof M as [M1 _ _ _]. rewrite M1.
    destruct B as [(-> & H)|[(-> & i & j & c & c' & N & E & E' & C & C')|(-> & V & i & c & E & U & K)]].
    + replace (column_index cs (ch_name bad)) with (@Throw Z ColumnNotFound); [reflexivity|]. symmetry.
      apply (C39_column_index cs (ch_name bad)). intros j P. apply calls_positions in P as (c & E & C). rewrite (H j c E) in C. discriminate.
    + replace (column_index cs (ch_name bad)) with (@Throw Z AmbiguousColumn); [reflexivity|]. symmetry.
      apply (C39_column_index cs (ch_name bad)). exists i, j. rewrite !calls_positions. eauto 10.
    + replace (column_index cs (ch_name bad)) with (Ok (Z.of_nat i)).
      * cbn [bind]. rewrite Nat2Z.id, E. destruct (ch_value bad) as [v|] eqn:Ev; [|congruence].
        rewrite (not_constant u bad c v M Ev K). reflexivity.
      * symmetry. apply (C39_column_index cs (ch_name bad)). split; [lia|]. intros j. rewrite calls_positions. split.
        -- intros (c' & E' & C). apply (U j c' E') in C. lia.
        -- intros J. assert (j = i) by lia. subst j. exists c. split; [exact E|]. now apply (U i c E).
  - injection Ec as -> Ec. inversion G as [|? ? F1 F2]; subst. destruct (fits_index cs g F1) as (i & c & I & E & U & C & K).
    pose proof M as [M1 _ _ _]. rewrite M1, I. cbn [bind]. rewrite Nat2Z.id, E.
    rewrite (update_column_ok u g c M C K). cbn [bind]. rewrite (set_step cs i c g E U).
    eapply IH; [reflexivity| |].
    + eapply Forall_impl; [|exact F2]. intros x Hx. now apply fits_step.
    + now apply misfit_step.
Qed.
End Columns.

(** All the steps at once. *)
Lemma said_from {A} (f : change -> option A) chs full : forall r,
  fold_left (fun r ch => if calls (ch_name ch) full then match f ch with Some x => Some x | None => r end else r) chs r =
  match said f chs full with Some x => Some x | None => r end.
Proof.
  unfold said. induction chs as [|ch chs IH]; intros r; [reflexivity|]. cbn [fold_left]. rewrite IH, (IH (if calls _ _ then _ else _)).
  destruct (fold_left _ chs None); [reflexivity|]. destruct (calls _ _); [|reflexivity]. destruct (f ch); reflexivity.
Qed.

Lemma said_cons {A} (f : change -> option A) ch chs full : said f (ch :: chs) full =
  match said f chs full with Some x => Some x | None => if calls (ch_name ch) full then f ch else None end.
Proof.
  unfold said at 1. cbn [fold_left]. rewrite said_from. destruct (said f chs full); [reflexivity|].
  destruct (calls _ _); [|reflexivity]. destruct (f ch); reflexivity.
Qed.

Theorem steps_said : forall chs c, steps chs c =
  {| col_name := col_name c; col_type := or_else (said ch_type chs (col_name c)) (col_type c);
     col_bfnames := col_bfnames c; col_bfsizes := col_bfsizes c;
     col_coder := match said ch_value chs (col_name c) with Some v => value_set (col_coder c) v | None => col_coder c end |}.
Proof.
  induction chs as [|ch chs IH]; intros c; [exact (column_eta c)|].
  change (steps (ch :: chs) c) with (steps chs (step ch c)). rewrite IH, !said_cons, step_name. unfold step.
  destruct (calls (ch_name ch) (col_name c)); cbn [col_name col_type col_bfnames col_bfsizes col_coder].
  - f_equal.
    + destruct (said ch_type chs (col_name c)); reflexivity.
    + destruct (said ch_value chs (col_name c)); [|reflexivity]. destruct (ch_value ch); reflexivity.
  - f_equal.
    + destruct (said ch_type chs (col_name c)); reflexivity.
    + destruct (said ch_value chs (col_name c)); reflexivity.
Qed.
