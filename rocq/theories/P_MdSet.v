(** C54: rewriting the headers of a file ("odc mdset"). *)
From Coq Require Import String.
From Verif Require Import Spec CsvSpec CsvText Csv Base Fp Stream StreamProofs StreamLocal Codec Meta Header Encoder Table Reader ReadSpec
  ColumnProofs HeaderProofs ReaderProofs TableProofs StringProofs P_Reader P_Tables P_Scan ScanSpec Through LoadProofs MdSet MdProofs MdSpec.
Open Scope Z_scope.
Local Notation length := List.length.

(** ** The loop writes the tables that a sequential read finds *)

Section Loop.
Variable md5 : list Z -> list Z.
Variable st : settings.
Variable est : Z.
Variable file : list Z.
Variable to_double : list Z -> outcome Z.
Variable us : list update.

Fixpoint emit (ts : list table) (e : ending) : list Z * outcome unit :=
  match ts with
  | [] => ([], finish e tt)
  | t :: ts' => match set_table md5 to_double us file t with
                | Ok b => let (bs, r) := emit ts' e in (b ++ bs, r)
                | Throw x => ([], Throw x)
                | UB => ([], UB)
                end
  end.

Lemma set_tables_read : forall fuel ts t tables e,
  read_tables md5 st est file fuel (ts ++ [t]) = (tables, e) -> e <> OutOfFuel ->
  set_tables md5 st est to_double (S fuel) us file (ts ++ [t]) (Z.of_nat (length ts)) = emit (skipn (length ts) tables) e.
Proof.
  induction fuel as [|fuel IH]; intros ts t tables e H Ne; cbn [read_tables] in H.
  { injection H as _ <-. now elim Ne. }
  set (f := S fuel) in *. cbn [set_tables].
  destruct (Z.eqb_spec (Z.of_nat (length ts)) (-1)); [lia|].
  unfold iter_get. destruct (Z.ltb_spec (Z.of_nat (length ts)) 0); [lia|]. rewrite Nat2Z.id.
  rewrite nth_error_app2, Nat.sub_diag by lia. cbn [nth_error bind].
  unfold iter_next. replace (Z.of_nat (length ts) + 1) with (Z.of_nat (length (ts ++ [t]))) by (rewrite app_length; cbn; lia).
  pose proof (ensure_new md5 st est file (ts ++ [t])) as N.
  assert (Sk : skipn (length ts) (ts ++ [t]) = [t]) by (now rewrite skipn_app, skipn_all, Nat.sub_diag).
  destruct (ensure_table md5 st est file (ts ++ [t]) (Z.of_nat (length (ts ++ [t])))) as [[[|] ts']|x|]; cbn [bind].
  - destruct N as [t' ->]. rewrite (IH (ts ++ [t]) t' tables e H Ne).
    destruct (read_tables_extends _ _ _ _ _ _ _ _ H) as [more ->]. rewrite <- !app_assoc.
    rewrite !skipn_app, skipn_all, Nat.sub_diag. cbn [skipn app]. rewrite app_length. cbn [length].
    rewrite skipn_all2 by lia. cbn [app]. replace (length ts + 1 - length ts)%nat with 1%nat by lia. cbn [skipn app].
    cbn [emit]. destruct (set_table md5 to_double us file t) as [b|x|]; reflexivity.
  - injection H as <- <-. unfold f. rewrite Sk. cbn [set_tables emit finish].
    destruct (set_table md5 to_double us file t); reflexivity.
  - injection H as <- <-. rewrite Sk. cbn [emit finish]. destruct (set_table md5 to_double us file t); [now rewrite app_nil_r|reflexivity|reflexivity].
  - injection H as <- <-. rewrite Sk. cbn [emit finish]. destruct (set_table md5 to_double us file t); [now rewrite app_nil_r|reflexivity|reflexivity].
Qed.

Lemma mdset_read fuel tables e : read_tables md5 st est file fuel [] = (tables, e) -> e <> OutOfFuel ->
  mdset_file md5 st est to_double fuel us file = emit tables e.
Proof.
  intros H Ne. destruct fuel as [|fuel]; cbn [read_tables] in H.
  { injection H as _ <-. now elim Ne. }
  unfold mdset_file, open_reader. change (Z.of_nat (length (@nil table))) with 0 in H. pose proof (ensure_new md5 st est file []) as N.
  change (Z.of_nat (length (@nil table))) with 0 in N.
  destruct (ensure_table md5 st est file [] 0) as [[[|] ts']|x|]; cbn [bind r_tables r_pos].
  - destruct N as [t ->]. cbn [app] in *. exact (set_tables_read fuel [] t tables e H Ne).
  - injection H as <- <-. reflexivity.
  - injection H as <- <-. reflexivity.
  - injection H as <- <-. reflexivity.
Qed.
End Loop.

(** ** One frame *)

Definition body_of (f : list Z) (t : table) : list Z := skipn (Z.to_nat (t_data t)) f.

Lemma frame_body md5 st f t pre post : frame md5 st f t ->
  read_encoded (pre ++ f ++ post) false (moved (Z.of_nat (length pre)) t) = Ok (body_of f t) /\ Z.of_nat (length (body_of f t)) = t_size t.
Proof.
  intros F. destruct (frame_shape md5 st f t F) as (hb & body & h & Ef & L & _ & _ & _ & T).
  assert (B : body_of f t = body).
  { unfold body_of. rewrite T, Ef. cbn [t_data]. rewrite app_assoc.
    replace (Z.to_nat (5 + Z.of_nat (length hb))) with (length (([255; 255] ++ oda) ++ hb)).
    - rewrite skipn_app, skipn_all, Nat.sub_diag. reflexivity.
    - rewrite app_length. change (length ([255; 255] ++ oda)) with 5%nat. lia. }
  rewrite B. assert (Ts : t_size t = Z.of_nat (length body)) by (now rewrite T). split; [|now rewrite Ts].
  unfold read_encoded, read_range. cbn [moved t_data t_size]. rewrite Ts.
  destruct (Z.ltb_spec (Z.of_nat (length body)) 0); [lia|]. unfold from.
  assert (Td : t_data t = 5 + Z.of_nat (length hb)) by (now rewrite T).
  replace (Z.to_nat (t_data t + Z.of_nat (length pre))) with (length (pre ++ (([255; 255] ++ oda) ++ hb))).
  2:{ rewrite !app_length. change (length oda) with 3%nat. cbn [length]. lia. }
  assert (E : pre ++ f ++ post = (pre ++ (([255; 255] ++ oda) ++ hb)) ++ body ++ post).
  { rewrite Ef. now rewrite <- !app_assoc. }
  rewrite E. rewrite skipn_app, skipn_all, Nat.sub_diag. cbn [skipn app]. rewrite Nat2Z.id.
  rewrite firstn_app, Nat.sub_diag, firstn_all. cbn [firstn]. rewrite app_nil_r.
  destruct (Z.ltb_spec (Z.of_nat (length body)) (Z.of_nat (length body))); [lia|reflexivity].
Qed.

Lemma frame_loaded md5 st f t : frame md5 st f t -> bytes_ok f ->
  Forall (loaded st (t_order t)) (t_cols t) /\ len31 (t_cols t) /\ props_ok (t_props t) /\ int64 (t_size t) /\ 0 <= t_rows t.
Proof.
  intros F B. destruct (frame_shape md5 st f t F) as (hb & body & h & Ef & L & L1 & _ & D & T).
  rewrite Ef in B. apply bytes_ok_app in B as [_ B]. apply bytes_ok_app in B as [B _].
  destruct (loaded_header md5 st (hb ++ []) h [] (L1 [])) as (H1 & H2 & H3 & H4 & H5); [now rewrite app_nil_r|].
  rewrite T. cbn [t_order t_cols t_props t_size t_rows]. rewrite <- D. split; [exact H1|]. split; [exact H2|]. split; [exact H3|].
  split; [exact H4|]. apply Z.mod_pos_bound. lia.
Qed.

(** [reload_of] a codec with another value, for another type. *)
Lemma reload_fields i ty ty' k : reload_of i ty k = k -> reload_of i ty' k =
  {| c_kind := c_kind k; c_int64 := c_int64 (new_codec i (c_ord k) (c_kind k) ty'); c_ord := c_ord k; c_hasMissing := c_hasMissing k; c_missing := c_missing k;
     c_min := c_min k; c_max := c_max k; c_seenFltMin := false; c_seenFltMax := false; c_strings := c_strings k; c_lookup := []; c_dsd := c_dsd k |}.
Proof.
  intros H. assert (S : c_strings (reload_of i ty k) = c_strings k) by (now rewrite H).
  assert (D : c_dsd (reload_of i ty k) = c_dsd k) by (now rewrite H).
  unfold reload_of in S, D |- *. clear H. destruct (c_kind k) eqn:K; cbn [set_strings set_stats new_codec c_strings c_dsd] in S, D;
    unfold set_strings, set_stats, new_codec; cbn [c_kind c_int64 c_ord c_hasMissing c_missing c_min c_max c_seenFltMin c_seenFltMax c_strings c_lookup c_dsd];
    try rewrite D; try rewrite S; try rewrite <- S; try rewrite <- D; reflexivity.
Qed.

Lemma reload_value i ty k v : reload_of i ty k = k -> reload_of i ty (value_set k v) = value_set k v.
Proof.
  intros H. rewrite <- H at 2. unfold reload_of, value_set. cbn [set_stats c_kind c_strings c_ord c_hasMissing c_min c_max c_missing].
  destruct (c_kind k); reflexivity.
Qed.

Lemma codec_ok_type i ty ty' k : codec_ok i ty k -> (i = true \/ (integral ty' -> integral ty)) -> codec_ok i ty' k.
Proof.
  intros [A1 A2 A3 A4 A5 A6 A7] H. split; try assumption. intros N. specialize (A7 N). unfold check_cast in *. cbn [new_codec c_kind c_int64] in *.
  destruct (base_integer (c_kind k)); [|reflexivity]. cbn [andb] in *.
  destruct H as [-> |H]; [now rewrite andb_false_r|].
  destruct (int_built (c_kind k)); [|reflexivity]. cbn [andb] in *.
  destruct ((ty' =? ty_INTEGER) || (ty' =? ty_BITFIELD)) eqn:E; [|reflexivity].
  assert (I : integral ty). { apply H. apply orb_true_iff in E as [E|E]; apply Z.eqb_eq in E; [left|right]; exact E. }
  replace ((ty =? ty_INTEGER) || (ty =? ty_BITFIELD)) with true in A7 by (symmetry; destruct I as [-> | ->]; reflexivity). exact A7.
Qed.

Lemma codec_ok_value i ty k v : codec_ok i ty k -> is64 v -> codec_ok i ty (value_set k v).
Proof. intros [A1 A2 A3 A4 A5 A6 A7] H. split; try assumption. Qed.

Lemma said_type chs full : Forall sane chs -> forall ty, said ch_type chs full = Some ty -> - 2 ^ 31 <= ty < 2 ^ 31.
Proof.
  induction 1 as [|ch chs [_ S] _ IH]; intros ty E; [discriminate|]. rewrite said_cons in E. destruct (said ch_type chs full).
  - injection E as ->. now apply IH.
  - destruct (calls _ _); [eauto|discriminate].
Qed.
Lemma said_value chs full : Forall sane chs -> forall v, said ch_value chs full = Some v -> is64 v.
Proof.
  induction 1 as [|ch chs [S _] _ IH]; intros ty E; [discriminate|]. rewrite said_cons in E. destruct (said ch_value chs full).
  - injection E as ->. now apply IH.
  - destruct (calls _ _); [eauto|discriminate].
Qed.

(** What a reader finds in place of column [c]. *)
Definition found (st : settings) (chs : list change) (c : column) : column :=
  reload_column (steps chs c) (reload_of (iad st) (col_type (steps chs c)) (col_coder (steps chs c))).

Section Column.
Variable st : settings.
Variable chs : list change.
Hypothesis S : Forall sane chs.

Lemma found_reloads o c : loaded st o c -> (iad st = true \/ (integral (or_else (said ch_type chs (col_name c)) (col_type c)) -> integral (col_type c))) ->
  col_reloads st o (steps chs c) (found st chs c).
Proof using S.
  intros [C K O _ _ Bt] R. exists (reload_of (iad st) (col_type (steps chs c)) (col_coder (steps chs c))).
  rewrite steps_said. cbn [col_type col_coder]. set (ty := or_else _ _) in *.
  assert (Ck : codec_ok (iad st) ty (match said ch_value chs (col_name c) with Some v => value_set (col_coder c) v | None => col_coder c end)).
  { pose proof (codec_ok_type _ _ ty _ K R) as K'. destruct (said ch_value chs (col_name c)) as [v|] eqn:E; [|exact K'].
    apply codec_ok_value; [exact K'|]. eapply said_value; eassumption. }
  split; [|split; [|unfold found; now rewrite steps_said]].
  - destruct C as [C1 C2 C3]. split; cbn [col_name col_type col_bfnames col_bfsizes]; [exact C1| |].
    + unfold ty. destruct (said ch_type chs (col_name c)) eqn:E; cbn [or_else]; [|exact C2]. eapply said_type; eassumption.
    + intros Ety. destruct (Z.eq_dec (col_type c) ty_BITFIELD) as [E|E]; [now apply C3|]. destruct (Bt E) as [-> ->].
      split; [reflexivity|]. split; [vm_compute; reflexivity|]. split; constructor.
  - apply reloads_again; [exact Ck|]. destruct (said ch_value chs (col_name c)); exact O.
Qed.

Lemma tidy_same k : tidy k -> LoadProofs.tidy k.
Proof using.
  intros H I. rewrite (H I). unfold table_doubles. enough (X : forall ss d, 1 <= d -> fold_left (fun d t => Z.max d ((Z.of_nat (length t) + 7) / 8)) ss d =
    fold_left (fun d t => Z.max d (string_doubles t)) ss d) by (apply X; lia).
  induction ss as [|t ss IH]; intros d Hd; [reflexivity|]. cbn [fold_left]. unfold string_doubles at 2.
  replace (Z.max d (Z.max 1 ((Z.of_nat (length t) + 7) / 8))) with (Z.max d ((Z.of_nat (length t) + 7) / 8)) by lia.
  apply IH. lia.
Qed.

Lemma found_after o c : loaded st o c -> tidy (col_coder c) -> column_after chs c (found st chs c).
Proof using.
  intros [C K O I R Bt] T. specialize (R (tidy_same _ T)).
  assert (R' : reload_of (iad st) (col_type c) (col_coder (steps chs c)) = col_coder (steps chs c)).
  { rewrite steps_said. cbn [col_coder]. destruct (said ch_value chs (col_name c)); [now apply reload_value|exact R]. }
  unfold found. pose proof (reload_fields _ _ (col_type (steps chs c)) _ R') as E. rewrite E. clear E R'.
  rewrite steps_said. unfold reload_column. cbn [col_name col_type col_bfnames col_bfsizes col_coder].
  set (k := match said ch_value chs (col_name c) with Some v => value_set (col_coder c) v | None => col_coder c end).
  assert (Kf : c_kind k = c_kind (col_coder c) /\ c_hasMissing k = c_hasMissing (col_coder c) /\ c_missing k = c_missing (col_coder c) /\
               c_strings k = c_strings (col_coder c) /\ c_dsd k = c_dsd (col_coder c) /\ c_ord k = c_ord (col_coder c) /\
               c_min k = or_else (said ch_value chs (col_name c)) (c_min (col_coder c)) /\
               c_max k = or_else (said ch_value chs (col_name c)) (c_max (col_coder c))).
  { unfold k. destruct (said ch_value chs (col_name c)); cbn; auto 10. }
  destruct Kf as (K1 & K2 & K3 & K4 & K5 & K6 & K7 & K8).
  split; cbn [col_name col_type col_bfnames col_bfsizes col_coder c_kind c_int64 c_ord c_hasMissing c_missing c_min c_max c_strings c_dsd]; auto.
  - intros ->. rewrite Z.eqb_refl. auto.
  - intros N. rewrite (proj2 (Z.eqb_neq _ _) N). auto.
  - intros ->. cbn [or_else]. rewrite I, K1, K6, O. reflexivity.
Qed.
End Column.

(** One table: what is written for it is a frame again. *)
Section OneFrame.
Variable md5 : list Z -> list Z.
Variable st : settings.
Variable to_double : list Z -> outcome Z.
Variable us : list update.
Variable chs : list change.
Hypothesis Hmd : digest md5.
Hypothesis S : Forall sane chs.
Hypothesis M : Forall2 (means to_double) us chs.

Lemma set_frame f t pre post : frame md5 st f t -> bytes_ok f -> suits st chs t ->
  exists f', set_table md5 to_double us (pre ++ f ++ post) (moved (Z.of_nat (length pre)) t) = Ok f' /\
    (Z.of_nat (length f') - t_size t < 2 ^ 31 -> exists t', frame md5 st f' t' /\ frame_after chs f t f' t').
Proof using All.
  intros F B [Fi Ty Ti Ro]. destruct (frame_body md5 st f t pre post F) as [R Sz].
  destruct (frame_loaded md5 st f t F B) as (Lc & Ln & Pr & Si & Rp).
  unfold set_table. cbn [moved t_cols t_size t_order t_rows t_props]. fold (moved (Z.of_nat (length pre)) t).
  rewrite (update_columns_ok to_double us chs M _ Fi). cbn [bind]. rewrite R. cbn [bind]. rewrite Sz, Z.eqb_refl. cbn [assert bind].
  assert (Rl : Forall2 (col_reloads st (t_order t)) (map (steps chs) (t_cols t)) (map (found st chs) (t_cols t))).
  { apply Forall2_map. intros c Hc. rewrite Forall_forall in Lc. apply found_reloads; [exact S|now apply Lc|].
    destruct Ty as [Ty|Ty]; [now left|right]. now apply Ty. }
  assert (Hr : int64 (t_rows t)) by (unfold int64; lia).
  assert (Hl' : len31 (map (steps chs) (t_cols t))) by (unfold len31 in *; now rewrite map_length).
  destruct (load_serialized md5 Hmd st (t_order t) (t_size t) (t_rows t) (t_props t) _ _ Si Hr Pr Hl' Rl) as (h & E & Ld).
  rewrite E. cbn [bind]. eexists. split; [reflexivity|]. rewrite app_length. intros Hl.
  destruct (Ld ltac:(lia) (body_of f t)) as (s & Mg & La).
  assert (T : read_table md5 st 0 (h ++ body_of f t) 0 = Ok (Some {| t_start := 0; t_data := Z.of_nat (length h); t_next := Z.of_nat (length (h ++ body_of f t));
     t_size := t_size t; t_order := t_order t; t_props := t_props t; t_cols := map (found st chs) (t_cols t); t_rows := t_rows t |})).
  { unfold read_table, from. change (Z.to_nat 0) with 0%nat. cbn [skipn]. rewrite Mg. cbn [bind]. rewrite La. cbn [bind h_dataSize h_order h_rows h_props h_cols].
    rewrite andb_comm. cbn [negb Z.eqb andb]. rewrite app_length. rewrite Z.mod_small by lia.
    do 3 f_equal; try lia. }
  eexists. split; [split; [exact T|reflexivity]|]. split; cbn [t_order t_props t_rows t_size t_data t_cols]; try reflexivity.
  - rewrite Nat2Z.id, skipn_app, skipn_all, Nat.sub_diag. reflexivity.
  - rewrite <- (map_id (t_cols t)) at 1. apply Forall2_map. intros c Hc. rewrite Forall_forall in Lc, Ti.
    eapply found_after; [now apply Lc|now apply Ti].
Qed.

Lemma emit_frames : forall l pre post e, made_of md5 st l -> bytes_ok (bytes_of l) -> Forall (fun p => suits st chs (snd p)) l ->
  exists l', emit md5 (pre ++ bytes_of l ++ post) to_double us (place (Z.of_nat (length pre)) l) e = (bytes_of l', finish e tt) /\
    rewritten md5 st chs l l'.
Proof using All.
  induction l as [|[f t] l IH]; intros pre post e G B W; cbn [place emit].
  { exists []. split; [reflexivity|constructor]. }
  inversion G as [|? ? F G']; subst. inversion W as [|? ? W1 W2]; subst. cbn [fst snd] in *.
  unfold bytes_of in B |- *. cbn [map fst concat] in B |- *. apply bytes_ok_app in B as [B1 B2].
  assert (E1 : pre ++ (f ++ concat (map fst l)) ++ post = pre ++ f ++ (concat (map fst l) ++ post)) by (now rewrite <- app_assoc).
  rewrite E1. destruct (set_frame f t pre (concat (map fst l) ++ post) F B1 W1) as (f' & Sf & Fa). rewrite Sf.
  replace (Z.of_nat (length pre) + Z.of_nat (length f)) with (Z.of_nat (length (pre ++ f))) by (rewrite app_length; lia).
  rewrite app_assoc. destruct (IH (pre ++ f) post e G' B2 W2) as (l' & E & Fl). fold (bytes_of l). rewrite E.
  destruct (Z.lt_ge_cases (Z.of_nat (length f') - t_size t) (2 ^ 31)) as [H|H].
  - destruct (Fa H) as (t' & H1 & H2). exists ((f', t') :: l'). split; [reflexivity|]. constructor; [|exact Fl]. cbn [fst snd]. auto.
  - exists ((f', t) :: l'). split; [reflexivity|]. constructor; [|exact Fl]. cbn [fst snd]. intros H'. lia.
Qed.
End OneFrame.

(** A frame that a change does not fit. *)
Lemma set_misfit md5 to_double us chs t file d good bad rest e : Forall2 (means to_double) us chs -> chs = good ++ bad :: rest ->
  Forall (fits (t_cols t)) good -> misfit (t_cols t) bad e -> set_table md5 to_double us file (moved d t) = Throw e.
Proof.
  intros M Ec G B. unfold set_table. cbn [moved t_cols]. rewrite (update_columns_misfit to_double e us chs M (t_cols t) good bad rest Ec G B). reflexivity.
Qed.

Lemma emit_app md5 file to_double us a b e : forall bs, emit md5 file to_double us a Clean = (bs, Ok tt) ->
  emit md5 file to_double us (a ++ b) e = let (bs', r) := emit md5 file to_double us b e in (bs ++ bs', r).
Proof.
  induction a as [|t a IH]; intros bs H; cbn [app emit finish] in *.
  - injection H as <-. destruct (emit md5 file to_double us b e); reflexivity.
  - destruct (set_table md5 to_double us file t) as [x| |]; try discriminate.
    destruct (emit md5 file to_double us a Clean) as [y r] eqn:E. injection H as <- ->. rewrite (IH y eq_refl).
    destruct (emit md5 file to_double us b e). now rewrite app_assoc.
Qed.

(** ** The command *)

Theorem C54_tables : forall md5 st to_double arg chs l est fuel, digest md5 ->
  (forall w v, to_double w = Ok v -> is64 v) -> bytes_ok arg -> asks to_double arg chs ->
  made_of md5 st l -> bytes_ok (bytes_of l) -> estimate est (bytes_of l) -> (length l < fuel)%nat ->
  Forall (fun p => suits st chs (snd p)) l ->
  exists l', mdset md5 st est to_double fuel arg (bytes_of l) = (bytes_of l', Ok tt) /\ rewritten md5 st chs l l'.
Proof.
  intros md5 st to_double arg chs l est fuel Hd Td Ba A G B He Hf W.
  destruct (asks_ok to_double arg chs A) as (us & P & M). pose proof (asks_sane to_double arg chs Td Ba A) as Sa.
  unfold mdset. rewrite P.
  assert (R : read_tables md5 st est (bytes_of l) fuel [] = (place 0 l, Clean)).
  { change (@nil table) with (firstn 0 (place 0 l)). unfold bytes_of. apply (read_tables_prefix md5 st l est G); try lia. now apply estimate_ok. }
  rewrite (mdset_read md5 st est (bytes_of l) to_double us fuel _ _ R) by discriminate.
  destruct (emit_frames md5 st to_double us chs Hd Sa M l [] [] Clean G B W) as (l' & E & F). cbn [app length] in E. rewrite app_nil_r in E.
  exists l'. split; [exact E|exact F].
Qed.
Print Assumptions C54_tables.

(** At the first table that a change does not fit the command stops; the tables before it
    are already written. *)
Theorem C54_misfit : forall md5 st to_double arg l1 f t l2 est fuel good bad rest e, digest md5 ->
  (forall w v, to_double w = Ok v -> is64 v) -> bytes_ok arg -> asks to_double arg (good ++ bad :: rest) ->
  made_of md5 st (l1 ++ (f, t) :: l2) -> bytes_ok (bytes_of l1) -> estimate est (bytes_of (l1 ++ (f, t) :: l2)) ->
  (length (l1 ++ (f, t) :: l2) < fuel)%nat ->
  Forall (fun p => suits st (good ++ bad :: rest) (snd p)) l1 -> Forall (fits (t_cols t)) good -> misfit (t_cols t) bad e ->
  exists l1', mdset md5 st est to_double fuel arg (bytes_of (l1 ++ (f, t) :: l2)) = (bytes_of l1', Throw e) /\
    rewritten md5 st (good ++ bad :: rest) l1 l1'.
Proof.
  intros md5 st to_double arg l1 f t l2 est fuel good bad rest e Hd Td Ba A G B He Hf W Gd Bd. set (chs := good ++ bad :: rest) in *.
  destruct (asks_ok to_double arg chs A) as (us & P & M). pose proof (asks_sane to_double arg chs Td Ba A) as Sa.
  unfold mdset. rewrite P. set (l := l1 ++ (f, t) :: l2) in *.
  assert (R : read_tables md5 st est (bytes_of l) fuel [] = (place 0 l, Clean)).
  { change (@nil table) with (firstn 0 (place 0 l)). unfold bytes_of. apply (read_tables_prefix md5 st l est G); try lia. now apply estimate_ok. }
  rewrite (mdset_read md5 st est (bytes_of l) to_double us fuel _ _ R) by discriminate.
  assert (G1 : made_of md5 st l1) by (unfold made_of in *; now apply Forall_app in G).
  destruct (emit_frames md5 st to_double us chs Hd Sa M l1 [] (bytes_of ((f, t) :: l2)) Clean G1 B W) as (l' & E & F). cbn [app length finish] in E.
  change (Z.of_nat 0) with 0 in E.
  assert (Eb : bytes_of l = bytes_of l1 ++ bytes_of ((f, t) :: l2)) by (unfold l, bytes_of; now rewrite map_app, concat_app).
  rewrite <- Eb in E. unfold l at 2. rewrite place_app. rewrite (emit_app _ _ _ _ _ _ Clean _ E).
  cbn [place emit]. rewrite (set_misfit md5 to_double us chs t (bytes_of l) _ good bad rest e M eq_refl Gd Bd).
  exists l'. split; [now rewrite app_nil_r|exact F].
Qed.
Print Assumptions C54_misfit.

(** A truncated file: its whole frames are rewritten, then the command fails. *)
Theorem C54_cut : forall md5 st to_double arg chs l k fuel, digest md5 ->
  (forall w v, to_double w = Ok v -> is64 v) -> bytes_ok arg -> asks to_double arg chs ->
  made_of md5 st l -> bytes_ok (bytes_of l) -> (k <= length (bytes_of l))%nat -> (length l < fuel)%nat ->
  Forall (fun p => suits st chs (snd p)) l ->
  exists i l' r, whole (map fst l) k i /\
    mdset md5 st (Z.of_nat k) to_double fuel arg (firstn k (bytes_of l)) = (bytes_of l', r) /\
    rewritten md5 st chs (firstn i l) l' /\
    (Z.of_nat k = Z.of_nat (length (bytes_of (firstn i l))) -> r = Ok tt) /\
    (Z.of_nat k <> Z.of_nat (length (bytes_of (firstn i l))) -> r = Throw Incomplete).
Proof.
  intros md5 st to_double arg chs l k fuel Hd Td Ba A G B Hk Hf W.
  destruct (asks_ok to_double arg chs A) as (us & P & M). pose proof (asks_sane to_double arg chs Td Ba A) as Sa.
  destruct (C06_tables md5 st (map fst l) k (made_frames md5 st l G) Hk) as (i & tables & e & Wh & T & R & E1 & E2).
  cbv zeta in R. fold (bytes_of l) in R. rewrite firstn_map in E1, E2. fold (bytes_of (firstn i l)) in E1, E2.
  unfold len in R. rewrite firstn_length, Nat.min_l in R by exact Hk. rewrite map_length in R.
  pose proof Wh as (W1 & W2 & _). rewrite map_length in W1. rewrite firstn_map in W2. fold (bytes_of (firstn i l)) in W2.
  assert (Sub : forall Q : list Z * table -> Prop, Forall Q l -> Forall Q (firstn i l)).
  { intros Q H. rewrite Forall_forall in *. intros x Hx. apply H. rewrite <- (firstn_skipn i l). apply in_or_app. now left. }
  assert (Gi : made_of md5 st (firstn i l)) by (now apply Sub).
  assert (Tb : tables = place 0 (firstn i l)).
  { pose proof (place_tables_of md5 st (firstn i l) Gi) as [L2 T2]. destruct T as [L1 T1]. rewrite firstn_map in L1, T1.
    apply nth_ext_error. intros j. destruct (nth_error (map fst (firstn i l)) j) as [f|] eqn:Ej.
    + destruct (T1 j f Ej) as (t1 & F1 & ->). destruct (T2 j f Ej) as (t2 & F2 & ->).
      destruct F1 as [F1 _], F2 as [F2 _]. congruence.
    + apply nth_error_None in Ej. rewrite (proj2 (nth_error_None tables j)) by lia. symmetry. apply nth_error_None. lia. }
  assert (Eb : bytes_of l = bytes_of (firstn i l) ++ bytes_of (skipn i l)).
  { rewrite <- (firstn_skipn i l) at 1. unfold bytes_of. now rewrite map_app, concat_app. }
  assert (Ef : firstn k (bytes_of l) = bytes_of (firstn i l) ++ firstn (k - length (bytes_of (firstn i l))) (bytes_of (skipn i l))).
  { rewrite Eb at 1. rewrite firstn_app. f_equal. apply firstn_all2. unfold len in W2. lia. }
  assert (Bi : bytes_ok (bytes_of (firstn i l))) by (rewrite Eb in B; now apply bytes_ok_app in B).
  exists i. unfold mdset. rewrite P.
  assert (Ne : e <> OutOfFuel).
  { destruct (Z.eq_dec (Z.of_nat k) (len (bytes_of (firstn i l)))) as [Q|Q]; [rewrite (E1 Q)|rewrite (E2 Q)]; discriminate. }
  rewrite (mdset_read md5 st (Z.of_nat k) (firstn k (bytes_of l)) to_double us fuel _ _ (R fuel Hf) Ne). rewrite Tb, Ef.
  destruct (emit_frames md5 st to_double us chs Hd Sa M (firstn i l) [] (firstn (k - length (bytes_of (firstn i l))) (bytes_of (skipn i l))) e Gi Bi (Sub _ W)) as (l' & E & F).
  cbn [app length] in E. change (Z.of_nat 0) with 0 in E. rewrite E. exists l', (finish e tt).
  split; [exact Wh|]. split; [reflexivity|]. split; [exact F|]. split; intros Q; [rewrite (E1 Q)|rewrite (E2 Q)]; reflexivity.
Qed.
Print Assumptions C54_cut.

(** ** Members of a bitfield *)

Lemma split_clean d t : forall cur, (forall c, In c cur -> ~ In c d) ->
  forall p, In p (split_from d t cur) -> p <> [] /\ forall c, In c p -> ~ In c d.
Proof.
  induction t as [|a t IH]; intros cur Hc p Hp; cbn [split_from] in Hp.
  - unfold piece_if in Hp. destruct cur as [|x cur]; [destruct Hp|]. destruct Hp as [<-|[]]. split; [discriminate|exact Hc].
  - destruct (existsb (Z.eqb a) d) eqn:E.
    + apply in_app_or in Hp as [Hp|Hp].
      * unfold piece_if in Hp. destruct cur as [|x cur]; [destruct Hp|]. destruct Hp as [<-|[]]. split; [discriminate|exact Hc].
      * eapply IH; [|exact Hp]. intros c [].
    + eapply IH; [|exact Hp]. intros c Hin. apply in_app_or in Hin as [Hin|[<-|[]]]; [now apply Hc|].
      intros Hd. assert (existsb (Z.eqb a) d = true); [|congruence]. apply existsb_exists. exists a. split; [exact Hd|apply Z.eqb_refl].
Qed.

Lemma split_sub d t : forall cur p, In p (split_from d t cur) -> forall c, In c p -> In c cur \/ In c t.
Proof.
  induction t as [|a t IH]; intros cur p Hp c Hin; cbn [split_from] in Hp.
  - unfold piece_if in Hp. destruct cur as [|x cur]; [destruct Hp|]. destruct Hp as [<-|[]]. now left.
  - destruct (existsb (Z.eqb a) d).
    + apply in_app_or in Hp as [Hp|Hp].
      * unfold piece_if in Hp. destruct cur as [|x cur]; [destruct Hp|]. destruct Hp as [<-|[]]. now left.
      * destruct (IH _ _ Hp _ Hin) as [[]|H]. right. now right.
    + destruct (IH _ _ Hp _ Hin) as [H|H]; [|right; now right]. apply in_app_or in H as [H|[<-|[]]]; [now left|right; now left].
Qed.

(** The command describes members as "name:[a:1;b:2]"; whatever is typed, no members are ever set: the text is
    cut at every ':' first. *)
Theorem C54_members_refuted : forall arg us, parse_md_updates arg = Ok us -> Forall (fun u => u_bits u = []) us.
Proof.
  intros arg us H. unfold parse_md_updates in H. revert us H. generalize (split_text [44] arg). induction l as [|a l IH]; intros us H.
  - injection H as <-. constructor.
  - cbn [map_out] in H. apply bind_ok in H as (u & E & H). apply bind_ok in H as (us' & E' & H). injection H as <-.
    constructor; [|now apply IH]. clear IH E'. unfold parse_assignment in E. destruct (split_text [61] a) as [|lhs r]; [discriminate|].
    destruct (split_text [58] lhs) as [|nm r'] eqn:Es; [discriminate|]. cbv zeta in E. apply bind_ok in E as (bits & Eb & E). injection E as <-. cbn [u_bits].
    assert (Ty : forall c, In c (match r' with [t] => t | _ => none_text end) -> c <> 58).
    { destruct r' as [|t [|? ?]]; intros c Hc.
      - vm_compute in Hc. intuition (subst; discriminate).
      - assert (Ht : In t (split_text [58] lhs)) by (rewrite Es; right; now left).
        destruct (split_clean [58] lhs [] (fun c H => match H with end) t Ht) as [_ N]. intros ->. apply (N 58 Hc). now left.
      - vm_compute in Hc. intuition (subst; discriminate). }
    revert Eb Ty. generalize (match r' with [t] => t | _ => none_text end). intros type Eb Ty. unfold bit_members in Eb.
    destruct type as [|c0 type]; [now injection Eb as <-|]. destruct (_ && _) in Eb; [|now injection Eb as <-].
    remember (firstn (length (c0 :: type) - 2) (skipn 1 (c0 :: type))) as inner eqn:Ei.
    assert (Ty' : forall c, In c inner -> c <> 58).
    { intros c Hc. apply Ty. right. rewrite Ei in Hc. cbn [skipn] in Hc. revert Hc. generalize (length (c0 :: type) - 2)%nat as n. clear.
      intros n Hc. rewrite <- (firstn_skipn n type). apply in_or_app. now left. }
    destruct (split_text [59] inner) as [|p ps] eqn:Ep; [now injection Eb as <-|]. exfalso. cbn [map_out] in Eb.
    assert (Hp : In p (split_text [59] inner)) by (rewrite Ep; now left).
    destruct (split_clean [59] inner [] (fun c H => match H with end) p Hp) as [Np _].
    rewrite (split_one [58] p) in Eb; [discriminate|exact Np|]. intros x Hx [<-|[]].
    destruct (split_sub [59] inner [] p Hp 58 Hx) as [[]|Hin]. now apply (Ty' 58 Hin).
Qed.
Print Assumptions C54_members_refuted.

(** ** Words that are not types, and more than one value *)

Lemma no_type w : (forall ty, ~ type_word w ty) -> column_type w = Throw AssertFailed.
Proof.
  intros N. unfold column_type.
  assert (H : forall s ty, In (s, ty) [("IGNORE"%string, ty_IGNORE); ("INTEGER"%string, ty_INTEGER); ("REAL"%string, ty_REAL);
                        ("DOUBLE"%string, ty_DOUBLE); ("STRING"%string, ty_STRING); ("BITFIELD"%string, ty_BITFIELD)] -> bytes_eqb (upper w) (str s) = false).
  { intros s ty Hi. apply bytes_eqb_neq. intros E. apply upper_iff in E. apply (N ty). exists s. auto. }
  cbv zeta. rewrite (H "IGNORE"%string ty_IGNORE), (H "INTEGER"%string ty_INTEGER), (H "REAL"%string ty_REAL),
    (H "DOUBLE"%string ty_DOUBLE), (H "STRING"%string ty_STRING), (H "BITFIELD"%string ty_BITFIELD) by (cbn [In]; tauto). reflexivity.
Qed.

(** A word that is no type: nothing is written, the command fails. *)
Theorem C54_no_type : forall md5 st to_double nm w f t l est fuel, digest md5 ->
  no_mark nm -> no_mark w -> (forall ty, ~ type_word w ty) -> w <> str "NONE" -> hd 0 w <> 91 ->
  made_of md5 st ((f, t) :: l) -> estimate est (bytes_of ((f, t) :: l)) -> (length ((f, t) :: l) < fuel)%nat ->
  fits (t_cols t) {| ch_name := nm; ch_type := None; ch_value := None |} ->
  mdset md5 st est to_double fuel (nm ++ 58 :: w) (bytes_of ((f, t) :: l)) = ([], Throw AssertFailed).
Proof.
  intros md5 st to_double nm w f t l est fuel Hd (N1 & N2) (W1 & W2) Nt Nn Hb G He Hf Fi.
  assert (P : parse_md_updates (nm ++ 58 :: w) = Ok [{| u_name := nm; u_type := w; u_value := none_text; u_bits := [] |}]).
  { unfold parse_md_updates. rewrite split_one; [|destruct nm; discriminate|].
    2:{ intros x Hx [E|[]]. subst x. apply in_app_or in Hx as [Hx|[Hx|Hx]]; [now destruct (N2 _ Hx)|discriminate|now destruct (W2 _ Hx)]. }
    cbn [map_out]. unfold parse_assignment. rewrite split_one; [|destruct nm; discriminate|].
    2:{ intros x Hx [E|[]]. subst x. apply in_app_or in Hx as [Hx|[Hx|Hx]]; [now destruct (N2 _ Hx) as (_ & _ & ?)|discriminate|now destruct (W2 _ Hx) as (_ & _ & ?)]. }
    rewrite split_at; [|exact N1| |now left].
    2:{ intros x Hx [E|[]]. subst x. now destruct (N2 _ Hx) as (_ & ? & _). }
    rewrite split_one; [|exact W1|].
    2:{ intros x Hx [E|[]]. subst x. now destruct (W2 _ Hx) as (_ & ? & _). }
    cbv zeta. assert (B : bit_members w = Ok []).
    { destruct w as [|c w]; [reflexivity|]. cbn [hd] in Hb. unfold bit_members. now rewrite (proj2 (Z.eqb_neq c 91) Hb). }
    rewrite B. reflexivity. }
  unfold mdset. rewrite P. set (us := [_]).
  assert (R : read_tables md5 st est (bytes_of ((f, t) :: l)) fuel [] = (place 0 ((f, t) :: l), Clean)).
  { change (@nil table) with (firstn 0 (place 0 ((f, t) :: l))). unfold bytes_of. apply (read_tables_prefix md5 st ((f, t) :: l) est G); try lia. now apply estimate_ok. }
  rewrite (mdset_read md5 st est (bytes_of ((f, t) :: l)) to_double us fuel _ _ R) by discriminate.
  cbn [place emit]. unfold set_table. cbn [moved t_cols]. unfold us. cbn [update_columns u_name].
  destruct (fits_index _ _ Fi) as (i & c & Ei & Ec & _). cbn [ch_name] in Ei. rewrite Ei. cbn [bind]. rewrite Nat2Z.id, Ec.
  unfold update_column. cbn [u_type]. assert (Gw : given w = true).
  { unfold given. apply andb_true_iff. split; [destruct w; [congruence|reflexivity]|]. apply negb_true_iff, bytes_eqb_neq. exact Nn. }
  rewrite Gw, (no_type w Nt). reflexivity.
Qed.
Print Assumptions C54_no_type.

(** Two values for a column ("a=1=2") are read as none, without a word. *)
Theorem C54_two_values : forall nm v1 v2,
  no_mark nm -> no_mark v1 -> no_mark v2 -> parse_md_updates (nm ++ 61 :: v1 ++ 61 :: v2) = parse_md_updates nm.
Proof.
  intros nm v1 v2 (N1 & N2) (A1 & A2) (B1 & B2). unfold parse_md_updates.
  rewrite split_one; [|destruct nm; discriminate|].
  2:{ intros x Hx [E|[]]. subst x. apply in_app_or in Hx as [Hx|[Hx|Hx]]; [now destruct (N2 _ Hx)|discriminate|].
      apply in_app_or in Hx as [Hx|[Hx|Hx]]; [now destruct (A2 _ Hx)|discriminate|now destruct (B2 _ Hx)]. }
  rewrite split_one; [|exact N1|intros x Hx [E|[]]; subst x; now destruct (N2 _ Hx)].
  cbn [map_out]. unfold parse_assignment.
  rewrite split_at; [|exact N1|intros x Hx [E|[]]; subst x; now destruct (N2 _ Hx) as (_ & _ & ?)|now left].
  rewrite split_at; [|exact A1|intros x Hx [E|[]]; subst x; now destruct (A2 _ Hx) as (_ & _ & ?)|now left].
  rewrite (split_one [61] v2); [|exact B1|intros x Hx [E|[]]; subst x; now destruct (B2 _ Hx) as (_ & _ & ?)].
  rewrite (split_one [61] nm); [reflexivity|exact N1|intros x Hx [E|[]]; subst x; now destruct (N2 _ Hx) as (_ & _ & ?)].
Qed.
Print Assumptions C54_two_values.
