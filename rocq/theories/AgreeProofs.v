(** Row iteration and the tables of a file. *)
From Coq Require Import String.
From Verif Require Import Base Fp Stream StreamLocal Codec Meta Header Table TableProofs Reader ReadSpec ReaderProofs Writer RowReader RowList
  RowSpec Spec Roundtrip P_Old AgreeSpec.
Open Scope Z_scope.
Local Notation length := List.length.

(** ** Values *)

Definition wide_cell (c : column) (x : list Z) : Prop := Z.of_nat (length x) = 8 * data_size_doubles (col_coder c).

Lemma store_whole (x out : list Z) : length out = length x -> store x out = Ok out.
Proof. intros L. unfold store. rewrite L. destruct (Nat.ltb_spec (length x) (length x)); [lia|]. rewrite skipn_all2 by lia. now rewrite app_nil_r. Qed.

Lemma next_cells_value : forall cols start last s cells s2 row s', Forall sound cols -> Forall2 wide_cell cols last -> (start <= length cols)%nat ->
  cells_stream (skipn start (map col_coder cols)) cells s s2 -> next_cells start cols last s = Ok (row, s') ->
  s' = s2 /\ row = firstn start last ++ cells /\ Forall2 wide_cell cols row.
Proof.
  induction cols as [|c cols IH]; intros start last s cells s2 row s' Sd W Hs C N.
  - inversion W; subst last. assert (start = 0%nat) by (cbn in Hs; lia). subst start. cbn in C. inversion C; subst. cbn in N.
    assert (row = [] /\ s' = s2) as (-> & ->) by (split; congruence). repeat split; constructor.
  - inversion W as [|? x ? last' Wx W']; subst last; subst. inversion Sd as [|? ? Sc Sd']; subst. destruct start as [|start].
    + cbn [next_cells] in N. cbn [skipn map] in C. inversion C as [|k ks cell cells' ? s1 ? D C']; subst. rewrite D in N. cbn [bind] in N.
      assert (Lc : Z.of_nat (length cell) = 8 * data_size_doubles (col_coder c)) by (eapply decode_width; [| |exact D]; destruct Sc; lia).
      rewrite store_whole in N by (unfold wide_cell in Wx; lia). cbn [bind] in N. apply bind_ok in N as ([r s3] & N1 & N2).
      destruct (IH 0%nat last' s1 cells' s2 r s3 Sd' W' ltac:(lia)) as (E1 & E2 & E3); [exact C'|exact N1|]. cbn [firstn app] in E2. cbn [firstn app].
      assert (row = cell :: r /\ s' = s3) as (-> & ->) by (split; congruence). subst. repeat split; auto.
    + cbn [next_cells] in N. cbn [skipn map] in C. apply bind_ok in N as ([r s3] & N1 & N2).
      destruct (IH start last' s cells s2 r s3 Sd' W' ltac:(cbn in Hs; lia) C N1) as (E1 & E2 & E3).
      assert (row = x :: r /\ s' = s3) as (-> & ->) by (split; congruence). subst. cbn [firstn app]. repeat split; auto.
Qed.

(** The rows of one table. *)
Fixpoint rows_run (cols : list column) (n : nat) (last : list (list Z)) (s : list Z) : outcome (list (list (list Z)) * list Z) :=
  match n with
  | O => Ok ([], s)
  | S m =>
      do (mk, s1) <- read_raw 2 s;
      do (row, s2) <- next_cells (marker_val mk) cols last s1;
      do (rs, s3) <- rows_run cols m row s2;
      Ok (row :: rs, s3)
  end.

Lemma stored_cons x rows p r : stored (x :: rows) p (S r) = stored rows p r.
Proof. reflexivity. Qed.

Lemma latest_cons x rows p : forall r, latest (x :: rows) p (S r) =
  match latest rows p r with Some (q, c) => Some (S q, c) | None => latest (x :: rows) p 0 end.
Proof.
  induction r as [|r IH].
  - change (latest (x :: rows) p 1) with (match stored (x :: rows) p 1 with Some c => Some (1%nat, c) | None => latest (x :: rows) p 0 end).
    rewrite stored_cons. cbn [latest]. destruct (stored rows p 0); reflexivity.
  - change (latest (x :: rows) p (S (S r))) with (match stored (x :: rows) p (S (S r)) with Some c => Some (S (S r), c) | None => latest (x :: rows) p (S r) end).
    rewrite stored_cons, IH. cbn [latest]. destruct (stored rows p (S r)); reflexivity.
Qed.

Lemma cells_length ks cells s s2 : cells_stream ks cells s s2 -> length cells = length ks.
Proof. induction 1; cbn [length]; congruence. Qed.

Lemma read_raw_app (m s : list Z) : length m = 2%nat -> read_raw 2 (m ++ s) = Ok (m, s).
Proof.
  intros L. unfold read_raw. destruct (Z.ltb_spec (Z.of_nat (length (m ++ s))) 2) as [H|H]; [rewrite app_length in H; lia|].
  change (Z.to_nat 2) with 2%nat. rewrite <- L. rewrite firstn_app, skipn_app, Nat.sub_diag, firstn_all, skipn_all. cbn [firstn skipn app]. now rewrite app_nil_r.
Qed.

Lemma run_values cols : Forall sound cols -> forall srows buf rest, row_stream (map col_coder cols) srows buf rest ->
  forall last rows s', Forall2 wide_cell cols last -> rows_run cols (length srows) last buf = Ok (rows, s') ->
  length rows = length srows /\
  forall r row, nth_error rows r = Some row -> Forall2 wide_cell cols row /\
    forall p, (p < length cols)%nat -> nth p row [] = match latest srows p r with Some (_, x) => x | None => nth p last [] end.
Proof.
  intros Sd srows buf rest RS. induction RS as [s|start cells srows m s1 s2 s3 L2 M Hs C RS IH]; intros last rows s' W R.
  - cbn in R. assert (rows = []) by congruence. subst rows. split; [reflexivity|]. intros [|r] row E; discriminate.
  - cbn [length rows_run] in R. rewrite read_raw_app in R by exact L2. cbn [bind] in R. apply bind_ok in R as ([row s4] & N & R).
    rewrite map_length in Hs. rewrite M in N. destruct (next_cells_value _ _ _ _ _ _ _ _ Sd W Hs C N) as (E1 & E2 & W'). subst s4.
    cbv beta iota zeta in R. apply bind_ok in R as ([rs s5] & R1 & R2). assert (rows = row :: rs) by congruence. subst rows.
    destruct (IH row rs s5 W' R1) as (L & V). split; [cbn [length]; congruence|].
    pose proof (cells_length _ _ _ _ C) as Lc. rewrite skipn_length, map_length in Lc. pose proof (Forall2_length _ _ _ W) as Ll.
    assert (V0 : forall p, (p < length cols)%nat -> nth p row [] = match latest ((start, cells) :: srows) p 0 with Some (_, x) => x | None => nth p last [] end).
    { intros p Hp. cbn [latest]. unfold stored. cbn [nth_error]. rewrite E2. destruct (Nat.leb_spec start p) as [Hq|Hq].
      - rewrite app_nth2 by (rewrite firstn_length; lia). rewrite firstn_length, Nat.min_l by lia.
        destruct (nth_error cells (p - start)) as [x|] eqn:En; [now apply nth_error_nth|]. apply nth_error_None in En. lia.
      - rewrite app_nth1 by (rewrite firstn_length; lia). now rewrite nth_firstn by lia. }
    intros [|r] row' E; cbn [nth_error] in E.
    + assert (row' = row) by congruence. subst row'. split; [exact W'|exact V0].
    + destruct (V r row' E) as (V1 & V2). split; [exact V1|]. intros p Hp. rewrite V2, latest_cons by exact Hp.
      destruct (latest srows p r) as [[q x]|]; [reflexivity|]. now apply V0.
Qed.

(** ** Tables *)

Section File.
Variables (md5 : list Z -> list Z) (st : settings) (junk : nat -> nat -> list Z) (est : Z) (file : list Z).
Hypothesis Hest : estimate est file.
Local Notation len l := (Z.of_nat (length l)).
Local Notation read_tables := (read_tables md5 st est file).

Definition empty_part (t : table) : Prop := t_rows t = 0.

(** Where the reader is: [pos] bytes were read. *)
Definition reached (pos : Z) (s : list Z) : Prop := 0 <= pos <= len file /\ s = from file pos.

Lemma reached_suffix pos s b r : reached pos s -> s = b ++ r -> reached (len file - len r) r.
Proof.
  unfold reached, from. intros (P & ->) E. assert (L : length (skipn (Z.to_nat pos) file) = (length b + length r)%nat) by (rewrite E; apply app_length).
  rewrite skipn_length in L. split; [lia|].
  replace (Z.to_nat (len file - len r)) with (Z.to_nat pos + length b)%nat by lia.
  rewrite <- skip_add, E, skipn_app, Nat.sub_diag, skipn_all. reflexivity.
Qed.

Lemma ensure_at ts pos : next_position ts = pos -> reached pos (from file pos) ->
  ensure_table md5 st est file ts (len ts) = do r <- read_table md5 st est file pos; match r with None => Ok (false, ts) | Some t => Ok (true, ts ++ [t]) end.
Proof.
  intros E (P & _). unfold ensure_table. destruct (Z.leb_spec 0 (len ts)); [|lia]. rewrite Z.leb_refl, Z.eqb_refl. cbn [assert bind]. rewrite E.
  assert ((pos <=? est) || (est =? 0) = true) as -> by (destruct Hest as [-> | ->]; [apply Bool.orb_true_r|]; destruct (Z.leb_spec pos (len file)); [reflexivity|lia]).
  cbn [assert bind]. destruct (Z.ltb_spec pos 0); [lia|reflexivity].
Qed.

Lemma read_end ts pos f : next_position ts = pos -> reached pos [] -> read_tables (S f) ts = (ts, Clean).
Proof.
  intros E R. cbn [Reader.read_tables]. rewrite (ensure_at ts pos E) by (destruct R as (P & E'); split; [exact P|reflexivity]).
  unfold read_table. destruct R as (_ & <-). reflexivity.
Qed.

Lemma read_one ts pos s h rest : next_position ts = pos -> reached pos (from file pos) ->
  read_magic (from file pos) = Ok (Some s) -> load_after_magic md5 st s = Ok (h, rest) -> 0 <= h_dataSize h <= len rest ->
  exists t, (forall f, read_tables (S f) ts = read_tables f (ts ++ [t])) /\ t_cols t = h_cols h /\ t_rows t = h_rows h mod 2 ^ 64 /\
    read_encoded file false t = Ok (firstn (Z.to_nat (h_dataSize h)) rest) /\
    reached (t_next t) (skipn (Z.to_nat (h_dataSize h)) rest).
Proof.
  intros E R M Ld Hz.
  destruct (load_split md5 st s h rest Ld) as (b & _ & Es & _).
  assert (Q : exists a, from file pos = a ++ s).
  { unfold read_magic in M. destruct (from file pos) as [|z l] eqn:F; [discriminate|]. rewrite <- F in *. destruct (_ <? 5)%nat; [discriminate|].
    destruct (bytes_eqb _ _); [|discriminate]. assert (s = skipn 5 (from file pos)) as -> by congruence. exists (firstn 5 (from file pos)). now rewrite firstn_skipn. }
  destruct Q as (a & Ea). rewrite Es, app_assoc in Ea. pose proof (reached_suffix pos _ _ _ R Ea) as R1.
  set (d := len file - len rest) in *.
  set (t := {| t_start := pos; t_data := d; t_next := d + h_dataSize h; t_size := h_dataSize h; t_order := h_order h; t_props := h_props h;
               t_cols := h_cols h; t_rows := h_rows h mod 2 ^ 64 |}).
  assert (R2 : reached (d + h_dataSize h) (skipn (Z.to_nat (h_dataSize h)) rest)).
  { destruct R1 as (P1 & E1). unfold reached, from in *. split; [lia|]. rewrite E1, skip_add. f_equal. lia. }
  exists t. split; [|split; [reflexivity|split; [reflexivity|split; [|exact R2]]]].
  - intros f. cbn [Reader.read_tables]. rewrite (ensure_at ts pos E R). unfold read_table. rewrite M. cbn [bind]. rewrite Ld. cbn [bind]. fold d. fold t.
    assert ((est <? t_next t) && negb (est =? 0) = false) as ->; [|reflexivity].
    destruct R2 as (P2 & _). cbn [t t_next]. destruct Hest as [-> | ->]; [apply Bool.andb_false_r|]. destruct (Z.ltb_spec (len file) (d + h_dataSize h)); [lia|reflexivity].
  - unfold read_encoded, read_range. cbn [t t_data t_size]. destruct (Z.ltb_spec (h_dataSize h) 0); [lia|]. destruct R1 as (_ & <-).
    destruct (Z.ltb_spec (len (firstn (Z.to_nat (h_dataSize h)) rest)) (h_dataSize h)); [rewrite firstn_length in *; lia|reflexivity].
Qed.

Lemma next_last ts t : next_position (ts ++ [t]) = t_next t.
Proof. unfold next_position. now rewrite last_last. Qed.

Lemma load_ok : forall fuel count cols pos ts it, load_table md5 st junk fuel count cols (from file pos) = Ok it -> next_position ts = pos -> reached pos (from file pos) ->
  exists ts0, Forall empty_part ts0 /\
    ((r_end it = true /\ forall f, read_tables (S (length ts0 + f)) ts = (ts ++ ts0, Clean)) \/
     (r_end it = false /\ exists t n, (forall f, read_tables (S (length ts0 + f)) ts = read_tables f (ts ++ ts0 ++ [t])) /\
        r_cols it = t_cols t /\ r_left it = t_rows t /\ 0 <= t_rows t /\ read_encoded file false t = Ok (r_data it) /\ reached (t_next t) (r_file it) /\
        r_last it = init_row junk n 0 (t_cols t))).
Proof.
  induction fuel as [|fuel IH]; intros count cols pos ts it E P R; cbn [load_table] in E; [discriminate|].
  apply bind_ok in E as ([s|] & M & E).
  - cbv beta iota zeta in E. apply bind_ok in E as ([h rest] & Ld & E). cbv beta iota zeta in E. destruct (Z.eqb_spec (h_dataSize h) 0) as [Z0|Z0].
    + apply bind_ok in E as ([] & A & E).
      destruct (read_one ts pos s h rest) as (t & T1 & T2 & T3 & T4 & T5); auto; [lia|].
      rewrite Z0 in T5. cbn [Z.to_nat skipn] in T5. pose proof T5 as (_ & Er). rewrite Er in E.
      destruct (IH _ _ (t_next t) (ts ++ [t]) it E (next_last _ _)) as (ts0 & Em & K); [split; [apply T5|reflexivity]|].
      exists (t :: ts0). split.
      * constructor; [|exact Em]. unfold empty_part. rewrite T3. unfold assert in A. destruct (Z.eqb_spec (h_rows h) 0) as [-> |]; [reflexivity|discriminate].
      * destruct K as [(K1 & K2)|(K1 & t' & n & K2 & K3)]; [left|right]; (split; [exact K1|]).
        -- intros f. cbn [length Nat.add]. rewrite T1, K2, <- app_assoc. reflexivity.
        -- exists t', n. split; [|exact K3]. intros f. cbn [length Nat.add]. rewrite T1, K2, <- app_assoc. reflexivity.
    + apply bind_ok in E as ([] & A1 & E). apply bind_ok in E as ([] & A2 & E). destruct (Z.ltb_spec (h_dataSize h) 0); [discriminate|].
      cbv beta iota zeta in E. destruct (_ =? 0)%nat; [discriminate|]. rewrite firstn_length in E.
      destruct (Z.ltb_spec (Z.of_nat (Nat.min (Z.to_nat (h_dataSize h)) (length rest))) (h_dataSize h)); [discriminate|].
      match type of E with Ok ?x = Ok _ => assert (it = x) by congruence; subst it; clear E end.
      exists []. split; [constructor|]. right. split; [reflexivity|].
      destruct (read_one ts pos s h rest) as (t & T1 & T2 & T3 & T4 & T5); auto; [lia|].
      exists t, count. cbn [r_cols r_left r_data r_file r_last].  rewrite T2, T3. repeat split; auto; try apply T5.
      * apply Z.mod_pos_bound. lia.
  - cbv beta iota zeta in E. match type of E with Ok ?x = Ok _ => assert (it = x) by congruence; subst it; clear E end. exists []. split; [constructor|]. left. split; [reflexivity|].
    intros f. rewrite app_nil_r. apply (read_end ts pos); [exact P|]. destruct R as (P1 & _). split; [exact P1|].
    unfold read_magic in M. destruct (from file pos) as [|z l]; [reflexivity|]. destruct (_ <? 5)%nat; [discriminate|]. destruct (bytes_eqb _ _); discriminate.
Qed.

Hypothesis Hb : bytes_ok file.

(** The part of the rows that belongs to the table [t]. *)
Definition table_part (t : table) (part : list arow) : Prop :=
  exists rws, part = map (pair (t_cols t)) rws /\ 
    (rws = [] /\ t_rows t = 0 \/
     exists n buf s', 0 <= t_rows t /\ read_encoded file false t = Ok buf /\
       rows_run (t_cols t) (Z.to_nat (t_rows t)) (init_row junk n 0 (t_cols t)) buf = Ok (rws, s')).

Lemma empty_parts ts : Forall empty_part ts -> Forall2 table_part ts (map (fun _ => []) ts).
Proof. induction 1 as [|t ts E _ IH]; cbn [map]; constructor; [|exact IH]. exists []. split; [reflexivity|]. left. auto. Qed.

Lemma concat_nils {A B} (l : list A) : concat (map (fun _ => @nil B) l) = [].
Proof. induction l; cbn [map concat]; auto. Qed.

Lemma from_ok pos : bytes_ok (from file pos).
Proof. unfold from, bytes_ok in *. rewrite <- (firstn_skipn (Z.to_nat pos) file) in Hb. now apply Forall_app in Hb. Qed.

Lemma scan : forall fuel it ts rows, list_rows md5 st junk fuel it = (rows, Clean) -> r_end it = false -> 0 <= r_left it ->
  reached (next_position ts) (r_file it) ->
  exists part ts2 parts, rows = map (pair (r_cols it)) part ++ concat parts /\
    (exists s', rows_run (r_cols it) (Z.to_nat (r_left it)) (r_last it) (r_data it) = Ok (part, s')) /\
    Forall2 table_part ts2 parts /\ forall f, (length ts2 < f)%nat -> read_tables f ts = (ts ++ ts2, Clean).
Proof.
  induction fuel as [|fuel IH]; intros it ts rows E He Hl R; [discriminate|]. cbn [list_rows] in E.
  destruct (next_row md5 st junk it) as [[it1 [row|]]| |] eqn:N; try discriminate.
  - destruct (list_rows md5 st junk fuel it1) as [rows1 e] eqn:E1. assert (rows = (r_cols it1, row) :: rows1) by congruence. assert (e = Clean) by congruence. subst rows e. clear E.
    unfold next_row in N. rewrite He in N. destruct (Z.eqb_spec (r_left it) 0) as [Z0|Z0].
    + apply bind_ok in N as (it0 & Ld & N). pose proof R as (Rp & Rf). rewrite Rf in Ld.
      destruct (load_ok _ _ _ _ ts it0 Ld eq_refl ltac:(split; [exact Rp|reflexivity])) as (ts0 & Em & K).
      destruct (r_end it0) eqn:E0; [discriminate|]. destruct K as [(K & _)|(_ & t & n & K1 & K2 & K3 & K4 & K5 & K6 & K7)]; [discriminate|].
      assert (K3' : r_left it0 <> 0) by (eapply load_left; [exact Ld|apply from_ok|exact E0]).
      apply bind_ok in N as ([m s] & N1 & N). cbv beta iota zeta in N. apply bind_ok in N as ([row' s1] & N2 & N). cbv beta iota zeta in N.
      assert (row' = row) by congruence. subst row'. match type of N with Ok (?x, _) = _ => assert (it1 = x) by congruence end. subst it1. clear N. cbn [r_cols].
      apply (IH _ (ts ++ ts0 ++ [t])) in E1; cbn [r_end r_left r_file r_cols r_last r_data] in *; [|reflexivity|lia|rewrite app_assoc, next_last; exact K6].
      destruct E1 as (part & ts2 & parts & -> & (s' & P1) & P2 & P3).
      exists [], (ts0 ++ t :: ts2), (map (fun _ => []) ts0 ++ map (pair (t_cols t)) (row :: part) :: parts). split; [|split; [|split]].
      * rewrite concat_app, concat_nils. cbn [map concat app]. now rewrite K2.
      * rewrite Z0. cbn. eauto.
      * apply Forall2_app; [now apply empty_parts|]. constructor; [|exact P2]. eexists. split; [reflexivity|]. right. exists n, (r_data it0), s'.
        split; [exact K4|]. split; [exact K5|]. rewrite <- K7, <- K2. rewrite K3 in *. replace (Z.to_nat (t_rows t)) with (S (Z.to_nat (t_rows t - 1))) by lia. cbn [rows_run].
        rewrite N1. cbn [bind]. rewrite N2. cbn [bind]. rewrite P1. reflexivity.
      * intros f Hf. rewrite app_length in Hf. cbn [length] in Hf. replace f with (S (length ts0 + (f - S (length ts0))))%nat by lia. rewrite K1, P3 by lia. now rewrite <- !app_assoc.
    + cbn [bind] in N. rewrite He in N.
      apply bind_ok in N as ([m s] & N1 & N). cbv beta iota zeta in N. apply bind_ok in N as ([row' s1] & N2 & N). cbv beta iota zeta in N.
      assert (row' = row) by congruence. subst row'. match type of N with Ok (?x, _) = _ => assert (it1 = x) by congruence end. subst it1. clear N. cbn [r_cols].
      apply (IH _ ts) in E1; cbn [r_end r_left r_file r_cols r_last r_data] in *; [|reflexivity|lia|exact R].
      destruct E1 as (part & ts2 & parts & -> & (s' & P1) & P2 & P3). exists (row :: part), ts2, parts. split; [reflexivity|]. split; [|split; assumption].
      exists s'. replace (Z.to_nat (r_left it)) with (S (Z.to_nat (r_left it - 1))) by lia. cbn [rows_run]. rewrite N1. cbn [bind]. rewrite N2. cbn [bind]. rewrite P1. reflexivity.
  - assert (rows = []) by congruence. subst rows. clear E. unfold next_row in N. rewrite He in N. destruct (Z.eqb_spec (r_left it) 0) as [Z0|Z0].
    + apply bind_ok in N as (it0 & Ld & N). pose proof R as (Rp & Rf). rewrite Rf in Ld.
      destruct (load_ok _ _ _ _ ts it0 Ld eq_refl ltac:(split; [exact Rp|reflexivity])) as (ts0 & Em & K).
      destruct (r_end it0) eqn:E0.
      * destruct K as [(_ & K)|(K & _)]; [|discriminate]. exists [], ts0, (map (fun _ => []) ts0). rewrite Z0, concat_nils. cbn. split; [reflexivity|]. split; [eauto|].
        split; [now apply empty_parts|]. intros f Hf. replace f with (S (length ts0 + (f - S (length ts0))))%nat by lia. apply K.
      * exfalso. apply bind_ok in N as ([m s] & N1 & N). cbv beta iota zeta in N. apply bind_ok in N as ([row' s1] & N2 & N). discriminate.
    + exfalso. cbn [bind] in N. rewrite He in N. apply bind_ok in N as ([m s] & N1 & N). cbv beta iota zeta in N. apply bind_ok in N as ([row' s1] & N2 & N). discriminate.
Qed.

(** A file read row by row to its end, table by table. *)
Theorem whole fuel rows : file_rows md5 st junk fuel file = (rows, Clean) ->
  exists ts parts, rows = concat parts /\ Forall2 table_part ts parts /\ forall f, (length ts < f)%nat -> read_tables f [] = (ts, Clean).
Proof.
  unfold file_rows, open_rows. intros E. destruct (load_table md5 st junk (S (length file)) 0 [] file) as [it| |] eqn:Ld; try discriminate.
  change file with (from file 0) in Ld at 2.
  assert (R0 : reached 0 (from file 0)) by (split; [lia|reflexivity]).
  destruct (load_ok _ _ _ 0 [] it Ld eq_refl R0) as (ts0 & Em & [(K1 & K2)|(K1 & t & n & K2 & K3 & K4 & K5 & K6 & K7 & K8)]).
  - exists ts0, (map (fun _ => []) ts0). rewrite concat_nils. split; [|split; [now apply empty_parts|]].
    + destruct fuel as [|fuel]; [discriminate|]. cbn [list_rows] in E. unfold next_row in E. rewrite K1 in E. congruence.
    + intros f Hf. replace f with (S (length ts0 + (f - S (length ts0))))%nat by lia. apply K2.
  - destruct (scan fuel it (ts0 ++ [t]) rows E K1) as (part & ts2 & parts & -> & (s' & P1) & P2 & P3); [lia|rewrite next_last; exact K7|].
    exists (ts0 ++ t :: ts2), (map (fun _ => []) ts0 ++ map (pair (t_cols t)) part :: parts). split; [|split].
    + rewrite concat_app, concat_nils, K3. reflexivity.
    + apply Forall2_app; [now apply empty_parts|]. constructor; [|exact P2]. exists part. split; [reflexivity|]. right. exists n, (r_data it), s'.
      split; [exact K5|]. split; [exact K6|]. rewrite <- K8, <- K4, <- K3. exact P1.
    + intros f Hf. rewrite app_length in Hf. cbn [length] in Hf. replace f with (S (length ts0 + (f - S (length ts0))))%nat by lia. rewrite K2. cbn [app]. rewrite P3 by lia. now rewrite <- !app_assoc.
Qed.

End File.
