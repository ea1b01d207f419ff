(** A whole frame: encoding a table and decoding the bytes. *)
From Coq Require Import String.
From Verif Require Import Spec Base Fp FpProofs Stream StreamProofs StreamLocal Codec Meta Header Encoder Table
  ColumnProofs HeaderProofs HeaderSize TableProofs DecodeProofs LookupProofs.
Open Scope Z_scope.

(** A column to encode, the codec chosen for it, the codec a reader loads, and what
    the reader decodes. *)
Record item := {
  i_ci : colinfo;
  i_k : codec;
  i_k' : codec;
  i_cells : list (list Z);
  i_outs : list (list Z)
}.

Section Frame.
Variables (st st' : settings) (o : order).

Definition item_ok (it : item) : Prop :=
  prepare st o (i_ci it) (i_cells it) = Ok (i_k it) /\
  reloads st' o (ci_type (i_ci it)) (i_k it) (i_k' it) /\
  Forall2 (cell_rt (i_k it) (i_k' it) (ci_size (i_ci it))) (i_cells it) (i_outs it) /\
  1 <= data_size_doubles (i_k' it) /\ 8 * data_size_doubles (i_k' it) <= ci_size (i_ci it) < 2 ^ 31.

(** The part that matters for the rows: every cell, encoded with [i_k], decodes with [i_k']. *)
Definition item_rt (it : item) : Prop :=
  Forall2 (cell_rt (i_k it) (i_k' it) (ci_size (i_ci it))) (i_cells it) (i_outs it).

Lemma items_rt its : Forall item_ok its -> Forall item_rt its.
Proof. intros H. eapply Forall_impl; [|exact H]. intros it (_ & _ & F & _). exact F. Qed.

Definition i_data (it : item) : coldata := {| cd_size := ci_size (i_ci it); cd_cells := i_cells it |}.

Definition final_column (it : item) : column :=
  {| col_name := ci_name (i_ci it); col_type := ci_type (i_ci it);
     col_bfnames := map fst (ci_bits (i_ci it)); col_bfsizes := map snd (ci_bits (i_ci it));
     col_coder := i_k it |}.

Lemma make_column_shape ci c : make_column st ci = Ok c ->
  col_name c = ci_name ci /\ col_type c = ci_type ci /\
  col_bfnames c = map fst (ci_bits ci) /\ col_bfsizes c = map snd (ci_bits ci).
Proof.
  unfold make_column. intros H. apply bind_ok in H as (k & _ & H). apply bind_ok in H as (u & _ & H).
  apply bind_ok in H as (k1 & _ & H). inversion H; subst. now repeat split.
Qed.

Lemma encode_meta nrows its : Forall item_ok its -> Forall (fun it => List.length (i_cells it) = nrows) its ->
  exists md0 md1,
    map_out (make_column st) (map i_ci its) = Ok md0 /\
    map_out (gather_column (Z.of_nat nrows)) (combine md0 (map i_data its)) = Ok md1 /\
    map_out (optimize_column st o) md1 = Ok (map final_column its).
Proof.
  induction its as [|it its IH]; intros H L.
  - exists [], []. cbn. auto.
  - inversion H as [|? ? (P & _ & _ & _) H']; subst. inversion L as [|? ? L1 L2]; subst.
    destruct (IH H' L2) as (md0 & md1 & E0 & E1 & E2).
    unfold prepare in P. apply bind_ok in P as (c & P0 & P). apply bind_ok in P as (k1 & P1 & P2).
    destruct (make_column_shape _ _ P0) as (S1 & S2 & S3 & S4).
    exists (c :: md0), (with_coder c k1 :: md1). cbn [map map_out combine i_data cd_cells].
    rewrite P0, E0. cbn [bind map_out combine]. unfold gather_column at 1. cbn [fst snd cd_cells i_data].
    rewrite Z.eqb_refl. cbn [assert bind]. rewrite P1. cbn [bind]. rewrite E1. cbn [bind map_out].
    split; [reflexivity|]. split; [reflexivity|].
    unfold optimize_column at 1. cbn [with_coder col_type col_coder]. rewrite S2, P2. cbn [bind].
    rewrite E2. cbn [bind]. unfold final_column at 2, with_coder. cbn [col_name col_type col_bfnames col_bfsizes].
    now rewrite S1, S2, S3, S4.
Qed.

(** ** Rows *)

Lemma Forall2_nth_default {A B} (P : A -> B -> Prop) la lb da db r :
  Forall2 P la lb -> (r < List.length la)%nat -> P (nth r la da) (nth r lb db).
Proof.
  intros H. revert r. induction H as [|a b la lb Hab H IH]; intros r L; [cbn in L; lia|].
  destruct r; [assumption|]. apply IH. cbn in L. lia.
Qed.

Definition sizes (its : list item) : Z := fold_right Z.add 0 (map (fun it => ci_size (i_ci it)) its).

Lemma encode_cells_ok r : forall its, Forall item_rt its ->
  Forall (fun it => (r < List.length (i_cells it))%nat) its ->
  exists b, encode_cells (map i_k its) (row_at (map i_cells its) r) = Ok b /\
    Z.of_nat (List.length b) <= sizes its /\
    forall rest, cells_stream (map i_k' its) (row_at (map i_outs its) r) (b ++ rest) rest.
Proof.
  induction its as [|it its IH]; intros H L.
  - exists []. cbn. split; [reflexivity|]. split; [unfold sizes; cbn; lia|]. intros rest. constructor.
  - inversion H as [|? ? F H']; subst. unfold item_rt in F. inversion L as [|? ? L1 L2]; subst.
    destruct (IH H' L2) as (b & E & Lb & S1).
    destruct (Forall2_nth_default _ _ _ [] [] r F L1) as (b1 & E1 & Lb1 & D).
    exists (b1 ++ b). unfold row_at in *. cbn [map encode_cells]. rewrite E1. cbn [bind]. rewrite E. cbn [bind].
    split; [reflexivity|]. split.
    { rewrite app_length. unfold sizes in *. cbn [map fold_right]. lia. }
    intros rest. rewrite <- app_assoc. econstructor; [apply D|apply S1].
Qed.

Lemma skipn_map {A B} (f : A -> B) n l : skipn n (map f l) = map f (skipn n l).
Proof. revert l; induction n as [|n IH]; intros [|x l]; cbn; auto. Qed.

Lemma Forall_skipn {A} (P : A -> Prop) n l : Forall P l -> Forall P (skipn n l).
Proof. revert l; induction n as [|n IH]; intros [|x l] H; cbn; auto. apply IH. now inversion H. Qed.

Lemma sizes_skipn n its : Forall (fun it => 0 <= ci_size (i_ci it)) its -> sizes (skipn n its) <= sizes its.
Proof.
  revert n. induction its as [|it its IH]; intros n H.
  - now rewrite skipn_nil.
  - inversion H; subst. destruct n; [apply Z.le_refl|]. cbn [skipn]. specialize (IH n H3). unfold sizes in *. cbn. lia.
Qed.

Lemma cell_rt_size it : item_rt it -> i_cells it <> [] -> 0 <= ci_size (i_ci it).
Proof.
  unfold item_rt. intros F N. destruct F as [|a b la lb (x & _ & L & _) F]; [congruence|]. lia.
Qed.

Definition start_at (its : list item) (r : nat) : nat :=
  match r with
  | O => O
  | S q => start_col (row_at (map i_cells its) q) (row_at (map i_cells its) r)
  end.

Definition srow (its : list item) (r : nat) : stored_row :=
  (start_at its r, skipn (start_at its r) (row_at (map i_outs its) r)).

Lemma start_col_le : forall a b, (start_col a b <= List.length a)%nat.
Proof. induction a as [|x a IH]; intros [|y b]; cbn; try lia. destruct (bytes_eqb y x); [specialize (IH b)|]; lia. Qed.

Lemma start_at_le its r : (start_at its r <= List.length its)%nat.
Proof.
  destruct r; cbn [start_at]; [lia|]. etransitivity; [apply start_col_le|]. unfold row_at. rewrite !map_length. lia.
Qed.

Lemma marker_val_marker n : (n < Z.to_nat 65536)%nat -> marker_val (marker n) = n.
Proof. intros H. unfold marker_val, marker. cbn [nth]. lia. Qed.

Lemma encode_rows_ok its nrows : Forall item_rt its ->
  Forall (fun it => List.length (i_cells it) = nrows) its -> (List.length its < Z.to_nat 65536)%nat ->
  forall n a, (a + n = nrows)%nat ->
  exists b, encode_rows (map i_k its)
      (match a with O => None | S q => Some (row_at (map i_cells its) q) end)
      (map (row_at (map i_cells its)) (seq a n)) = Ok b /\
    Z.of_nat (List.length b) <= Z.of_nat n * (2 + sizes its) /\
    forall rest, row_stream (map i_k' its) (map (srow its) (seq a n)) (b ++ rest) rest.
Proof.
  intros Hok HL Hn. induction n as [|n IH]; intros a Ha.
  - exists []. cbn. split; [reflexivity|]. split; [lia|]. intros rest. constructor.
  - destruct (IH (S a)) as (b & E & Lb & RS); [lia|].
    assert (Lr : Forall (fun it => (a < List.length (i_cells it))%nat) its).
    { eapply Forall_impl; [|exact HL]. cbn beta. intros; lia. }
    assert (Hsz : Forall (fun it => 0 <= ci_size (i_ci it)) its).
    { rewrite Forall_forall in *. intros it Hin. apply cell_rt_size; [auto|].
      specialize (Lr it Hin). cbn beta in Lr. destruct (i_cells it); [cbn in Lr; lia|discriminate]. }
    assert (St : (match (match a with O => None | S q => Some (row_at (map i_cells its) q) end) with
                  | None => O | Some p => start_col p (row_at (map i_cells its) a) end) = start_at its a)
      by (destruct a; reflexivity).
    destruct (encode_cells_ok a (skipn (start_at its a) its)) as (b1 & E1 & Lb1 & CS).
    { now apply Forall_skipn. } { now apply Forall_skipn. }
    exists ((marker (start_at its a) ++ b1) ++ b). cbn [seq map encode_rows]. rewrite St.
    assert (Sr : forall f : item -> list (list Z),
      skipn (start_at its a) (row_at (map f its) a) = row_at (map f (skipn (start_at its a) its)) a).
    { intros f. unfold row_at. now rewrite !skipn_map. }
    unfold encode_row. rewrite Sr, skipn_map, E1. cbn [bind].
    rewrite E. cbn [bind].
    split; [reflexivity|].
    pose proof (sizes_skipn (start_at its a) its Hsz).
    split. { rewrite !app_length. cbn [marker List.length]. nia. }
    intros rest. rewrite <- !app_assoc. unfold srow at 1.
    eapply rs_cons with (s2 := b ++ rest).
    + reflexivity.
    + apply marker_val_marker. pose proof (start_at_le its a). lia.
    + rewrite map_length. apply start_at_le.
    + rewrite Sr, skipn_map. apply CS.
    + apply RS.
Qed.

(** ** What a row stores *)

Lemma cell_rt_fun k k' z a x y : cell_rt k k' z a x -> cell_rt k k' z a y -> x = y.
Proof.
  intros (b & E & _ & D) (b2 & E2 & _ & D2). rewrite E in E2. inversion E2; subst b2.
  specialize (D []). specialize (D2 []). rewrite D in D2. now inversion D2.
Qed.

Lemma start_col_prefix : forall a b p, (p < start_col a b)%nat -> nth p a [] = nth p b [].
Proof.
  induction a as [|x a IH]; intros [|y b] p H; cbn in H; try lia.
  destruct (bytes_eqb y x) eqn:E; [|lia]. apply bytes_eqb_eq in E. subst y.
  destruct p; [reflexivity|]. cbn. apply IH. lia.
Qed.

Lemma nth_map_lt {A B} (f : A -> B) l p da db : (p < List.length l)%nat -> nth p (map f l) db = f (nth p l da).
Proof. revert p; induction l as [|x l IH]; intros p H; cbn in *; [lia|]. destruct p; [reflexivity|]. apply IH. lia. Qed.

Lemma latest_srow its nrows p it : Forall item_rt its ->
  Forall (fun it => List.length (i_cells it) = nrows) its -> nth_error its p = Some it ->
  forall r, (r < nrows)%nat ->
  exists r', (r' <= r)%nat /\ latest (map (srow its) (seq 0 nrows)) p r = Some (r', nth r (i_outs it) []).
Proof.
  intros Hok HL Hp.
  assert (Lp : (p < List.length its)%nat) by (apply nth_error_Some; congruence).
  assert (Hi : item_rt it /\ List.length (i_cells it) = nrows).
  { apply nth_error_In in Hp. rewrite Forall_forall in *. auto. }
  destruct Hi as (F & Li). unfold item_rt in F.
  assert (Nr : forall (f : item -> list (list Z)) q, nth p (row_at (map f its) q) [] = nth q (f it) []).
  { intros f q. unfold row_at. rewrite map_map.
    rewrite (nth_map_lt _ its p it) by assumption. now rewrite (nth_error_nth its p it Hp). }
  assert (St : forall r, (r < nrows)%nat -> stored (map (srow its) (seq 0 nrows)) p r =
     if (start_at its r <=? p)%nat then Some (nth r (i_outs it) []) else None).
  { intros r Hr. unfold stored.
    assert (E : nth_error (map (srow its) (seq 0 nrows)) r = Some (srow its r)).
    { apply map_nth_error. rewrite (nth_error_nth' _ 0%nat) by (rewrite seq_length; lia). rewrite seq_nth by lia. reflexivity. }
    rewrite E. unfold srow. destruct (Nat.leb_spec (start_at its r) p); [|reflexivity].
    rewrite nth_error_skipn. replace (start_at its r + (p - start_at its r))%nat with p by lia.
    rewrite (nth_error_nth' _ []) by (unfold row_at; rewrite !map_length; lia). now rewrite Nr. }
  induction r as [|r IH]; intros Hr; cbn [latest]; rewrite St by assumption.
  - exists 0%nat. cbn [start_at]. destruct (Nat.leb_spec 0 p); [|lia]. split; [lia|reflexivity].
  - destruct (Nat.leb_spec (start_at its (S r)) p) as [Q|Q].
    + exists (S r). split; [lia|reflexivity].
    + cbn [start_at] in Q. apply start_col_prefix in Q. rewrite !Nr in Q.
      destruct IH as (r' & L' & E'); [lia|]. exists r'. split; [lia|]. rewrite E'. do 2 f_equal.
      pose proof (Forall2_nth_default _ _ _ [] [] r F ltac:(lia)) as A.
      pose proof (Forall2_nth_default _ _ _ [] [] (S r) F ltac:(lia)) as B.
      rewrite Q in A. eapply cell_rt_fun; eassumption.
Qed.

(** ** The frame *)

Variable md5 : list Z -> list Z.
Hypothesis md5_length : forall l, List.length (md5 l) = 32%nat.
Variable version : list Z.

(** the metadata a reader gets *)
Definition read_column (it : item) : column := reload_column (final_column it) (i_k' it).

Definition body_bound (its : list item) (nrows : nat) : Z := Z.of_nat nrows * (2 + sizes its).

Record frame_ok (nrows : nat) (its : list item) (pr : props) : Prop := {
  fo_items : Forall item_ok its;
  fo_rows : Forall (fun it => List.length (i_cells it) = nrows) its;
  fo_some : its <> [];
  fo_ncols : (List.length its < Z.to_nat 65536)%nat;
  fo_names : NoDup (map (fun it => ci_name (i_ci it)) its);
  fo_cols : Forall (fun it => column_ok (final_column it)) its;
  fo_props : props_ok (mset pr (str "encoder"%string) version);
  fo_nrows : Z.of_nat nrows < 2 ^ 63;
  fo_header : 100 + total (fun kv => 8 + len (fst kv) + len (snd kv)) (mset pr (str "encoder"%string) version)
              + total col_room (map final_column its) < 2 ^ 31;
  fo_body : body_bound its nrows < 2 ^ 63
}.

Lemma max_row_size_items its : max_row_size (map i_data its) = 2 + sizes its.
Proof. unfold max_row_size, sizes. now rewrite map_map. Qed.

Lemma first_data nrows its : its <> [] -> Forall (fun it => List.length (i_cells it) = nrows) its ->
  match map i_data its with d :: _ => List.length (cd_cells d) | [] => O end = nrows.
Proof. intros N H. destruct its; [congruence|]. cbn. now inversion H. Qed.

Theorem frame_encodes_rows nrows its pr : frame_ok nrows its pr ->
  exists hdr body,
    (encode_rows (map i_k its) None (map (row_at (map i_cells its)) (seq 0 nrows)) = Ok body /\
     serialize_header md5 o (Z.of_nat (List.length body)) (Z.of_nat nrows) (mset pr (str "encoder"%string) version) (map final_column its) = Ok hdr) /\
    encode_frame md5 version st o (map i_ci its) (map i_data its) pr = Ok (hdr ++ body) /\
    Z.of_nat (List.length body) <= body_bound its nrows /\
    (forall rest, row_stream (map i_k' its) (map (srow its) (seq 0 nrows)) (body ++ rest) rest) /\
    (forall post, exists s, read_magic (hdr ++ body ++ post) = Ok (Some s) /\
      load_after_magic md5 st' s =
        Ok ({| h_order := o; h_dataSize := Z.of_nat (List.length body); h_rows := Z.of_nat nrows;
               h_props := mset pr (str "encoder"%string) version; h_cols := map read_column its |}, body ++ post)).
Proof.
  intros [H1 H2 H3 H4 H5 H6 H7 H9 Hroom H10].
  destruct (encode_meta nrows its H1 H2) as (md0 & md1 & E0 & E1 & E2).
  destruct (encode_rows_ok its nrows (items_rt its H1) H2 H4 nrows 0 eq_refl) as (body & Eb & Lb & RS).
  assert (LS : exists h, serialize_header md5 o (Z.of_nat (List.length body)) (Z.of_nat nrows)
               (mset pr (str "encoder"%string) version) (map final_column its) = Ok h /\
       (Z.of_nat (List.length h) < 2 ^ 31 -> forall post, exists s, read_magic (h ++ post) = Ok (Some s) /\
         load_after_magic md5 st' s = Ok ({| h_order := o; h_dataSize := Z.of_nat (List.length body);
           h_rows := Z.of_nat nrows; h_props := mset pr (str "encoder"%string) version; h_cols := map read_column its |}, post))).
  { apply load_serialized; auto.
    - unfold int64, body_bound in *. lia.
    - unfold int64. lia.
    - unfold len31. rewrite map_length. lia.
    - apply Forall2_map. intros it Hin. rewrite Forall_forall in *. exists (i_k' it). split; [auto|].
      split; [|reflexivity]. apply (H1 it Hin). }
  destruct LS as (h & Eh & R). exists h, body. split; [split; [exact Eb|exact Eh]|]. split.
  - unfold encode_frame. rewrite !map_length, Nat.eqb_refl. cbn [assert bind].
    destruct (Nat.ltb_spec 0 (List.length its)) as [_|Q]; [|destruct its; [congruence|cbn in Q; lia]].
    cbn [assert bind]. rewrite E0. cbn [bind]. rewrite (first_data nrows its H3 H2). rewrite E1. cbn [bind].
    rewrite E2. cbn [bind]. unfold rows_of. rewrite !map_map. cbn [final_column col_coder i_data cd_cells].
    change (map (fun x : item => i_k x) its) with (map i_k its).
    change (map (fun x : item => i_cells x) its) with (map i_cells its).
    rewrite Eb. cbn [bind]. rewrite max_row_size_items.
    destruct (Z.ltb_spec ((2 + sizes its) * Z.of_nat nrows) (Z.of_nat (List.length body))); [lia|].
    rewrite Eh. reflexivity.
  - split; [exact Lb|]. split; [exact RS|]. intros post. apply R.
    pose proof (serialize_len md5 o _ _ _ _ _ md5_length Eh) as SL. unfold len at 1 in SL. lia.
Qed.

Theorem frame_encodes nrows its pr : frame_ok nrows its pr ->
  exists hdr body,
    encode_frame md5 version st o (map i_ci its) (map i_data its) pr = Ok (hdr ++ body) /\
    Z.of_nat (List.length body) <= body_bound its nrows /\
    (forall rest, row_stream (map i_k' its) (map (srow its) (seq 0 nrows)) (body ++ rest) rest) /\
    (forall post, exists s, read_magic (hdr ++ body ++ post) = Ok (Some s) /\
      load_after_magic md5 st' s =
        Ok ({| h_order := o; h_dataSize := Z.of_nat (List.length body); h_rows := Z.of_nat nrows;
               h_props := mset pr (str "encoder"%string) version; h_cols := map read_column its |}, body ++ post)).
Proof. intros H. destruct (frame_encodes_rows nrows its pr H) as (hdr & body & _ & E). eauto. Qed.

(** Reading the frame back out of a file that contains it. *)
Definition frame_table (pos : Z) (hlen blen : nat) (nrows : nat) (its : list item) (pr : props) : table :=
  {| t_start := pos; t_data := pos + Z.of_nat hlen; t_next := pos + Z.of_nat hlen + Z.of_nat blen;
     t_size := Z.of_nat blen; t_order := o; t_props := mset pr (str "encoder"%string) version;
     t_cols := map read_column its; t_rows := Z.of_nat nrows |}.

Theorem frame_reads nrows its pr : frame_ok nrows its pr ->
  exists hdr body,
    encode_frame md5 version st o (map i_ci its) (map i_data its) pr = Ok (hdr ++ body) /\
    (forall rest, row_stream (map i_k' its) (map (srow its) (seq 0 nrows)) (body ++ rest) rest) /\
    (forall pre post est, est = 0 \/ Z.of_nat (List.length (pre ++ hdr ++ body)) <= est ->
      read_table md5 st' est (pre ++ hdr ++ body ++ post) (Z.of_nat (List.length pre)) =
        Ok (Some (frame_table (Z.of_nat (List.length pre)) (List.length hdr) (List.length body) nrows its pr)) /\
      read_encoded (pre ++ hdr ++ body ++ post) false
        (frame_table (Z.of_nat (List.length pre)) (List.length hdr) (List.length body) nrows its pr) = Ok body /\
      read_encoded (pre ++ hdr ++ body ++ post) true
        (frame_table (Z.of_nat (List.length pre)) (List.length hdr) (List.length body) nrows its pr) = Ok (hdr ++ body)).
Proof.
  intros H. destruct (frame_encodes nrows its pr H) as (hdr & body & E & Lb & RS & R).
  exists hdr, body. split; [exact E|]. split; [exact RS|]. intros pre post est He.
  destruct (R post) as (s & R1 & R2).
  assert (HB : Z.of_nat nrows < 2 ^ 63) by apply H.
  assert (Sk : skipn (List.length pre) (pre ++ hdr ++ body ++ post) = hdr ++ body ++ post)
    by (apply skipn_app_exact; reflexivity).
  split; [|split].
  - unfold read_table, from. rewrite Nat2Z.id, Sk, R1. cbn [bind]. rewrite R2. cbn [bind h_dataSize h_order h_props h_cols h_rows].
    unfold frame_table. rewrite !app_length in *.
    assert (D : Z.of_nat (List.length pre + (List.length hdr + (List.length body + List.length post))) -
                Z.of_nat (List.length body + List.length post) = Z.of_nat (List.length pre) + Z.of_nat (List.length hdr)) by lia.
    rewrite D. cbn [t_next].
    replace (Z.of_nat nrows mod 2 ^ 64) with (Z.of_nat nrows) by (rewrite Z.mod_small; lia).
    destruct (Z.ltb_spec est (Z.of_nat (List.length pre) + Z.of_nat (List.length hdr) + Z.of_nat (List.length body)));
      destruct (Z.eqb_spec est 0); try reflexivity. lia.
  - unfold read_encoded, read_range, from, frame_table. cbn [t_data t_size].
    destruct (Z.ltb_spec (Z.of_nat (List.length body)) 0); [lia|].
    replace (Z.to_nat (Z.of_nat (List.length pre) + Z.of_nat (List.length hdr))) with (List.length (pre ++ hdr)) by (rewrite app_length; lia).
    replace (pre ++ hdr ++ body ++ post) with ((pre ++ hdr) ++ body ++ post) by (rewrite <- app_assoc; reflexivity).
    rewrite (skipn_app_exact (pre ++ hdr)) by reflexivity. rewrite Nat2Z.id.
    rewrite (firstn_app_exact body) by reflexivity. destruct (Z.ltb_spec (Z.of_nat (List.length body)) (Z.of_nat (List.length body))); [lia|reflexivity].
  - unfold read_encoded, read_range, from, frame_table. cbn [t_start t_next].
    destruct (Z.ltb_spec (Z.of_nat (List.length pre) + Z.of_nat (List.length hdr) + Z.of_nat (List.length body) - Z.of_nat (List.length pre)) 0); [lia|].
    rewrite Nat2Z.id, Sk.
    replace (Z.of_nat (List.length pre) + Z.of_nat (List.length hdr) + Z.of_nat (List.length body) - Z.of_nat (List.length pre))
      with (Z.of_nat (List.length (hdr ++ body))) by (rewrite app_length; lia).
    rewrite Nat2Z.id. rewrite app_assoc. rewrite (firstn_app_exact (hdr ++ body)) by reflexivity.
    destruct (Z.ltb_spec (Z.of_nat (List.length (hdr ++ body))) (Z.of_nat (List.length (hdr ++ body)))); [lia|reflexivity].
Qed.

End Frame.
