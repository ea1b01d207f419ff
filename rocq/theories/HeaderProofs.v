(** Frame headers: what is written is loaded back; nothing else is accepted. *)
From Coq Require Import String.
From Verif Require Import Spec Base Fp FpProofs Stream StreamProofs StreamLocal Codec Meta Header
  GatherProofs StringProofs ColumnProofs.
Open Scope Z_scope.

(** ** Codecs *)

(** a codec as a reader rebuilds it from its header entry *)
Definition reload_of (iad : bool) (ty : Z) (c : codec) : codec :=
  let f := set_stats (new_codec iad (c_ord c) (c_kind c) ty) (c_hasMissing c) (c_min c) (c_max c) (c_missing c) in
  match c_kind c with
  | KLongConstantString =>
      set_strings f (firstn 1 (c_strings c)) [] (match c_strings c with
        | t :: _ => if (List.length t =? 0)%nat then 2 ^ 61 else (Z.of_nat (List.length t) + 7) / 8
        | [] => 1 end)
  | KInt8String | KInt16String => set_strings f (c_strings c) [] (table_doubles (c_strings c))
  | _ => f
  end.

(** what can be written: fields in the range of their C++ type *)
Record codec_ok (iad : bool) (ty : Z) (c : codec) : Prop := {
  ck_h : - 2 ^ 31 <= c_hasMissing c < 2 ^ 31;
  ck_min : is64 (c_min c); ck_max : is64 (c_max c); ck_miss : is64 (c_missing c);
  ck_strs : In (c_kind c) [KInt8String; KInt16String; KLongConstantString] ->
            Z.of_nat (List.length (c_strings c)) < 2 ^ 31 /\ Forall len31 (c_strings c);
  ck_long : c_kind c = KLongConstantString -> c_strings c <> [];
  (* the missing value converts to int64_t where the reader converts it *)
  ck_cast : numeric (c_kind c) = true ->
            check_cast (new_codec iad (c_ord c) (c_kind c) ty) (c_missing c) = Ok tt
}.

Lemma check_cast_stats c h mn mx ms v : check_cast (set_stats c h mn mx ms) v = check_cast c v.
Proof. reflexivity. Qed.

Theorem load_save_codec i ty c : codec_ok i ty c ->
  exists bytes, save c = Ok bytes /\
    forall rest, load (new_codec i (c_ord c) (c_kind c) ty) (bytes ++ rest) = Ok (reload_of i ty c, rest).
Proof.
  intros [Hh H1 H2 H3 Hss Hlong Hcast].
  assert (LB : forall rest, load_base (new_codec i (c_ord c) (c_kind c) ty) (save_base c ++ rest) =
    Ok (set_stats (new_codec i (c_ord c) (c_kind c) ty) (c_hasMissing c) (c_min c) (c_max c) (c_missing c), rest)).
  { intros rest. rewrite (load_base_ok c) by (try reflexivity; assumption). reflexivity. }
  destruct (c_kind c) eqn:K.
  all: try (exists (save_base c); split; [unfold save; rewrite K; reflexivity|]; intros rest; unfold load;
    cbn [c_kind new_codec]; rewrite LB; cbn [bind];
    change (c_missing (set_stats _ _ _ _ _)) with (c_missing c); rewrite check_cast_stats, Hcast by reflexivity;
    cbn [bind]; unfold reload_of; rewrite K; reflexivity).
  - (* constant_string *)
    eexists. split; [unfold save; rewrite K; reflexivity|]. intros rest. unfold load. cbn [c_kind new_codec c_ord].
    rewrite <- !app_assoc.
    assert (W : forall b, is64 b -> le_bytes 8 b = w_int (c_ord c) 8 (le_val (swap (c_ord c) (le_bytes 8 b)))).
    { intros b Hb. unfold w_int.
      assert (L : List.length (swap (c_ord c) (le_bytes 8 b)) = 8%nat) by (rewrite swap_length; apply le_bytes_length).
      rewrite (le_bytes8 _ L) by (apply swap_ok, le_bytes_ok). now rewrite swap_swap. }
    rewrite (W (c_min c) H1), (W (c_max c) H2).
    unfold load_base. cbn [c_ord new_codec]. rewrite read_i32_app by lia. cbn [bind].
    rewrite read_f64_app by apply is64_swap. cbn [bind].
    rewrite read_f64_app by apply is64_swap. cbn [bind].
    rewrite read_f64_app by exact H3. cbn [bind set_stats c_hasMissing c_min c_max c_missing c_kind].
    unfold swap8. rewrite !swap8_swap by assumption. unfold reload_of. rewrite K. reflexivity.
  - (* long_constant_string *)
    destruct Hss as [Hn Hl]; [cbn; tauto|]. destruct (c_strings c) as [|t ss] eqn:S; [now destruct (Hlong eq_refl)|].
    inversion Hl; subst.
    eexists. split; [unfold save; rewrite K, S; reflexivity|]. intros rest. unfold load. cbn [c_kind new_codec].
    rewrite <- !app_assoc, LB. cbn [bind c_ord new_codec]. rewrite read_string_app by assumption.
    cbn [bind]. unfold reload_of. rewrite K, S. reflexivity.
  - (* chars *)
    eexists. split; [unfold save; rewrite K; reflexivity|]. intros rest. unfold load. cbn [c_kind new_codec].
    rewrite <- !app_assoc, LB. cbn [bind c_ord new_codec]. rewrite read_i32_app by lia.
    cbn [bind assert]. unfold reload_of. rewrite K. reflexivity.
  - destruct Hss as [Hn Hl]; [cbn; tauto|].
    eexists. split; [unfold save; rewrite K; reflexivity|]. intros rest. unfold load. cbn [c_kind new_codec].
    rewrite <- !app_assoc, LB. cbn [bind c_ord new_codec]. rewrite read_i32_app by lia. cbn [bind].
    replace (0 <=? Z.of_nat (List.length (c_strings c))) with true by lia. cbn [assert bind].
    pose proof (save_strings_length (c_ord c) 0 (c_strings c)) as SL.
    replace (Z.to_nat _) with (List.length (c_strings c)) by (rewrite app_length; lia).
    pose proof (load_entries_ok (c_ord c) (Z.of_nat (List.length (c_strings c))) (c_strings c) []
      (S (List.length (save_strings (c_ord c) 0 (c_strings c) ++ rest))) 1 rest) as HLE.
    cbn [app List.length] in HLE. change (Z.of_nat 0) with 0 in HLE. rewrite HLE; [|lia|assumption|rewrite app_length; lia|lia].
    cbn [bind fst snd]. unfold reload_of. rewrite K. reflexivity.
  - destruct Hss as [Hn Hl]; [cbn; tauto|].
    eexists. split; [unfold save; rewrite K; reflexivity|]. intros rest. unfold load. cbn [c_kind new_codec].
    rewrite <- !app_assoc, LB. cbn [bind c_ord new_codec]. rewrite read_i32_app by lia. cbn [bind].
    replace (0 <=? Z.of_nat (List.length (c_strings c))) with true by lia. cbn [assert bind].
    pose proof (save_strings_length (c_ord c) 0 (c_strings c)) as SL.
    replace (Z.to_nat _) with (List.length (c_strings c)) by (rewrite app_length; lia).
    pose proof (load_entries_ok (c_ord c) (Z.of_nat (List.length (c_strings c))) (c_strings c) []
      (S (List.length (save_strings (c_ord c) 0 (c_strings c) ++ rest))) 1 rest) as HLE.
    cbn [app List.length] in HLE. change (Z.of_nat 0) with 0 in HLE. rewrite HLE; [|lia|assumption|rewrite app_length; lia|lia].
    cbn [bind fst snd]. unfold reload_of. rewrite K. reflexivity.
Qed.

(** ** Columns *)

(** the column a reader gets, for a given reloaded codec *)
Definition reload_column (c : column) (k' : codec) : column :=
  {| col_name := col_name c; col_type := col_type c;
     col_bfnames := if col_type c =? ty_BITFIELD then col_bfnames c else [];
     col_bfsizes := if col_type c =? ty_BITFIELD then col_bfsizes c else [];
     col_coder := k' |}.

Record column_ok (c : column) : Prop := {
  co_name : len31 (col_name c);
  co_type : - 2 ^ 31 <= col_type c < 2 ^ 31;
  co_bf : col_type c = ty_BITFIELD ->
          List.length (col_bfnames c) = List.length (col_bfsizes c) /\
          len31 (col_bfnames c) /\ Forall len31 (col_bfnames c) /\
          Forall (fun z => - 2 ^ 31 <= z < 2 ^ 31) (col_bfsizes c)
}.

Lemma kname_len k : len31 (kname k).
Proof. destruct k; vm_compute; reflexivity. Qed.

Lemma load_save_column st' o c k' : column_ok c -> reloads st' o (col_type c) (col_coder c) k' ->
  exists b, save_column o c = Ok b /\ (1 <= List.length b)%nat /\
    forall rest, load_column st' o (b ++ rest) = Ok (reload_column c k', rest).
Proof.
  intros [Hn Ht Hb] (O1 & O2 & K & bytes & Hs & Hl).
  unfold save_column. rewrite O1.
  assert (B : exists bf, (if col_type c =? ty_BITFIELD then
              do _ <- assert (List.length (col_bfnames c) =? List.length (col_bfsizes c))%nat;
              Ok (w_vec o (w_string o) (col_bfnames c) ++ w_vec o (w_int o 4) (col_bfsizes c))
            else Ok []) = Ok bf /\ forall rest,
            (if col_type c =? ty_BITFIELD then
                    do (names, s2a) <- read_vec o (read_string o) (bf ++ rest);
                    do (sizes, s2b) <- read_vec o (read_i32 o) s2a;
                    do _ <- assert (List.length names =? List.length sizes)%nat;
                    Ok ((names, sizes), s2b)
                  else Ok (([], []), bf ++ rest)) =
            Ok ((if col_type c =? ty_BITFIELD then col_bfnames c else [],
                 if col_type c =? ty_BITFIELD then col_bfsizes c else []), rest)).
  { destruct (Z.eqb_spec (col_type c) ty_BITFIELD) as [E|E].
    - destruct (Hb E) as (L & L1 & L2 & L3). rewrite L, Nat.eqb_refl. cbn [assert bind].
      eexists. split; [reflexivity|]. intros rest. rewrite <- app_assoc.
      rewrite read_vec_app; [|exact L1| |].
      2:{ intros x _. unfold w_string. rewrite app_length, w_int_length. lia. }
      2:{ intros x r Hx. apply read_string_app. rewrite Forall_forall in L2. auto. }
      cbn [bind]. rewrite read_vec_app.
      + cbn [bind]. rewrite L, Nat.eqb_refl. reflexivity.
      + unfold len31 in *. lia.
      + intros x _. rewrite w_int_length. lia.
      + intros x r Hx. apply read_i32_app. rewrite Forall_forall in L3. auto.
    - exists []. split; reflexivity. }
  destruct B as (bf & B1 & B2). rewrite B1. cbn [bind].
  assert (OO : match o, o with LE, LE | BE, BE => Ok tt | _, _ => @Throw unit SeriousBug end = Ok tt) by (destruct o; reflexivity).
  rewrite OO. cbn [bind]. rewrite Hs. cbn [bind].
  eexists. split; [reflexivity|]. split.
  { unfold w_string. rewrite !app_length, w_int_length. lia. }
  intros rest. unfold load_column. rewrite <- !app_assoc.
  rewrite read_string_app by assumption. cbn [bind].
  rewrite read_i32_app by assumption. cbn [bind].
  rewrite B2. cbn [bind fst snd].
  unfold load_codec. rewrite read_string_app by apply kname_len. cbn [bind]. rewrite kind_of_name_kname.
  rewrite Hl. cbn [bind]. reflexivity.
Qed.

(** reading counted elements written for other elements *)
Lemma read_n_save {A B} (rd : reader B) (R : A -> B -> Prop) (sv : A -> outcome (list Z)) :
  (forall a b, R a b -> exists x, sv a = Ok x /\ (1 <= List.length x)%nat /\ forall rest, rd (x ++ rest) = Ok (b, rest)) ->
  forall la lb, Forall2 R la lb ->
  exists bytes, (fix go l := match l with [] => Ok [] | c :: l' => do b <- sv c; do bs <- go l'; Ok (b ++ bs) end) la = Ok bytes /\
    (List.length la <= List.length bytes)%nat /\
    forall fuel rest, (List.length la <= fuel)%nat -> read_n rd fuel (Z.of_nat (List.length la)) (bytes ++ rest) = Ok (lb, rest).
Proof.
  intros H la lb F. induction F as [|a b la lb Hab F IH].
  - exists []. split; [reflexivity|]. split; [cbn; lia|]. intros fuel rest _. destruct fuel; reflexivity.
  - destruct IH as (bytes & E & L & Rd). destruct (H a b Hab) as (x & Ex & Lx & Rx).
    exists (x ++ bytes). rewrite Ex. cbn [bind]. rewrite E. cbn [bind]. split; [reflexivity|].
    split; [rewrite app_length; cbn; lia|]. intros fuel rest Hf. destruct fuel as [|fuel]; [cbn in Hf; lia|].
    cbn [read_n]. destruct (Z.leb_spec (Z.of_nat (List.length (a :: la))) 0); [cbn [List.length] in *; lia|].
    rewrite <- app_assoc, Rx. cbn [bind].
    replace (Z.of_nat (List.length (a :: la)) - 1) with (Z.of_nat (List.length la)) by (cbn [List.length]; lia).
    rewrite Rd by (cbn in Hf; lia). reflexivity.
Qed.

(** column [c] written in order [o] is loaded as [c'] *)
Definition col_reloads (st' : settings) (o : order) (c c' : column) : Prop :=
  exists k', column_ok c /\ reloads st' o (col_type c) (col_coder c) k' /\ c' = reload_column c k'.

Lemma save_columns_go o cs : save_columns o cs =
  (fix go l := match l with [] => Ok [] | c :: l' => do b <- save_column o c; do bs <- go l'; Ok (b ++ bs) end) cs.
Proof. induction cs as [|c cs IH]; cbn; [reflexivity|]. rewrite IH. reflexivity. Qed.

Lemma load_save_meta st' o cs cs' : len31 cs -> Forall2 (col_reloads st' o) cs cs' ->
  exists b, save_meta o cs = Ok b /\ forall rest, load_meta st' o (b ++ rest) = Ok (cs', rest).
Proof.
  intros Hl F. unfold save_meta. rewrite save_columns_go.
  destruct (read_n_save (load_column st' o) (col_reloads st' o) (save_column o)) with (la := cs) (lb := cs')
    as (bytes & E & L & Rd); [|exact F|].
  - intros a b (k' & A1 & A2 & ->). now apply load_save_column.
  - rewrite E. cbn [bind]. eexists. split; [reflexivity|]. intros rest. unfold load_meta, read_vec.
    rewrite <- app_assoc. unfold len31 in Hl. rewrite read_i32_app by lia. cbn [bind].
    destruct (Z.ltb_spec (Z.of_nat (List.length cs)) 0); [lia|].
    apply Rd. rewrite app_length. lia.
Qed.

(** ** Header *)
Section Md5.
Variable md5 : list Z -> list Z.
Hypothesis md5_length : forall l, List.length (md5 l) = 32%nat.

Definition int64 (z : Z) : Prop := - 2 ^ 63 <= z < 2 ^ 63.

Lemma load_save_variable st' o ds nr pr cs cs' :
  int64 ds -> int64 nr -> props_ok pr -> len31 cs -> Forall2 (col_reloads st' o) cs cs' ->
  exists v, variable_part o ds nr pr cs = Ok v /\
    load_variable st' o v = Ok {| h_order := o; h_dataSize := ds; h_rows := nr; h_props := pr; h_cols := cs' |}.
Proof.
  intros Hd Hr Hp Hl F. unfold variable_part.
  destruct (load_save_meta st' o cs cs' Hl F) as (m & E & L). rewrite E. cbn [bind].
  eexists. split; [reflexivity|]. unfold load_variable.
  rewrite read_i64_app by exact Hd. cbn [bind]. rewrite read_i64_app by lia. cbn [bind assert].
  change (0 =? 0) with true. cbn [assert bind].
  rewrite read_i64_app by exact Hr. cbn [bind].
  rewrite read_vec_app; [|unfold len31; cbn; lia|intros ? []|intros ? ? []]. cbn [bind].
  rewrite read_map_app by exact Hp. cbn [bind].
  replace m with (m ++ []) by apply app_nil_r. rewrite L. reflexivity.
Qed.

Lemma fixed_part_length o d v : List.length d = 32%nat -> List.length (fixed_part o d v) = 57%nat.
Proof. intros H. unfold fixed_part, w_string. rewrite !app_length, !w_int_length, H. reflexivity. Qed.

Lemma order_word o : (if le_val (w_int o 4 1) =? 1 then LE else BE) = o.
Proof. destruct o; reflexivity. Qed.

Lemma firstn_app_exact {A} (a b : list A) n : n = List.length a -> firstn n (a ++ b) = a.
Proof. intros ->. rewrite firstn_app, Nat.sub_diag, firstn_all. cbn. apply app_nil_r. Qed.
Lemma skipn_app_exact {A} (a b : list A) n : n = List.length a -> skipn n (a ++ b) = b.
Proof. intros ->. rewrite skipn_app, Nat.sub_diag, skipn_all. reflexivity. Qed.

(** what [serialize_header] produces is recognised and loaded *)
Theorem load_serialized st' o ds nr pr cs cs' :
  int64 ds -> int64 nr -> props_ok pr -> len31 cs -> Forall2 (col_reloads st' o) cs cs' ->
  exists h, serialize_header md5 o ds nr pr cs = Ok h /\
    (Z.of_nat (List.length h) < 2 ^ 31 -> forall body,
    exists s, read_magic (h ++ body) = Ok (Some s) /\
      load_after_magic md5 st' s =
        Ok ({| h_order := o; h_dataSize := ds; h_rows := nr; h_props := pr; h_cols := cs' |}, body)).
Proof using md5_length.
  intros Hd Hr Hp Hl F. unfold serialize_header.
  destruct (load_save_variable st' o ds nr pr cs cs' Hd Hr Hp Hl F) as (v & Ev & Lv).
  rewrite Ev. cbn [bind].
  rewrite fixed_part_length by apply md5_length. change (Z.of_nat 57 =? fixed_size) with true. cbn [assert bind].
  eexists. split; [reflexivity|]. intros Hh body. rewrite app_length in Hh.
  assert (Hv : Z.of_nat (List.length v) < 2 ^ 31) by lia. clear Hh.
  set (b48 := w_int o 4 0 ++ w_int o 4 5 ++ w_string o (md5 v) ++ w_int o 4 (Z.of_nat (List.length v))).
  assert (L48 : List.length b48 = 48%nat).
  { unfold b48, w_string. rewrite !app_length, !w_int_length, md5_length. reflexivity. }
  exists (w_int o 4 1 ++ b48 ++ v ++ body). split.
  - unfold fixed_part. fold b48. rewrite <- !app_assoc. cbn [app].
    assert (M : w_int o 2 65535 = [255; 255]) by (destruct o; reflexivity). rewrite M. reflexivity.
  - unfold load_after_magic. rewrite app_length, w_int_length.
    destruct (Nat.ltb_spec (4 + List.length (b48 ++ v ++ body)) 4); [lia|].
    rewrite firstn_app_exact, skipn_app_exact by (now rewrite w_int_length). rewrite order_word.
    unfold load_header. rewrite app_length, L48.
    destruct (Nat.ltb_spec (48 + List.length (v ++ body)) 48); [lia|].
    rewrite firstn_app_exact, skipn_app_exact by (now rewrite L48).
    assert (LB : load_basic o b48 = Ok (md5 v, Z.of_nat (List.length v))).
    { unfold load_basic, b48. rewrite read_i32_app by lia. cbn [bind]. change (0 <=? 0) with true. cbn [assert bind].
      rewrite read_i32_app by lia. cbn [bind]. change ((5 <=? 5) && (3 <? 5)) with true. cbn [assert bind].
      rewrite read_string_app by (unfold len31; rewrite md5_length; lia). cbn [bind].
      rewrite <- (app_nil_r (w_int o 4 _)). rewrite read_i32_app by lia. reflexivity. }
    rewrite LB. cbn [bind].
    destruct (Z.ltb_spec (Z.of_nat (List.length v)) 0); [lia|].
    rewrite app_length. destruct (Z.ltb_spec (Z.of_nat (List.length v + List.length body)) (Z.of_nat (List.length v))); [lia|].
    rewrite Nat2Z.id, firstn_app_exact, skipn_app_exact by reflexivity.
    rewrite bytes_eqb_refl, Lv. reflexivity.
Qed.

(** ** Independence of the header buffer size *)

Lemma serialize_loop_ok fuel cap o ds nr pr cs r : fixed_size <= cap ->
  serialize_loop md5 fuel cap o ds nr pr cs = Some r -> r = serialize_header md5 o ds nr pr cs.
Proof using md5_length.
  unfold serialize_header. revert cap. induction fuel as [|f IH]; intros cap Hc; cbn [serialize_loop].
  all: destruct (Z.ltb_spec cap fixed_size); [lia|].
  all: destruct (variable_part o ds nr pr cs) as [v| |] eqn:E; cbn [bind]; try (intros [= <-]; reflexivity).
  all: rewrite fixed_part_length by apply md5_length; change (Z.of_nat 57 =? fixed_size) with true; cbn [assert bind].
  all: destruct (Z.ltb_spec (cap - fixed_size) (Z.of_nat (List.length v))).
  - discriminate.
  - intros [= <-]; reflexivity.
  - intros Hr. apply IH in Hr; [|unfold fixed_size in *; lia].
    rewrite ?E in Hr; cbn [bind] in Hr; rewrite fixed_part_length in Hr by apply md5_length. exact Hr.
  - intros [= <-]; reflexivity.
Qed.

Lemma serialize_loop_ends cap o ds nr pr cs : fixed_size <= cap ->
  exists fuel, serialize_loop md5 fuel cap o ds nr pr cs <> None.
Proof using md5_length.
  intros Hc. destruct (variable_part o ds nr pr cs) as [v|e|] eqn:E.
  2,3: exists O; cbn; destruct (Z.ltb_spec cap fixed_size); [lia|]; rewrite E; discriminate.
  assert (G : forall n cap, fixed_size <= cap -> Z.of_nat (List.length v) + fixed_size <= cap + Z.of_nat n ->
              serialize_loop md5 n cap o ds nr pr cs <> None).
  { induction n as [|n IH]; intros c H1 H2; cbn [serialize_loop];
    (destruct (Z.ltb_spec c fixed_size); [lia|]); rewrite E;
    destruct (Z.ltb_spec (c - fixed_size) (Z.of_nat (List.length v))).
    - lia.
    - destruct (_ =? _); discriminate.
    - apply IH; unfold fixed_size in *; lia.
    - destruct (_ =? _); discriminate. }
  exists (List.length v). apply G; [assumption|]. lia.
Qed.

Lemma serialize_loop_small fuel cap o ds nr pr cs : cap < fixed_size ->
  serialize_loop md5 fuel cap o ds nr pr cs = Some UB.
Proof. intros H. destruct fuel; cbn [serialize_loop]; (destruct (Z.ltb_spec cap fixed_size); [reflexivity|lia]). Qed.

End Md5.
