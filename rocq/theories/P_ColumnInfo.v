(** C41: the column descriptions of a frame. *)
From Coq Require Import String.
From Verif Require Import Spec Base Fp Stream StreamProofs StreamLocal Codec Meta Header Encoder Table TableProofs FrameProofs FrameDecode P_Frame ColumnInfo.
Open Scope Z_scope.
Open Scope list_scope.

(** the sum of the sizes of the members before member [i] *)
Definition sum_before (sizes : list Z) (i : nat) : Z := fold_right Z.add 0 (firstn i sizes).

(** a size is an int32, with room for an offset on top *)
Definition small_size (sz : Z) : Prop := - 2 ^ 31 <= sz < 2 ^ 31 - 256.

Lemma bits_from_ok : forall names sizes off, List.length names = List.length sizes -> Forall small_size sizes -> 0 <= off < 256 ->
  exists bits, bits_from off names sizes = Ok bits /\ map b_name bits = names /\ map b_size bits = sizes /\
    forall i b, nth_error bits i = Some b -> b_offset b = (off + sum_before sizes i) mod 256.
Proof.
  induction names as [|nm names IH]; intros [|sz sizes] off L F H; try discriminate; cbn [bits_from].
  - exists []. split; [reflexivity|]. split; [reflexivity|]. split; [reflexivity|]. intros [|i]; discriminate.
  - inversion F as [|? ? [F1 F1'] F2]; subst. replace ((off + sz <? - 2 ^ 31) || (2 ^ 31 <=? off + sz)) with false by lia.
    destruct (IH sizes ((off + sz) mod 256)) as (bits & E & L' & S' & B); [cbn in L; lia|exact F2|apply Z.mod_pos_bound; lia|].
    rewrite E. cbn [bind]. eexists. split; [reflexivity|]. split; [cbn; now rewrite L'|]. split; [cbn; now rewrite S'|].
    intros [|i] b Hb.
    + injection Hb as <-. unfold sum_before. cbn [firstn fold_right b_offset]. rewrite Z.add_0_r. symmetry. apply Z.mod_small. exact H.
    + cbn [nth_error] in Hb. rewrite (B i b Hb). unfold sum_before. cbn [firstn fold_right]. rewrite Z.add_mod_idemp_l by lia. f_equal. lia.
Qed.

Lemma describe_all_ok : forall cs, Forall (fun c => exists i, describe c = Ok i) cs -> exists is, describe_all cs = Ok is /\ Forall2 (fun c i => describe c = Ok i) cs is.
Proof.
  induction 1 as [|c cs (i & E) _ (is & E' & F)]; cbn [describe_all]; [exists []; auto|]. rewrite E. cbn [bind]. rewrite E'. cbn [bind]. exists (i :: is). auto.
Qed.

(** Every column of a frame is described by its name, type, decoded size and members; the
    offset reported for a member is the sum of the sizes before it, modulo 256. *)
Theorem C41_offsets : forall t ts,
  Forall (fun c => List.length (col_bfnames c) = List.length (col_bfsizes c) /\ Forall small_size (col_bfsizes c)) (t_cols t) ->
  exists is, column_infos (t :: ts) = Ok is /\
    Forall2 (fun c i => i_name i = col_name c /\ i_type i = col_type c /\ i_size i = (8 * data_size_doubles (col_coder c)) mod 2 ^ 64 /\
       map b_name (i_bits i) = col_bfnames c /\ map b_size (i_bits i) = col_bfsizes c /\
       forall j b, nth_error (i_bits i) j = Some b -> b_offset b = sum_before (col_bfsizes c) j mod 256) (t_cols t) is.
Proof.
  intros t ts H. unfold column_infos.
  assert (D : forall c, List.length (col_bfnames c) = List.length (col_bfsizes c) -> Forall small_size (col_bfsizes c) -> exists bits,
    bits_from 0 (col_bfnames c) (col_bfsizes c) = Ok bits /\ describe c = Ok {| i_name := col_name c; i_type := col_type c; i_size := (data_size_doubles (col_coder c) * 8) mod 2 ^ 64; i_bits := bits |} /\
    map b_name bits = col_bfnames c /\ map b_size bits = col_bfsizes c /\ forall j b, nth_error bits j = Some b -> b_offset b = (0 + sum_before (col_bfsizes c) j) mod 256).
  { intros c L F. destruct (bits_from_ok (col_bfnames c) (col_bfsizes c) 0 L F ltac:(lia)) as (bits & E & B). exists bits. split; [exact E|]. split; [|exact B].
    unfold describe. rewrite L, Nat.eqb_refl. cbn [assert bind]. rewrite E. reflexivity. }
  destruct (describe_all_ok (t_cols t)) as (is & E & F2).
  { eapply Forall_impl; [|exact H]. intros c [L F]. destruct (D c L F) as (bits & _ & E & _). eauto. }
  exists is. split; [exact E|]. clear E. revert H. induction F2 as [|c i cs is Hd F2 IH]; intros H; [constructor|]. inversion H as [|? ? [L F] H']; subst.
  constructor; [|exact (IH H')]. destruct (D c L F) as (bits & _ & E & B1 & B2 & B3). rewrite E in Hd. injection Hd as <-. cbn [i_name i_type i_size i_bits].
  split; [reflexivity|]. split; [reflexivity|]. split; [f_equal; lia|]. split; [exact B1|]. split; [exact B2|]. exact B3.
Qed.
Print Assumptions C41_offsets.

(** What was given to the encoder is what the description of the frame gives back: names and
    types of the columns, and for bitfield columns the names and sizes of the members; the
    offsets are the sums of the sizes when these stay below 256. *)
Theorem C41_roundtrip : forall st st' o version (md5 : list Z -> list Z) n cols data pr,
  (forall l, List.length (md5 l) = 32%nat) -> valid_table st version n cols data pr ->
  Forall (fun ci => Forall (fun b => small_size (snd b)) (ci_bits ci)) cols ->
  exists frame t is, encode_frame md5 version st o cols data pr = Ok frame /\ read_table md5 st' 0 frame 0 = Ok (Some t) /\ column_infos [t] = Ok is /\
    Forall2 (fun ci i => i_name i = ci_name ci /\ i_type i = ci_type ci /\ i_size i <= ci_size ci /\
       map (fun b => (b_name b, b_size b)) (i_bits i) = (if ci_type ci =? ty_BITFIELD then ci_bits ci else []) /\
       forall j b, nth_error (i_bits i) j = Some b -> b_offset b = sum_before (map snd (ci_bits ci)) j mod 256) cols is.
Proof.
  intros st st' o version md5 n cols data pr Hmd V HB. destruct (C19_roundtrip st st' o version md5 n cols data pr Hmd V) as (frame & E & R).
  destruct (R [] [] 0 (or_introl eq_refl)) as (t & R1 & _ & _ & _ & _ & _ & R2 & _). cbn [app List.length] in R1. rewrite app_nil_r in R1. change (Z.of_nat 0) with 0 in R1.
  assert (CM : forall (f : list (list Z)) (g : list Z) l, List.length f = List.length g -> combine f g = l -> f = map fst l /\ g = map snd l).
  { clear. induction f as [|a f IH]; intros [|b g] l L Q; try discriminate; subst l; [auto|]. cbn [combine map fst snd]. destruct (IH g (combine f g)) as [Q1 Q2]; [cbn in L; lia|reflexivity|].
    rewrite <- Q1, <- Q2. auto. }
  destruct (C41_offsets t []) as (is & Ei & F).
  { clear -R2 HB CM. induction R2 as [|ci c cols cs (_ & _ & L & C & _) R2 IH]; [constructor|]. inversion HB as [|? ? H1 H2]; subst. constructor; [|exact (IH H2)].
    split; [exact L|]. destruct (CM _ _ _ L C) as [_ ->]. destruct (_ =? _); [|constructor]. rewrite Forall_map. exact H1. }
  exists frame, t, is. split; [exact E|]. split; [exact R1|]. split; [exact Ei|]. clear -R2 F CM. revert is F.
  induction R2 as [|ci c cols cs (A1 & A2 & L & C & W) R2 IH]; intros is F; inversion F as [|? i ? is' (B1 & B2 & B3 & B4 & B5 & B6) F']; subst; constructor; [|exact (IH _ F')].
  destruct (CM _ _ _ L C) as [Q1 Q2]. split; [congruence|]. split; [congruence|]. split.
  { unfold col_bytes in W. rewrite B3. pose proof (Z.mod_le (8 * data_size_doubles (col_coder c)) (2 ^ 64)). lia. }
  rewrite Q1 in B4. rewrite Q2 in B5, B6. split.
  - set (bits := if ci_type ci =? ty_BITFIELD then ci_bits ci else []) in *. clearbody bits. clear -B4 B5. revert bits B4 B5. induction (i_bits i) as [|b l IH]; intros [|[x y] bits] B4 B5; try discriminate; [reflexivity|].
    cbn [map fst snd] in *. injection B4 as -> B4. injection B5 as -> B5. now rewrite (IH bits B4 B5).
  - intros j b Hb. rewrite (B6 j b Hb). destruct (ci_type ci =? ty_BITFIELD); [reflexivity|]. exfalso. destruct (i_bits i); [|discriminate]. destruct j; discriminate.
Qed.
Print Assumptions C41_roundtrip.

(** Members added through the C API lie within 32 bits, and each call that is accepted
    records the sum of the sizes before as the offset; a frame reports these offsets. *)
Theorem C41_capi : forall calls bits, Forall (fun c => - 2 ^ 31 <= snd c < 2 ^ 31) calls -> add_bitfields [] calls = Ok bits ->
  map (fun b => (b_name b, b_size b)) bits = calls /\
  forall j b, nth_error bits j = Some b -> b_offset b = sum_before (map snd calls) j /\ 0 <= b_offset b <= 32 /\ 0 <= b_offset b + b_size b <= 32 /\
    b_offset b = sum_before (map snd calls) j mod 256.
Proof.
  assert (Sum : forall l sz, fold_right Z.add 0 (l ++ [sz]) = fold_right Z.add 0 l + sz) by (induction l as [|a l IH]; intros sz; cbn; [lia|rewrite IH; lia]).
  assert (G : forall calls bits0 bits, Forall (fun c => - 2 ^ 31 <= snd c < 2 ^ 31) calls ->
    (forall j b, nth_error bits0 j = Some b -> b_offset b = sum_before (map b_size bits0) j /\ 0 <= b_offset b <= 32 /\ 0 <= b_offset b + b_size b <= 32) ->
    add_bitfields bits0 calls = Ok bits ->
    map (fun b => (b_name b, b_size b)) bits = map (fun b => (b_name b, b_size b)) bits0 ++ calls /\
    (forall j b, nth_error bits j = Some b -> b_offset b = sum_before (map b_size bits) j /\ 0 <= b_offset b <= 32 /\ 0 <= b_offset b + b_size b <= 32)).
  { induction calls as [|[nm nb] calls IH]; intros bits0 bits F H E; cbn [add_bitfields] in E; [injection E as <-; rewrite app_nil_r; auto|].
    inversion F as [|? ? F1 F2]; subst. cbn [snd] in F1. apply bind_ok in E as (bits1 & E1 & E). unfold add_bitfield in E1. apply bind_ok in E1 as (off & Eo & E1).
    assert (Off : off = fold_right Z.add 0 (map b_size bits0) /\ 0 <= off <= 32).
    { destruct (rev bits0) as [|b l] eqn:Er.
      - injection Eo as <-. apply (f_equal (@rev _)) in Er. rewrite rev_involutive in Er. subst bits0. cbn. lia.
      - apply (f_equal (@rev _)) in Er. rewrite rev_involutive in Er. cbn [rev] in Er. subst bits0.
        destruct (H (List.length (rev l)) b) as (A & B & C); [rewrite nth_error_app2, Nat.sub_diag by lia; reflexivity|].
        destruct (_ || _) eqn:Q in Eo; [discriminate|]. injection Eo as <-. rewrite Z.mod_small by lia. split; [|exact C].
        rewrite map_app. cbn [map]. rewrite Sum. rewrite A. unfold sum_before. rewrite map_app, firstn_app, map_length, Nat.sub_diag, firstn_O, app_nil_r.
        replace (List.length (rev l)) with (List.length (map b_size (rev l))) by apply map_length. now rewrite firstn_all. }
    destruct Off as [Off1 Off2]. destruct (Z.leb_spec ((off + nb) mod 2 ^ 64) 32) as [Q|Q]; cbn [assert bind] in E1; [|discriminate].
    assert (E1' : bits1 = bits0 ++ [{| b_name := nm; b_size := nb; b_offset := signed 32 (off mod 2 ^ 32) |}]) by (injection E1 as <-; reflexivity). subst bits1.
    assert (Pos : 0 <= off + nb <= 32).
    { destruct (Z.lt_ge_cases (off + nb) 0) as [N|N].
      - exfalso. rewrite <- (Z.mod_add (off + nb) 1) in Q by lia. rewrite Z.mod_small in Q by lia. lia.
      - rewrite Z.mod_small in Q by lia. lia. }
    assert (So : signed 32 (off mod 2 ^ 32) = off) by (unfold signed; rewrite Z.mod_small by lia; destruct (Z.ltb_spec off (2 ^ (32 - 1))); lia).
    rewrite So in E.
    assert (Ap : forall j b, nth_error (bits0 ++ [{| b_name := nm; b_size := nb; b_offset := off |}]) j = Some b ->
      b_offset b = sum_before (map b_size (bits0 ++ [{| b_name := nm; b_size := nb; b_offset := off |}])) j /\ 0 <= b_offset b <= 32 /\ 0 <= b_offset b + b_size b <= 32).
    { intros j b Hb. destruct (Nat.lt_ge_cases j (List.length bits0)) as [Lj|Lj].
      - rewrite nth_error_app1 in Hb by exact Lj. destruct (H j b Hb) as (A & B & C). split; [|auto]. rewrite A. unfold sum_before. rewrite map_app, firstn_app, map_length.
        replace (j - List.length bits0)%nat with 0%nat by lia. rewrite firstn_O, app_nil_r. reflexivity.
      - rewrite nth_error_app2 in Hb by exact Lj. destruct (j - List.length bits0)%nat as [|q] eqn:Ej; [|destruct q; discriminate]. injection Hb as <-. cbn [b_offset b_size].
        split; [|auto]. rewrite Off1. unfold sum_before. replace j with (List.length (map b_size bits0)) by (rewrite map_length; lia).
        rewrite map_app, firstn_app, Nat.sub_diag, firstn_O, app_nil_r, firstn_all. reflexivity. }
    destruct (IH _ bits F2 Ap E) as [M1 M2]. split; [|exact M2]. rewrite M1, map_app, <- app_assoc. reflexivity. }
  intros calls bits F E. destruct (G calls [] bits F ltac:(intros [|j]; discriminate) E) as [M1 M2]. cbn [map app] in M1. split; [exact M1|].
  assert (Sz : map b_size bits = map snd calls) by (rewrite <- M1, map_map; reflexivity).
  intros j b Hb. destruct (M2 j b Hb) as (A & B & C). rewrite Sz in A. split; [exact A|]. split; [exact B|]. split; [exact C|]. rewrite <- A. symmetry. apply Z.mod_small. lia.
Qed.
Print Assumptions C41_capi.

(** Beyond 256 bits the offset wraps around: the third member is said to be at bit 44. *)
Definition wide_bits : column := {| col_name := str "b"; col_type := ty_BITFIELD; col_bfnames := [str "x"; str "y"; str "z"]; col_bfsizes := [200; 100; 1];
  col_coder := new_codec true LE KInt32 ty_BITFIELD |}.
Theorem C41_wraps_refuted : exists i b, describe wide_bits = Ok i /\ nth_error (i_bits i) 2 = Some b /\ sum_before (col_bfsizes wide_bits) 2 = 300 /\ b_offset b = 44.
Proof. eexists. eexists. split; [vm_compute; reflexivity|]. split; [vm_compute; reflexivity|]. split; reflexivity. Qed.

Theorem C41_witness :
  (exists is, column_infos [{| t_start := 0; t_data := 0; t_next := 0; t_size := 0; t_order := LE; t_props := []; t_rows := 0;
     t_cols := [{| col_name := str "b"; col_type := ty_BITFIELD; col_bfnames := [str "x"; str "y"; str "z"]; col_bfsizes := [3; 1; 12]; col_coder := new_codec true LE KInt32 ty_BITFIELD |}] |}] = Ok is /\
     map (fun i => map b_offset (i_bits i)) is = [[0; 3; 4]]) /\
  (exists bits, add_bitfields [] [(str "x", 3); (str "y", 1); (str "z", 12)] = Ok bits /\ map b_offset bits = [0; 3; 4]) /\
  add_bitfields [] [(str "x", 30); (str "y", 3)] = Throw AssertFailed /\
  Forall small_size [3; 1; 12].
Proof.
  split; [eexists; split; [vm_compute; reflexivity|reflexivity]|]. split; [eexists; split; [vm_compute; reflexivity|reflexivity]|]. split; [vm_compute; reflexivity|].
  repeat constructor; discriminate.
Qed.
