(** One column through the whole API: encode it, read the frame, decode it. *)
From Coq Require Import String.
From Verif Require Import Spec Base Fp FpProofs Stream StreamProofs StreamLocal Codec Meta Header Encoder Table
  IntProofs StringProofs ColumnProofs RealColumn HeaderProofs HeaderSize TableProofs DecodeProofs LookupProofs FrameProofs FrameDecode Roundtrip P_Frame.
Open Scope Z_scope.

Section Trip.
Variables (md5 : list Z -> list Z) (version : list Z) (st st' : settings) (o : order).

(** Encode the table with the single column [ci], read the bytes as a file, and decode
    the column into a fresh array of elements as wide as the frame announces. *)
Definition trip (ci : colinfo) (cells : list (list Z)) : outcome (list (list Z)) :=
  do b <- encode_frame md5 version st o [ci] [{| cd_size := ci_size ci; cd_cells := cells |}] [];
  do t <- read_table md5 st' (len b) b 0;
  match t with
  | Some t =>
      match t_cols t with
      | [c] =>
          let w := 8 * data_size_doubles (col_coder c) in
          do outs <- decode_target b t [ci_name ci]
                       [{| f_size := w; f_elems := repeat (repeat 0 (Z.to_nat w)) (Z.to_nat (t_rows t)) |}];
          match outs with [Some f] => Ok (f_elems f) | _ => Throw SeriousBug end
      | _ => Throw SeriousBug
      end
  | None => Throw SeriousBug
  end.

Hypothesis Hmd : forall l, List.length (md5 l) = 32%nat.

Lemma trip_ok ci cells outs dsd :
  int_type (ci_type ci) \/ real_type (ci_type ci) \/
    (ci_type ci = ty_STRING /\ ci_size ci = 8 * dsd /\
     Forall (fun cell => Z.of_nat (List.length cell) = 8 * dsd) cells /\ Forall bytes_ok cells) ->
  fits version ci cells -> column_rt st st' o ci cells outs -> trip ci cells = Ok outs.
Proof using Hmd.
  intros T (F1 & F2 & F3) (k & k' & P & R & C & D).
  set (it := {| i_ci := ci; i_k := k; i_k' := k'; i_cells := cells; i_outs := outs |}).
  set (n := List.length cells). assert (Ln : len cells = Z.of_nat n) by reflexivity. rewrite Ln in F3.
  assert (Hn : Z.of_nat n < 2 ^ 63) by nia.
  assert (IO : item_ok st st' o it) by (split; [exact P|]; split; [exact R|]; split; [exact C|exact D]).
  assert (ME : mset [] (str "encoder"%string) version = [(str "encoder"%string, version)]) by reflexivity.
  assert (TR : col_room (final_column it) <= column_room ci cells).
  { unfold col_room, column_room. cbn [final_column col_name col_bfnames col_coder it i_ci i_k]. rewrite total_map.
    fold text_room.
    assert (text_room (c_strings k) <= (if ci_type ci =? ty_STRING then text_room (nodup (list_eq_dec Z.eq_dec) (texts cells)) else 0)); [|lia].
    destruct (Z.eqb_spec (ci_type ci) ty_STRING) as [E|E].
    - destruct T as [T|[T|(_ & T2 & T3 & T4)]]; try (rewrite E in T; destruct T; discriminate).
      eapply prepare_strings; eassumption.
    - rewrite (prepare_no_strings _ _ _ _ _ E P). reflexivity. }
  unfold header_room in F2. cbn [combine total fold_right fst snd cd_cells] in F2.
  assert (FO : frame_ok st st' o version n [it] []).
  { split; auto.
    - discriminate.
    - apply Nat2Z.inj_lt. rewrite Z2Nat.id by lia. cbn. lia.
    - constructor; [intros []|constructor].
    - constructor; [|constructor]. apply describable_ok; [|exact F1]. cbn [it i_ci]. tauto.
    - rewrite ME. split; [vm_compute; repeat split|]. split; [unfold len31; cbn; lia|]. constructor; [|constructor].
      cbn [fst snd]. unfold len in F2. pose proof (total_nonneg (fun t : list Z => 12 + Z.of_nat (List.length t))
         (nodup (list_eq_dec Z.eq_dec) (texts cells)) ltac:(intros; cbv beta; lia)) as N1.
      pose proof (total_nonneg (fun b : list Z * Z => 8 + Z.of_nat (List.length (fst b))) (ci_bits ci) ltac:(intros; cbv beta; lia)) as N2.
      unfold column_room, len, len31 in *. destruct (_ =? _); lia.
    - rewrite ME. cbn [map total fold_right fst snd]. lia.
    - unfold body_bound, sizes. cbn [map fold_right it i_ci]. now rewrite Z.add_0_r. }
  destruct (frame_reads st st' o md5 Hmd version n [it] [] FO) as (hdr & body & E & RS & RT).
  unfold trip. cbn [map i_ci i_data it i_cells] in E. unfold i_data in E. cbn [i_ci i_cells it] in E. rewrite E. cbn [bind].
  destruct (RT [] [] (len (hdr ++ body))) as (R1 & R2 & R3); [right; cbn [app]; reflexivity|].
  cbn [app] in R1, R2, R3. rewrite app_nil_r in R1, R2, R3. change (Z.of_nat (List.length [])) with 0 in *.
  set (t := frame_table o version 0 (List.length hdr) (List.length body) n [it] []) in *.
  rewrite R1. cbn [bind]. change (t_cols t) with [read_column it]. cbn iota beta.
  change (t_rows t) with (Z.of_nat n). rewrite Nat2Z.id.
  change (col_coder (read_column it)) with k'. set (w := 8 * data_size_doubles k').
  set (fac := {| f_size := w; f_elems := repeat (repeat 0 (Z.to_nat w)) n |}).
  assert (Lo : List.length outs = n) by (symmetry; apply (Forall2_length _ _ _ C)).
  pose proof (outs_width st st' o it IO) as W. cbn [it i_outs i_k'] in W. fold w in W.
  destruct (frame_decodes st st' o version n [it] [] (hdr ++ body) t body [ci_name ci] [0%nat] [fac]) as (outs' & D1 & D2 & D3); auto.
  - exists []. specialize (RS []). now rewrite app_nil_r in RS.
  - constructor; [|constructor]. unfold select. cbn [map it i_ci first_pos]. now rewrite bytes_eqb_refl.
  - constructor; [intros []|constructor].
  - intros j p f it' Hp Hf Hi Hpos. destruct j as [|[|j]]; try discriminate. cbn in Hp, Hf.
    inversion Hp; inversion Hf; subst p f. cbn in Hi. inversion Hi; subst it'. split.
    + split; [cbn [f_size fac]; unfold w; lia|]. split; [cbn [f_elems fac]; rewrite repeat_length; lia|].
      cbn [f_elems f_size fac]. apply Forall_forall. intros e He. apply repeat_spec in He. subst e. rewrite repeat_length. lia.
    + cbn [i_outs it f_size fac]. eapply Forall_impl; [|exact W]. cbn beta. lia.
  - rewrite D1. cbn [bind]. destruct outs' as [|f' [|? ?]]; cbn in D2; try lia. cbn [map].
    assert (Ho : holds outs fac f') by (apply (D3 0%nat 0%nat fac f' it); reflexivity).
    rewrite (holds_overwrite outs fac f' w Ho).
    + cbn [overwrite f_elems fac]. rewrite skipn_all2 by (rewrite repeat_length; lia). now rewrite app_nil_r.
    + reflexivity.
    + cbn [f_elems fac]. rewrite repeat_length. lia.
    + exact W.
Qed.

End Trip.

(** ** When encoding succeeds *)

Lemma start_col_same : forall prev cur j, (j < start_col prev cur)%nat -> nth j cur [] = nth j prev [].
Proof.
  induction prev as [|p ps IH]; intros [|c cs] j H; cbn in H; try lia.
  destruct (bytes_eqb c p) eqn:E; [|lia]. apply bytes_eqb_eq in E. subst c. destruct j; [reflexivity|]. cbn [nth]. apply IH. lia.
Qed.

Lemma encode_cells_inv : forall ks row b j k, encode_cells ks row = Ok b -> nth_error ks j = Some k -> (j < List.length row)%nat ->
  is_ok (encode k (nth j row [])) = true.
Proof.
  induction ks as [|k0 ks IH]; intros row b j k H Hk Hj; [destruct j; discriminate|].
  destruct row as [|x row]; [cbn in Hj; lia|]. cbn [encode_cells] in H. apply bind_ok in H as (b1 & H1 & H).
  apply bind_ok in H as (b2 & H2 & H). destruct j as [|j].
  - cbn in Hk. inversion Hk; subst. cbn. now rewrite H1.
  - cbn in Hk. cbn [nth]. eapply IH; [exact H2|exact Hk|]. cbn in Hj. lia.
Qed.

Lemma nth_skipn_d {A} n (l : list A) j d : nth j (skipn n l) d = nth (n + j) l d.
Proof. revert l; induction n as [|n IH]; intros [|x l]; cbn; auto. now destruct j. Qed.

Lemma nth_error_skipn_d {A} n (l : list A) j : nth_error (skipn n l) j = nth_error l (n + j).
Proof. revert l; induction n as [|n IH]; intros [|x l]; cbn; auto. now destruct j. Qed.

Lemma encode_rows_inv ks : forall rows prev b, encode_rows ks prev rows = Ok b ->
  (match prev with Some p => forall j k, nth_error ks j = Some k -> is_ok (encode k (nth j p [])) = true | None => True end) ->
  Forall (fun r => List.length r = List.length ks) rows ->
  Forall (fun r => forall j k, nth_error ks j = Some k -> is_ok (encode k (nth j r [])) = true) rows.
Proof.
  induction rows as [|r rows IH]; intros prev b H Hp HL; [constructor|]. inversion HL as [|? ? L1 L2]; subst.
  cbn [encode_rows] in H. apply bind_ok in H as (b1 & H1 & H). apply bind_ok in H as (b2 & H2 & H).
  assert (G : forall j k, nth_error ks j = Some k -> is_ok (encode k (nth j r [])) = true).
  { intros j k Hk. unfold encode_row in H1. set (s := match prev with None => O | Some p => start_col p r end) in *.
    apply bind_ok in H1 as (b0 & H0 & _). destruct (Nat.lt_ge_cases j s) as [Q|Q].
    - destruct prev as [p|]; [|unfold s in Q; lia]. rewrite (start_col_same p r j Q). auto.
    - replace (nth j r []) with (nth (j - s) (skipn s r) []) by (rewrite nth_skipn_d; f_equal; lia).
      eapply encode_cells_inv; [exact H0| |].
      + rewrite nth_error_skipn_d. replace (s + (j - s))%nat with j by lia. exact Hk.
      + rewrite skipn_length. assert (j < List.length ks)%nat by (apply nth_error_Some; congruence). lia. }
  constructor; [exact G|]. eapply IH; eassumption.
Qed.

Lemma map_out_inv {A B} (f : A -> outcome B) : forall l r, map_out f l = Ok r -> Forall2 (fun x y => f x = Ok y) l r.
Proof.
  induction l as [|x l IH]; intros r H; cbn in H; [inversion H; constructor|].
  apply bind_ok in H as (y & Hy & H). apply bind_ok in H as (ys & Hys & H). inversion H; subst. constructor; auto.
Qed.

(** A table is only encoded if a codec could be prepared for each column and that codec
    accepts every cell. *)
Lemma encode_frame_inv md5 version st o cols data pr b : encode_frame md5 version st o cols data pr = Ok b ->
  Forall2 (fun ci d => exists k, prepare st o ci (cd_cells d) = Ok k /\
             forall cell, In cell (cd_cells d) -> is_ok (encode k cell) = true) cols data.
Proof.
  unfold encode_frame. intros H. apply bind_ok in H as (u & A0 & H). apply bind_ok in H as (u' & _ & H).
  set (n := match data with d :: _ => List.length (cd_cells d) | [] => O end) in *.
  apply bind_ok in H as (md0 & H0 & H). apply bind_ok in H as (md1 & H1 & H). apply bind_ok in H as (md2 & H2 & H).
  apply bind_ok in H as (body & HB & _). apply map_out_inv in H0, H1, H2.
  assert (Len : List.length cols = List.length data).
  { unfold assert in A0. destruct (Nat.eqb_spec (List.length cols) (List.length data)); [assumption|discriminate]. }
  assert (G : Forall2 (fun cd c2 => prepare st o (fst cd) (cd_cells (snd cd)) = Ok (col_coder c2) /\ List.length (cd_cells (snd cd)) = n)
                (combine cols data) md2).
  { clearbody n. clear HB body A0. revert data md0 md1 md2 Len H0 H1 H2. induction cols as [|ci cols IH]; intros [|d data] md0 md1 md2 Len H0 H1 H2; try discriminate Len.
    - inversion H0; subst. cbn in H1. inversion H1; subst. inversion H2; subst. constructor.
    - inversion H0 as [|? c0 ? md0' E0 H0']; subst. cbn [combine] in H1. inversion H1 as [|? c1 ? md1' E1 H1']; subst.
      inversion H2 as [|? c2 ? md2' E2 H2']; subst. cbn [combine]. constructor; [|eapply IH; eauto].
      cbn [fst snd]. unfold gather_column in E1. cbn [fst snd] in E1. apply bind_ok in E1 as (u1 & A1 & E1). apply bind_ok in E1 as (k1 & G1 & E1).
      inversion E1; subst c1. unfold optimize_column in E2. apply bind_ok in E2 as (k2 & O2 & E2). inversion E2; subst c2.
      cbn [with_coder col_coder col_type] in *. split.
      + unfold prepare. rewrite E0. cbn [bind]. rewrite G1. cbn [bind].
        destruct (make_column_shape st ci c0 E0) as (_ & S2 & _). now rewrite <- S2.
      + unfold assert in A1. destruct (Z.eqb_spec (Z.of_nat (List.length (cd_cells d))) (Z.of_nat n)); [lia|discriminate]. }
  assert (L2 : List.length md2 = List.length data).
  { rewrite <- (Forall2_length _ _ _ G), combine_length. lia. }
  assert (R : Forall (fun r => forall j k, nth_error (map col_coder md2) j = Some k -> is_ok (encode k (nth j r [])) = true)
                (rows_of n (map cd_cells data))).
  { eapply encode_rows_inv; [exact HB|exact I|]. apply Forall_forall. intros r Hr. unfold rows_of in Hr.
    apply in_map_iff in Hr as (i & <- & _). unfold row_at. now rewrite !map_length. }
  assert (Cell : forall j d c2 cell, nth_error data j = Some d -> nth_error md2 j = Some c2 -> List.length (cd_cells d) = n -> In cell (cd_cells d) ->
            is_ok (encode (col_coder c2) cell) = true).
  { intros j d c2 cell Hd Hc Ld Hin. apply In_nth with (d := []) in Hin as (i & Hi & <-).
    rewrite Forall_forall in R. specialize (R (row_at (map cd_cells data) i)).
    assert (In (row_at (map cd_cells data) i) (rows_of n (map cd_cells data))) as Hin.
    { apply in_map, in_seq. lia. }
    specialize (R Hin j (col_coder c2)). rewrite nth_error_map, Hc in R. specialize (R eq_refl).
    unfold row_at in R. rewrite map_map in R.
    rewrite (nth_error_nth (map (fun x => nth i (cd_cells x) []) data) j [] (x := nth i (cd_cells d) [])) in R; [exact R|].
    now rewrite nth_error_map, Hd. }
  clear R HB H0 H1 H2. clearbody n. clear A0 u u'. revert data md2 Len G Cell L2. clear -cols. induction cols as [|ci cols IH]; intros [|d data] md2 Len G Cell L2; try discriminate Len; constructor.
  - cbn [combine] in G. inversion G as [|? c2 ? md2' (P & Ld) G']; subst. cbn [fst snd] in *.
    exists (col_coder c2). split; [exact P|]. intros cell Hin. apply (Cell 0%nat d c2); auto.
  - cbn [combine] in G. inversion G as [|? c2 ? md2' (P & Ld) G']; subst. apply (IH data md2'); auto.
    intros j d' c' cell Hd Hc. apply (Cell (S j)); auto.
Qed.
