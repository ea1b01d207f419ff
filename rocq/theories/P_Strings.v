(** C16, C17: STRING columns; skipping. *)
From Coq Require Import String.
From Verif Require Import Spec Base Fp FpProofs Stream StreamProofs StreamLocal Codec Meta Header Encoder Table
  GatherProofs StringProofs ColumnProofs RealColumn TableProofs FrameProofs Md5 Api Through.
Open Scope Z_scope.

(** STRING columns of [dsd] words of 8 bytes. *)
Definition string_column (ci : colinfo) (dsd : Z) (cells : list (list Z)) : Prop :=
  ci_type ci = ty_STRING /\ ci_size ci = 8 * dsd /\ 1 <= dsd /\ 8 * dsd < 2 ^ 31 /\
  Forall (fun cell => Z.of_nat (List.length cell) = 8 * dsd) cells /\ Forall bytes_ok cells.

(** Every text comes back, NUL-padded to [8*w] bytes, where [8*w] is at most the width
    of the input and at least the length of every text. *)
Theorem C16_texts : forall md5 tag st st' o ci dsd cells, digest md5 ->
  string_column ci dsd cells -> fits tag ci cells -> distinct cells < 65536 ->
  (long_strings st = true -> dsd = 1 \/ exists t, In t (texts cells) /\ t <> []) ->
  exists w, 1 <= w <= dsd /\ (forall t, In t (texts cells) -> len t <= 8 * w) /\
    trip md5 tag st st' o ci cells = Ok (map (fun t => t ++ repeat 0 (Z.to_nat (8 * w) - List.length t)) (texts cells)).
Proof.
  intros md5 tag st st' o ci dsd cells Hd (Ht & Hs & H1 & H2 & Hc & Hb) Hf Hn Hl.
  destruct (column_string st st' ci cells dsd Ht Hs H1 H2 Hc Hb Hn) as (w & Hw & Hm & R).
  { intros (Q & Q1 & Q2 & Q3). destruct (Hl Q) as [->|(t & Ht1 & Ht2)]; [lia|]. apply Ht2.
    unfold distinct in Q3. assert (I1 := proj2 (nodup_In (list_eq_dec Z.eq_dec) _ _) Ht1).
    assert (I2 := proj2 (nodup_In (list_eq_dec Z.eq_dec) _ _) Q2).
    destruct (nodup _ _) as [|x [|y l]]; cbn in *; try lia; try contradiction.
    destruct I1 as [<-|[]], I2 as [|[]]. auto. }
  exists w. split; [assumption|]. split; [assumption|].
  rewrite (trip_ok md5 tag st st' o Hd ci cells _ dsd (or_intror (or_intror (conj Ht (conj Hs (conj Hc Hb))))) Hf (R o)).
  f_equal. unfold texts. rewrite map_map. apply map_ext_in. intros cell Hcell. unfold pad. f_equal. apply firstn_all2.
  specialize (Hm (until_nul cell) (in_map _ _ _ Hcell)). lia.
Qed.
Print Assumptions C16_texts.

(** 65536 or more distinct texts: an error. *)
Theorem C16_too_many : forall md5 tag st o ci dsd cells, string_column ci dsd cells -> 65536 <= distinct cells ->
  encode_frame md5 tag st o [ci] [{| cd_size := ci_size ci; cd_cells := cells |}] [] = Throw AssertFailed.
Proof.
  intros md5 tag st o ci dsd cells (Ht & Hs & H1 & H2 & Hc & Hb) Hn.
  destruct (gather_string st ci cells dsd Ht Hs Hc Hb) as (col & c1 & E1 & E2 & K & _ & _ & _ & _ & T & _).
  assert (L : 65536 <= Z.of_nat (List.length (c_strings c1))) by (rewrite (table_of_distinct _ _ _ T); exact Hn).
  unfold encode_frame. cbn [List.length Nat.eqb assert bind Nat.ltb Nat.leb map_out cd_cells].
  rewrite E1. cbn [bind combine map_out]. unfold gather_column at 1. cbn [fst snd cd_cells]. rewrite Z.eqb_refl. cbn [assert bind].
  rewrite E2. cbn [bind map_out]. unfold optimize_column at 1.
  destruct (make_column_shape st ci col E1) as (_ & S2 & _). cbn [with_coder col_type col_coder].
  rewrite S2, Ht, (optimize_string_too_many st o c1 K L). reflexivity.
Qed.
Print Assumptions C16_too_many.

(** In any table: no bytes are produced. *)
Theorem C16_too_many_table : forall md5 tag st o cols data pr j ci d dsd,
  nth_error cols j = Some ci -> nth_error data j = Some d -> string_column ci dsd (cd_cells d) -> 65536 <= distinct (cd_cells d) ->
  forall b, encode_frame md5 tag st o cols data pr <> Ok b.
Proof.
  intros md5 tag st o cols data pr j ci d dsd Hci Hdj (Ht & Hs & H1 & H2 & Hc & Hb) Hn b E.
  apply encode_frame_inv in E.
  assert (Q : exists k, prepare st o ci (cd_cells d) = Ok k).
  { clear -E Hci Hdj. revert j Hci Hdj. induction E as [|x y xs ys (k & P & _) E IH]; intros [|j] A B; try discriminate; cbn in A, B.
    - inversion A; inversion B; subst. eauto.
    - eauto. }
  destruct Q as [k P].
  destruct (gather_string st ci (cd_cells d) dsd Ht Hs Hc Hb) as (col & c1 & E1 & E2 & K & _ & _ & _ & _ & T & _).
  assert (L : 65536 <= Z.of_nat (List.length (c_strings c1))) by (rewrite (table_of_distinct _ _ _ T); exact Hn).
  unfold prepare in P. rewrite E1 in P. cbn [bind] in P. rewrite E2 in P. cbn [bind] in P.
  rewrite Ht, (optimize_string_too_many st o c1 K L) in P. discriminate.
Qed.
Print Assumptions C16_too_many_table.

(** 8 bytes holding the number [n] in decimal-free form, NUL padded *)
Definition tiny (s : string) : list Z := pad 8 (str s).
Definition wide (s : string) : list Z := pad 16 (str s).

Theorem C16_witness :
  string_column (col_x ty_STRING 16) 2 [wide "abc"; wide ""; wide "abcdefghij"; wide "abc"] /\
  fits odc_tag (col_x ty_STRING 16) [wide "abc"; wide ""; wide "abcdefghij"; wide "abc"] /\
  distinct [wide "abc"; wide ""; wide "abcdefghij"; wide "abc"] < 65536 /\
  through1 doubles doubles ty_STRING 16 [wide "abc"; wide ""; wide "abcdefghij"; wide "abc"]
    = Ok [wide "abc"; wide ""; wide "abcdefghij"; wide "abc"].
Proof.
  split; [|split; [apply fits_x; vm_compute; reflexivity|split; vm_compute; reflexivity]].
  unfold string_column. repeat split; try (vm_compute; congruence); repeat constructor; vm_compute; congruence.
Qed.

(** a narrower element: all texts fit one word *)
Theorem C16_narrow :
  through1 doubles doubles ty_STRING 16 [wide "abc"; wide "x"] = Ok [tiny "abc"; tiny "x"].
Proof. vm_compute. reflexivity. Qed.

(** With the setting that enables the long constant string codec, a wide column of empty
    texts is loaded with a width of 2^61 words. *)
Definition longs : settings := {| iad := true; long_strings := true |}.
Theorem C16_long_strings_refuted :
  exists b, encode_frame md5 odc_tag longs LE [col_x ty_STRING 16] [{| cd_size := 16; cd_cells := [wide ""; wide ""] |}] [] = Ok b /\
  match read_table md5 longs (len b) b 0 with
  | Ok (Some t) => map (fun c => data_size_doubles (col_coder c)) (t_cols t) = [2 ^ 61]
  | _ => False
  end.
Proof. eexists. split; [vm_compute; reflexivity|]. vm_compute. reflexivity. Qed.

(** ** C17: skipping *)
Theorem C17_skip : forall c s cell s', decode c s = Ok (cell, s') -> skip c s = Ok (tt, s').
Proof. exact decode_skip. Qed.
Print Assumptions C17_skip.

Theorem C17_witness :
  decode (new_codec true LE KChars ty_STRING) [65;66;0;0;0;0;0;0;9] = Ok ([65;66;0;0;0;0;0;0], [9]) /\
  skip (new_codec true LE KChars ty_STRING) [65;66;0;0;0;0;0;0;9] = Ok (tt, [9]) /\
  decode (new_codec true BE KInt16 ty_INTEGER) [1;0;9] = Ok (le_bytes 8 (dadd (z2d 256) integerMDI), [9]).
Proof. vm_compute. repeat split. Qed.
