(** How long a header is. *)
From Coq Require Import String Permutation.
From Verif Require Import Spec Base Fp FpProofs Stream StreamProofs StreamLocal Codec Meta Header Encoder
  GatherProofs IntProofs RealProofs StringProofs ColumnProofs RealColumn HeaderProofs.
Open Scope Z_scope.

Lemma total_app {A} (f : A -> Z) a b : total f (a ++ b) = total f a + total f b.
Proof. unfold total. induction a as [|x a IH]; cbn; [reflexivity|]. rewrite IH. lia. Qed.

Lemma total_perm {A} (f : A -> Z) a b : Permutation a b -> total f a = total f b.
Proof. unfold total. induction 1; cbn; lia. Qed.

Lemma total_nonneg {A} (f : A -> Z) l : (forall x, 0 <= f x) -> 0 <= total f l.
Proof. intros H. induction l as [|x l IH]; cbn; [lia|]. specialize (H x). unfold total in IH. lia. Qed.

Lemma concat_len {A B} (f : A -> list B) l : len (concat (map f l)) = total (fun x => len (f x)) l.
Proof. unfold len, total. induction l as [|x l IH]; cbn; [reflexivity|]. rewrite app_length. lia. Qed.

Lemma w_string_len o s : len (w_string o s) = 4 + len s.
Proof. unfold w_string, len. rewrite app_length, w_int_length. lia. Qed.

Lemma total_ext {A} (f g : A -> Z) l : (forall x, f x = g x) -> total f l = total g l.
Proof. intros H. unfold total. induction l as [|x l IH]; cbn; [reflexivity|]. now rewrite H, IH. Qed.

Lemma total_map {A B} (f : B -> Z) (g : A -> B) l : total f (map g l) = total (fun x => f (g x)) l.
Proof. unfold total. induction l as [|x l IH]; cbn; [reflexivity|]. now rewrite IH. Qed.

Lemma total_plus {A} (f g : A -> Z) l : total (fun x => f x + g x) l = total f l + total g l.
Proof. unfold total. induction l as [|x l IH]; cbn; [reflexivity|]. lia. Qed.

Lemma total_const {A} c (l : list A) : total (fun _ => c) l = c * len l.
Proof. unfold total, len. induction l as [|x l IH]; cbn [fold_right List.length]; lia. Qed.

Definition text_room : list (list Z) -> Z := total (fun t => 12 + len t).

Lemma text_room_nonneg ss : 0 <= text_room ss.
Proof. apply total_nonneg. intros t. unfold len. lia. Qed.

Lemma save_strings_len o : forall ss i, len (save_strings o i ss) = text_room ss.
Proof.
  induction ss as [|t ss IH]; intros i; [reflexivity|]. cbn [save_strings]. unfold len in *.
  rewrite !app_length, !w_int_length. specialize (IH (i + 1)). unfold text_room, total, len in *. cbn [fold_right].
  pose proof (w_string_len o t) as W. unfold len in W. lia.
Qed.

Lemma save_len k b : save k = Ok b -> len b <= 32 + text_room (c_strings k).
Proof.
  assert (B : len (save_base k) = 28).
  { unfold save_base, len. rewrite !app_length, !w_int_length. reflexivity. }
  pose proof (text_room_nonneg (c_strings k)) as N. unfold save.
  assert (App : forall (a b : list Z), len (a ++ b) = len a + len b) by (intros; unfold len; rewrite app_length; lia).
  assert (W4 : forall o z, len (w_int o 4 z) = 4) by (intros; unfold len; rewrite w_int_length; reflexivity).
  assert (W8 : forall o z, len (w_int o 8 z) = 8) by (intros; unfold len; rewrite w_int_length; reflexivity).
  assert (L8 : forall z, len (le_bytes 8 z) = 8) by (intros; unfold len; rewrite le_bytes_length; reflexivity).
  destruct (c_kind k) eqn:K; try (intros [= <-]; lia).
  - intros H.
    assert (b = w_int (c_ord k) 4 (c_hasMissing k) ++ le_bytes 8 (c_min k) ++ le_bytes 8 (c_max k) ++ w_int (c_ord k) 8 (c_missing k)) as -> by congruence.
    rewrite !App, W4, !L8, W8. lia.
  - destruct (c_strings k) as [|t ss]; [discriminate|]. intros H.
    assert (b = save_base k ++ w_string (c_ord k) t) as -> by congruence. rewrite App, w_string_len, B.
    pose proof (text_room_nonneg ss). unfold text_room, total, len in *. cbn [fold_right]. lia.
  - intros H. assert (b = save_base k ++ w_int (c_ord k) 4 0) as -> by congruence. rewrite App, W4. lia.
  - intros H.
    assert (b = save_base k ++ w_int (c_ord k) 4 (Z.of_nat (List.length (c_strings k))) ++ save_strings (c_ord k) 0 (c_strings k)) as -> by congruence.
    rewrite !App, W4, save_strings_len. lia.
  - intros H.
    assert (b = save_base k ++ w_int (c_ord k) 4 (Z.of_nat (List.length (c_strings k))) ++ save_strings (c_ord k) 0 (c_strings k)) as -> by congruence.
    rewrite !App, W4, save_strings_len. lia.
Qed.

Lemma kname_len k : len (kname k) <= 24.
Proof. destruct k; vm_compute; discriminate. Qed.

Lemma save_column_len o c b : save_column o c = Ok b ->
  len b <= 76 + len (col_name c) + total (fun s => 8 + len s) (col_bfnames c) + text_room (c_strings (col_coder c)).
Proof.
  assert (App : forall (a b : list Z), len (a ++ b) = len a + len b) by (intros; unfold len; rewrite app_length; lia).
  assert (W4 : forall o z, len (w_int o 4 z) = 4) by (intros; unfold len; rewrite w_int_length; reflexivity).
  unfold save_column. intros H. apply bind_ok in H as (bf & Hb & H). apply bind_ok in H as (u & _ & H).
  apply bind_ok in H as (k & Hk & H).
  assert (b = w_string o (col_name c) ++ w_int o 4 (col_type c) ++ bf ++ w_string o (kname (c_kind (col_coder c))) ++ k) as -> by congruence.
  rewrite !App, !w_string_len, W4. apply save_len in Hk. pose proof (kname_len (c_kind (col_coder c))) as KL.
  assert (len bf <= 8 + total (fun s => 8 + len s) (col_bfnames c)); [|lia].
  destruct (col_type c =? ty_BITFIELD).
  - apply bind_ok in Hb as (u1 & A & Hb).
    assert (bf = w_vec o (w_string o) (col_bfnames c) ++ w_vec o (w_int o 4) (col_bfsizes c)) as -> by congruence.
    assert (E : List.length (col_bfnames c) = List.length (col_bfsizes c)).
    { unfold assert in A. destruct (Nat.eqb_spec (List.length (col_bfnames c)) (List.length (col_bfsizes c))); [assumption|discriminate]. }
    unfold w_vec. rewrite !App, !W4, !concat_len.
    rewrite (total_ext (fun x => len (w_string o x)) (fun x => 4 + len x)) by (intros; apply w_string_len).
    rewrite (total_ext (fun x => len (w_int o 4 x)) (fun _ => 4)) by (intros; apply W4).
    rewrite !total_plus, !total_const. assert (len (col_bfsizes c) = len (col_bfnames c)) as Q by (unfold len; now rewrite E).
    rewrite Q. clear. change (total (fun x : list Z => len x)) with (total (@len Z)). generalize (total (@len Z) (col_bfnames c)), (len (col_bfnames c)). lia.
  - inversion Hb; subst bf. pose proof (total_nonneg (fun s => 8 + len s) (col_bfnames c) ltac:(intros; unfold len; lia)).
    change (len []) with 0. lia.
Qed.

Definition col_room (c : column) : Z :=
  76 + len (col_name c) + total (fun s => 8 + len s) (col_bfnames c) + text_room (c_strings (col_coder c)).

Lemma save_columns_len o : forall cs b, save_columns o cs = Ok b -> len b <= total col_room cs.
Proof.
  induction cs as [|c cs IH]; intros b H; cbn [save_columns] in H.
  - inversion H. cbn. lia.
  - apply bind_ok in H as (x & Hx & H). apply bind_ok in H as (y & Hy & H). inversion H; subst.
    apply save_column_len in Hx. apply IH in Hy. fold (col_room c) in Hx.
    change (total col_room (c :: cs)) with (col_room c + total col_room cs).
    generalize dependent (col_room c). generalize dependent (total col_room cs). unfold len. rewrite app_length. lia.
Qed.

Lemma serialize_len md5 o ds nr pr cs h : (forall l, List.length (md5 l) = 32%nat) -> serialize_header md5 o ds nr pr cs = Ok h ->
  len h <= 100 + total (fun kv => 8 + len (fst kv) + len (snd kv)) pr + total col_room cs.
Proof.
  intros Hmd. assert (App : forall (a b : list Z), len (a ++ b) = len a + len b) by (intros; unfold len; rewrite app_length; lia).
  assert (W4 : forall o z, len (w_int o 4 z) = 4) by (intros; unfold len; rewrite w_int_length; reflexivity).
  assert (W8 : forall o z, len (w_int o 8 z) = 8) by (intros; unfold len; rewrite w_int_length; reflexivity).
  unfold serialize_header, variable_part, save_meta. intros H. apply bind_ok in H as (v & Hv & H). apply bind_ok in Hv as (m & Hm & Hv).
  apply bind_ok in Hm as (b & Hb & Hm). apply bind_ok in H as (u & _ & H).
  assert (h = fixed_part o (md5 v) (Z.of_nat (List.length v)) ++ v) as -> by congruence.
  assert (v = w_int o 8 ds ++ w_int o 8 0 ++ w_int o 8 nr ++ w_vec o (w_int o 8) [] ++ w_map o pr ++ m) as -> by congruence.
  assert (m = w_int o 4 (Z.of_nat (List.length cs)) ++ b) as -> by congruence.
  apply save_columns_len in Hb. rewrite !App. unfold len at 1. rewrite fixed_part_length by apply Hmd.
  unfold w_map, w_vec. rewrite !App, !W8, !W4, !concat_len. cbn [map concat].
  rewrite (total_ext (fun x => len (w_string o (fst x) ++ w_string o (snd x))) (fun kv => 8 + len (fst kv) + len (snd kv))).
  2:{ intros x. rewrite App, !w_string_len. lia. }
  change (total _ []) with 0. lia.
Qed.

(** ** The codecs the encoder chooses *)

Lemma adopt_strings c0 f k : adopt c0 f = Ok k -> c_strings k = c_strings f.
Proof.
  unfold adopt, set_missing_value. intros H. apply bind_ok in H as (c1 & H1 & H).
  apply bind_ok in H1 as (u & _ & H1). apply bind_ok in H1 as (u' & _ & H1).
  inversion H1; subst. inversion H; subst. reflexivity.
Qed.

Lemma prepare_no_strings st o ci cells k : ci_type ci <> ty_STRING -> prepare st o ci cells = Ok k -> c_strings k = [].
Proof.
  intros T H. unfold prepare in H. apply bind_ok in H as (col & H0 & H). apply bind_ok in H as (c1 & _ & H).
  unfold make_column in H0. apply bind_ok in H0 as (w & W & _). unfold working_codec in W. unfold optimize in H.
  destruct (ci_type ci =? ty_REAL) eqn:Er.
  - unfold optimize_real in H. destruct (c_kind c1); try discriminate. destruct (c_ord c1); try discriminate.
    apply bind_ok in H as (kd & _ & H). now rewrite (adopt_strings _ _ _ H).
  - destruct (ci_type ci =? ty_DOUBLE) eqn:Ed.
    + unfold optimize_double in H. now rewrite (adopt_strings _ _ _ H).
    + destruct (Z.eqb_spec (ci_type ci) ty_STRING); [contradiction|].
      destruct ((ci_type ci =? ty_INTEGER) || (ci_type ci =? ty_BITFIELD)) eqn:Ei.
      * unfold optimize_int in H. apply bind_ok in H as (m & _ & H). now rewrite (adopt_strings _ _ _ H).
      * destruct (ci_type ci =? ty_INTEGER); [discriminate|]. destruct (ci_type ci =? ty_BITFIELD); discriminate.
Qed.

Lemma prepare_strings st o ci cells k dsd : ci_type ci = ty_STRING -> ci_size ci = 8 * dsd ->
  Forall (fun cell => Z.of_nat (List.length cell) = 8 * dsd) cells -> Forall bytes_ok cells ->
  prepare st o ci cells = Ok k ->
  text_room (c_strings k) <= text_room (nodup (list_eq_dec Z.eq_dec) (texts cells)).
Proof.
  intros Ht Hs Hc Hb P. destruct (gather_string st ci cells dsd Ht Hs Hc Hb) as (col & c1 & E1 & E2 & K1 & K2 & K3 & K4 & K5 & T & _).
  unfold prepare in P. rewrite E1 in P. cbn [bind] in P. rewrite E2 in P. cbn [bind] in P. rewrite Ht in P.
  assert (Q : text_room (c_strings c1) = text_room (nodup (list_eq_dec Z.eq_dec) (texts cells))).
  { apply total_perm. destruct T as [_ _ N I]. apply NoDup_Permutation; [assumption|apply NoDup_nodup|].
    intros x. rewrite nodup_In. apply I. }
  rewrite <- Q. change (optimize st o ty_STRING c1) with (optimize_string st o c1) in P. unfold optimize_string in P.
  apply bind_ok in P as (m & _ & P). apply bind_ok in P as (u & _ & P). apply bind_ok in P as (f & F & P).
  rewrite (adopt_strings _ _ _ P). pose proof (text_room_nonneg (c_strings c1)) as N0.
  destruct (_ && _) in F; [inversion F; subst; cbn; exact N0|].
  destruct (_ && _) in F; [|destruct (_ <? _) in F]; apply bind_ok in F as (f1 & _ & F); inversion F; subst; cbn [c_strings set_strings]; lia.
Qed.
