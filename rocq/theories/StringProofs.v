(** STRING columns. *)
From Verif Require Import Spec Base Fp FpProofs Stream StreamProofs StreamLocal Codec Meta GatherProofs.

(** ** Text of a cell *)

Lemma until_nul_no_nul l : Forall (fun b => b <> 0) (until_nul l).
Proof.
  induction l as [|b l IH]; cbn; [constructor|]. destruct (Z.eqb_spec b 0); constructor; auto.
Qed.

Lemma until_nul_length l : (length (until_nul l) <= length l)%nat.
Proof. induction l as [|b l IH]; cbn; [lia|]. destruct (b =? 0); cbn; lia. Qed.

Lemma until_nul_ok l : bytes_ok l -> bytes_ok (until_nul l).
Proof. induction 1 as [|b l H1 H2 IH]; cbn; [constructor|]. destruct (b =? 0); constructor; auto. Qed.

Lemma until_nul_app_zeros s n : Forall (fun b => b <> 0) s -> until_nul (s ++ repeat 0 n) = s.
Proof.
  induction 1 as [|b s H1 H2 IH]; cbn.
  - destruct n; reflexivity.
  - destruct (Z.eqb_spec b 0); [congruence|]. now rewrite IH.
Qed.

Lemma pad_long n s : (length s <= n)%nat -> pad n s = s ++ repeat 0 (n - length s).
Proof. intros H. unfold pad. now rewrite firstn_all2. Qed.

Lemma pad_length n s : length (pad n s) = n.
Proof. unfold pad. rewrite app_length, firstn_length, repeat_length. lia. Qed.

Lemma until_nul_pad n s : Forall (fun b => b <> 0) s -> (length s <= n)%nat -> until_nul (pad n s) = s.
Proof. intros H1 H2. rewrite pad_long by assumption. now apply until_nul_app_zeros. Qed.

Lemma pad_ok n s : bytes_ok s -> bytes_ok (pad n s).
Proof.
  intros H. unfold pad, bytes_ok. apply Forall_app. split.
  - rewrite <- (firstn_skipn n s) in H. apply Forall_app in H. apply H.
  - apply Forall_forall. intros x Hx. apply repeat_spec in Hx. subst. unfold is_byte. lia.
Qed.

Lemma cell_string_ok dsd cell : Z.of_nat (length cell) = 8 * dsd -> cell_string dsd cell = Ok (until_nul cell).
Proof.
  intros H. unfold cell_string. rewrite <- H. rewrite Z.ltb_irrefl, Nat2Z.id, firstn_all. reflexivity.
Qed.

(** ** The string table built by gathering *)

Record table_of (texts : list (list Z)) (ss : list (list Z)) (lk : smap Z) : Prop := {
  to_sorted : msorted lk;
  to_get : forall s i, mget lk s = Some i <-> (0 <= i /\ nth_error ss (Z.to_nat i) = Some s);
  to_nodup : NoDup ss;
  to_in : forall s, In s ss <-> In s texts
}.

Lemma table_of_nil : table_of [] [] [].
Proof.
  split; try constructor; try tauto; cbn; intros H; try discriminate.
  destruct H as [_ H]. destruct (Z.to_nat i); discriminate.
Qed.

Lemma table_of_old texts ss lk s i : table_of texts ss lk -> mget lk s = Some i -> table_of (texts ++ [s]) ss lk.
Proof.
  intros [A B C D] H. split; auto. intros t. rewrite D, in_app_iff. cbn. split; [tauto|].
  intros [Ht|[<-|[]]]; [assumption|]. apply B in H. destruct H as [_ H]. apply D. eapply nth_error_In; eassumption.
Qed.

Lemma table_of_new texts ss lk s : table_of texts ss lk -> mget lk s = None ->
  table_of (texts ++ [s]) (ss ++ [s]) (mset lk s (Z.of_nat (length ss))).
Proof.
  intros [A B C D] H.
  assert (N : ~ In s ss).
  { intros Hin. apply In_nth_error in Hin. destruct Hin as [k Hk].
    assert (mget lk s = Some (Z.of_nat k)); [|congruence]. apply B. rewrite Nat2Z.id. split; [lia|assumption]. }
  split.
  - now apply mset_sorted.
  - intros t i. rewrite mget_mset by assumption. destruct (bytes_eqb t s) eqn:E.
    + apply bytes_eqb_eq in E; subst t. split.
      * intros [= <-]. split; [lia|]. rewrite Nat2Z.id. rewrite nth_error_app2 by lia. now rewrite Nat.sub_diag.
      * intros [H1 H2]. f_equal.
        destruct (Nat.lt_ge_cases (Z.to_nat i) (length ss)) as [L|L].
        { rewrite nth_error_app1 in H2 by assumption. apply nth_error_In in H2. contradiction. }
        { rewrite nth_error_app2 in H2 by assumption.
          destruct (Z.to_nat i - length ss)%nat as [|q] eqn:Q; [lia|]. cbn in H2. destruct q; discriminate. }
    + rewrite B. split; intros [H1 H2]; (split; [assumption|]).
      * rewrite nth_error_app1; [assumption|]. apply nth_error_Some. congruence.
      * destruct (Nat.lt_ge_cases (Z.to_nat i) (length ss)) as [L|L].
        { now rewrite nth_error_app1 in H2 by assumption. }
        { rewrite nth_error_app2 in H2 by assumption.
          destruct (Z.to_nat i - length ss)%nat as [|q] eqn:Q.
          - cbn in H2. inversion H2; subst. rewrite bytes_eqb_refl in E. discriminate.
          - cbn in H2. destruct q; discriminate. }
  - apply NoDup_app_remove_r || idtac. rewrite <- (rev_involutive (ss ++ [s])). apply NoDup_rev.
    rewrite rev_app_distr. cbn. constructor; [rewrite <- in_rev; assumption|apply NoDup_rev; assumption].
  - intros t. rewrite !in_app_iff, D. reflexivity.
Qed.


Lemma gather_all_str dsd : forall cells c txt0,
  c_kind c = KChars -> c_dsd c = dsd ->
  Forall (fun cell => Z.of_nat (length cell) = 8 * dsd) cells ->
  table_of txt0 (c_strings c) (c_lookup c) ->
  (forall s, In s (c_strings c) -> length (c_strings c) = 1%nat -> c_min c = le_val (pad 8 s)) ->
  exists c', gather_all c cells = Ok c' /\
    c_kind c' = KChars /\ c_int64 c' = c_int64 c /\ c_ord c' = c_ord c /\ c_dsd c' = dsd /\
    c_hasMissing c' = c_hasMissing c /\ c_max c' = c_max c /\ c_missing c' = c_missing c /\
    table_of (txt0 ++ texts cells) (c_strings c') (c_lookup c') /\
    (forall s, In s (c_strings c') -> length (c_strings c') = 1%nat -> c_min c' = le_val (pad 8 s)).
Proof.
  induction cells as [|x cells IH]; intros c txt0 Hk Hd Hc Ht Hm.
  - exists c. cbn [texts map]. rewrite app_nil_r. split; [reflexivity|]. do 8 (split; [auto|]). exact Hm.
  - inversion Hc as [|? ? Hx Hc']; subst. cbn [gather_all].
    assert (G : gather c x = chars_gather c x) by (unfold gather; rewrite Hk; reflexivity).
    rewrite G. unfold chars_gather. rewrite cell_string_ok by assumption. cbn [bind].
    set (s := until_nul x). destruct (mget (c_lookup c) s) as [i|] eqn:L.
    + destruct (IH (set_stats c (c_hasMissing c) (le_val (pad 8 s)) (c_max c) (c_missing c)) (txt0 ++ [s]))
        as (c' & E & K); auto.
      * eapply table_of_old; eassumption.
      * cbn. intros t H1 H2. destruct Ht as [A B C D].
        apply B in L. destruct L as [L1 L2]. apply nth_error_In in L2.
        destruct (c_strings c) as [|u [|? ?]]; try discriminate. cbn in *.
        destruct H1 as [<-|[]], L2 as [->|[]]. reflexivity.
      * exists c'. split; [exact E|]. cbn in K. rewrite <- app_assoc in K. exact K.
    + destruct (IH (set_stats (set_strings c (c_strings c ++ [s])
                        (mset (c_lookup c) s (Z.of_nat (length (c_strings c)))) (c_dsd c))
                      (c_hasMissing c) (le_val (pad 8 s)) (c_max c) (c_missing c)) (txt0 ++ [s]))
        as (c' & E & K); auto.
      * cbn. now apply table_of_new.
      * cbn. intros t H1 H2. rewrite app_length in H2. cbn in H2.
        destruct (c_strings c); [|cbn in H2; lia]. cbn in H1. destruct H1 as [<-|[]]. reflexivity.
      * exists c'. split; [exact E|]. cbn in K. rewrite <- app_assoc in K. exact K.
Qed.

(** ** The optimised codec *)

Definition string_kind (ls : bool) (n dsd : Z) : ckind :=
  if (n =? 1) && (dsd =? 1) then KConstantString
  else if (n =? 1) && ls then KLongConstantString
       else if n <? 256 then KInt8String else KInt16String.

(** [mn] is the minimum (first 8 characters of the last value) *)
Definition string_codec (iad : bool) (o : order) (k : ckind) (ss : list (list Z)) (lk : smap Z) (dsd mn : Z) : codec :=
  let f := new_codec iad o k ty_STRING in
  let f' := match k with KConstantString => f | _ => set_strings f ss lk dsd end in
  set_stats f' 0 mn realMDI realMDI.

Lemma optimize_string_ok st o c ss lk dsd mn :
  c_kind c = KChars -> c_strings c = ss -> c_lookup c = lk -> c_dsd c = dsd -> c_min c = mn ->
  c_hasMissing c = 0 -> c_max c = realMDI -> c_missing c = realMDI ->
  Z.of_nat (length ss) < 65536 ->
  optimize st o ty_STRING c =
    Ok (string_codec (iad st) o (string_kind (long_strings st) (Z.of_nat (length ss)) dsd) ss lk dsd mn).
Proof.
  intros Hk H1 H2 H3 H4 H5 H6 H7 Hn. change (optimize st o ty_STRING c) with (optimize_string st o c).
  unfold optimize_string, num_strings, data_size_doubles. rewrite Hk, H1. cbn [chars_based bind].
  rewrite (proj2 (Z.ltb_lt _ _) Hn). cbn [assert bind]. rewrite H3.
  change (if (_ =? 1) && (dsd =? 1) then _ else _) with (string_kind (long_strings st) (Z.of_nat (length ss)) dsd).
  assert (Hkk : In (string_kind (long_strings st) (Z.of_nat (length ss)) dsd)
                  [KConstantString; KLongConstantString; KInt8String; KInt16String]).
  { unfold string_kind. repeat match goal with |- context [if ?b then _ else _] => destruct b end; cbn; tauto. }
  set (k := string_kind _ _ _) in *. clearbody k. rewrite H2.
  assert (A : forall f, c_missing f = c_min f -> c_min f = c_max f -> is_nan f64 (c_min f) = false ->
            base_integer (c_kind f) = false ->
            adopt c f = Ok (set_stats f 0 mn realMDI realMDI)).
  { intros f F1 F2 F3 F4. unfold adopt, set_missing_value. rewrite F1, <- F2, deq_refl by assumption.
    cbn [andb assert bind]. unfold check_cast. rewrite F4. cbn [andb bind]. rewrite H4, H5, H6, H7. reflexivity. }
  cbn [In] in Hkk. destruct Hkk as [<-|[<-|[<-|[<-|[]]]]]; cbn [bind set_data_size chars_based c_kind new_codec];
  rewrite A; try reflexivity; vm_compute; reflexivity.
Qed.

Lemma optimize_string_too_many st o c : c_kind c = KChars -> 65536 <= Z.of_nat (length (c_strings c)) ->
  optimize st o ty_STRING c = Throw AssertFailed.
Proof.
  intros Hk Hn. change (optimize st o ty_STRING c) with (optimize_string st o c).
  unfold optimize_string, num_strings. rewrite Hk. cbn [bind].
  destruct (Z.ltb_spec (Z.of_nat (length (c_strings c))) 65536); [lia|]. reflexivity.
Qed.

(** width announced after reloading: the longest string of the table *)
Definition table_doubles (ss : list (list Z)) : Z := fold_left (fun d t => Z.max d (string_doubles t)) ss 1.

Lemma fold_max_ge (ss : list (list Z)) d : d <= fold_left (fun d t => Z.max d (string_doubles t)) ss d.
Proof. revert d; induction ss as [|t ss IH]; intros d; cbn; [lia|]. specialize (IH (Z.max d (string_doubles t))). lia. Qed.

Lemma table_doubles_in ss t d : In t ss -> string_doubles t <= fold_left (fun d t => Z.max d (string_doubles t)) ss d.
Proof.
  revert d; induction ss as [|u ss IH]; intros d; cbn; [tauto|]. intros [->|H]; [|auto].
  pose proof (fold_max_ge ss (Z.max d (string_doubles t))). lia.
Qed.

Lemma table_doubles_le ss d M : d <= M -> (forall t, In t ss -> string_doubles t <= M) ->
  fold_left (fun d t => Z.max d (string_doubles t)) ss d <= M.
Proof.
  revert d; induction ss as [|u ss IH]; intros d Hd H; cbn; [assumption|].
  apply IH; [|intros; apply H; now right]. specialize (H u (or_introl eq_refl)). lia.
Qed.

Lemma string_doubles_fits t : Z.of_nat (length t) <= 8 * string_doubles t.
Proof. unfold string_doubles. lia. Qed.

Lemma string_doubles_bound t d : 1 <= d -> Z.of_nat (length t) <= 8 * d -> string_doubles t <= d.
Proof. unfold string_doubles. intros. apply Z.max_lub; [lia|]. lia. Qed.

(** the codec as loaded by a reader *)
Definition reload_string (iad : bool) (o : order) (k : ckind) (ss : list (list Z)) (mn : Z) : codec :=
  let f := new_codec iad o k ty_STRING in
  let f' := match k with
            | KConstantString => f
            | KLongConstantString => set_strings f (firstn 1 ss) [] (match ss with
                 | t :: _ => if (length t =? 0)%nat then 2 ^ 61 else (Z.of_nat (length t) + 7) / 8
                 | [] => 1 end)
            | _ => set_strings f ss [] (table_doubles ss)
            end in
  set_stats f' 0 mn realMDI realMDI.

Lemma list_set_app {A} (a : list A) x y b : list_set (a ++ x :: b) (length a) y = a ++ y :: b.
Proof. induction a as [|z a IH]; cbn; [reflexivity|]. now rewrite IH. Qed.

Lemma save_strings_length o i ss : (12 * length ss <= length (save_strings o i ss))%nat.
Proof.
  revert i; induction ss as [|t ss IH]; intros i; cbn [save_strings length]; [lia|].
  unfold w_string. rewrite !app_length, !w_int_length. specialize (IH (i + 1)). lia.
Qed.

Lemma load_entries_ok o num : forall ss done fuel d rest,
  num < 2 ^ 31 -> Forall len31 ss -> (length ss <= fuel)%nat ->
  num = Z.of_nat (length done + length ss) ->
  load_entries o num fuel (Z.of_nat (length ss)) (done ++ repeat [] (length ss)) d
    (save_strings o (Z.of_nat (length done)) ss ++ rest) =
  Ok ((done ++ ss, fold_left (fun d t => Z.max d (string_doubles t)) ss d), rest).
Proof.
  induction ss as [|t ss IH]; intros done fuel d rest Hn Hl Hf Hnum.
  - cbn. destruct fuel; cbn; rewrite ?app_nil_r; reflexivity.
  - inversion Hl; subst. destruct fuel as [|fuel]; [cbn in Hf; lia|].
    cbn [length] in *. cbn [load_entries]. destruct (Z.leb_spec (Z.of_nat (S (length ss))) 0); [lia|].
    cbn [save_strings]. unfold load_entry. rewrite <- !app_assoc.
    rewrite read_string_app by assumption. cbn [bind].
    rewrite read_i32_app by lia. cbn [bind]. rewrite read_i32_app by lia. cbn [bind].
    set (num := Z.of_nat (length done + S (length ss))) in *.
    destruct (Z.ltb_spec (Z.of_nat (length done)) num); [|lia]. cbn [assert bind].
    destruct (Z.ltb_spec (Z.of_nat (length done)) 0); [lia|].
    rewrite Nat2Z.id. cbn [repeat]. rewrite list_set_app.
    replace (Z.of_nat (S (length ss)) - 1) with (Z.of_nat (length ss)) by lia.
    replace (done ++ t :: repeat [] (length ss)) with ((done ++ [t]) ++ repeat [] (length ss))
      by (rewrite <- app_assoc; reflexivity).
    replace (Z.of_nat (length done) + 1) with (Z.of_nat (length (done ++ [t]))) by (rewrite app_length; cbn; lia).
    rewrite IH; auto; [|lia|rewrite app_length; cbn; lia].
    rewrite <- app_assoc. reflexivity.
Qed.
