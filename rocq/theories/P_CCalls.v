(** C50: an encoder of the C API encodes what its calls have asked for. *)
From Coq Require Import String.
From Verif Require Import Spec Base Fp Stream StreamProofs Codec Meta Header Encoder Table Strided CEncoder CEncSpec CCallSpec P_CEncode.
Open Scope Z_scope.
Local Notation length := List.length.

Section History.
Variable md5 : list Z -> list Z.
Variable version : list Z.
Variable st : settings.
Local Notation reached := (reached md5 version st).
Local Notation after := (after md5 version st).

Lemma latest_snoc {A} (f : call -> option A) l c : latest f (l ++ [c]) = match f c with Some x => Some x | None => latest f l end.
Proof. induction l as [|d l IH]; cbn [app latest]; [now destruct (f c)|]. rewrite IH. now destruct (f c). Qed.

Lemma reached_snoc l c : reached (l ++ [c]) = after (reached l) c.
Proof. unfold P_CEncode.reached. now rewrite fold_left_app. Qed.

Lemma declared_snoc l c : declared (l ++ [c]) = declared l ++ match c with AddColumn nm ty => [(nm, ty)] | _ => [] end.
Proof. unfold declared. rewrite flat_map_app. cbn [flat_map]. now rewrite app_nil_r. Qed.

Lemma numbered_snoc l c : forall n, numbered n (l ++ [c]) = numbered n l ++ [(n + Z.of_nat (length (declared l)), c)].
Proof.
  induction l as [|d l IH]; intros n; cbn [app numbered].
  - cbn [declared flat_map length]. now rewrite Z.add_0_r.
  - rewrite IH. cbn [declared flat_map]. fold (declared l). rewrite app_length. destruct d; cbn [app length]; (match goal with |- _ :: _ ++ [(?a, _)] = _ :: _ ++ [(?b, _)] => replace b with a by lia end; reflexivity).
Qed.

Lemma sized_snoc i l c s : sized i (l ++ [c]) s <->
  asks_size i (Z.of_nat (length (declared l)), c) s \/ (sized i l s /\ forall s', ~ asks_size i (Z.of_nat (length (declared l)), c) s').
Proof.
  unfold sized. rewrite numbered_snoc, Z.add_0_l. set (x := (Z.of_nat (length (declared l)), c)). split.
  - intros [(b & nc & la & E & A & N)|(E & N)].
    + destruct la as [|y la _] using rev_ind.
      * apply app_inj_tail in E as [_ E]. left. subst nc. exact A.
      * right. rewrite app_comm_cons, app_assoc in E. apply app_inj_tail in E as [E1 E2]. subst y. split.
        -- left. exists b, nc, la. split; [exact E1|]. split; [exact A|]. intros nc' s' Hi. apply N, in_or_app. now left.
        -- intros s'. apply N, in_or_app. right. now left.
    + right. split; [right; split; [exact E|]|]; intros.
      * apply N, in_or_app. now left.
      * apply N, in_or_app. right. now left.
  - intros [A|[[(b & nc & la & E & A & N)|(E & N)] M]].
    + left. exists (numbered 0 l), x, []. split; [reflexivity|]. split; [exact A|]. intros ? ? [].
    + left. exists b, nc, (la ++ [x]). split; [rewrite E, <- app_assoc; reflexivity|]. split; [exact A|].
      intros nc' s' Hi. apply in_app_or in Hi as [Hi|[<-|[]]]; [now apply N|apply M].
    + right. split; [exact E|]. intros nc' s' Hi. apply in_app_or in Hi as [Hi|[<-|[]]]; [now apply N|apply M].
Qed.

Lemma members_snoc i l c : members_of i (l ++ [c]) = add_member i (members_of i l) (Z.of_nat (length (declared l)), c).
Proof. unfold members_of. rewrite numbered_snoc, fold_left_app. reflexivity. Qed.

(** ** The columns *)

Definition col_inv (calls : list call) (i : nat) (d : list Z * Z) (ci : colinfo) : Prop :=
  ci_name ci = fst d /\ ci_type ci = snd d /\
  (exists s, sized (Z.of_nat i) calls s /\ value_size ci = if s =? 0 then 8 else s) /\
  ci_bits ci = members_of (Z.of_nat i) calls.

Definition inv (calls : list call) (infos : list colinfo) : Prop :=
  length infos = length (declared calls) /\
  forall i d, nth_error (declared calls) i = Some d -> exists ci, nth_error infos i = Some ci /\ col_inv calls i d ci.

Lemma nth_put {A} (l : list A) k x i : 0 <= k -> nth_error (put l k x) i = if k =? Z.of_nat i then (if (i <? length l)%nat then Some x else None) else nth_error l i.
Proof.
  intros K. unfold put. replace (k =? Z.of_nat i) with (Z.to_nat k =? i)%nat by (destruct (Nat.eqb_spec (Z.to_nat k) i), (Z.eqb_spec k (Z.of_nat i)); lia).
  generalize (Z.to_nat k) as j. clear K k. revert i. induction l as [|y l IH]; intros i j.
  - destruct j, i; cbn; try reflexivity. all: try (destruct (_ =? _)%nat; reflexivity).
  - destruct j as [|j], i as [|i]; cbn [list_set nth_error Nat.eqb]; try reflexivity. rewrite IH. destruct (j =? i)%nat; reflexivity.
Qed.

(** a call that changes nothing in the columns *)
Lemma inv_same calls c infos infos' :
  inv calls infos ->
  (match c with AddColumn _ _ => False | _ => True end) ->
  length infos' = length infos ->
  (forall i ci, nth_error infos i = Some ci -> exists ci', nth_error infos' i = Some ci' /\ ci_name ci' = ci_name ci /\ ci_type ci' = ci_type ci /\
     ((value_size ci' = value_size ci /\ forall s, ~ asks_size (Z.of_nat i) (Z.of_nat (length infos), c) s) \/
      exists s, asks_size (Z.of_nat i) (Z.of_nat (length infos), c) s /\ value_size ci' = if s =? 0 then 8 else s) /\
     ci_bits ci' = add_member (Z.of_nat i) (ci_bits ci) (Z.of_nat (length infos), c)) ->
  inv (calls ++ [c]) infos'.
Proof.
  intros (L & I0) NA LL H. assert (DE : declared (calls ++ [c]) = declared calls) by (rewrite declared_snoc; destruct c; try contradiction; apply app_nil_r).
  split; [rewrite DE; lia|]. rewrite DE. intros i d Hd. destruct (I0 i d Hd) as (ci & Hc & C1 & C2 & (s & C3 & C3') & C4).
  destruct (H i ci Hc) as (ci' & Hc' & N1 & N2 & N3 & N4). exists ci'. split; [exact Hc'|]. split; [congruence|]. split; [congruence|]. split.
  - destruct N3 as [[V N]|(s' & A & V)].
    + exists s. split; [|congruence]. apply sized_snoc. right. rewrite <- L. auto.
    + exists s'. split; [|exact V]. apply sized_snoc. left. rewrite <- L. exact A.
  - rewrite N4, members_snoc, C4, L. reflexivity.
Qed.

Lemma default_value ci : value_size (default_size ci) = value_size ci.
Proof. unfold default_size, value_size. destruct (ci_size ci =? 0) eqn:E; cbn; [reflexivity|now rewrite E]. Qed.

Lemma whole_spec s : whole_doubles s = true <-> doubles s.
Proof. unfold whole_doubles, doubles. rewrite andb_true_iff, Z.leb_le, Z.eqb_eq. tauto. Qed.

Lemma after_props e c : ce_props (after e c) = match c with AddProperty k v => mset (ce_props e) k v | _ => ce_props e end.
Proof.
  destruct c; cbn [CEncoder.after]; try reflexivity.
  - unfold set_data_array. destruct (ce_array e), (Z.rem major 8 =? 0); reflexivity.
  - unfold column_set_data_size. destruct (col_at e col); cbn [bind kept]; [|reflexivity|reflexivity]. destruct (whole_doubles size); reflexivity.
  - unfold column_set_data_array. destruct (col_at e col); cbn [bind kept]; [|reflexivity|reflexivity]. destruct (whole_doubles size); [|reflexivity]. cbn [assert bind]. destruct (whole_doubles stride); reflexivity.
  - unfold column_add_bitfield. destruct (col_at e col); cbn [bind kept]; [|reflexivity|reflexivity]. destruct (to_size _ <=? 32); reflexivity.
  - unfold encode_handle. destruct (_ || _ || _); [reflexivity|]. destruct (fill_in m e) as [e1 r] eqn:E. cbn [fst]. unfold release. cbn [with_cols ce_props].
    unfold fill_in in E. destruct (ce_array e); [destruct (_ <? _); [|destruct (_ <? _)]|]; now inversion E.
Qed.

Lemma after_max e c : ce_max (after e c) = match c with SetRowsPerFrame n => to_size n | _ => ce_max e end.
Proof.
  destruct c; cbn [CEncoder.after]; try reflexivity.
  - unfold set_data_array. destruct (ce_array e), (Z.rem major 8 =? 0); reflexivity.
  - unfold column_set_data_size. destruct (col_at e col); cbn [bind kept]; [|reflexivity|reflexivity]. destruct (whole_doubles size); reflexivity.
  - unfold column_set_data_array. destruct (col_at e col); cbn [bind kept]; [|reflexivity|reflexivity]. destruct (whole_doubles size); [|reflexivity]. cbn [assert bind]. destruct (whole_doubles stride); reflexivity.
  - unfold column_add_bitfield. destruct (col_at e col); cbn [bind kept]; [|reflexivity|reflexivity]. destruct (to_size _ <=? 32); reflexivity.
  - unfold encode_handle. destruct (_ || _ || _); [reflexivity|]. destruct (fill_in m e) as [e1 r] eqn:E. cbn [fst]. unfold release. cbn [with_cols ce_max].
    unfold fill_in in E. destruct (ce_array e); [destruct (_ <? _); [|destruct (_ <? _)]|]; now inversion E.
Qed.

Lemma after_rows e c : ce_nrows (after e c) =
  match c with
  | SetRowCount n => to_size n
  | SetDataArray _ _ h major => if (Z.rem major 8 =? 0) && (ce_nrows e =? 0) then to_size h else ce_nrows e
  | _ => ce_nrows e
  end.
Proof.
  destruct c; cbn [CEncoder.after]; try reflexivity.
  - unfold set_data_array. destruct (ce_array e), (Z.rem major 8 =? 0); cbn; destruct (ce_nrows e =? 0); reflexivity.
  - unfold column_set_data_size. destruct (col_at e col); cbn [bind kept]; [|reflexivity|reflexivity]. destruct (whole_doubles size); reflexivity.
  - unfold column_set_data_array. destruct (col_at e col); cbn [bind kept]; [|reflexivity|reflexivity]. destruct (whole_doubles size); [|reflexivity]. cbn [assert bind]. destruct (whole_doubles stride); reflexivity.
  - unfold column_add_bitfield. destruct (col_at e col); cbn [bind kept]; [|reflexivity|reflexivity]. destruct (to_size _ <=? 32); reflexivity.
  - unfold encode_handle. destruct (_ || _ || _); [reflexivity|]. destruct (fill_in m e) as [e1 r] eqn:E. cbn [fst]. unfold release. cbn [with_cols ce_nrows].
    unfold fill_in in E. destruct (ce_array e); [destruct (_ <? _); [|destruct (_ <? _)]|]; now inversion E.
Qed.

Lemma inv_step calls e c : int_call c -> Forall packed (ce_infos e) -> inv calls (ce_infos e) -> inv (calls ++ [c]) (ce_infos (after e c)).
Proof.
  intros IC P I0.
  assert (ID : match c with AddColumn _ _ | SetDataSize _ _ | SetColumnArray _ _ _ _ | AddBitfield _ _ _ => False | _ => True end ->
     ce_infos (after e c) = ce_infos e \/ ce_infos (after e c) = map default_size (ce_infos e)).
  { destruct c; intros X; try contradiction; cbn [CEncoder.after]; try (left; reflexivity).
    - left. unfold set_data_array. destruct (ce_array e), (Z.rem major 8 =? 0); reflexivity.
    - unfold encode_handle. destruct (_ || _ || _); [left; reflexivity|]. right. destruct (fill_in m e) as [e1 r] eqn:E. cbn [fst]. unfold release. cbn [with_cols ce_infos].
      unfold fill_in in E. destruct (ce_array e); [destruct (_ <? _); [|destruct (_ <? _)]|]; now inversion E. }
  assert (SILENT : match c with AddColumn _ _ | SetDataSize _ _ | SetColumnArray _ _ _ _ | AddBitfield _ _ _ => False | _ => True end ->
     inv (calls ++ [c]) (ce_infos (after e c))).
  { intros X. specialize (ID X). apply (inv_same calls c (ce_infos e)); [exact I0|now destruct c| |].
    - destruct ID as [->| ->]; [reflexivity|apply map_length].
    - intros i ci Hi.
      assert (NS : forall s, ~ asks_size (Z.of_nat i) (Z.of_nat (length (ce_infos e)), c) s).
      { intros s (_ & _ & [Q|(? & ? & _ & Q)]); cbn [snd] in Q; subst c; exact X. }
      destruct ID as [Q|Q]; rewrite Q.
      + exists ci. split; [exact Hi|]. split; [reflexivity|]. split; [reflexivity|]. split; [left; auto|]. destruct c; try contradiction; reflexivity.
      + exists (default_size ci). split; [rewrite nth_error_map, Hi; reflexivity|]. split; [unfold default_size; now destruct (_ =? _)|]. split; [unfold default_size; now destruct (_ =? _)|].
        split; [left; rewrite default_value; auto|]. destruct c; try contradiction; unfold default_size; destruct (_ =? _); reflexivity. }
  destruct c as [k v|n|n|d w h major|nm ty|col size|col size stride d|col nm nbits|m]; try (exact (SILENT I)); clear ID SILENT; cbn [CEncoder.after].
  - (* a column *)
    destruct I0 as [L I0]. split.
    + cbn [add_column with_cols with_infos ce_infos]. rewrite declared_snoc, !app_length. cbn [length]. lia.
    + intros i d. rewrite declared_snoc. cbn [add_column with_cols with_infos ce_infos]. intros Hd.
      assert (NS : forall s, ~ asks_size (Z.of_nat i) (Z.of_nat (length (declared calls)), AddColumn nm ty) s).
      { intros s (_ & _ & [Q|(? & ? & _ & Q)]); discriminate Q. }
      destruct (Nat.lt_ge_cases i (length (declared calls))) as [Lt|Ge].
      * rewrite nth_error_app1 in Hd by exact Lt. destruct (I0 i d Hd) as (ci & Hc & C1 & C2 & (s & C3 & C3') & C4). exists ci.
        split; [rewrite nth_error_app1 by lia; exact Hc|]. split; [exact C1|]. split; [exact C2|]. split; [exists s; split; [apply sized_snoc; right; auto|exact C3']|].
        rewrite members_snoc. exact C4.
      * rewrite nth_error_app2 in Hd by exact Ge. destruct (i - length (declared calls))%nat as [|j] eqn:Ej; [|destruct j; discriminate Hd]. injection Hd as <-.
        assert (i = length (declared calls)) as -> by lia. eexists. split; [rewrite nth_error_app2 by lia; replace (_ - _)%nat with 0%nat by lia; reflexivity|].
        split; [reflexivity|]. split; [reflexivity|].
        assert (FEW : forall l n0, Forall (fun nc => n0 <= fst nc <= n0 + Z.of_nat (length (declared l))) (numbered n0 l)).
        { clear. induction l as [|c l IH]; intros n0; cbn [numbered]; constructor; [cbn [fst]; lia|].
          cbn [declared flat_map]. fold (declared l). rewrite app_length. eapply Forall_impl; [|apply IH]. intros nc Q. cbv beta in Q. destruct c; cbn [length]; lia. }
        specialize (FEW calls 0). split.
        -- exists 0. split; [|reflexivity]. apply sized_snoc. right. split; [|exact NS]. right. split; [reflexivity|]. intros nc s Hin (A & _). rewrite Forall_forall in FEW. specialize (FEW nc Hin). lia.
        -- rewrite members_snoc. cbn [add_member snd]. unfold members_of. revert FEW. generalize (numbered 0 calls) as l. intros l.
           induction l as [|x l IHl] using rev_ind; intros F; [reflexivity|]. apply Forall_app in F as [F1 F2]. apply Forall_inv in F2. rewrite fold_left_app. cbn [fold_left].
           rewrite <- IHl by exact F1. cbn [ci_bits]. unfold add_member. destruct (snd x); try reflexivity. replace (_ <? fst x) with false by lia. rewrite andb_false_r. reflexivity.
  - (* a size *)
    apply (inv_same calls _ (ce_infos e)); [exact I0|exact I| |].
    + unfold column_set_data_size. destruct (col_at e col); cbn [bind kept]; [|reflexivity|reflexivity]. destruct (whole_doubles size); [|reflexivity]. cbn [assert bind kept with_infos ce_infos]. apply put_length.
    + intros i ci Hi. assert (Li : (i < length (ce_infos e))%nat) by (apply nth_error_Some; congruence).
      unfold column_set_data_size, col_at. destruct (Z.leb_spec 0 col) as [Hc|Hc]; cbn [bind kept].
      2:{ exists ci. repeat (split; [first [exact Hi|reflexivity]|]). split; [left; split; [reflexivity|]|reflexivity]. intros s (_ & _ & [Q|(? & ? & _ & Q)]); cbn [snd] in Q; [injection Q as -> ->; lia|discriminate]. }
      destruct (nth_error (ce_infos e) (Z.to_nat col)) as [cc|] eqn:Ec; cbn [bind kept].
      2:{ exists ci. repeat (split; [first [exact Hi|reflexivity]|]). split; [left; split; [reflexivity|]|reflexivity]. intros s (_ & _ & [Q|(? & ? & _ & Q)]); cbn [snd] in Q; [injection Q as -> ->; rewrite Nat2Z.id in Ec; congruence|discriminate]. }
      destruct (whole_doubles size) eqn:W; cbn [assert bind kept].
      2:{ exists ci. repeat (split; [first [exact Hi|reflexivity]|]). split; [left; split; [reflexivity|]|reflexivity]. intros s (_ & D & [Q|(? & ? & _ & Q)]); cbn [snd] in Q; [injection Q as -> ->; apply whole_spec in D; congruence|discriminate]. }
      cbn [with_infos ce_infos]. destruct (Z.eqb_spec col (Z.of_nat i)) as [Eq|Ne].
      * exists (with_size cc size). rewrite nth_put by lia. rewrite (proj2 (Z.eqb_eq _ _) Eq), (proj2 (Nat.ltb_lt _ _) Li). subst col. rewrite Nat2Z.id, Hi in Ec. injection Ec as <-.
        repeat (split; [reflexivity|]). split; [right; exists size; split; [split; [cbn [fst]; lia|split; [now apply whole_spec|now left]]|reflexivity]|reflexivity].
      * exists ci. rewrite nth_put by lia. rewrite (proj2 (Z.eqb_neq _ _) Ne). repeat (split; [first [exact Hi|reflexivity]|]). split; [left; split; [reflexivity|]|reflexivity].
        intros s (_ & D & [Q|(? & ? & _ & Q)]); cbn [snd] in Q; [congruence|discriminate].
  - (* an array *)
    apply (inv_same calls _ (ce_infos e)); [exact I0|exact I| |].
    + unfold column_set_data_array. destruct (col_at e col); cbn [bind kept]; [|reflexivity|reflexivity]. destruct (whole_doubles size); [|reflexivity]. cbn [assert bind kept]. destruct (whole_doubles stride); [|reflexivity]. cbn [assert bind kept with_cols with_infos ce_infos]. apply put_length.
    + intros i ci Hi. assert (Li : (i < length (ce_infos e))%nat) by (apply nth_error_Some; congruence).
      unfold column_set_data_array, col_at. destruct (Z.leb_spec 0 col) as [Hc|Hc]; cbn [bind kept].
      2:{ exists ci. repeat (split; [first [exact Hi|reflexivity]|]). split; [left; split; [reflexivity|]|reflexivity]. intros s (_ & _ & [Q|(? & ? & _ & Q)]); cbn [snd] in Q; [discriminate|injection Q as -> _ _ _; lia]. }
      destruct (nth_error (ce_infos e) (Z.to_nat col)) as [cc|] eqn:Ec; cbn [bind kept].
      2:{ exists ci. repeat (split; [first [exact Hi|reflexivity]|]). split; [left; split; [reflexivity|]|reflexivity]. intros s (_ & _ & [Q|(? & ? & _ & Q)]); cbn [snd] in Q; [discriminate|injection Q as -> _ _ _; rewrite Nat2Z.id in Ec; congruence]. }
      destruct (whole_doubles size) eqn:W; cbn [assert bind kept].
      2:{ exists ci. repeat (split; [first [exact Hi|reflexivity]|]). split; [left; split; [reflexivity|]|reflexivity]. intros s (_ & D & [Q|(? & ? & _ & Q)]); cbn [snd] in Q; [discriminate|injection Q as _ -> _ _; apply whole_spec in D; congruence]. }
      destruct (whole_doubles stride) eqn:W'; cbn [assert bind kept].
      2:{ exists ci. repeat (split; [first [exact Hi|reflexivity]|]). split; [left; split; [reflexivity|]|reflexivity]. intros s (_ & _ & [Q|(? & ? & D & Q)]); cbn [snd] in Q; [discriminate|injection Q as _ _ -> _; apply whole_spec in D; congruence]. }
      cbn [with_cols with_infos ce_infos]. destruct (Z.eqb_spec col (Z.of_nat i)) as [Eq|Ne].
      * exists (with_size cc size). rewrite nth_put by lia. rewrite (proj2 (Z.eqb_eq _ _) Eq), (proj2 (Nat.ltb_lt _ _) Li). subst col. rewrite Nat2Z.id, Hi in Ec. injection Ec as <-.
        repeat (split; [reflexivity|]). split; [right; exists size; split; [split; [cbn [fst]; lia|split; [now apply whole_spec|right; exists stride, d; split; [now apply whole_spec|reflexivity]]]|reflexivity]|reflexivity].
      * exists ci. rewrite nth_put by lia. rewrite (proj2 (Z.eqb_neq _ _) Ne). repeat (split; [first [exact Hi|reflexivity]|]). split; [left; split; [reflexivity|]|reflexivity].
        intros s (_ & D & [Q|(? & ? & _ & Q)]); cbn [snd] in Q; [discriminate|congruence].
  - (* a member *)
    apply (inv_same calls _ (ce_infos e)); [exact I0|exact I| |].
    + unfold column_add_bitfield. destruct (col_at e col); cbn [bind kept]; [|reflexivity|reflexivity]. destruct (to_size _ <=? 32); [|reflexivity]. cbn [assert bind kept with_infos ce_infos]. apply put_length.
    + intros i ci Hi. assert (Li : (i < length (ce_infos e))%nat) by (apply nth_error_Some; congruence).
      assert (NS : forall s, ~ asks_size (Z.of_nat i) (Z.of_nat (length (ce_infos e)), AddBitfield col nm nbits) s).
      { intros s (_ & _ & [Q|(? & ? & _ & Q)]); discriminate Q. }
      cbn [add_member fst snd]. unfold add_member. cbn [fst snd]. replace (Z.of_nat i <? Z.of_nat (length (ce_infos e))) with true by lia. rewrite andb_true_r.
      unfold column_add_bitfield, col_at. destruct (Z.leb_spec 0 col) as [Hc|Hc]; cbn [bind kept].
      2:{ exists ci. repeat (split; [first [exact Hi|reflexivity]|]). split; [left; auto|]. now replace (col =? Z.of_nat i) with false by lia. }
      destruct (nth_error (ce_infos e) (Z.to_nat col)) as [cc|] eqn:Ec; cbn [bind kept].
      2:{ exists ci. repeat (split; [first [exact Hi|reflexivity]|]). split; [left; auto|]. destruct (Z.eqb_spec col (Z.of_nat i)) as [->|]; [rewrite Nat2Z.id in Ec; congruence|reflexivity]. }
      assert (PC : packed cc) by (rewrite Forall_forall in P; exact (P cc (nth_error_In _ _ Ec))).
      assert (Q : (to_size (to_size (bits_total (ci_bits cc)) + to_size nbits) <=? 32) = (0 <=? bits_total (ci_bits cc) + nbits) && (bits_total (ci_bits cc) + nbits <=? 32)).
      { specialize (PC (length (ci_bits cc))). rewrite firstn_all in PC. cbn [int_call] in IC. unfold to_size. rewrite <- Zplus_mod.
        destruct (Z.lt_ge_cases (bits_total (ci_bits cc) + nbits) 0) as [N|N].
        - rewrite <- (Z_mod_plus_full _ 1). rewrite Z.mod_small by lia. lia.
        - rewrite Z.mod_small by lia. lia. }
      rewrite Q. destruct (Z.eqb_spec col (Z.of_nat i)) as [Eq|Ne].
      * subst col. rewrite Nat2Z.id, Hi in Ec. injection Ec as <-. rewrite andb_true_l.
        destruct ((0 <=? bits_total (ci_bits ci) + nbits) && (bits_total (ci_bits ci) + nbits <=? 32)) eqn:W; cbn [assert bind kept].
        -- eexists. cbn [with_infos ce_infos]. rewrite nth_put by lia. rewrite Z.eqb_refl, (proj2 (Nat.ltb_lt _ _) Li). split; [reflexivity|]. repeat (split; [reflexivity|]). split; [left; split; [reflexivity|exact NS]|reflexivity].
        -- exists ci. repeat (split; [first [exact Hi|reflexivity]|]). split; [left; auto|]. reflexivity.
      * exists ci. rewrite andb_false_l. destruct (_ && _); cbn [assert bind kept with_infos ce_infos].
        -- rewrite nth_put by lia. rewrite (proj2 (Z.eqb_neq _ _) Ne). repeat (split; [first [exact Hi|reflexivity]|]). split; [left; auto|reflexivity].
        -- repeat (split; [first [exact Hi|reflexivity]|]). split; [left; auto|reflexivity].
Qed.

End History.

(** The columns are those declared, in order, each with the size last asked for - a call
    for a column that is not declared, or with a size or stride that is no number of
    doubles, asks for nothing - and with the members that fitted. *)
Theorem C50_columns : forall md5 version st calls, Forall int_call calls -> let e := reached md5 version st calls in
  length (ce_infos e) = length (declared calls) /\
  forall i nm ty, nth_error (declared calls) i = Some (nm, ty) ->
    exists ci s, nth_error (ce_infos e) i = Some ci /\ ci_name ci = nm /\ ci_type ci = ty /\
      sized (Z.of_nat i) calls s /\ value_size ci = (if s =? 0 then 8 else s) /\ ci_bits ci = members_of (Z.of_nat i) calls.
Proof.
  intros md5 version st calls F e. assert (X : inv calls (ce_infos e)).
  { unfold e. clear e. induction calls as [|c calls IH] using rev_ind.
    - split; [reflexivity|]. intros i d H. destruct i; discriminate H.
    - apply Forall_app in F as [F1 F2]. rewrite reached_snoc. apply inv_step; [now apply Forall_inv in F2| |auto].
      eapply Forall_impl; [|exact (C50_bitfields md5 version st calls F1)]. intros ci Q. exact (proj1 Q). }
  destruct X as [L X]. split; [exact L|]. intros i nm ty H. destruct (X i _ H) as (ci & H1 & H2 & H3 & (s & H4 & H5) & H6). exists ci, s. repeat (split; [assumption|]). assumption.
Qed.
Print Assumptions C50_columns.

(** A property has the value given last; a frame has the rows asked for last, or 10000; the
    number of rows is the one given last, or if none is, the height of the first array that
    is accepted and has rows. *)
Definition heights (calls : list call) : list Z :=
  flat_map (fun c => match c with SetDataArray _ _ h major => if Z.rem major 8 =? 0 then [to_size h] else [] | _ => [] end) calls.

Theorem C50_settings : forall md5 version st calls, let e := reached md5 version st calls in
  (forall k, mget (ce_props e) k = property_of k calls) /\
  ce_max e = match frame_rows_of calls with Some n => to_size n | None => 10000 end /\
  (forall n, rows_of calls = Some n -> to_size n <> 0 -> ce_nrows e = to_size n) /\
  (rows_of calls = None -> ce_nrows e = hd 0 (filter (fun h => negb (h =? 0)) (heights calls))).
Proof.
  intros md5 version st calls e. unfold e. clear e.
  assert (S0 : msorted (ce_props (reached md5 version st calls))).
  { induction calls as [|c calls IH] using rev_ind; [constructor|]. rewrite reached_snoc, after_props. destruct c; try exact IH. now apply mset_sorted. }
  split; [|split; [|split]].
  - intros k. induction calls as [|c calls IH] using rev_ind; [reflexivity|]. unfold property_of. rewrite latest_snoc. rewrite reached_snoc, after_props.
    assert (S1 : msorted (ce_props (reached md5 version st calls))).
    { clear. induction calls as [|c calls IH] using rev_ind; [constructor|]. rewrite reached_snoc, after_props. destruct c; try exact IH. now apply mset_sorted. }
    specialize (IH S1). destruct c; try exact IH. rewrite mget_mset by exact S1. destruct (bytes_eqb k k0); [reflexivity|exact IH].
  - clear S0. induction calls as [|c calls IH] using rev_ind; [reflexivity|]. unfold frame_rows_of. rewrite latest_snoc, reached_snoc, after_max. destruct c; try exact IH. reflexivity.
  - clear S0. induction calls as [|c calls IH] using rev_ind; [discriminate|]. unfold rows_of. intros n. rewrite latest_snoc, reached_snoc, after_rows. fold (rows_of calls).
    destruct c as [k v|n'|n'|d w h major|nm ty|col size|col size stride d|col nm nbits|m]; intros H N; try exact (IH n H N).
    + injection H as ->. reflexivity.
    + rewrite (IH n H N). destruct (Z.rem major 8 =? 0); cbn [andb]; [|reflexivity]. now rewrite (proj2 (Z.eqb_neq _ _) N).
  - clear S0. induction calls as [|c calls IH] using rev_ind; [reflexivity|]. unfold rows_of. rewrite latest_snoc, reached_snoc, after_rows. fold (rows_of calls).
    unfold heights. rewrite flat_map_app. cbn [flat_map]. rewrite app_nil_r, filter_app. fold (heights calls).
    destruct c as [k v|n'|n'|d w h major|nm ty|col size|col size stride d|col nm nbits|m]; cbn [filter]; try discriminate; rewrite ?app_nil_r; try exact IH.
    intros H. rewrite (IH H). destruct (Z.rem major 8 =? 0); cbn [andb filter]; [|now rewrite app_nil_r].
    assert (NZ : Forall (fun h => h <> 0) (filter (fun h => negb (h =? 0)) (heights calls))).
    { apply Forall_forall. intros x Hx. apply filter_In in Hx as [_ Hx]. lia. }
    destruct (filter (fun h0 => negb (h0 =? 0)) (heights calls)) as [|h0 l0]; cbn [hd app].
    + rewrite Z.eqb_refl. destruct (Z.eqb_spec (to_size h) 0) as [Q|Q]; cbn [negb hd]; [exact Q|reflexivity].
    + apply Forall_inv in NZ. now rewrite (proj2 (Z.eqb_neq _ _) NZ).
Qed.
Print Assumptions C50_settings.
