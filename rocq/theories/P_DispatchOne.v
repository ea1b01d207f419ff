(** C44: templates with one parameter, and how many files are open. *)
From Verif Require Import IntProofs Spec Base Fp FpProofs Stream StreamProofs StreamLocal Codec Meta Encoder Reader TableProofs
  Writer RowReader WriterSpec WriterProofs RowList Comparator Copy CopySpec P_Tables Dispatcher DispatchSpec DispatchNames.
Open Scope Z_scope.
Local Notation length := List.length.

Lemma le_val_app a b : le_val (a ++ b) = le_val a + 256 ^ Z.of_nat (length a) * le_val b.
Proof.
  induction a as [|x a IH]; [cbn [app le_val length]; change (256 ^ Z.of_nat 0) with 1; lia|]. cbn [app le_val length]. rewrite IH.
  replace (Z.of_nat (S (length a))) with (1 + Z.of_nat (length a)) by lia. rewrite Z.pow_add_r by lia. lia.
Qed.
Lemma le_val_inj a b : bytes_ok a -> bytes_ok b -> length a = length b -> le_val a = le_val b -> a = b.
Proof. intros A B L E. rewrite <- (le_bytes_le_val a A), <- (le_bytes_le_val b B). congruence. Qed.

Section One.
Variables (pre nm post : list Z).
Hypothesis Hpre : ~ In left_brace pre.
Hypothesis Hnm : ~ In right_brace nm.
Hypothesis Hpost : ~ In left_brace post.
Variable rows : list arow.
Variable text : arow -> list Z.
Variable key : arow -> list Z.
Hypothesis Hrow : forall r, In r rows -> exists i c cell, cell_of r nm i c cell /\ narrow r i /\ 8 <= len cell /\
  firstn 8 cell = key r /\ text_of (col_type c) cell (text r).
Hypothesis Hkey : forall r1 r2, In r1 rows -> In r2 rows -> (deq (le_val (key r1)) (le_val (key r2)) = true <-> text r1 = text r2).

Lemma one_parameter : routed (pre ++ left_brace :: nm ++ right_brace :: post) rows (fun r => pre ++ text r ++ post).
Proof using All.
  split. exists [Lit pre; Par nm; Lit post]. split; [|split; [|split; [|split]]].
  - apply (ti_par pre nm post [Lit post]); auto. now constructor.
  - exists nm. right. now left.
  - intros r Hr. destruct (Hrow r Hr) as (i & c & cell & C & _ & _ & _ & T). constructor. apply (fi_par r nm _ i c cell); auto.
    rewrite <- (app_nil_r post) at 2. constructor. constructor.
  - intros r m i c cell Hr Hin C. assert (m = nm) by (destruct Hin as [Q|[Q|[Q|[]]]]; congruence). subst m.
    destruct (Hrow r Hr) as (i' & c' & cell' & C' & Na & L & _). destruct (cell_unique r nm i i' c c' cell cell' C C') as (-> & -> & ->). auto.
  - assert (V : forall r v, In r rows -> values_of r [Lit pre; Par nm; Lit post] v -> v = [key r]).
    { intros r v Hr V. destruct (Hrow r Hr) as (i' & c' & cell' & C' & _ & _ & K & _).
      inversion V as [|? ? ? V1|]; subst. inversion V1 as [| |? ? i c cell vs C V2]; subst. inversion V2 as [|? ? ? V3|]; subst. inversion V3; subst.
      destruct (cell_unique r nm i i' c c' cell cell' C C') as (-> & -> & ->). now rewrite K. }
    intros r1 r2 v1 v2 H1 H2 V1 V2. rewrite (V r1 v1 H1 V1), (V r2 v2 H2 V2). split.
    + intros F. inversion F as [|? ? ? ? D]; subst. rewrite (proj1 (Hkey r1 r2 H1 H2) D). reflexivity.
    + intros E. apply app_inv_head, app_inv_tail in E. constructor; [|constructor]. now apply Hkey.
Qed.
End One.

(** A template with one parameter, which is a column of whole numbers. *)
Theorem C44_number : forall pre nm post rows (n : arow -> Z) (text : Z -> list Z),
  ~ In left_brace pre -> ~ In right_brace nm -> ~ In left_brace post ->
  (forall m, int32 m -> numeral m (text m)) ->
  (forall r, In r rows -> int32 (n r) /\ exists i c cell, cell_of r nm i c cell /\ narrow r i /\
     col_type c <> ty_STRING /\ cell = le_bytes 8 (z2d (n r))) ->
  routed (pre ++ left_brace :: nm ++ right_brace :: post) rows (fun r => pre ++ text (n r) ++ post).
Proof.
  intros pre nm post rows n text H1 H2 H3 HT HR. apply (one_parameter pre nm post H1 H2 H3 rows (fun r => text (n r)) (fun r => le_bytes 8 (z2d (n r)))).
  - intros r Hr. destruct (HR r Hr) as (I & i & c & cell & C & Na & T & ->). exists i, c, (le_bytes 8 (z2d (n r))).
    pose proof (le_bytes_length 8 (z2d (n r))) as L. assert (F : firstn 8 (le_bytes 8 (z2d (n r))) = le_bytes 8 (z2d (n r))) by (apply firstn_all2; lia).
    split; [exact C|]. split; [exact Na|]. split; [unfold len; lia|]. split; [exact F|].
    assert (Sm : - 2 ^ 53 <= n r <= 2 ^ 53) by (unfold int32 in I; lia).
    destruct (z2d_fin (n r) Sm) as (Fi & I64 & _). apply to_number with (n := n r); auto. rewrite F, le_val_small by (change (256 ^ Z.of_nat 8) with (2 ^ 64); unfold is64 in I64; lia).
    unfold d2z_trunc. rewrite Fi, z2d_val by exact Sm. f_equal. apply Z.quot_mul. lia.
  - intros r1 r2 A B. destruct (HR r1 A) as (I1 & _), (HR r2 B) as (I2 & _).
    assert (S1 : FpProofs.small (n r1)) by (unfold FpProofs.small; unfold int32 in I1; lia). assert (S2 : FpProofs.small (n r2)) by (unfold FpProofs.small; unfold int32 in I2; lia).
    rewrite !le_val_small by (match goal with |- context [z2d ?m] => destruct (z2d_fin m) as (_ & X & _); [assumption|change (256 ^ Z.of_nat 8) with (2 ^ 64); unfold is64 in X; lia] end).
    rewrite deq_z2d by assumption. split; [intros E; apply Z.eqb_eq in E; now rewrite E|].
    intros E. apply Z.eqb_eq. apply (numeral_inj _ _ (text (n r1))); [now apply HT|rewrite E; now apply HT].
Qed.
Print Assumptions C44_number.

(** There is such a text. *)
Lemma digits_ok : forall f m, 0 <= m < 10 ^ Z.of_nat f -> (0 < f)%nat ->
  Forall is_digit (digits f m) /\ digits f m <> [] /\ (hd 0 (digits f m) = 48 -> digits f m = [48]) /\ digits_value (digits f m) = m.
Proof.
  induction f as [|f IH]; intros m H Hf; [lia|]. cbn [digits]. destruct (Z.ltb_spec m 10) as [Q|Q].
  - split; [constructor; [unfold is_digit; lia|constructor]|]. split; [discriminate|]. split; [cbn [hd]; intros; f_equal; lia|unfold digits_value; cbn [fold_left]; lia].
  - replace (Z.of_nat (S f)) with (Z.of_nat f + 1) in H by lia. rewrite Z.pow_add_r in H by lia.
    assert (0 <= m / 10 < 10 ^ Z.of_nat f) by (split; [apply Z.div_pos; lia|apply Z.div_lt_upper_bound; lia]).
    assert (f <> O). { intros ->. cbn in H0. assert (1 <= m / 10) by (apply Z.div_le_lower_bound; lia). lia. }
    destruct (IH (m / 10) H0 ltac:(lia)) as (A & B & C & D). pose proof (Z.mod_pos_bound m 10 ltac:(lia)).
    split; [apply Forall_app; split; [exact A|constructor; [unfold is_digit; lia|constructor]]|]. split; [now destruct (digits f (m / 10))|]. split.
    + intros E. destruct (digits f (m / 10)) as [|x l]; [congruence|]. cbn [hd app] in E, C. specialize (C E). assert (l = []) by congruence. subst. exfalso.
      cbn in D. assert (1 <= m / 10) by (apply Z.div_le_lower_bound; lia). lia.
    + rewrite digits_value_app, D. rewrite (Z.div_mod m 10) at 3 by lia. lia.
Qed.
Theorem C44_numerals : forall m, int32 m -> numeral m (decimal m).
Proof.
  intros m H. unfold int32 in H. unfold decimal. destruct (Z.ltb_spec m 0) as [Q|Q].
  - destruct (digits_ok 20 (- m)) as (A & B & C & D); [change (10 ^ Z.of_nat 20) with 100000000000000000000; lia|lia|]. exists (digits 20 (- m)). repeat split; auto.
  - destruct (digits_ok 20 m) as (A & B & C & D); [change (10 ^ Z.of_nat 20) with 100000000000000000000; lia|lia|]. exists (digits 20 m). repeat split; auto.
Qed.

(** A template with one parameter, which is a column of printable texts of at most 8 bytes
    without spaces around and without "/". *)
Theorem C44_text : forall pre nm post rows (text : arow -> list Z),
  ~ In left_brace pre -> ~ In right_brace nm -> ~ In left_brace post ->
  (forall r, In r rows -> exists i c cell zeros, cell_of r nm i c cell /\ narrow r i /\
     col_type c = ty_STRING /\ cell = text r ++ zeros /\ len cell = 8 /\ Forall (eq 0) zeros /\
     Forall printable (text r) /\ hd 0 (text r) <> 32 /\ last (text r) 0 <> 32 /\ ~ In 47 (text r)) ->
  routed (pre ++ left_brace :: nm ++ right_brace :: post) rows (fun r => pre ++ text r ++ post).
Proof.
  intros pre nm post rows text H1 H2 H3 HR.
  set (key := fun r => text r ++ repeat 0 (8 - length (text r))).
  assert (Z0 : forall zs, Forall (eq 0) zs -> zs = repeat 0 (length zs)) by (induction 1 as [|z zs <- _ IH]; cbn; [reflexivity|now rewrite <- IH]).
  assert (K : forall r cell zeros, cell = text r ++ zeros -> len cell = 8 -> Forall (eq 0) zeros -> cell = key r).
  { intros r cell zeros -> L Z. unfold key. f_equal. rewrite (Z0 zeros Z) at 1. f_equal. unfold len in L. rewrite app_length in L. lia. }
  apply (one_parameter pre nm post H1 H2 H3 rows text key).
  - intros r Hr. destruct (HR r Hr) as (i & c & cell & zeros & C & Na & T & E & L & Zs & P & A & B & D). exists i, c, cell.
    assert (F : firstn 8 cell = cell) by (apply firstn_all2; unfold len in L; lia).
    split; [exact C|]. split; [exact Na|]. split; [lia|]. split; [rewrite F; eapply K; eauto|].
    apply (to_string _ cell [] (text r) [] zeros); auto; try rewrite F; auto; try constructor.
    intros _. destruct Zs as [|z zs <- _]; cbn; unfold printable; lia.
  - assert (Q : forall r, In r rows -> Forall is_byte (key r) /\ length (key r) = 8%nat /\ exists a, le_val (key r) = a /\ 0 <= a < 2 ^ 63 /\ is_nan f64 a = false).
    { intros r Hr. destruct (HR r Hr) as (i & c & cell & zeros & C & Na & T & E & L & Zs & P & A & B & D). rewrite <- (K r cell zeros E L Zs).
      assert (Fb : Forall is_byte cell). { rewrite E. apply Forall_app. split; [eapply Forall_impl; [|exact P]; intros z; unfold printable, is_byte; lia|eapply Forall_impl; [|exact Zs]; intros z <-; unfold is_byte; lia]. }
      split; [exact Fb|]. unfold len in L. split; [lia|]. eexists. split; [reflexivity|].
      assert (X : exists lo hi, cell = lo ++ [hi] /\ length lo = 7%nat /\ (hi = 0 \/ printable hi)).
      { assert (cell <> []) by (destruct cell; [cbn in L; lia|discriminate]). destruct (exists_last H) as (lo & hi & ->). exists lo, hi. split; [reflexivity|].
        rewrite app_length in L. cbn in L. split; [lia|]. assert (In hi (text r ++ zeros)) by (rewrite <- E; apply in_or_app; right; now left).
        apply in_app_or in H0 as [I|I]; [right; rewrite Forall_forall in P; auto|left; rewrite Forall_forall in Zs; symmetry; auto]. }
      destruct X as (lo & hi & -> & Ll & Hh). apply Forall_app in Fb as (Fl & _). clear -Ll Hh Fl.
      pose proof (le_val_bound lo Fl) as Bo. unfold len in Bo. rewrite Ll in Bo. rewrite le_val_app, Ll. cbn [le_val].
      assert (M : 0 <= hi <= 126) by (unfold printable in Hh; lia). change (256 ^ Z.of_nat 7) with (2 ^ 56) in *.
      assert (Y : 0 <= le_val lo + 2 ^ 56 * (hi + 256 * 0) < 9151314442816847872) by lia.
      split; [lia|]. unfold is_nan, mag, negb_. rewrite sign64, inf64. destruct (Z.leb_spec (2 ^ 63) (le_val lo + 2 ^ 56 * (hi + 256 * 0))); [lia|]. apply Z.ltb_ge. lia. }
    intros r1 r2 A B. destruct (Q r1 A) as (F1 & L1 & a & E1 & B1 & N1), (Q r2 B) as (F2 & L2 & b & E2 & B2 & N2). split.
    + rewrite E1, E2. intros D. assert (a = b).
      { unfold deq, feq, Fp.key, mag, negb_ in D. rewrite N1, N2, sign64 in D. cbn [negb andb] in D.
        destruct (Z.leb_spec (2 ^ 63) a), (Z.leb_spec (2 ^ 63) b); lia. }
      subst b. assert (KK : key r1 = key r2) by (apply (le_val_inj (key r1) (key r2) F1 F2); congruence).
      destruct (HR r1 A) as (_ & _ & _ & _ & _ & _ & _ & _ & _ & _ & P1 & _), (HR r2 B) as (_ & _ & _ & _ & _ & _ & _ & _ & _ & _ & P2 & _).
      revert KK. unfold key. generalize (8 - length (text r1))%nat (8 - length (text r2))%nat. clear -P1 P2. revert P2. generalize (text r2). induction P1 as [|x t Hx P1 IH]; intros u P2 z1 z2 E.
      * destruct u as [|y u]; [reflexivity|]. inversion P2 as [|? ? Hy _]; subst. destruct z1; cbn in E; [discriminate|]. injection E as E _. unfold printable in Hy. lia.
      * destruct P2 as [|y u Hy P2]; [destruct z2; cbn in E; [discriminate|]; injection E as E _; unfold printable in Hx; lia|]. cbn in E. injection E as -> E. f_equal. eauto.
    + intros E. unfold key. rewrite E. fold (key r2). rewrite E2. unfold deq, feq. now rewrite N2, Z.eqb_refl.
Qed.
Print Assumptions C44_text.

(** ** How many files are open *)
Section Open.
Variables (md5 : list Z -> list Z) (st : settings) (N : nat) (template : list Z) (max : nat).

(** The states of a dispatching writer: the rows written may be any, with new columns at
    any time. *)
Inductive reached : dispatcher -> Prop :=
| re_new append k cols : reached (set_cols (new_dispatcher max append k) cols)
| re_step d fresh md row d' : reached d -> dispatch_step md5 st N template max d fresh md row = Ok d' -> reached d'.

Lemma index_open d row d' i : dispatch_index md5 st N template max d row = Ok (d', i) -> (length (d_open d) <= max)%nat -> (length (d_open d') <= max)%nat.
Proof.
  unfold dispatch_index. intros H L. destruct (map_out _ _) as [key| |]; cbn [bind] in H; try discriminate.
  destruct (key_eq key (d_lastkey d)); [injection H as <- <-; exact L|]. destruct (has_nan key); [discriminate|].
  match type of H with context [bind ?x _] => destruct x as [[d1 j]| |] eqn:X end; cbn [bind] in H; try discriminate.
  destruct (length (d_stamp d1) <=? j)%nat; [discriminate|]. injection H as <- <-. cbn [d_open].
  destruct (find_key key (d_map d)) as [i|]; [injection X as <- <-; exact L|].
  destruct (generate_name _ _ _ _) as [name| |]; cbn [bind] in X; try discriminate.
  unfold create_iterator in X. cbv zeta in X. destruct (Nat.leb_spec max (length (d_open d))) as [F|F].
  - destruct (assert _) as [u| |]; cbn [bind] in X; try discriminate.
    destruct (evict md5 st N d _) as [d2| |] eqn:Ev; cbn [bind] in X; try discriminate.
    destruct (open_file _ _ _) as [[k h]| |]; cbn [bind] in X; try discriminate. destruct (writer_columns _ _ _) as [w| |]; cbn [bind] in X; try discriminate.
    injection X as <- <-. cbn [d_open]. rewrite list_set_length. unfold evict in Ev. destruct (nth_error _ _) as [[h0 w0]|]; [|discriminate].
    destruct (Writer.close _ _ _ _ _) as [w1| |]; cbn [bind] in Ev; try discriminate. destruct (settle _ _ _) as [k1 hw]. destruct (existsb _ _); [|discriminate]. injection Ev as <-. cbn [d_open]. exact L.
  - cbn [andb negb assert bind] in X. destruct (open_file _ _ _) as [[k h]| |]; cbn [bind] in X; try discriminate. destruct (writer_columns _ _ _) as [w| |]; cbn [bind] in X; try discriminate.
    injection X as <- <-. cbn [d_open]. rewrite app_length. cbn. lia.
Qed.

(** Never more than [max] files are open. *)
Theorem C44_open : forall d, reached d -> (length (d_open d) <= max)%nat.
Proof.
  induction 1 as [append k cols | d fresh md row d' R IH E]; [cbn; lia|]. unfold dispatch_step in E.
  match type of E with context [bind ?x _] => destruct x as [d1| |] eqn:X end; cbn [bind] in E; try discriminate.
  assert (L1 : (length (d_open d1) <= max)%nat).
  { destruct (fresh && _); [|injection X as <-; exact IH]. destruct (map_out _ _) as [cols| |]; cbn [bind] in X; try discriminate.
    destruct (parse_params _ _) as [d2| |] eqn:P; cbn [bind] in X; try discriminate. destruct (restart_all _ _ _ _ _ _) as [[k op]| |] eqn:Ra; cbn [bind] in X; try discriminate.
    injection X as <-. cbn [with_disk d_open]. unfold parse_params in P. destruct (parse_template _ _) as [ps| |]; cbn [bind] in P; try discriminate.
    destruct (length ps =? 0)%nat; [discriminate|]. injection P as <-. cbn [d_open d_disk d_cols set_cols] in Ra. clear -Ra IH.
    enough (length op = length (d_open d)) by lia. clear IH. revert Ra. generalize (d_disk d) k. generalize op. induction (d_open d) as [|[h w] l IHl]; intros op0 k1 k2 Ra; cbn [restart_all] in Ra; [injection Ra as _ <-; reflexivity|].
    destruct (flush _ _ _ _ w) as [w1| |]; cbn [bind] in Ra; try discriminate. destruct (writer_columns _ _ _) as [w2| |]; cbn [bind] in Ra; try discriminate.
    destruct (settle _ _ _) as [k3 hw]. destruct (restart_all _ _ _ _ _ l) as [[k4 r1]| |] eqn:Q; cbn [bind] in Ra; try discriminate. injection Ra as _ <-. cbn. f_equal. eapply IHl; eauto. }
  clear X. unfold dispatch_row in E. match type of E with context [bind ?x _] => destruct x as [d0| |] eqn:X end; cbn [bind] in E; try discriminate.
  assert (L0 : (length (d_open d0) <= max)%nat).
  { destruct (d_init d1); [injection X as <-; exact L1|]. unfold parse_params in X. destruct (parse_template _ _) as [ps| |]; cbn [bind] in X; try discriminate.
    destruct (length ps =? 0)%nat; [discriminate|]. injection X as <-. exact L1. }
  destruct (dispatch_index _ _ _ _ _ d0 row) as [[d2 i]| |] eqn:D; cbn [bind] in E; try discriminate. pose proof (index_open _ _ _ _ D L0) as L2.
  destruct (nth_error (d_open d2) i) as [[h w]|]; [|discriminate]. destruct (assert _) as [u| |]; cbn [bind] in E; try discriminate.
  destruct (write_row _ _ _ _ _ _) as [w1| |]; cbn [bind] in E; try discriminate. destruct (settle _ _ _) as [k hw]. injection E as <-. cbn [d_open]. now rewrite list_set_length.
Qed.
End Open.
Print Assumptions C44_open.
