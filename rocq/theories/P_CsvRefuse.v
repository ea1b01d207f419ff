(** C45: headers that are refused. *)
From Coq Require Import String.
From Verif Require Import Base Fp Stream StreamProofs StreamLocal Codec Meta Encoder Table TableProofs Writer WriterSpec RowList Spec
  WriterRun Header Reader Iterators Copy CopySpec Dispatcher DispatchSpec DispatchNames Csv CsvSpec CsvText CsvRefuseSpec.
From Verif Require P_Tables.
From Coq Require Permutation.
Open Scope Z_scope.
Local Notation length := List.length.

Lemma sizes_positive ms bits : Forall2 member ms bits -> 0 <= fold_right Z.add 0 (map snd bits).
Proof. intros F. induction F as [|m b ms bs (num & _ & _ & _ & C & _) _ IH]; cbn [map fold_right]; lia. Qed.

Lemma nodup_dec (l : list (list Z)) : NoDup l \/ ~ NoDup l.
Proof.
  induction l as [|x l [IH|IH]]; [left; constructor| |right; intros H; inversion H; contradiction].
  destruct (in_dec (list_eq_dec Z.eq_dec) x l) as [I|I]; [right; intros H; inversion H; contradiction|left; now constructor].
Qed.

Lemma members_any : forall ms bits names sizes total, Forall2 member ms bits -> NoDup names ->
  0 <= total -> total + fold_right Z.add 0 (map snd bits) < 2 ^ 64 ->
  (NoDup (names ++ map fst bits) ->
   parse_members ms names sizes total = Ok (names ++ map fst bits, sizes ++ map snd bits, total + fold_right Z.add 0 (map snd bits))) /\
  (~ NoDup (names ++ map fst bits) -> parse_members ms names sizes total = Throw UserError).
Proof.
  induction ms as [|m ms IH]; intros bits names sizes total F N0 H0 HT; inversion F as [|? [nm n] ? bits' M F']; subst.
  - cbn [parse_members map fold_right]. rewrite !app_nil_r, Z.add_0_r. split; [reflexivity|contradiction].
  - destruct M as (num & -> & A & B & C & D). cbn [fst snd map fold_right] in *. cbn [parse_members].
    rewrite (split_at [58] nm 58 num); [|exact A|intros x Hx [Q|[]]; destruct (B x Hx) as (Q1 & _); congruence|now left].
    rewrite (split_one [58] num); [|eapply numeral_some; eauto|intros x Hx [Q|[]]; pose proof (numeral_plain n num x ltac:(lia) D Hx) as Q1; unfold is_digit in Q1; lia].
    destruct (existsb (bytes_eqb nm) names) eqn:Ex.
    + split; [|reflexivity]. intros ND. exfalso. apply existsb_exists in Ex as (y & Hy & Ey). apply bytes_eqb_eq in Ey. subst y.
      apply NoDup_remove_2 in ND. apply ND. apply in_or_app. now left.
    + assert (Hn : ~ In nm names).
      { intros Q. assert (X : existsb (bytes_eqb nm) names = true) by (apply existsb_exists; exists nm; split; [exact Q|apply bytes_eqb_refl]). congruence. }
      rewrite (atoi_numeral n num C D). cbn [bind]. pose proof (sizes_positive _ _ F') as S0. rewrite Z.mod_small by lia.
      destruct (IH bits' (names ++ [nm]) (sizes ++ [n]) (total + n) F') as (I1 & I2); [|lia|lia|].
      { apply (Permutation.Permutation_NoDup (Permutation.Permutation_cons_append names nm)). now constructor. }
      rewrite <- app_assoc in I1, I2. cbn [app] in I1, I2. split.
      * intros ND. rewrite (I1 ND), <- !app_assoc. cbn [app]. do 2 f_equal. lia.
      * intros ND. exact (I2 ND).
Qed.

Section Refuse.
Variable st : settings.

Lemma refused_column f e : refused f e -> header_column st f = Throw e.
Proof.
  intros [Nc|pre name t -> Hp Hm Ht T0 Ns Nb|pre name kw body ms bits -> Hp Hm Cap L Mb Bad Big].
  - unfold header_column. destruct f as [|x f]; [reflexivity|].
    rewrite (split_one [58] (x :: f)); [reflexivity|discriminate|]. intros c Hc [<-|[]]. contradiction.
  - destruct (pre_facts _ _ Hp Hm) as (P1 & P2). unfold header_column.
    rewrite (split_at [58] pre 58 t); [|exact P1|intros x Hx [Q|[]]; destruct (P2 x Hx); congruence|now left].
    rewrite (split_one [58] t); [|exact T0|intros x Hx [Q|[]]; destruct (Ht x Hx); congruence].
    cbv zeta. cbn [join]. destruct (starts_with (str "BITFIELD") (upper t)) eqn:Sw.
    { apply P_Tables.starts_with_app in Sw as (r & E). exfalso. unfold upper in E.
      set (g := fun c => if (97 <=? c) && (c <=? 122) then c - 32 else c) in *.
      assert (X : exists kw r', t = kw ++ r' /\ map g kw = str "BITFIELD").
      { clear -E. revert t E. induction (str "BITFIELD") as [|c s IH]; intros t E; [exists [], t; now split|].
        destruct t as [|x t]; [discriminate E|]. injection E as E1 E2. destruct (IH t E2) as (kw & r' & -> & Ek).
        exists (x :: kw), r'. split; [reflexivity|]. cbn [map]. now rewrite E1, Ek. }
      destruct X as (kw & r' & Et & Ek). apply (Nb kw r' Et). apply upper_iff. exact Ek. }
    unfold type_of_name. rewrite upper_twice.
    assert (Nn : forall s, In s ["INTEGER"; "REAL"; "DOUBLE"; "STRING"]%string -> bytes_eqb (upper t) (str s) = false).
    { intros s Hs. apply bytes_eqb_neq. intros Q. apply (Ns s Hs). now apply upper_iff. }
    rewrite (Nn "INTEGER"%string), (Nn "REAL"%string), (Nn "DOUBLE"%string), (Nn "STRING"%string) by (cbn; tauto).
    destruct (bytes_eqb (upper t) (str "BITFIELD")) eqn:E; [|reflexivity].
    apply bytes_eqb_eq in E. rewrite E in Sw. vm_compute in Sw. discriminate Sw.
  - destruct (pre_facts _ _ Hp Hm) as (P1 & P2). unfold header_column.
    rewrite (split_at [58] pre 58 (kw ++ 91 :: body ++ [93])); [|exact P1|intros x Hx [Q|[]]; destruct (P2 x Hx); congruence|now left].
    assert (Lk : forall x, In x kw -> 65 <= x <= 122 /\ x <> 91 /\ x <> 93).
    { intros x Hx. apply (capitals_letters kw (str "BITFIELD") x Cap); [|exact Hx]. cbn; repeat constructor; lia. }
    assert (Kn : kw <> []) by (inversion Cap; discriminate).
    assert (exists x rest, split_text [58] (kw ++ 91 :: body ++ [93]) = (kw ++ x) :: rest) as (x & rest & Es).
    { unfold split_text. rewrite split_plain by (intros x Hx [Q|[]]; destruct (Lk x Hx); lia). now apply split_head. }
    rewrite Es.
    assert (Sw : starts_with (str "BITFIELD") (upper (join [58] ((kw ++ x) :: rest))) = true).
    { apply upper_iff in Cap. assert (exists y, join [58] ((kw ++ x) :: rest) = kw ++ y) as (y & ->) by (destruct rest; [exists x; reflexivity|cbn [join]; rewrite <- app_assoc; eauto]).
      rewrite upper_app, Cap. apply starts_with_prefix. }
    cbv beta iota zeta. rewrite Sw.
    assert (Pb : parse_bitfields (pre ++ 58 :: kw ++ 91 :: body ++ [93]) = Throw UserError).
    { unfold parse_bitfields.
      assert (Nb : forall c, In c body -> c <> 93).
      { clear -L Mb. revert bits Mb. induction L as [f P|f y fs l P Hy L IH]; intros bits Mb c I.
        - inversion Mb as [|? b ? ? (num & -> & _ & B & C & D)]; subst. apply in_app_or in I as [I|[I|I]]; [destruct (B c I) as (_ & _ & _ & Q); exact Q|lia|].
          pose proof (numeral_plain _ _ c (proj1 C) D I) as Q. unfold is_digit in Q. lia.
        - inversion Mb as [|? b ? bs (num & -> & _ & B & C & D) Mb']; subst. apply in_app_or in I as [I|[I|I]].
          + apply in_app_or in I as [I|[I|I]]; [destruct (B c I) as (_ & _ & _ & Q); exact Q|lia|]. pose proof (numeral_plain _ _ c (proj1 C) D I) as Q. unfold is_digit in Q. lia.
          + destruct Hy as [<-|[]]. lia.
          + eapply IH; eauto. }
      set (A := pre ++ 58 :: kw).
      replace (pre ++ 58 :: kw ++ 91 :: body ++ [93]) with (A ++ 91 :: body ++ [93]) by (unfold A; rewrite <- app_assoc; reflexivity).
      assert (NA : forall z, In z A -> z <> 91 /\ z <> 93).
      { intros z I. unfold A in I. apply in_app_or in I as [I|[I|I]]; [apply P2 in I; lia|lia|apply Lk in I; lia]. }
      rewrite find_char_app by (intros Q; apply NA in Q; lia).
      replace (A ++ 91 :: body ++ [93]) with ((A ++ 91 :: body) ++ 93 :: []) by (rewrite <- app_assoc; reflexivity).
      rewrite find_char_app.
      2:{ intros Q. apply in_app_or in Q as [Q|[Q|Q]]; [apply NA in Q; lia|lia|apply Nb in Q; lia]. }
      rewrite app_length. cbn [length]. destruct (Nat.ltb_spec (length A) (length A + S (length body))) as [_|Q]; [|lia].
      replace (length A + S (length body) - length A - 1)%nat with (length body) by lia.
      assert (Sk : skipn (length A + 1) ((A ++ 91 :: body) ++ [93]) = body ++ [93]).
      { rewrite <- app_assoc. cbn [app]. replace (A ++ 91 :: body ++ [93]) with ((A ++ [91]) ++ body ++ [93]) by (rewrite <- app_assoc; reflexivity).
        replace (length A + 1)%nat with (length (A ++ [91])) by (rewrite app_length; reflexivity). apply skipn_len. }
      rewrite Sk, firstn_len. rewrite (split_line [59] ms body L).
      destruct (members_any ms bits [] [] 0 Mb (NoDup_nil _)) as (I1 & I2); [lia|lia|]. cbn [app] in I1, I2.
      destruct (nodup_dec (map fst bits)) as [ND|ND].
      - destruct Bad as [Bad|Bad]; [contradiction|]. rewrite (I1 ND). cbn [bind].
        destruct (Z.ltb_spec 31 (0 + fold_right Z.add 0 (map snd bits))) as [_|Q]; [reflexivity|lia].
      - rewrite (I2 ND). reflexivity. }
    rewrite Pb. reflexivity.
Qed.

(** C45: a table whose header has, after columns that are declared properly, one that is not, is
    refused as a whole. *)
Theorem C45_refused : forall md5 N delim to_float to_double to_long unquote junk fuel before cols f e after header lines text,
  ~ In 10 delim -> text_lines (header :: lines) text -> line_of delim (before ++ f :: after) header ->
  Forall2 declares before cols -> refused f e ->
  import_text st delim to_float to_double to_long unquote junk md5 N fuel text = Throw e.
Proof.
  intros md5 N delim tf td tl uq junk fuel before cols f e after header lines text Hd T L D Rf.
  assert (P : parse_header st delim junk text = Throw e).
  { destruct (get_line_cons _ _ _ T (line_no_newline _ _ _ Hd L)) as (rest & G & Tr). unfold parse_header. rewrite G, (split_line _ _ _ L).
    assert (M : map_out (header_column st) (before ++ f :: after) = Throw e).
    { clear -D Rf. induction D as [|g ci fs cis H _ IH]; cbn [app map_out].
      - rewrite (refused_column f e Rf). reflexivity.
      - destruct (header_column_ok st g ci H) as (c & Ec & _). rewrite Ec. cbn [bind]. now rewrite IH. }
    now rewrite M. }
  unfold import_text, open_text. rewrite P. reflexivity.
Qed.
End Refuse.
Print Assumptions C45_refused.
