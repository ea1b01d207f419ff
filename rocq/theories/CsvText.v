(** Splitting and trimming lines of text; the header. *)
From Coq Require Import String.
From Verif Require Import Base Fp Stream StreamProofs StreamLocal Codec Meta Encoder Table TableProofs Writer WriterSpec RowList Spec
  WriterRun Header Reader Iterators Copy CopySpec Dispatcher DispatchSpec DispatchNames Csv CsvSpec.
Open Scope Z_scope.
Local Notation length := List.length.

(** ** Lines *)
Lemma get_line_app l t : ~ In 10 l -> get_line (l ++ 10 :: t) = (l, t).
Proof.
  induction l as [|c l IH]; intros H; [reflexivity|]. cbn [app get_line]. destruct (Z.eqb_spec c 10) as [->|_]; [exfalso; apply H; now left|].
  rewrite IH; [reflexivity|]. intros Q. apply H. now right.
Qed.
Lemma get_line_all l : ~ In 10 l -> get_line l = (l, []).
Proof.
  induction l as [|c l IH]; intros H; [reflexivity|]. cbn [get_line]. destruct (Z.eqb_spec c 10) as [->|_]; [exfalso; apply H; now left|].
  rewrite IH; [reflexivity|]. intros Q. apply H. now right.
Qed.
Lemma get_line_cons l ls t : text_lines (l :: ls) t -> ~ In 10 l -> exists t', get_line t = (l, t') /\ text_lines ls t'.
Proof.
  intros T H. inversion T as [|? ? E1|? ? t' T']; subst.
  - exists []. rewrite get_line_all by exact H. split; [reflexivity|constructor].
  - exists t'. now rewrite get_line_app.
Qed.
Lemma get_line_nil t : text_lines [] t -> get_line t = ([], []).
Proof. intros T. now inversion T. Qed.

Lemma line_no_newline d fs l : ~ In 10 d -> line_of d fs l -> ~ In 10 l.
Proof.
  intros Hd. induction 1 as [f (_ & P)|f c fs l (_ & P) Hc _ IH]; intros Q.
  - destruct (P 10 Q); congruence.
  - apply in_app_or in Q as [Q|[->|Q]]; [destruct (P 10 Q); congruence|contradiction|contradiction].
Qed.

(** ** Splitting *)
Lemma split_plain d a r cur : (forall c, In c a -> ~ In c d) -> split_from d (a ++ r) cur = split_from d r (cur ++ a).
Proof.
  revert cur. induction a as [|x a IH]; intros cur H; [now rewrite app_nil_r|]. cbn [app split_from].
  destruct (existsb (Z.eqb x) d) eqn:E.
  - exfalso. apply existsb_exists in E as (y & Hy & E). apply Z.eqb_eq in E. subst y. now apply (H x); [left|].
  - rewrite IH by (intros c Hc; apply H; now right). now rewrite <- app_assoc.
Qed.
Lemma split_head d r : forall cur, cur <> [] -> exists x rest, split_from d r cur = (cur ++ x) :: rest.
Proof.
  induction r as [|c r IH]; intros cur H; cbn [split_from].
  - exists [], []. rewrite app_nil_r. destruct cur; [congruence|reflexivity].
  - destruct (existsb (Z.eqb c) d).
    + exists []. eexists. rewrite app_nil_r. destruct cur; [congruence|reflexivity].
    + destruct (IH (cur ++ [c])) as (x & rest & E); [destruct cur; discriminate|]. exists (c :: x), rest. rewrite E, <- app_assoc. reflexivity.
Qed.
Lemma split_at d f c r : f <> [] -> (forall x, In x f -> ~ In x d) -> In c d -> split_text d (f ++ c :: r) = f :: split_text d r.
Proof.
  intros Hf H Hc. unfold split_text. rewrite split_plain by exact H. cbn [app split_from].
  replace (existsb (Z.eqb c) d) with true by (symmetry; apply existsb_exists; exists c; split; [exact Hc|apply Z.eqb_refl]).
  destruct f; [congruence|reflexivity].
Qed.
Lemma split_one d f : f <> [] -> (forall x, In x f -> ~ In x d) -> split_text d f = [f].
Proof. intros Hf H. unfold split_text. rewrite <- (app_nil_r f) at 1. rewrite split_plain by exact H. cbn. destruct f; [congruence|reflexivity]. Qed.
Lemma split_line d fs l : line_of d fs l -> split_text d l = fs.
Proof.
  induction 1 as [f (A & P)|f c fs l (A & P) Hc _ IH].
  - apply split_one; [exact A|]. intros x Hx. now apply P.
  - rewrite split_at; [now rewrite IH|exact A|intros x Hx; now apply P|exact Hc].
Qed.

(** ** Trimming *)
Lemma is_space_blank c : is_space c = true <-> blank_char c.
Proof. unfold is_space, blank_char. lia. Qed.
Lemma not_space_blank c : is_space c = false <-> ~ blank_char c.
Proof. unfold is_space, blank_char. lia. Qed.

Lemma holds_rev f v : holds f v -> holds (rev f) (rev v).
Proof.
  intros (b1 & b2 & -> & A & B & C & D & E). exists (rev b2), (rev b1). rewrite !rev_app_distr, app_assoc.
  split; [reflexivity|]. split; [now apply Forall_rev|]. split; [now apply Forall_rev|]. split; [intros Q; apply C; rewrite <- (rev_involutive v), Q; reflexivity|].
  rewrite hd_rev. split; [exact E|]. rewrite <- hd_rev, rev_involutive. exact D.
Qed.
Lemma plain_rev d f : plain d f -> plain d (rev f).
Proof. intros (A & B). split; [intros Q; apply A; rewrite <- (rev_involutive f), Q; reflexivity|]. intros c Hc. apply B. now apply in_rev. Qed.
Lemma line_snoc d fs l f c : line_of d fs l -> In c d -> plain d f -> line_of d (fs ++ [f]) (l ++ c :: f).
Proof.
  induction 1 as [g P|g x fs l P Hx _ IH]; intros Hc Pf; cbn [app].
  - apply lo_more; auto. now constructor.
  - rewrite <- app_assoc. cbn [app]. apply lo_more; auto.
Qed.
Lemma line_rev d fs l : line_of d fs l -> line_of d (map (@rev Z) (rev fs)) (rev l).
Proof.
  induction 1 as [f P|f c fs l P Hc _ IH].
  - constructor. now apply plain_rev.
  - cbn [rev]. rewrite map_app. cbn [map]. rewrite rev_app_distr. cbn [rev]. rewrite <- app_assoc. cbn [app]. apply line_snoc; auto. now apply plain_rev.
Qed.
Lemma drop_holds f v r : holds f v -> exists f', drop_while is_space (f ++ r) = f' ++ r /\ holds f' v /\ incl f' f /\ f' <> [].
Proof.
  intros (b1 & b2 & -> & A & B & C & D & E). exists (v ++ b2). rewrite <- app_assoc. rewrite drop_while_app.
  - split; [reflexivity|]. split; [exists [], b2; repeat split; auto|]. split; [intros x Hx; apply in_or_app; now right|destruct v; [congruence|discriminate]].
  - eapply Forall_impl; [|exact A]. intros c. apply is_space_blank.
  - intros _. destruct v as [|x v]; [congruence|]. cbn [app hd] in *. now apply not_space_blank.
Qed.
Lemma drop_line d fs l vs : line_of d fs l -> Forall2 holds fs vs ->
  exists fs', line_of d fs' (drop_while is_space l) /\ Forall2 holds fs' vs.
Proof.
  intros L H. assert (Pl : forall f f', plain d f -> incl f' f -> f' <> [] -> plain d f') by (intros f f' (_ & P) I Hne; split; auto).
  destruct L as [f P|f c fs l P Hc L]; inversion H as [|? v ? vs' H1 H2]; subst.
  - destruct (drop_holds f v [] H1) as (f' & E & Hf & I & Hne). rewrite !app_nil_r in E. exists [f']. rewrite E. inversion H2; subst. split; [|auto]. constructor. eapply Pl; eauto.
  - destruct (drop_holds f v (c :: l) H1) as (f' & E & Hf & I & Hne). exists (f' :: fs). rewrite E. split; [|auto]. constructor; auto. eapply Pl; eauto.
Qed.
Lemma trim_line d fs l vs : line_of d fs l -> Forall2 holds fs vs ->
  exists fs', line_of d fs' (trim_text l) /\ Forall2 holds fs' vs.
Proof.
  intros L H. destruct (drop_line d fs l vs L H) as (f1 & L1 & H1). apply line_rev in L1.
  assert (R : forall fs vs, Forall2 holds fs vs -> Forall2 holds (map (@rev Z) (rev fs)) (map (@rev Z) (rev vs))).
  { clear. induction 1 as [|f v fs vs A _ IH]; [constructor|]. cbn [rev]. rewrite !map_app. apply Forall2_app; [exact IH|]. constructor; [now apply holds_rev|constructor]. }
  apply R in H1. destruct (drop_line d _ _ _ L1 H1) as (f2 & L2 & H2). apply line_rev in L2. apply R in H2.
  exists (map (@rev Z) (rev f2)). split; [exact L2|].
  assert (E : map (@rev Z) (rev (map (@rev Z) (rev vs))) = vs).
  { rewrite <- map_rev, rev_involutive, map_map. rewrite <- (map_id vs) at 2. apply map_ext. apply rev_involutive. }
  now rewrite E in H2.
Qed.
Lemma trim_holds f v : holds f v -> trim_text f = v.
Proof.
  intros (b1 & b2 & -> & A & B & C & D & E). unfold trim_text. rewrite drop_while_app.
  - rewrite rev_app_distr, drop_while_app; [apply rev_involutive| |].
    + apply Forall_rev in B. eapply Forall_impl; [|exact B]. intros c. apply is_space_blank.
    + intros _. rewrite hd_rev. now apply not_space_blank.
  - eapply Forall_impl; [|exact A]. intros c. apply is_space_blank.
  - intros _. destruct v as [|x v]; [congruence|]. cbn [app hd] in *. now apply not_space_blank.
Qed.

(** ** Capitals *)
Lemma upper_iff t s : in_capitals t s <-> upper t = s.
Proof.
  unfold in_capitals. split.
  - induction 1 as [|c d t s H _ IH]; [reflexivity|]. unfold upper in *. cbn [map]. f_equal; [|exact IH].
    destruct ((97 <=? c) && (c <=? 122)) eqn:Q; lia.
  - intros <-. induction t as [|c t IH]; cbn [upper map]; constructor; [|exact IH]. destruct ((97 <=? c) && (c <=? 122)) eqn:Q; lia.
Qed.
Lemma upper_app a b : upper (a ++ b) = upper a ++ upper b.
Proof. apply map_app. Qed.
Lemma upper_twice t : upper (upper t) = upper t.
Proof. unfold upper. rewrite map_map. apply map_ext. intros c. destruct ((97 <=? c) && (c <=? 122)) eqn:Q; [|now rewrite Q]. destruct ((97 <=? c - 32) && (c - 32 <=? 122)) eqn:R; lia. Qed.
Lemma null_iff v : null v <-> bytes_eqb (upper v) (str "NULL") = true.
Proof. unfold null. rewrite upper_iff, bytes_eqb_eq. reflexivity. Qed.
(** letters and nothing else, as the capitals have none *)
Lemma capitals_letters t s c : in_capitals t s -> Forall (fun d => 65 <= d <= 90) s -> In c t -> 65 <= c <= 122 /\ c <> 91 /\ c <> 93.
Proof.
  induction 1 as [|x d t s H _ IH]; intros F I; [destruct I|]. inversion F; subst. destruct I as [->|I]; [lia|auto].
Qed.

(** ** The header *)
Lemma atoi_numeral n t : 0 <= n < 32 -> numeral n t -> atoi t = Ok n.
Proof.
  intros H (ds & A & B & C & [(_ & -> & V)|(Q & _)]); [|lia]. unfold atoi.
  destruct ds as [|d ds]; [congruence|]. inversion A as [|? ? D1 D2]; subst. unfold is_digit in D1.
  assert (S1 : drop_while is_space (d :: ds) = d :: ds). { cbn [drop_while]. replace (is_space d) with false; [reflexivity|]. symmetry. unfold is_space. lia. }
  rewrite S1. destruct (Z.eqb_spec d 45) as [Q|_]; [lia|]. destruct (Z.eqb_spec d 43) as [Q|_]; [lia|].
  assert (T : take_while digitb (d :: ds) = d :: ds).
  { rewrite <- (app_nil_r (d :: ds)) at 1. apply take_while_app; [|intros Q; congruence]. eapply Forall_impl; [|exact A]. intros z. unfold is_digit, digitb. lia. }
  rewrite T. fold (digits_value (d :: ds)). destruct ((- 2 ^ 31 <=? digits_value (d :: ds)) && (digits_value (d :: ds) <? 2 ^ 31)) eqn:Q; [reflexivity|lia].
Qed.

Lemma numeral_plain n t c : 0 <= n -> numeral n t -> In c t -> is_digit c.
Proof. intros H (ds & A & _ & _ & [(_ & -> & _)|(Q & _)]) I; [|lia]. rewrite Forall_forall in A. auto. Qed.
Lemma numeral_some n t : numeral n t -> t <> [].
Proof. intros (ds & _ & B & _ & [(_ & -> & _)|(_ & -> & _)]); [exact B|discriminate]. Qed.

Lemma members_ok : forall ms bits names sizes total, Forall2 member ms bits ->
  NoDup (names ++ map fst bits) -> 0 <= total -> total + fold_right Z.add 0 (map snd bits) <= 31 ->
  parse_members ms names sizes total = Ok (names ++ map fst bits, sizes ++ map snd bits, total + fold_right Z.add 0 (map snd bits)).
Proof.
  induction ms as [|m ms IH]; intros bits names sizes total F ND H0 HT; inversion F as [|? [nm n] ? bits' M F']; subst.
  - cbn [parse_members map fold_right]. rewrite !app_nil_r, Z.add_0_r. reflexivity.
  - destruct M as (num & -> & A & B & C & D). cbn [fst snd map fold_right] in *. cbn [parse_members].
    rewrite (split_at [58] nm 58 num); [|exact A|intros x Hx [Q|[]]; destruct (B x Hx) as (Q1 & _); congruence|now left].
    rewrite (split_one [58] num); [|eapply numeral_some; eauto|intros x Hx [Q|[]]; pose proof (numeral_plain n num x ltac:(lia) D Hx) as Q1; unfold is_digit in Q1; lia].
    assert (Hn : ~ In nm names) by (intros Q; apply NoDup_remove_2 in ND; apply ND; apply in_or_app; now left).
    destruct (existsb (bytes_eqb nm) names) eqn:Ex; [exfalso; apply existsb_exists in Ex as (y & Hy & Ey); apply bytes_eqb_eq in Ey; subst y; contradiction|].
    rewrite (atoi_numeral n num C D). cbn [bind].
    assert (S0 : 0 <= fold_right Z.add 0 (map snd bits')).
    { clear -F'. induction F' as [|m b ms bs (num & _ & _ & _ & C & _) _ IH]; cbn [map fold_right]; lia. }
    rewrite Z.mod_small by lia. rewrite (IH bits'); auto.
    + rewrite <- !app_assoc. cbn [app]. do 2 f_equal. lia.
    + rewrite <- app_assoc. exact ND.
    + lia.
    + lia.
Qed.

Section Header.
Variable st : settings.

(** The column a declaration gives. *)
Definition column_made (ci : colinfo) (c : column) : Prop :=
  working_codec st LE (ci_type ci) = Ok (col_coder c) /\ col_name c = ci_name ci /\ col_type c = ci_type ci /\
  col_bfnames c = map fst (ci_bits ci) /\ col_bfsizes c = map snd (ci_bits ci).

Lemma working_known ty : int_type ty \/ real_type ty \/ ty = ty_STRING -> exists k, working_codec st LE ty = Ok k.
Proof.
  unfold int_type, real_type, working_codec. intros [[-> | ->]|[[-> | ->]| ->]]; cbn; try (eexists; reflexivity).
  destruct (iad st); vm_compute; eexists; reflexivity.
Qed.

Lemma made ci : int_type (ci_type ci) \/ real_type (ci_type ci) \/ ci_type ci = ty_STRING ->
  exists c, text_column st (ci_name ci) (ci_type ci) (map fst (ci_bits ci), map snd (ci_bits ci)) = Ok c /\ column_made ci c.
Proof.
  intros H. destruct (working_known _ H) as (k & E). unfold text_column. rewrite E. cbn [bind]. eexists. split; [reflexivity|].
  unfold column_made. cbn. rewrite E. auto.
Qed.

Lemma declared_type f ci : declares f ci -> int_type (ci_type ci) \/ real_type (ci_type ci) \/ ci_type ci = ty_STRING.
Proof. unfold int_type, real_type. intros [? ? ? _ _ _ [(-> & _)|[(-> & _)|[(-> & _)|(-> & _)]]] _ _ _|? ? ? ? _ _ _ -> _ _ _ _ _ _]; auto. Qed.

Lemma pre_facts f v : holds f v -> no_marks v -> f <> [] /\ forall c, In c f -> c <> 58 /\ c <> 91 /\ c <> 93.
Proof.
  intros (b1 & b2 & -> & A & B & C & D & E) M. split; [destruct b1, v; congruence || discriminate|].
  rewrite Forall_forall in A, B. intros c I. apply in_app_or in I as [I|I]; [apply A in I; unfold blank_char in I; lia|].
  apply in_app_or in I as [I|I]; [destruct (M c I) as (? & ? & ? & ?); auto|apply B in I; unfold blank_char in I; lia].
Qed.

Lemma starts_with_prefix p : forall r, starts_with p (p ++ r) = true.
Proof. induction p as [|x p IH]; intros r; [reflexivity|]. cbn [app starts_with]. now rewrite Z.eqb_refl, IH. Qed.

Lemma header_column_ok f ci : declares f ci -> exists c, header_column st f = Ok c /\ column_made ci c.
Proof.
  intros De. pose proof (declared_type f ci De) as Ty. destruct (made ci Ty) as (c & Ec & Mc). exists c. split; [|exact Mc].
  destruct De as [pre t s -> Hp Hm Tn Cap Sz Bi|pre kw body ms -> Hp Hm Tb Cap L Mb ND Tot Sz].
  - destruct (pre_facts _ _ Hp Hm) as (P1 & P2). unfold header_column.
    rewrite (split_at [58] pre 58 t); [|exact P1|intros x Hx [Q|[]]; destruct (P2 x Hx); congruence|now left].
    assert (Lt : forall x, In x t -> 65 <= x <= 122 /\ x <> 91 /\ x <> 93).
    { intros x Hx. apply (capitals_letters t (str s) x Cap); [|exact Hx]. destruct Tn as [(_ & ->)|[(_ & ->)|[(_ & ->)|(_ & ->)]]]; cbn; repeat constructor; lia. }
    rewrite (split_one [58] t); [|destruct Tn as [(_ & ->)|[(_ & ->)|[(_ & ->)|(_ & ->)]]]; inversion Cap; discriminate|intros x Hx [Q|[]]; destruct (Lt x Hx); lia].
    cbn [join]. rewrite (trim_holds _ _ Hp). apply upper_iff in Cap. unfold type_of_name. rewrite upper_twice, Cap. rewrite Bi in Ec. cbn [map] in Ec.
    destruct Tn as [(E & ->)|[(E & ->)|[(E & ->)|(E & ->)]]]; rewrite E in Ec; exact Ec.
  - destruct (pre_facts _ _ Hp Hm) as (P1 & P2). unfold header_column.
    rewrite (split_at [58] pre 58 (kw ++ 91 :: body ++ [93])); [|exact P1|intros x Hx [Q|[]]; destruct (P2 x Hx); congruence|now left].
    assert (Lk : forall x, In x kw -> 65 <= x <= 122 /\ x <> 91 /\ x <> 93).
    { intros x Hx. apply (capitals_letters kw (str "BITFIELD") x Cap); [|exact Hx]. cbn; repeat constructor; lia. }
    assert (Kn : kw <> []) by (inversion Cap; discriminate).
    assert (exists x rest, split_text [58] (kw ++ 91 :: body ++ [93]) = (kw ++ x) :: rest) as (x & rest & Es).
    { unfold split_text. rewrite split_plain by (intros x Hx [Q|[]]; destruct (Lk x Hx); lia). now apply split_head. }
    rewrite Es.
    assert (Sw : starts_with (str "BITFIELD") (upper (join [58] ((kw ++ x) :: rest))) = true).
    { apply upper_iff in Cap. assert (exists y, join [58] ((kw ++ x) :: rest) = kw ++ y) as (y & ->) by (destruct rest; [exists x; reflexivity|cbn [join]; rewrite <- app_assoc; eauto]).
      rewrite upper_app, Cap. apply starts_with_prefix. }
    cbv beta iota zeta. rewrite Sw. rewrite (trim_holds _ _ Hp). rewrite Tb in Ec.
    assert (Pb : parse_bitfields (pre ++ 58 :: kw ++ 91 :: body ++ [93]) = Ok (map fst (ci_bits ci), map snd (ci_bits ci))).
    { unfold parse_bitfields.
      assert (Nb : forall c, In c body -> c <> 93).
      { clear -L Mb. revert Mb. generalize (ci_bits ci). induction L as [f P|f y fs l P Hy L IH]; intros bits Mb c I.
        - inversion Mb as [|? b ? ? (num & -> & _ & B & C & D)]; subst. apply in_app_or in I as [I|[I|I]]; [destruct (B c I) as (_ & _ & _ & Q); exact Q|lia|].
          pose proof (numeral_plain _ _ c (proj1 C) D I) as Q. unfold is_digit in Q. lia.
        - inversion Mb as [|? b ? bs (num & -> & _ & B & C & D) Mb']; subst. apply in_app_or in I as [I|[I|I]].
          + apply in_app_or in I as [I|[I|I]]; [destruct (B c I) as (_ & _ & _ & Q); exact Q|lia|]. pose proof (numeral_plain _ _ c (proj1 C) D I) as Q. unfold is_digit in Q. lia.
          + destruct Hy as [<-|[]]. lia.
          + eapply IH; eauto. }
      set (A := pre ++ 58 :: kw).
      replace (pre ++ 58 :: kw ++ 91 :: body ++ [93]) with (A ++ 91 :: body ++ [93]) by (unfold A; rewrite <- app_assoc; reflexivity).
      assert (NA : forall z, In z A -> z <> 91 /\ z <> 93).
      { intros z I. unfold A in I. apply in_app_or in I as [I|[I|I]]; [apply P2 in I; lia|lia|apply Lk in I; lia]. }
      rewrite find_char_app by (intros Q; apply NA in Q; lia).
      replace (A ++ 91 :: body ++ [93]) with ((A ++ 91 :: body) ++ 93 :: []) by (rewrite <- app_assoc; reflexivity).
      rewrite find_char_app.
      2:{ intros Q. apply in_app_or in Q as [Q|[Q|Q]]; [apply NA in Q; lia|lia|apply Nb in Q; lia]. }
      rewrite app_length. cbn [length]. destruct (Nat.ltb_spec (length A) (length A + S (length body))) as [_|Q]; [|lia].
      replace (length A + S (length body) - length A - 1)%nat with (length body) by lia.
      assert (Sk : skipn (length A + 1) ((A ++ 91 :: body) ++ [93]) = body ++ [93]).
      { rewrite <- app_assoc. cbn [app]. replace (A ++ 91 :: body ++ [93]) with ((A ++ [91]) ++ body ++ [93]) by (rewrite <- app_assoc; reflexivity).
        replace (length A + 1)%nat with (length (A ++ [91])) by (rewrite app_length; reflexivity). apply skipn_len. }
      rewrite Sk, firstn_len. rewrite (split_line [59] ms body L). rewrite (members_ok ms (ci_bits ci) [] [] 0); auto; try lia.
      cbn [bind app]. destruct (Z.ltb_spec 31 (0 + fold_right Z.add 0 (map snd (ci_bits ci)))) as [Q|_]; [lia|reflexivity]. }
    rewrite Pb. cbn [bind]. exact Ec.
Qed.

Lemma parse_header_ok delim junk cols hs header lines text : ~ In 10 delim -> text_lines (header :: lines) text -> line_of delim hs header -> Forall2 declares hs cols ->
  exists it, parse_header st delim junk text = Ok it /\ Forall2 column_made cols (t_cols it) /\ t_last it = initial_cells junk 0 0 (t_cols it) /\
    t_end it = false /\ text_lines lines (t_in it).
Proof.
  intros Hd T L D. destruct (get_line_cons _ _ _ T (line_no_newline _ _ _ Hd L)) as (rest & G & Tr). unfold parse_header. rewrite G, (split_line _ _ _ L).
  assert (M : exists cs, map_out (header_column st) hs = Ok cs /\ Forall2 column_made cols cs).
  { clear -D. induction D as [|f ci fs cis H _ (cs & E & F)]; [exists []; split; constructor|]. destruct (header_column_ok f ci H) as (c & Ec & Mc).
    exists (c :: cs). cbn [map_out]. rewrite Ec. cbn [bind]. rewrite E. cbn [bind]. split; [reflexivity|now constructor]. }
  destruct M as (cs & E & F). rewrite E. cbn [bind]. eexists. split; [reflexivity|]. cbn [t_cols t_last t_end t_in]. auto.
Qed.
End Header.
