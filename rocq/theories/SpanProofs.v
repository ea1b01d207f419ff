(** Spans as sets of values. *)
From Verif Require Import Base Fp FpProofs Stream StreamProofs Codec Meta Header Table TableProofs DecodeProofs LookupProofs Roundtrip P_Strings RowSpec Spec Reader ReaderProofs Span.
Open Scope Z_scope.

(** ** Values *)

(** a value of a column *)
Inductive value := Int (n : Z) | Real (x : Z) | Text (s : list Z).

Definition nan_free (l : list Z) : Prop := Forall (fun x => is_nan f64 x = false) l.

(** membership; numbers that compare equal are the same value *)
Definition is_in (x : value) (v : values) : Prop :=
  match x, v with
  | Int n, VInts l => In n l
  | Real y, VReals l => exists z, In z l /\ deq y z = true
  | Text t, VStrs l => In t l
  | _, _ => False
  end.

(** the values of column [nm] in a span *)
Definition has (s : span) (nm : list Z) (x : value) : Prop :=
  match x with
  | Int n => is_in x (VInts (get_or_empty (sp_ints s) nm))
  | Real y => is_in x (VReals (get_or_empty (sp_reals s) nm))
  | Text t => is_in x (VStrs (get_or_empty (sp_strs s) nm))
  end.

Inductive sort := SInt | SReal | SText.
Definition sort_of (v : values) : sort := match v with VInts _ => SInt | VReals _ => SReal | VStrs _ => SText end.
(** no other map has the name *)
Definition free_for (s : span) (nm : list Z) (k : sort) : Prop :=
  (k <> SInt -> mget (sp_ints s) nm = None) /\ (k <> SReal -> mget (sp_reals s) nm = None) /\ (k <> SText -> mget (sp_strs s) nm = None).

Record wf (s : span) : Prop := {
  wf_ints : msorted (sp_ints s); wf_reals : msorted (sp_reals s); wf_strs : msorted (sp_strs s);
  wf_nan : forall nm l, mget (sp_reals s) nm = Some l -> nan_free l
}.

Definition clean (v : values) : Prop := match v with VReals l => nan_free l | _ => True end.

Lemma same_real_deq x y : is_nan f64 x = false -> is_nan f64 y = false -> same_real x y = deq x y.
Proof.
  intros A B. unfold same_real, dlt, deq, flt, feq. rewrite A, B. cbn [negb andb].
  destruct (Z.ltb_spec (key f64 x) (key f64 y)), (Z.ltb_spec (key f64 y) (key f64 x)), (Z.eqb_spec (key f64 x) (key f64 y)); cbn; auto; lia.
Qed.

Lemma deq_trans x y z : deq x y = true -> deq y z = true -> deq x z = true.
Proof.
  unfold deq, feq. destruct (is_nan f64 x), (is_nan f64 y), (is_nan f64 z); cbn; try discriminate. rewrite !Z.eqb_eq. congruence.
Qed.
Lemma deq_sym x y : deq x y = true -> deq y x = true.
Proof. unfold deq, feq. destruct (is_nan f64 x), (is_nan f64 y); cbn; try discriminate. rewrite !Z.eqb_eq. congruence. Qed.
Lemma deq_refl x : is_nan f64 x = false -> deq x x = true.
Proof. unfold deq, feq. intros ->. cbn. apply Z.eqb_refl. Qed.
Lemma deq_nan x y : deq x y = true -> is_nan f64 x = false /\ is_nan f64 y = false.
Proof. unfold deq, feq. destruct (is_nan f64 x), (is_nan f64 y); cbn; auto; discriminate. Qed.

Lemma insert_in {A} (same : A -> A -> bool) v l : (forall a b, same a b = true <-> a = b) -> forall x, In x (insert same v l) <-> x = v \/ In x l.
Proof.
  intros H x. unfold insert. destruct (existsb (same v) l) eqn:E.
  - apply existsb_exists in E as (y & Hy & Sy). apply H in Sy. subst y. split; [auto|]. intros [->|]; auto.
  - rewrite in_app_iff. cbn. intuition.
Qed.

Lemma insert_real v l : is_nan f64 v = false -> nan_free l -> nan_free (insert same_real v l) /\
  forall x, (exists z, In z (insert same_real v l) /\ deq x z = true) <-> deq x v = true \/ exists z, In z l /\ deq x z = true.
Proof.
  intros Nv Nl. unfold insert. destruct (existsb (same_real v) l) eqn:E.
  - split; [exact Nl|]. apply existsb_exists in E as (y & Hy & Sy). pose proof Nl as Nl'. unfold nan_free in Nl'. rewrite Forall_forall in Nl'. specialize (Nl' y Hy). cbn beta in Nl'.
    rewrite same_real_deq in Sy by assumption. intros x. split; [auto|]. intros [Q|Q]; [|exact Q]. exists y. split; [exact Hy|]. eapply deq_trans; eassumption.
  - split; [apply Forall_app; split; [exact Nl|repeat constructor; exact Nv]|]. intros x. setoid_rewrite in_app_iff. cbn [In]. split.
    + intros (z & [Hz|[<-|[]]] & Q); eauto.
    + intros [Q|(z & Hz & Q)]; [exists v; auto|exists z; auto].
Qed.

Lemma insert_all_in {A} (same : A -> A -> bool) vs : (forall a b, same a b = true <-> a = b) -> forall l x, In x (insert_all same vs l) <-> In x vs \/ In x l.
Proof.
  intros H. unfold insert_all. induction vs as [|v vs IH]; intros l x; cbn [fold_left In]; [tauto|]. rewrite IH, (insert_in same v l H). intuition auto.
Qed.

Lemma insert_all_real vs : nan_free vs -> forall l, nan_free l -> nan_free (insert_all same_real vs l) /\
  forall x, (exists z, In z (insert_all same_real vs l) /\ deq x z = true) <-> (exists z, In z vs /\ deq x z = true) \/ (exists z, In z l /\ deq x z = true).
Proof.
  unfold insert_all. induction 1 as [|v vs Nv Nvs IH]; intros l Nl; cbn [fold_left].
  - split; [exact Nl|]. intros x. split; [auto|]. intros [(z & [] & _)|]; auto.
  - destruct (insert_real v l Nv Nl) as [N1 I1]. destruct (IH _ N1) as [N2 I2]. split; [exact N2|]. intros x. rewrite I2, I1. cbn [In]. split.
    + intros [(z & Hz & Q)|[Q|Q]]; [left; exists z; auto|left; exists v; auto|right; exact Q].
    + intros [(z & [->|Hz] & Q)|Q]; [right; left; exact Q|left; exists z; auto|right; right; exact Q].
Qed.

Lemma bytes_eqb_iff a b : bytes_eqb a b = true <-> a = b.
Proof. split; [apply bytes_eqb_true|intros ->; apply bytes_eqb_refl]. Qed.

Lemma get_mset {A} (m : smap (list A)) k v nm : msorted m -> get_or_empty (mset m k v) nm = if bytes_eqb nm k then v else get_or_empty m nm.
Proof. intros H. unfold get_or_empty. rewrite mget_mset by exact H. now destruct (bytes_eqb nm k). Qed.

(** ** Adding values *)

Lemma add_values_ok s nm v : wf s -> clean v -> free_for s nm (sort_of v) ->
  exists s', add_values s nm v = Ok s' /\ wf s' /\ sp_start s' = sp_start s /\ sp_length s' = sp_length s /\
    (forall nm' x, has s' nm' x <-> has s nm' x \/ (nm' = nm /\ is_in x v)) /\
    (forall nm' k, free_for s' nm' k <-> free_for s nm' k /\ (nm' = nm -> k = sort_of v)).
Proof.
  intros W C F. pose proof W as [W1 W2 W3 W4]. destruct F as (F1 & F2 & F3). destruct v as [l|l|l]; cbn [sort_of clean] in *; unfold add_values, absent.
  - rewrite F2, F3 by discriminate. cbn [assert bind]. eexists. split; [reflexivity|]. split; [split; cbn; auto; now apply mset_sorted|]. split; [reflexivity|]. split; [reflexivity|]. split.
    + intros nm' [n|y|t]; cbn [has is_in sp_ints sp_reals sp_strs]; try tauto. rewrite get_mset by exact W1. destruct (bytes_eqb nm' nm) eqn:E.
      * apply bytes_eqb_true in E as ->. rewrite insert_all_in by apply Z.eqb_eq. tauto.
      * split; [tauto|]. intros [H|[-> _]]; [exact H|]. rewrite bytes_eqb_refl in E. discriminate.
    + intros nm' k. unfold free_for. cbn [sp_ints sp_reals sp_strs]. rewrite mget_mset by exact W1. destruct (bytes_eqb nm' nm) eqn:E.
      * apply bytes_eqb_true in E as ->. split; [|intros [(A & B & D) Q]; specialize (Q eq_refl); subst k; repeat split; auto; congruence].
        intros (A & B & D). assert (k = SInt) as -> by (destruct k; auto; specialize (A ltac:(discriminate)); discriminate). repeat split; auto; congruence.
      * split; [intros H; split; [exact H|]|tauto]. intros ->. rewrite bytes_eqb_refl in E. discriminate.
  - rewrite F1, F3 by discriminate. cbn [assert bind]. eexists. split; [reflexivity|].
    assert (G : nan_free (get_or_empty (sp_reals s) nm)).
    { unfold get_or_empty. destruct (mget (sp_reals s) nm) as [q|] eqn:E; [eapply W4; exact E|constructor]. }
    destruct (insert_all_real l C _ G) as [N I].
    split; [split; cbn [sp_ints sp_reals sp_strs]; auto; [now apply mset_sorted|]|].
    { intros nm' q. rewrite mget_mset by exact W2. destruct (bytes_eqb nm' nm); [intros [= <-]; exact N|apply W4]. }
    split; [reflexivity|]. split; [reflexivity|]. split.
    + intros nm' [n|y|t]; cbn [has is_in sp_ints sp_reals sp_strs]; try tauto. rewrite get_mset by exact W2. destruct (bytes_eqb nm' nm) eqn:E.
      * apply bytes_eqb_true in E as ->. rewrite I. tauto.
      * split; [tauto|]. intros [H|[-> _]]; [exact H|]. rewrite bytes_eqb_refl in E. discriminate.
    + intros nm' k. unfold free_for. cbn [sp_ints sp_reals sp_strs]. rewrite mget_mset by exact W2. destruct (bytes_eqb nm' nm) eqn:E.
      * apply bytes_eqb_true in E as ->. split; [|intros [(A & B & D) Q]; specialize (Q eq_refl); subst k; repeat split; auto; congruence].
        intros (A & B & D). assert (k = SReal) as -> by (destruct k; auto; specialize (B ltac:(discriminate)); discriminate). repeat split; auto; congruence.
      * split; [intros H; split; [exact H|]|tauto]. intros ->. rewrite bytes_eqb_refl in E. discriminate.
  - rewrite F1, F2 by discriminate. cbn [assert bind]. eexists. split; [reflexivity|]. split; [split; cbn; auto; now apply mset_sorted|]. split; [reflexivity|]. split; [reflexivity|]. split.
    + intros nm' [n|y|t]; cbn [has is_in sp_ints sp_reals sp_strs]; try tauto. rewrite get_mset by exact W3. destruct (bytes_eqb nm' nm) eqn:E.
      * apply bytes_eqb_true in E as ->. rewrite insert_all_in by apply bytes_eqb_iff. tauto.
      * split; [tauto|]. intros [H|[-> _]]; [exact H|]. rewrite bytes_eqb_refl in E. discriminate.
    + intros nm' k. unfold free_for. cbn [sp_ints sp_reals sp_strs]. rewrite mget_mset by exact W3. destruct (bytes_eqb nm' nm) eqn:E.
      * apply bytes_eqb_true in E as ->. split; [|intros [(A & B & D) Q]; specialize (Q eq_refl); subst k; repeat split; auto; congruence].
        intros (A & B & D). assert (k = SText) as -> by (destruct k; auto; specialize (D ltac:(discriminate)); discriminate). repeat split; auto; congruence.
      * split; [intros H; split; [exact H|]|tauto]. intros ->. rewrite bytes_eqb_refl in E. discriminate.
Qed.

(** ** Extending *)

Section M.
Context {A : Type} (wrap : list A -> values) (k : sort).
Hypothesis Wk : forall l, sort_of (wrap l) = k.

Lemma add_map_ok : forall m s, wf s -> msorted m -> (forall nm l, mget m nm = Some l -> clean (wrap l)) ->
  (forall nm l, mget m nm = Some l -> free_for s nm k) ->
  exists s', add_map wrap s m = Ok s' /\ wf s' /\ sp_start s' = sp_start s /\ sp_length s' = sp_length s /\
    (forall nm x, has s' nm x <-> has s nm x \/ (exists l, mget m nm = Some l /\ is_in x (wrap l))) /\
    (forall nm k', free_for s' nm k' <-> free_for s nm k' /\ (mget m nm <> None -> k' = k)).
Proof.
  induction m as [|[k0 l0] m IH]; intros s W S C F.
  - exists s. cbn [add_map mget]. split; [reflexivity|]. split; [exact W|]. split; [reflexivity|]. split; [reflexivity|]. split.
    + intros nm x. split; [auto|]. intros [H|(l & H & _)]; [exact H|discriminate].
    + intros nm k'. split; [intros H; split; [exact H|congruence]|tauto].
  - cbn [add_map]. pose proof (msorted_all _ _ _ S) as SA. assert (S' : msorted m) by (cbn in S; tauto).
    assert (K0 : mget m k0 = None) by (now apply mget_none_lt).
    assert (C0 : clean (wrap l0)) by (apply (C k0); cbn; now rewrite bytes_eqb_refl).
    assert (F0 : free_for s k0 k) by (apply (F k0 l0); cbn; now rewrite bytes_eqb_refl).
    destruct (add_values_ok s k0 (wrap l0) W C0 ltac:(rewrite Wk; exact F0)) as (s1 & E1 & W1 & A1 & B1 & H1 & G1). rewrite E1. cbn [bind].
    assert (N : forall nm l, mget m nm = Some l -> bytes_eqb nm k0 = false).
    { intros nm l Hl. destruct (bytes_eqb nm k0) eqn:Q; [|reflexivity]. apply bytes_eqb_true in Q as ->. congruence. }
    destruct (IH s1 W1 S') as (s2 & E2 & W2 & A2 & B2 & H2 & G2).
    + intros nm l Hl. apply (C nm). cbn. rewrite (N nm l Hl). exact Hl.
    + intros nm l Hl. apply G1. split; [apply (F nm l); cbn; rewrite (N nm l Hl); exact Hl|]. intros ->. congruence.
    + exists s2. split; [exact E2|]. split; [exact W2|]. split; [congruence|]. split; [congruence|]. split.
      * intros nm x. rewrite H2, H1. cbn [mget]. destruct (bytes_eqb nm k0) eqn:Q.
        -- apply bytes_eqb_true in Q as ->. rewrite K0. split; [intros [[H|[_ H]]|(l & H & _)]; [auto|right; exists l0; auto|discriminate]|].
           intros [H|(l & [= <-] & H)]; auto.
        -- split; [intros [[H|[-> _]]|H]; auto; rewrite bytes_eqb_refl in Q; discriminate|]. intros [H|H]; auto.
      * intros nm k'. rewrite G2, G1, Wk. cbn [mget]. destruct (bytes_eqb nm k0) eqn:Q.
        -- apply bytes_eqb_true in Q as ->. rewrite K0. split; [intros [[H Q] _]; split; [exact H|auto]|]. intros [H Q]. split; [split; [exact H|intros _; apply Q; discriminate]|congruence].
        -- split; [tauto|]. intros [H R]. split; [split; [exact H|]|exact R]. intros ->. rewrite bytes_eqb_refl in Q. discriminate.
Qed.
End M.

(** the maps of [b] may be added to [a] *)
Definition compatible_spans (a b : span) : Prop := forall nm,
  (mget (sp_ints b) nm <> None -> free_for a nm SInt /\ free_for b nm SInt) /\
  (mget (sp_reals b) nm <> None -> free_for a nm SReal /\ free_for b nm SReal) /\
  (mget (sp_strs b) nm <> None -> free_for a nm SText /\ free_for b nm SText).

Lemma has_mget s nm x : has s nm x <->
  (exists l, mget (sp_ints s) nm = Some l /\ is_in x (VInts l)) \/ (exists l, mget (sp_reals s) nm = Some l /\ is_in x (VReals l)) \/ (exists l, mget (sp_strs s) nm = Some l /\ is_in x (VStrs l)).
Proof.
  unfold has, get_or_empty. destruct x as [n|y|t]; cbn [is_in].
  - destruct (mget (sp_ints s) nm) as [l|]; split.
    + intros H. left. exists l. auto.
    + intros [(l' & [= <-] & H)|[(l' & _ & [])|(l' & _ & [])]]. exact H.
    + intros [].
    + intros [(l' & H & _)|[(l' & _ & [])|(l' & _ & [])]]. discriminate.
  - destruct (mget (sp_reals s) nm) as [l|]; split.
    + intros H. right; left. exists l. auto.
    + intros [(l' & _ & [])|[(l' & [= <-] & H)|(l' & _ & [])]]. exact H.
    + intros (z & [] & _).
    + intros [(l' & _ & [])|[(l' & H & _)|(l' & _ & [])]]. discriminate.
  - destruct (mget (sp_strs s) nm) as [l|]; split.
    + intros H. right; right. exists l. auto.
    + intros [(l' & _ & [])|[(l' & _ & [])|(l' & [= <-] & H)]]. exact H.
    + intros [].
    + intros [(l' & _ & [])|[(l' & _ & [])|(l' & H & _)]]. discriminate.
Qed.

Lemma extend_ok a b : wf a -> wf b -> compatible_spans a b ->
  exists s, extend a b = Ok s /\ wf s /\ sp_start s = sp_start a /\
    sp_length s = (if sp_start a =? sp_start b then sp_length a else sp_length a + sp_length b) /\
    (forall nm x, has s nm x <-> has a nm x \/ has b nm x) /\
    (forall nm k, free_for s nm k <-> free_for a nm k /\ free_for b nm k).
Proof.
  intros Wa Wb Co. unfold extend.
  set (a0 := {| sp_start := sp_start a; sp_length := _; sp_ints := sp_ints a; sp_reals := sp_reals a; sp_strs := sp_strs a |}).
  assert (W0 : wf a0) by (destruct Wa; split; auto).
  assert (H0 : forall nm x, has a0 nm x <-> has a nm x) by (intros nm [n|y|t]; reflexivity).
  assert (G0 : forall nm k, free_for a0 nm k <-> free_for a nm k) by reflexivity.
  pose proof Wb as [B1 B2 B3 B4].
  destruct (add_map_ok VInts SInt ltac:(reflexivity) (sp_ints b) a0 W0 B1) as (s1 & E1 & W1 & A1 & L1 & H1 & G1).
  { intros; exact I. }
  { intros nm l Hl. apply G0. destruct (Co nm) as (C1 & _). apply C1. congruence. }
  destruct (add_map_ok VReals SReal ltac:(reflexivity) (sp_reals b) s1 W1 B2) as (s2 & E2 & W2 & A2 & L2 & H2 & G2).
  { intros nm l Hl. exact (B4 nm l Hl). }
  { intros nm l Hl. apply G1. destruct (Co nm) as (_ & C2 & _). destruct (C2 ltac:(congruence)) as [Q1 Q2]. split; [now apply G0|]. intros N. exfalso. apply N. apply Q2. discriminate. }
  destruct (add_map_ok VStrs SText ltac:(reflexivity) (sp_strs b) s2 W2 B3) as (s3 & E3 & W3 & A3 & L3 & H3 & G3).
  { intros; exact I. }
  { intros nm l Hl. apply G2. destruct (Co nm) as (_ & _ & C3). destruct (C3 ltac:(congruence)) as [Q1 Q2]. split; [apply G1; split; [now apply G0|]|]; intros N; exfalso; apply N; apply Q2; discriminate. }
  rewrite E1. cbn [bind]. rewrite E2. cbn [bind]. exists s3. split; [exact E3|]. split; [exact W3|]. split; [now rewrite A3, A2, A1|]. split; [now rewrite L3, L2, L1|]. split.
  - intros nm x. rewrite H3, H2, H1, H0, (has_mget b nm x). tauto.
  - intros nm k. rewrite G3, G2, G1, G0. unfold free_for at 2. split.
    + intros [[[H Q1] Q2] Q3]. split; [exact H|]. repeat split; intros N; [destruct (mget (sp_ints b) nm); [exfalso; apply N, Q1; discriminate|reflexivity]|
        destruct (mget (sp_reals b) nm); [exfalso; apply N, Q2; discriminate|reflexivity]|destruct (mget (sp_strs b) nm); [exfalso; apply N, Q3; discriminate|reflexivity]].
    + intros [H (Q1 & Q2 & Q3)]. split; [split; [split; [exact H|]|]|]; intros N; [destruct k; auto; exfalso; apply N, Q1; discriminate|destruct k; auto; exfalso; apply N, Q2; discriminate|destruct k; auto; exfalso; apply N, Q3; discriminate].
Qed.

(** ** Reading a decoded cell *)

Definition int_type (ty : Z) : bool := (ty =? ty_INTEGER) || (ty =? ty_BITFIELD).
Definition real_type (ty : Z) : bool := (ty =? ty_REAL) || (ty =? ty_DOUBLE).

(** the bytes of an element, decoded from a column of type [ty], as a value; with
    [iad] integers are delivered as doubles *)
Definition reads (iad : bool) (ty : Z) (cell : list Z) (x : value) : Prop :=
  let b := le_val (firstn 8 cell) in
  if int_type ty then exists n, x = Int n /\ (if iad then d2z_trunc b = Some n else n = signed 64 b)
  else if real_type ty then exists y, x = Real y /\ deq y b = true
  else x = Text (until_nul cell).

(** integers in the range of a long, and no NaN *)
Definition readable (iad : bool) (ty : Z) (cell : list Z) : Prop :=
  let b := le_val (firstn 8 cell) in
  (int_type ty = true -> iad = true -> exists n, d2z_trunc b = Some n /\ - 2 ^ 63 <= n < 2 ^ 63) /\
  (real_type ty = true -> is_nan f64 b = false).

Definition known_type (ty : Z) : Prop := int_type ty = true \/ real_type ty = true \/ ty = ty_STRING.
Definition sort_ty (ty : Z) : sort := if int_type ty then SInt else if real_type ty then SReal else SText.

Lemma trunc_i64 b n : d2z_trunc b = Some n -> - 2 ^ 63 <= n < 2 ^ 63 -> d2i64 b = Ok n.
Proof. intros E H. unfold d2i64, d2int. rewrite E. replace (_ && _) with true; [reflexivity|]. symmetry. apply andb_true_iff. split; apply Z.leb_le; lia. Qed.

Lemma i64_trunc b n : d2i64 b = Ok n -> d2z_trunc b = Some n /\ - 2 ^ 63 <= n < 2 ^ 63.
Proof.
  unfold d2i64, d2int. destruct (d2z_trunc b) as [m|]; [|discriminate]. destruct (_ && _) eqn:Q; [|discriminate]. intros [= <-]. apply andb_true_iff in Q as [Q1 Q2].
  apply Z.leb_le in Q1, Q2. split; [reflexivity|lia].
Qed.

(** [v'] is [v] with what the cell reads as *)
Definition extends (iad : bool) (ty : Z) (cell : list Z) (v v' : values) : Prop :=
  clean v' /\ sort_of v' = sort_of v /\ forall x, is_in x v' <-> is_in x v \/ reads iad ty cell x.

Lemma value_of_ok iad c v cell : known_type (v_type c) -> sort_of v = sort_ty (v_type c) -> clean v ->
  readable iad (v_type c) cell -> (v_type c = ty_STRING -> Z.of_nat (List.length cell) = 8 * data_size_doubles (v_codec c)) ->
  exists v', value_of iad c v cell = Ok v' /\ extends iad (v_type c) cell v v'.
Proof.
  intros K So C [R1 R2] Wd. unfold value_of, extends, reads. unfold sort_ty in So. destruct (int_type (v_type c)) eqn:EI.
  - destruct v as [l|l|l]; try discriminate. destruct iad.
    + destruct (R1 eq_refl eq_refl) as (n & T & Rn). rewrite (trunc_i64 _ _ T Rn). cbn [bind]. eexists. split; [reflexivity|]. split; [exact I|]. split; [reflexivity|].
      intros [m|y|s]; cbn [is_in]; [|split; [intros []|intros [[]|(? & Q & _)]; discriminate]|split; [intros []|intros [[]|(? & Q & _)]; discriminate]].
      rewrite insert_in by apply Z.eqb_eq. split; [intros [->|H]; [right; exists n; auto|now left]|]. intros [H|(q & [= ->] & Q)]; [now right|left; congruence].
    + eexists. split; [reflexivity|]. split; [exact I|]. split; [reflexivity|].
      intros [m|y|s]; cbn [is_in]; [|split; [intros []|intros [[]|(? & Q & _)]; discriminate]|split; [intros []|intros [[]|(? & Q & _)]; discriminate]].
      rewrite insert_in by apply Z.eqb_eq. split; [intros [->|H]; [right; eexists; eauto|now left]|]. intros [H|(q & [= ->] & Q)]; [now right|now left].
  - destruct (real_type (v_type c)) eqn:ER.
    + destruct v as [l|l|l]; try discriminate. eexists. split; [reflexivity|]. destruct (insert_real (le_val (firstn 8 cell)) l (R2 eq_refl) C) as [N H].
      split; [exact N|]. split; [reflexivity|].
      intros [m|y|s]; cbn [is_in]; [split; [intros []|intros [[]|(? & Q & _)]; discriminate]| |split; [intros []|intros [[]|(? & Q & _)]; discriminate]].
      rewrite H. split; [intros [Q|Q]; [right; exists y; auto|now left]|]. intros [Q|(q & [= ->] & Q)]; auto.
    + destruct v as [l|l|l]; try discriminate. destruct K as [K|[K|K]]; try congruence. eexists. split; [reflexivity|]. split; [exact I|]. split; [reflexivity|].
      intros [m|y|s]; cbn [is_in]; [split; [intros []|intros [[]|Q]; discriminate]|split; [intros []|intros [[]|Q]; discriminate]|].
      specialize (Wd K). rewrite firstn_all2 by lia. rewrite insert_in by apply bytes_eqb_iff. split; [intros [->|H]; auto|]. intros [H|[= ->]]; auto.
Qed.

(** ** The rows *)

(** a column whose visited values have grown by what satisfies [P] *)
Definition grown (P : value -> Prop) (c c' : scol) : Prop :=
  v_codec c' = v_codec c /\ v_type c' = v_type c /\
  match v_visit c, v_visit c' with
  | None, None => True
  | Some v, Some v' => v_name v' = v_name v /\ clean (v_values v') /\ sort_of (v_values v') = sort_of (v_values v) /\
      forall x, is_in x (v_values v') <-> is_in x (v_values v) \/ P x
  | _, _ => False
  end.

Definition col_ok (c : scol) : Prop :=
  match v_visit c with
  | None => True
  | Some v => known_type (v_type c) /\ sort_of (v_values v) = sort_ty (v_type c) /\ clean (v_values v)
  end.

Definition cell_ok (iad : bool) (size : Z) (c : scol) (cell : list Z) : Prop :=
  v_visit c <> None -> Z.of_nat (List.length cell) <= size /\ readable iad (v_type c) cell /\
    (v_type c = ty_STRING -> Z.of_nat (List.length cell) = 8 * data_size_doubles (v_codec c)).

Lemma grown_col_ok P c c' : grown P c c' -> col_ok c -> col_ok c'.
Proof.
  intros (_ & T & G) O. unfold col_ok in *. destruct (v_visit c) as [v|], (v_visit c') as [v'|]; try contradiction; [|exact I].
  destruct G as (_ & G1 & G2 & _). rewrite T, G2. tauto.
Qed.
Lemma grown_cell_ok P c c' iad size cell : grown P c c' -> cell_ok iad size c cell -> cell_ok iad size c' cell.
Proof.
  intros (K & T & G) O N. rewrite T, K. apply O. destruct (v_visit c), (v_visit c'); congruence || contradiction.
Qed.
Lemma grown_trans P Q c c1 c2 : grown P c c1 -> grown Q c1 c2 -> grown (fun x => P x \/ Q x) c c2.
Proof.
  intros (K & T & G) (K' & T' & G'). split; [congruence|]. split; [congruence|].
  destruct (v_visit c) as [v|], (v_visit c1) as [v1|], (v_visit c2) as [v2|]; try contradiction; [|exact I].
  destruct G as (A1 & _ & A3 & A4), G' as (B1 & B2 & B3 & B4). split; [congruence|]. split; [exact B2|]. split; [congruence|]. intros x. rewrite B4, A4. tauto.
Qed.
Lemma grown_refl P c : col_ok c -> (forall x, ~ P x) -> grown P c c.
Proof. intros O N. split; [reflexivity|]. split; [reflexivity|]. unfold col_ok in O. destruct (v_visit c); [|exact I]. split; [reflexivity|]. split; [tauto|]. split; [reflexivity|]. intros x. specialize (N x). tauto. Qed.
Lemma grown_iff P Q c c' : (forall x, P x <-> Q x) -> grown P c c' -> grown Q c c'.
Proof.
  intros E (K & T & G). split; [exact K|]. split; [exact T|]. destruct (v_visit c), (v_visit c'); auto. destruct G as (A & B & D & F). split; [exact A|]. split; [exact B|]. split; [exact D|].
  intros x. rewrite F, E. tauto.
Qed.

Lemma span_cols_ok iad size : forall cols cells s s', cells_stream (map v_codec cols) cells s s' ->
  Forall col_ok cols -> Forall2 (cell_ok iad size) cols cells ->
  exists cols', span_cols iad size cols s = Ok (cols', s') /\ List.length cols' = List.length cols /\
    forall i c cell, nth_error cols i = Some c -> nth_error cells i = Some cell -> exists c', nth_error cols' i = Some c' /\ grown (reads iad (v_type c) cell) c c'.
Proof.
  induction cols as [|c cols IH]; intros cells s s' H O F; inversion H as [|k ks cell cells' ? s1 s2 D H' E1 E2 E3]; subst; [exists []; repeat split; intros [|i]; discriminate|].
  inversion O as [|? ? O1 O2]; subst. inversion F as [|? ? ? ? F1 F2]; subst. destruct (IH cells' s1 s' H' O2 F2) as (cols' & E & L & G).
  cbn [span_cols]. unfold cell_ok in F1. unfold col_ok in O1. destruct (v_visit c) as [v|] eqn:V.
  - rewrite D. cbn [bind]. destruct (F1 ltac:(discriminate)) as (Sz & Rd & Wd). replace (size <? Z.of_nat (List.length cell)) with false by lia.
    destruct O1 as (O1 & O3 & O4). destruct (value_of_ok iad c (v_values v) cell O1 O3 O4 Rd Wd) as (v' & Ev & X1 & X2 & X3).
    rewrite Ev. cbn [bind]. rewrite E. cbn [bind]. eexists. split; [reflexivity|]. split; [cbn; now rewrite L|].
    intros [|i] c0 cl A B; [|exact (G i c0 cl A B)]. injection A as <-. injection B as <-. eexists. split; [reflexivity|].
    unfold grown. cbn [v_codec v_type v_visit v_name v_values]. rewrite V. exact (conj eq_refl (conj eq_refl (conj eq_refl (conj X1 (conj X2 X3))))).
  - rewrite (C17_skip _ _ _ _ D). cbn [bind]. rewrite E. cbn [bind]. eexists. split; [reflexivity|]. split; [cbn; now rewrite L|].
    intros [|i] c0 cl A B; [|exact (G i c0 cl A B)]. injection A as <-. injection B as <-. eexists. split; [reflexivity|]. unfold grown. rewrite V. auto.
Qed.

Lemma nth_error_firstn_lt {A} (l : list A) n i : (i < n)%nat -> nth_error (firstn n l) i = nth_error l i.
Proof. revert l i. induction n as [|n IH]; intros [|a l] [|i] H; cbn [firstn nth_error]; auto; try lia. apply IH. lia. Qed.

Lemma span_rows_ok iad size ks rows s rest : row_stream ks rows s rest -> forall cols, map v_codec cols = ks -> Forall col_ok cols ->
  (forall i c r cell, nth_error cols i = Some c -> stored rows i r = Some cell -> cell_ok iad size c cell) ->
  exists cols', span_rows iad size (List.length rows) cols s = Ok cols' /\ List.length cols' = List.length cols /\
    forall i c, nth_error cols i = Some c -> exists c', nth_error cols' i = Some c' /\
      grown (fun x => exists r cell, stored rows i r = Some cell /\ reads iad (v_type c) cell x) c c'.
Proof.
  induction 1 as [s|start cells rows m s1 s2 s3 Lm Mv Ls CS RS IH]; intros cols K O C.
  - exists cols. split; [reflexivity|]. split; [reflexivity|]. intros i c E. exists c. split; [exact E|]. rewrite Forall_forall in O. apply grown_refl; [apply O; eapply nth_error_In; exact E|].
    intros x (r & cell & St & _). unfold stored in St. destruct r; discriminate.
  - cbn [List.length span_rows]. rewrite (read_raw_app 2) by (rewrite Lm; reflexivity). cbn [bind]. rewrite Mv.
    subst ks. rewrite map_length in Ls. rewrite skipn_map in CS.
    assert (St0 : forall i, (start <= i)%nat -> stored ((start, cells) :: rows) i 0 = nth_error cells (i - start)).
    { intros i Hi. unfold stored. cbn [nth_error]. destruct (Nat.leb_spec start i); [reflexivity|lia]. }
    assert (St1 : forall i, (i < start)%nat -> stored ((start, cells) :: rows) i 0 = None).
    { intros i Hi. unfold stored. cbn [nth_error]. destruct (Nat.leb_spec start i); [lia|reflexivity]. }
    assert (Sts : forall i r, stored ((start, cells) :: rows) i (S r) = stored rows i r) by reflexivity.
    pose proof (cells_stream_length _ _ _ _ CS) as LC. rewrite map_length, skipn_length in LC.
    assert (Osk : Forall col_ok (skipn start cols)).
    { apply Forall_forall. intros c Hc. rewrite Forall_forall in O. apply O. rewrite <- (firstn_skipn start cols). apply in_app_iff. now right. }
    assert (Nsk : forall i, nth_error (skipn start cols) i = nth_error cols (start + i)).
    { clear. intros i. revert cols. induction start as [|n IH]; intros [|a l]; cbn [skipn nth_error Nat.add]; auto. now destruct i. }
    assert (F2 : Forall2 (cell_ok iad size) (skipn start cols) cells).
    { apply Forall2_nth; [rewrite skipn_length; lia|]. intros i c cell A B. rewrite Nsk in A. apply (C (start + i)%nat c 0%nat); [exact A|]. rewrite St0 by lia. now replace (start + i - start)%nat with i by lia. }
    destruct (span_cols_ok iad size _ _ _ _ CS Osk F2) as (dec & E & L & G). rewrite E. cbn [bind].
    set (cols1 := firstn start cols ++ dec).
    assert (N1 : forall i c, nth_error cols i = Some c -> exists c1, nth_error cols1 i = Some c1 /\
       grown (fun x => exists cell, stored ((start, cells) :: rows) i 0 = Some cell /\ reads iad (v_type c) cell x) c c1).
    { intros i c Hc. assert (Hi : (i < List.length cols)%nat) by (apply nth_error_Some; congruence).
      unfold cols1. destruct (Nat.lt_ge_cases i start) as [Q|Q].
      - exists c. split; [rewrite nth_error_app1 by (rewrite firstn_length; lia); rewrite nth_error_firstn_lt by lia; exact Hc|].
        rewrite Forall_forall in O. apply grown_refl; [apply O; eapply nth_error_In; exact Hc|]. intros x (cell & Z0 & _). rewrite St1 in Z0 by exact Q. discriminate.
      - rewrite nth_error_app2 by (rewrite firstn_length; lia). rewrite firstn_length. replace (i - Nat.min start (List.length cols))%nat with (i - start)%nat by lia.
        destruct (nth_error cells (i - start)) as [cell|] eqn:Ec; [|apply nth_error_None in Ec; lia].
        destruct (G (i - start)%nat c cell) as (c1 & A & B); [rewrite Nsk; now replace (start + (i - start))%nat with i by lia|exact Ec|].
        exists c1. split; [exact A|]. eapply grown_iff; [|exact B]. intros x. rewrite St0, Ec by exact Q. split; [intros R; exists cell; auto|]. intros (cl & [= <-] & R). exact R. }
    assert (L1 : List.length cols1 = List.length cols) by (unfold cols1; rewrite app_length, firstn_length, L, skipn_length; lia).
    assert (Back : forall i c1, nth_error cols1 i = Some c1 -> exists c, nth_error cols i = Some c /\
       grown (fun x => exists cell, stored ((start, cells) :: rows) i 0 = Some cell /\ reads iad (v_type c) cell x) c c1).
    { intros i c1 H1. destruct (nth_error cols i) as [c|] eqn:Hc; [|apply nth_error_None in Hc; assert ((i < List.length cols1)%nat) by (apply nth_error_Some; congruence); lia].
      exists c. split; [reflexivity|]. destruct (N1 i c Hc) as (c1' & A & B). rewrite H1 in A. injection A as <-. exact B. }
    destruct (IH cols1) as (cols' & E' & L' & G').
    { apply nth_ext_error. intros i. rewrite !nth_error_map. destruct (nth_error cols i) as [c|] eqn:Hc.
      - destruct (N1 i c Hc) as (c1 & A & (B & _)). rewrite A. cbn. now rewrite B.
      - apply nth_error_None in Hc. assert (Q : nth_error cols1 i = None) by (apply nth_error_None; lia). now rewrite Q. }
    { apply Forall_forall. intros c1 H1. apply In_nth_error in H1 as (i & H1). destruct (Back i c1 H1) as (c & Hc & Gr). eapply grown_col_ok; [exact Gr|]. rewrite Forall_forall in O. apply O. eapply nth_error_In; exact Hc. }
    { intros i c1 r cell H1 St. destruct (Back i c1 H1) as (c & Hc & Gr). eapply grown_cell_ok; [exact Gr|]. apply (C i c (S r)); [exact Hc|]. now rewrite Sts. }
    exists cols'. split; [exact E'|]. split; [lia|]. intros i c Hc. destruct (N1 i c Hc) as (c1 & H1 & Gr1). destruct (G' i c1 H1) as (c' & H2 & Gr2). exists c'. split; [exact H2|].
    eapply grown_iff; [|eapply grown_trans; [exact Gr1|exact Gr2]]. intros x. destruct Gr1 as (_ & T & _). rewrite T. split.
    + intros [(cell & A & B)|(r & cell & A & B)]; [exists 0%nat, cell; auto|exists (S r), cell; rewrite Sts; auto].
    + intros ([|r] & cell & A & B); [left; exists cell; auto|right; exists r, cell; rewrite Sts in A; auto].
Qed.
