(** Concrete cases for C45, and counterexamples. *)
From Coq Require Import String.
From Verif Require Import Spec Base Fp Stream Codec Meta Header Encoder Table Reader ReadSpec
  StreamLocal StreamProofs Quick Through P_Frame Writer RowReader RowList WriterSpec EncodeWitness WriterWitness
  Dispatcher DispatchSpec Csv CsvSpec CsvText P_Csv.
Open Scope Z_scope.
Local Notation length := List.length.

(** Decimal integers; quotes around a text are taken off. *)
Definition read_int (t : list Z) : outcome Z :=
  if forallb (fun c => (48 <=? c) && (c <=? 57) || (c =? 45)) t then atoi t else Throw UserError.
Definition read_float (t : list Z) : outcome Z := do n <- read_int t; Ok (d2f (z2d n)).
Definition read_double (t : list Z) : outcome Z := do n <- read_int t; Ok (z2d n).
Definition quoted (t : list Z) : list Z :=
  match t with
  | 39 :: r => if last r 0 =? 39 then removelast r else t
  | _ => t
  end.
Definition comma : list Z := str ",".
(** what the memory holds *)
Definition memory : nat -> nat -> list Z := fun _ _ => [65; 66; 67; 68; 69; 70; 71; 72; 73; 74].
Definition import (st : settings) (text : list Z) : outcome (list Z * Z) :=
  import_text st comma read_float read_double read_int quoted memory quick 4 9 text.

(** ** A table *)
Definition nl : list Z := [10].
Definition table : list Z :=
  str "name:string, x:DOUBLE,n:Integer,f:bitfield[p:1;q:2],r:REAL" ++ nl ++
  str "'a long name', 17 ,NULL,3,2" ++ nl ++
  str " b ,null,-5,0,NULL".
Definition tcols : list colinfo :=
  [ {| ci_name := str "name"; ci_type := ty_STRING; ci_size := 8; ci_bits := [] |};
    {| ci_name := str "x"; ci_type := ty_DOUBLE; ci_size := 8; ci_bits := [] |};
    {| ci_name := str "n"; ci_type := ty_INTEGER; ci_size := 8; ci_bits := [] |};
    {| ci_name := str "f"; ci_type := ty_BITFIELD; ci_size := 8; ci_bits := [(str "p", 1); (str "q", 2)] |};
    {| ci_name := str "r"; ci_type := ty_REAL; ci_size := 8; ci_bits := [] |} ].
Definition tvalues : list (list (list Z)) :=
  [ [str "'a long name'"; str "17"; str "NULL"; str "3"; str "2"]; [str "b"; str "null"; str "-5"; str "0"; str "NULL"] ].

Definition holdsb (f v : list Z) : bool := bytes_eqb (trim_text f) v && negb (length v =? 0)%nat.
Lemma holdsb_ok f v : holdsb f v = true -> holds f v.
Proof.
  unfold holdsb. rewrite andb_true_iff, Bool.negb_true_iff, Nat.eqb_neq. intros (E & Hne). apply bytes_eqb_eq in E. subst v.
  assert (D : forall t, exists b, t = b ++ drop_while is_space t /\ Forall blank_char b /\ (drop_while is_space t = [] \/ ~ blank_char (hd 0 (drop_while is_space t)))).
  { induction t as [|c t (b & E & F & G)]; [exists []; repeat split; auto|]. cbn [drop_while]. destruct (is_space c) eqn:Q.
    - exists (c :: b). cbn [app]. split; [now rewrite <- E|]. split; [constructor; [now apply is_space_blank|exact F]|exact G].
    - exists []. repeat split; auto. right. cbn [hd]. now apply not_space_blank. }
  unfold trim_text in *. destruct (D f) as (b1 & E1 & F1 & G1). set (g := drop_while is_space f) in *. destruct (D (rev g)) as (b2 & E2 & F2 & G2). set (h := drop_while is_space (rev g)) in *.
  assert (Eg : g = rev h ++ rev b2) by (rewrite <- rev_app_distr, <- E2; symmetry; apply rev_involutive).
  assert (Hh : h <> []) by (intros Q; rewrite Q in Hne; now apply Hne).
  exists b1, (rev b2). split; [congruence|]. split; [exact F1|]. split; [now apply Forall_rev|].
  assert (Hr : rev h <> []) by (intros Q; apply Hh; rewrite <- (rev_involutive h), Q; reflexivity). split; [exact Hr|]. split.
  - destruct G1 as [G1|G1]; [rewrite G1 in Eg; symmetry in Eg; apply app_eq_nil in Eg as (Q & _); contradiction|]. rewrite Eg in G1. destruct (rev h); [contradiction|exact G1].
  - destruct G2 as [G2|G2]; [contradiction|]. destruct h as [|z h']; [contradiction|]. cbn [rev]. rewrite last_last. exact G2.
Qed.

Definition plainb (d f : list Z) : bool := negb (length f =? 0)%nat && forallb (fun c => negb (c =? 10) && negb (existsb (Z.eqb c) d)) f.
Lemma plainb_ok d f : plainb d f = true -> plain d f.
Proof.
  unfold plainb, plain. rewrite andb_true_iff, Bool.negb_true_iff, Nat.eqb_neq, forallb_forall. intros (A & B). split; [destruct f; [contradiction|discriminate]|].
  intros c Hc. specialize (B c Hc). apply andb_true_iff in B as (B1 & B2). split; [lia|]. intros Q. apply Bool.negb_true_iff in B2. 
  assert (existsb (Z.eqb c) d = true) by (apply existsb_exists; exists c; split; [exact Q|apply Z.eqb_refl]). congruence.
Qed.

Lemma table_ok : table_text comma tcols tvalues table.
Proof.
  split; [cbn; intuition discriminate|].
  exists (str "name:string, x:DOUBLE,n:Integer,f:bitfield[p:1;q:2],r:REAL"), [str "'a long name', 17 ,NULL,3,2"; str " b ,null,-5,0,NULL"],
    [str "name:string"; str " x:DOUBLE"; str "n:Integer"; str "f:bitfield[p:1;q:2]"; str "r:REAL"],
    [[str "'a long name'"; str " 17 "; str "NULL"; str "3"; str "2"]; [str " b "; str "null"; str "-5"; str "0"; str "NULL"]].
  assert (Lo : forall f fs l, plainb comma f = true -> line_of comma fs l -> line_of comma (f :: fs) (f ++ 44 :: l)) by (intros; apply lo_more; [now apply plainb_ok|now left|assumption]).
  assert (Lz : forall f, plainb comma f = true -> line_of comma [f] f) by (intros; apply lo_one; now apply plainb_ok).
  assert (Nm : forall t, forallb (fun c => negb (c =? 58) && negb (c =? 59) && negb (c =? 91) && negb (c =? 93)) t = true -> no_marks t).
  { intros t H c Hc. rewrite forallb_forall in H. specialize (H c Hc). lia. }
  assert (Cp : forall t s, bytes_eqb (upper t) s = true -> in_capitals t s) by (intros t s H; apply upper_iff; now apply bytes_eqb_eq).
  split; [|split; [|split; [|split]]].
  - apply (tl_line (str "name:string, x:DOUBLE,n:Integer,f:bitfield[p:1;q:2],r:REAL")). apply (tl_line (str "'a long name', 17 ,NULL,3,2")). apply tl_last. discriminate.
  - apply (Lo (str "name:string")); [reflexivity|]. apply (Lo (str " x:DOUBLE")); [reflexivity|]. apply (Lo (str "n:Integer")); [reflexivity|]. apply (Lo (str "f:bitfield[p:1;q:2]")); [reflexivity|]. apply (Lz (str "r:REAL")). reflexivity.
  - repeat constructor.
    + apply (de_plain _ _ (str "name") (str "string") "STRING"%string); try reflexivity; [now apply holdsb_ok|now apply Nm|right; right; right; now split|now apply Cp].
    + apply (de_plain _ _ (str " x") (str "DOUBLE") "DOUBLE"%string); try reflexivity; [now apply holdsb_ok|now apply Nm|right; right; left; now split|now apply Cp].
    + apply (de_plain _ _ (str "n") (str "Integer") "INTEGER"%string); try reflexivity; [now apply holdsb_ok|now apply Nm|left; now split|now apply Cp].
    + apply (de_bits _ _ (str "f") (str "bitfield") (str "p:1;q:2") [str "p:1"; str "q:2"]); try reflexivity; [now apply holdsb_ok|now apply Nm|now apply Cp| | | |cbn; lia].
      * apply (lo_more [59] (str "p:1") 59); [now apply plainb_ok|now left|]. apply lo_one. now apply plainb_ok.
      * repeat constructor.
        -- exists (str "1"). split; [reflexivity|]. split; [discriminate|]. split; [now apply Nm|]. cbn [snd]. split; [lia|]. exists [49]. split; [repeat constructor; unfold is_digit; lia|]. split; [discriminate|]. split; [discriminate|]. left. repeat split; lia || reflexivity.
        -- exists (str "2"). split; [reflexivity|]. split; [discriminate|]. split; [now apply Nm|]. cbn [snd]. split; [lia|]. exists [50]. split; [repeat constructor; unfold is_digit; lia|]. split; [discriminate|]. split; [discriminate|]. left. repeat split; lia || reflexivity.
      * cbn. repeat constructor; cbn; intuition discriminate.
    + apply (de_plain _ _ (str "r") (str "REAL") "REAL"%string); try reflexivity; [now apply holdsb_ok|now apply Nm|right; left; now split|now apply Cp].
  - repeat constructor.
    + apply (Lo (str "'a long name'")); [reflexivity|]. apply (Lo (str " 17 ")); [reflexivity|]. apply (Lo (str "NULL")); [reflexivity|]. apply (Lo (str "3")); [reflexivity|]. apply (Lz (str "2")). reflexivity.
    + apply (Lo (str " b ")); [reflexivity|]. apply (Lo (str "null")); [reflexivity|]. apply (Lo (str "-5")); [reflexivity|]. apply (Lo (str "0")); [reflexivity|]. apply (Lz (str "NULL")). reflexivity.
  - repeat constructor; apply holdsb_ok; reflexivity.
Qed.

Lemma tcols_ok : writable_columns tcols [].
Proof.
  split; try discriminate.
  - cbn. lia.
  - cbn. repeat constructor; cbn; intuition discriminate.
  - repeat constructor; discriminate.
  - unfold tcols, known_type. repeat (apply Forall_cons || apply Forall_nil); cbn [ci_type ci_size].
    1: right; split; [reflexivity|exists 1; lia].
    all: left; split; [|reflexivity]; (left; left; reflexivity) || (left; right; reflexivity) || (right; left; reflexivity) || (right; right; reflexivity).
  - unfold tcols, describable, len31. repeat (apply Forall_cons || apply Forall_nil); (split; [reflexivity|]); cbn [ci_type ci_bits]; intros Q; try discriminate Q. split; [reflexivity|]. repeat (apply Forall_cons || apply Forall_nil); cbn [fst snd]; (split; [reflexivity|lia]).
  - split; [exact I|]. split; [unfold len31; cbn; lia|constructor].
Qed.

Lemma tvalues_ok : Forall (Forall2 (fun ci v => importable read_float read_double read_int quoted 2 (ci_type ci) v) tcols) tvalues.
Proof.
  assert (Nn : forall v, bytes_eqb (upper v) (str "NULL") = false -> ~ null v) by (intros v H Q; apply null_iff in Q; congruence).
  assert (Nu : forall v, bytes_eqb (upper v) (str "NULL") = true -> null v) by (intros v H; now apply null_iff).
  unfold tcols, tvalues. repeat (apply Forall_cons || apply Forall_nil || apply Forall2_cons || apply Forall2_nil); cbn [ci_type].
  - apply im_text; [now apply Nn|reflexivity| |vm_compute; discriminate]. vm_compute. repeat constructor; discriminate.
  - apply (im_double _ _ _ _ _ _ _ (z2d 17)); [now apply Nn|reflexivity|vm_compute; reflexivity| |vm_compute; reflexivity|vm_compute; discriminate]. split; [split; vm_compute; [discriminate|reflexivity]|vm_compute; reflexivity].
  - apply im_null; [now apply Nu|]. left. now left.
  - apply (im_int _ _ _ _ _ _ _ 3); [now apply Nn|now right|reflexivity|]. unfold int32. lia.
  - apply (im_real _ _ _ _ _ _ _ (d2f (z2d 2))); [now apply Nn|reflexivity|reflexivity| |vm_compute; reflexivity|vm_compute; reflexivity|vm_compute; reflexivity]. split; [split; vm_compute; [discriminate|reflexivity]|vm_compute; reflexivity].
  - apply im_text; [now apply Nn|reflexivity| |vm_compute; discriminate]. vm_compute. repeat constructor; discriminate.
  - apply im_null; [now apply Nu|]. right. left. now right.
  - apply (im_int _ _ _ _ _ _ _ (-5)); [now apply Nn|now left|reflexivity|]. unfold int32. lia.
  - apply (im_int _ _ _ _ _ _ _ 0); [now apply Nn|now right|reflexivity|]. unfold int32. lia.
  - apply im_null; [now apply Nu|]. right. left. now left.
Qed.

(** A table of all types, with NULLs, blanks, and a text that needs a wider column, is
    imported as C45_import says. *)
Theorem C45_witness : exists file, import doubles table = Ok (file, 2) /\
  exists rows, file_rows quick int64s noise 9 file = (rows, Clean) /\
    Forall2 (imported read_float read_double read_int quoted true tcols) tvalues rows.
Proof.
  destruct (C45_import quick doubles int64s 4 comma read_float read_double read_int quoted memory 2 tcols tvalues table) as (file & A & B).
  - exact quick_length.
  - lia.
  - reflexivity.
  - reflexivity.
  - intros n i. vm_compute. repeat constructor; discriminate.
  - lia.
  - lia.
  - exact table_ok.
  - discriminate.
  - exact tcols_ok.
  - unfold WriterSpec.small. vm_compute. auto.
  - exact tvalues_ok.
  - exists file. split; [apply (A 9%nat); cbn; lia|]. destruct (B noise) as (rows & C & D). exists rows. split; [apply C; cbn; lia|exact D].
Qed.
Print Assumptions C45_witness.

(** ** Counterexamples *)

Definition count (o : outcome (list Z * Z)) : outcome Z := do (f, n) <- o; Ok n.
Definition values (o : outcome (list Z * Z)) : list (list (list Z)) :=
  match o with Ok (f, n) => map snd (fst (file_rows quick doubles noise 9 f)) | _ => [] end.

(** The lines after a blank line are lost, without an error. *)
Theorem C45_blank_refuted :
  count (import doubles (str "a:STRING" ++ nl ++ str "x" ++ nl ++ nl ++ str "y" ++ nl)) = Ok 1.
Proof. vm_compute. reflexivity. Qed.

(** If integers are not kept as doubles, integers are not imported: 5 becomes the pattern
    of the double 5.0. *)
Theorem C45_integers_refuted :
  values (import int64s (str "n:INTEGER" ++ nl ++ str "5" ++ nl)) <> [[int_cell false 5]] /\
  count (import int64s (str "n:INTEGER" ++ nl ++ str "5" ++ nl)) = Ok 1.
Proof. split; [|vm_compute; reflexivity]. vm_compute. discriminate. Qed.

(** A line with an empty field is refused, and so is a delimiter in quotes, and a header
    line that ends in CR LF. *)
Theorem C45_empty_refuted :
  import doubles (str "a:STRING,b:STRING" ++ nl ++ str "x," ++ nl) = Throw AssertFailed /\
  import doubles (str "a:STRING" ++ nl ++ str "'x,y'" ++ nl) = Throw AssertFailed /\
  import doubles (str "a:STRING" ++ [13] ++ nl ++ str "x" ++ nl) = Throw AssertFailed.
Proof. vm_compute. auto. Qed.

(** Member sizes are not checked: a negative one is accepted. *)
Theorem C45_members_refuted : header_column doubles (str "b:BITFIELD[p:5;q:-2]") =
  (do k <- working_codec doubles LE ty_BITFIELD;
   Ok {| col_name := str "b"; col_type := ty_BITFIELD; col_bfnames := [str "p"; str "q"]; col_bfsizes := [5; -2]; col_coder := k |}).
Proof. vm_compute. reflexivity. Qed.
