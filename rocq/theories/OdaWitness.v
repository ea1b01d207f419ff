(** Concrete cases for C57, and what goes wrong when a title is ambiguous. *)
From Coq Require Import String.
From Verif Require Import Spec Base Fp Stream Codec Meta Header Encoder Table Reader
  Quick Through Writer RowReader RowList WriterSpec EncodeWitness WriterWitness OdaOut P_Tables OdaSpec P_Oda.
Open Scope Z_scope.
Local Notation length := List.length.

(** A text and a number; the text gets longer in the second part. *)
Definition qtypes (n : Z) : list colinfo := [wcol "s" ty_STRING n; wcol "d" ty_DOUBLE 4].
Definition qevents : list oevent :=
  [OResult [OText (str "ab") 2 false; ONumber d_one false];
   OTypes (qtypes 16);
   OResult [OText (str "abcdefghijkl") 12 false; ONumber d_one true];
   OTypes (qtypes 8);
   OResult [OText (str "xyz") 3 true; ONumber 0 false]].

Lemma qwritable n : 1 <= n -> 8 * n < 2 ^ 31 -> writable_columns [wcol "s" ty_STRING (8 * n); wcol "d" ty_DOUBLE 8] [].
Proof.
  intros H1 H2. split.
  - discriminate.
  - vm_compute. reflexivity.
  - constructor; [intros [Q|[]]; vm_compute in Q; discriminate Q|]. constructor; [intros []|constructor].
  - constructor; [discriminate|]. constructor; [discriminate|constructor].
  - constructor; [right; split; [reflexivity|exists n; cbn [wcol ci_size]; lia]|]. constructor; [left; split; [right; right; reflexivity|reflexivity]|constructor].
  - constructor; [split; [vm_compute; reflexivity|intros Q; discriminate Q]|]. constructor; [split; [vm_compute; reflexivity|intros Q; discriminate Q]|constructor].
  - split; [constructor|]. split; [vm_compute; reflexivity|constructor].
Qed.

Theorem C57_witness :
  writable_columns (map announced (qtypes 8)) [] /\ text_titles (map announced (qtypes 8)) /\ proper (map announced (qtypes 8)) qevents /\
  rows_storable doubles 2 [] (map (fun r => (fst r, row_of doubles r)) (answers (map announced (qtypes 8)) qevents)) /\
  length (answers (map announced (qtypes 8)) qevents) = 3%nat /\
  map (fun r => map ci_size (fst r)) (answers (map announced (qtypes 8)) qevents) = [[8; 8]; [16; 8]; [16; 8]].
Proof.
  assert (T : forall n m, 1 <= m /\ 8 * m < 2 ^ 31 -> same_titles [wcol "s" ty_STRING n; wcol "d" ty_DOUBLE 8] (qtypes (8 * m))).
  { intros n m H. constructor; [split; [reflexivity|split; [reflexivity|]]; intros _; exists m; cbn [wcol ci_size]; lia|].
      constructor; [split; [reflexivity|split; [reflexivity|]]; intros Q; discriminate Q|constructor]. }
  split; [exact (qwritable 1 ltac:(lia) ltac:(lia))|]. split; [|split; [|split; [|split; vm_compute; reflexivity]]].
  - intros [|[|[|i]]] [|[|[|j]]] ci cj Ei Ej Ty C; cbn [nth_error map qtypes] in *; try discriminate; auto;
      assert (ci_name ci = str "s" \/ ci_type ci = ty_DOUBLE) as [Q|Q] by (match type of Ei with Some ?x = Some _ => assert (ci = x) by congruence; subst ci end; auto);
      try (rewrite Q in Ty; discriminate Ty).
    + match type of Ej with Some ?x = Some _ => assert (cj = x) by congruence; subst cj end. rewrite Q in C. exfalso.
      destruct C as [C|(r & C)]; vm_compute in C; discriminate C.
    + match type of Ei with Some ?x = Some _ => assert (ci = x) by congruence; subst ci end. discriminate Ty.
  - cbn [proper qevents]. split; [|split; [apply (T 8 2); lia|split; [|split; [apply (T 16 1); lia|split; [|exact I]]]]].
    + constructor; [split; [reflexivity|]; cbn; split; [lia|]; intros _; left; vm_compute; discriminate|]. constructor; [split; [discriminate|vm_compute; split; congruence]|constructor].
    + constructor; [split; [reflexivity|]; cbn; split; [lia|]; intros _; left; vm_compute; discriminate|]. constructor; [split; [discriminate|vm_compute; split; congruence]|constructor].
    + constructor; [split; [reflexivity|]; cbn; split; [lia|]; intros Q; discriminate Q|]. constructor; [split; [discriminate|vm_compute; split; congruence]|constructor].
  - apply C57_ordinary. intros r I. cbn [answers qevents] in I.
    assert (Os : forall n t, 1 <= n -> 8 * n < 2 ^ 31 -> len t = 8 * n -> forallb (fun b => (0 <=? b) && (b <? 256)) t = true -> ordinary doubles (wcol "s" ty_STRING (8 * n)) t).
    { intros n t H1 H2 H3 H4. apply (or_string doubles _ n); auto. rewrite forallb_forall in H4. apply Forall_forall. intros b Hb. specialize (H4 b Hb). unfold is_byte. lia. }
    assert (Od : forall v, v = 0 \/ v = d_one \/ v = realMDI -> ordinary doubles (wcol "d" ty_DOUBLE 8) (le_bytes 8 v)).
    { intros v Hv. apply or_double; try reflexivity; destruct Hv as [-> |[-> | ->]]; vm_compute; repeat split; congruence. }
    destruct I as [<-|[<-|[<-|[]]]]; (split; [vm_compute; repeat split; reflexivity|]); cbn [fst snd].
    + constructor; [apply (Os 1 (pad 8 (str "ab"))); [lia|lia|vm_compute; reflexivity|vm_compute; reflexivity]|]. constructor; [apply Od; auto|constructor].
    + constructor; [apply (Os 2 (pad 16 (str "abcdefghijkl"))); [lia|lia|vm_compute; reflexivity|vm_compute; reflexivity]|]. constructor; [apply (Od realMDI); auto|constructor].
    + constructor; [apply (Os 2 (pad 16 [])); [lia|lia|vm_compute; reflexivity|vm_compute; reflexivity]|]. constructor; [apply Od; auto|constructor].
Qed.
Print Assumptions C57_witness.

(** The file, run: the missing number is the missing value, the missing text is empty. *)
Theorem C57_file :
  exists file, oda_file quick doubles 2 [] (qtypes 8) qevents = Ok file /\
    read_rows quick doubles noise 9 file =
      ([[pad 8 (str "ab"); le_bytes 8 d_one]; [pad 16 (str "abcdefghijkl"); le_bytes 8 realMDI]; [pad 16 []; le_bytes 8 0]], Clean).
Proof.
  destruct (oda_file quick doubles 2 [] (qtypes 8) qevents) as [file| |] eqn:E; [|vm_compute in E; discriminate E..].
  exists file. split; [reflexivity|].
  assert (P : match oda_file quick doubles 2 [] (qtypes 8) qevents with Ok f => read_rows quick doubles noise 9 f | _ => ([], OutOfFuel) end =
    ([[pad 8 (str "ab"); le_bytes 8 d_one]; [pad 16 (str "abcdefghijkl"); le_bytes 8 realMDI]; [pad 16 []; le_bytes 8 0]], Clean)) by (vm_compute; reflexivity).
  now rewrite E in P.
Qed.

(** Without the condition on titles: a query for a text "s" and a number "s@t" cannot go on
    when the texts get longer, though both titles and types are as before. *)
Theorem C57_ambiguous_refuted :
  let cols n := [wcol "s" ty_STRING n; wcol "s@t" ty_DOUBLE 8] in
  same_titles (map announced (cols 8)) (cols 16) /\
  (exists file, oda_file quick doubles 2 [] (cols 8) [] = Ok file) /\
  oda_file quick doubles 2 [] (cols 8) [OTypes (cols 16)] = Throw AmbiguousColumn.
Proof.
  cbv zeta. split; [|split; [eexists; vm_compute; reflexivity|vm_compute; reflexivity]].
  constructor; [split; [reflexivity|split; [reflexivity|]]; intros _; exists 2; vm_compute; repeat split; congruence|].
  constructor; [split; [reflexivity|split; [reflexivity|]]; intros Q; discriminate Q|constructor].
Qed.
