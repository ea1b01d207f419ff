(** Cases of C45_refused. *)
From Coq Require Import String.
From Verif Require Import Spec Base Fp Stream Codec Meta Header Encoder Table Reader StreamProofs Quick Writer WriterSpec
  Through EncodeWitness WriterWitness DispatchSpec Csv CsvSpec CsvText P_Csv CsvWitness CsvRefuseSpec P_CsvRefuse.
Open Scope Z_scope.
Local Notation length := List.length.

Lemma marks t : forallb (fun c => negb (c =? 58) && negb (c =? 59) && negb (c =? 91) && negb (c =? 93)) t = true -> no_marks t.
Proof. intros H c Hc. rewrite forallb_forall in H. specialize (H c Hc). lia. Qed.
Lemma capitals t s : bytes_eqb (upper t) s = true -> in_capitals t s.
Proof. intros H. apply upper_iff. now apply bytes_eqb_eq. Qed.

(** A member given twice; 32 bits; a type that is not known; no type: refused, after a column that
    is declared properly. *)
Lemma digit_member (nm : string) d c : 48 <= c <= 57 -> d = c - 48 -> str nm <> [] -> no_marks (str nm) -> member (str nm ++ [58; c]) (str nm, d).
Proof.
  intros H -> N M. exists [c]. cbn [fst snd]. split; [reflexivity|]. split; [exact N|]. split; [exact M|]. split; [lia|].
  exists [c]. split; [repeat constructor; unfold is_digit; lia|]. split; [discriminate|].
  destruct (Z.eq_dec c 48) as [->|Nc].
  - split; [auto|]. left. repeat split; lia || reflexivity.
  - split; [cbn; lia|]. left. split; [lia|]. split; [reflexivity|]. cbn. lia.
Qed.

Theorem C45_refused_witness :
  refused (str "b:Bitfield[p:1;p:2]") UserError /\ refused (str "b:BITFIELD[a:9;b:9;c:9;d:5]") UserError /\
  refused (str "b:FLOAT") AssertFailed /\ refused (str "b") UserError /\
  import doubles (str "name:string,b:Bitfield[p:1;p:2],c:REAL" ++ nl ++ str "x,1,2" ++ nl) = Throw UserError.
Proof.
  assert (Lz : forall f, plainb [59] f = true -> line_of [59] [f] f) by (intros; apply lo_one; now apply plainb_ok).
  assert (Lo : forall f fs l, plainb [59] f = true -> line_of [59] fs l -> line_of [59] (f :: fs) (f ++ 59 :: l)) by (intros; apply lo_more; [now apply plainb_ok|now left|assumption]).
  assert (R1 : refused (str "b:Bitfield[p:1;p:2]") UserError).
  { apply (re_members _ (str "b") (str "b") (str "Bitfield") (str "p:1;p:2") [str "p:1"; str "p:2"] [(str "p", 1); (str "p", 2)]);
      [reflexivity|now apply holdsb_ok|now apply marks|now apply capitals| | | |cbn; lia].
    - apply (Lo (str "p:1")); [reflexivity|]. apply (Lz (str "p:2")). reflexivity.
    - apply Forall2_cons; [apply (digit_member "p"); (cbn; lia) || discriminate || now apply marks|].
      apply Forall2_cons; [apply (digit_member "p"); (cbn; lia) || discriminate || now apply marks|apply Forall2_nil].
    - left. cbn. intros H. inversion H as [|? ? X _]. apply X. now left. }
  split; [exact R1|]. split; [|split; [|split]].
  - apply (re_members _ (str "b") (str "b") (str "BITFIELD") (str "a:9;b:9;c:9;d:5") [str "a:9"; str "b:9"; str "c:9"; str "d:5"]
      [(str "a", 9); (str "b", 9); (str "c", 9); (str "d", 5)]);
      [reflexivity|now apply holdsb_ok|now apply marks|now apply capitals| | |right; cbn; lia|cbn; lia].
    + apply (Lo (str "a:9")); [reflexivity|]. apply (Lo (str "b:9")); [reflexivity|]. apply (Lo (str "c:9")); [reflexivity|]. apply (Lz (str "d:5")). reflexivity.
    + apply Forall2_cons; [apply (digit_member "a"); (cbn; lia) || discriminate || now apply marks|].
      apply Forall2_cons; [apply (digit_member "b"); (cbn; lia) || discriminate || now apply marks|].
      apply Forall2_cons; [apply (digit_member "c"); (cbn; lia) || discriminate || now apply marks|].
      apply Forall2_cons; [apply (digit_member "d"); (cbn; lia) || discriminate || now apply marks|]. apply Forall2_nil.
  - apply (re_type _ (str "b") (str "b") (str "FLOAT")); [reflexivity|now apply holdsb_ok|now apply marks|now apply marks|discriminate| |].
    + intros s Hs Q. apply upper_iff in Q. destruct Hs as [<-|[<-|[<-|[<-|[]]]]]; vm_compute in Q; discriminate Q.
    + intros kw r E Q. inversion Q as [|x ? ? ? H]. subst. injection E as <- _. lia.
  - apply re_colon. cbn. intuition discriminate.
  - apply (C45_refused doubles quick 4 comma read_float read_double read_int quoted memory 9 [str "name:string"] [{| ci_name := str "name"; ci_type := ty_STRING; ci_size := 8; ci_bits := [] |}]
      (str "b:Bitfield[p:1;p:2]") UserError [str "c:REAL"] (str "name:string,b:Bitfield[p:1;p:2],c:REAL") [str "x,1,2"]).
    + cbn. intuition discriminate.
    + apply (tl_line (str "name:string,b:Bitfield[p:1;p:2],c:REAL")). apply (tl_line (str "x,1,2")). constructor.
    + assert (Lc : forall f fs l, plainb comma f = true -> line_of comma fs l -> line_of comma (f :: fs) (f ++ 44 :: l)) by (intros; apply lo_more; [now apply plainb_ok|now left|assumption]).
      apply (Lc (str "name:string")); [reflexivity|]. apply (Lc (str "b:Bitfield[p:1;p:2]")); [reflexivity|]. apply lo_one. now apply plainb_ok.
    + repeat constructor. apply (de_plain _ _ (str "name") (str "string") "STRING"%string); try reflexivity; [now apply holdsb_ok|now apply marks|right; right; right; now split|now apply capitals].
    + exact R1.
Qed.
Print Assumptions C45_refused_witness.
