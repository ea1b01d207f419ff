(** Concrete cases for C54. *)
From Coq Require Import String.
From Verif Require Import Spec CsvSpec Base Fp Stream Codec Meta Header Encoder Table Reader ReadSpec Quick Through P_Frame P_Reader MdSet ScanSpec ScanWitness P_MdSet P_MdValues.
From Verif Require Import MdSpec.
Open Scope Z_scope.
Local Notation length := List.length.

(** A constant column of integers with a missing value, one of short texts, and one of numbers. *)
Definition mcols : list colinfo :=
  [{| ci_name := str "x@hdr"; ci_type := ty_INTEGER; ci_size := 8; ci_bits := [] |};
   {| ci_name := str "s@hdr"; ci_type := ty_STRING; ci_size := 8; ci_bits := [] |};
   {| ci_name := str "d@body"; ci_type := ty_DOUBLE; ci_size := 8; ci_bits := [] |}].
Definition mdata : list coldata :=
  [{| cd_size := 8; cd_cells := map (int_cell false) [5; MDI] |};
   {| cd_size := 8; cd_cells := [pad 8 (str "abc"); pad 8 (str "abc")] |};
   {| cd_size := 8; cd_cells := map (le_bytes 8) [z2d 3; z2d 4] |}].

Lemma bytes_okb_ok l : bytes_okb l = true -> bytes_ok l.
Proof. unfold bytes_okb. intros C. rewrite forallb_forall in C. apply Forall_forall. intros z Hz. specialize (C z Hz). unfold is_byteb, is_byte in *. lia. Qed.

Theorem C54_table : valid_table doubles odc_tag 2 mcols mdata [].
Proof.
  split.
  - constructor; [|constructor; [|constructor; [|constructor]]]; (split; [reflexivity|]; split; [reflexivity|]).
    + apply (st_int doubles); [now left|reflexivity|]. split; [|left]; repeat (apply Forall_cons; [unfold mid, int32, MDI; lia|]); apply Forall_nil.
    + apply (st_string doubles _ 1); try reflexivity; try lia.
      * repeat (apply Forall_cons; [reflexivity|]); apply Forall_nil.
      * assert (X : bytes_ok (pad 8 (str "abc"))) by (apply bytes_okb_ok; reflexivity).
        apply Forall_cons; [exact X|apply Forall_cons; [exact X|apply Forall_nil]].
    + apply st_double; try reflexivity.
      * repeat (apply Forall_cons; [vm_compute; split; [split; [discriminate|reflexivity]|reflexivity]|]); apply Forall_nil.
      * intros H. vm_compute in H. repeat (destruct H as [H|H]; [discriminate|]); destruct H.
      * intros ((v & Hv & Dv) & _). destruct Hv as [<-|[<-|[]]]; vm_compute in Dv; discriminate.
  - discriminate.
  - reflexivity.
  - repeat (apply NoDup_cons; [vm_compute; intros H; repeat (destruct H as [H|H]; [discriminate|]); destruct H|]); apply NoDup_nil.
  - repeat (apply Forall_cons; [split; [vm_compute; reflexivity|intros Q; discriminate Q]|]); apply Forall_nil.
  - split; [vm_compute; repeat split; reflexivity|]. split; [vm_compute; reflexivity|]. repeat constructor; vm_compute; reflexivity.
  - vm_compute. reflexivity.
  - cbn. lia.
Qed.

(** "x=7,s='xy'": the text comes out right-aligned. *)
Definition to_seven (t : list Z) : outcome Z := if bytes_eqb t (str "7") then Ok (z2d 7) else Throw UserError.
Definition marg : list Z := str "x=7,s='xy'".
Definition xy : Z := le_val (str "      xy").
Definition mchs : list change :=
  [{| ch_name := str "x"; ch_type := None; ch_value := Some (z2d 7) |};
   {| ch_name := str "s"; ch_type := None; ch_value := Some xy |}].

Definition mf : list Z * table := Eval vm_compute in
  with_table (match encode_frame quick odc_tag doubles LE mcols mdata [] with Ok b => b | _ => [] end).

Lemma mf_frame : frame quick doubles (fst mf) (snd mf).
Proof. apply a_frame; vm_compute; reflexivity. Qed.

Lemma marks t : forallb (fun c => negb (c =? 44) && negb (c =? 58) && negb (c =? 61)) t = true -> t <> [] -> no_mark t.
Proof. intros H N. split; [exact N|]. intros c Hc. rewrite forallb_forall in H. specialize (H c Hc). lia. Qed.

Lemma not_quoted t b : (match t with c :: _ => (c =? 34) || (c =? 39) | [] => false end) = false -> ~ quoted t b.
Proof. intros H (q & Hq & ->). destruct Hq as [-> | ->]; discriminate. Qed.

(** Types can be given in the same way. *)
Theorem C54_text : asks to_seven marg mchs /\
  asks to_seven (str "d:real,x:INTEGER=7") [{| ch_name := str "d"; ch_type := Some ty_REAL; ch_value := None |};
     {| ch_name := str "x"; ch_type := Some ty_INTEGER; ch_value := Some (z2d 7) |}].
Proof.
  split.
  - apply (ak_more to_seven (str "x=7") _ (str "s='xy'")); [|apply ak_one].
    + apply (as_assignment to_seven (str "x") None (Some (z2d 7)) [] (str "=7")); [apply marks; [reflexivity|discriminate]|reflexivity|].
      exists (str "7"). split; [reflexivity|]. split; [intros c [<-|[]]; cbn; lia|]. split; [discriminate|].
      apply vw_number; [intros b; apply not_quoted; reflexivity|reflexivity|discriminate].
    + apply (as_assignment to_seven (str "s") None (Some xy) [] (str "='xy'")); [apply marks; [reflexivity|discriminate]|reflexivity|].
      exists (str "'xy'"). split; [reflexivity|]. split; [intros c Hc; vm_compute in Hc; decompose [or] Hc; subst; lia || contradiction|].
      split; [discriminate|]. apply (vw_text _ _ _ (str "xy")); [exists 39; split; [now right|reflexivity]|cbn; lia|vm_compute; reflexivity].
  - apply (ak_more to_seven (str "d:real") _ (str "x:INTEGER=7")); [|apply ak_one].
    + apply (as_assignment to_seven (str "d") (Some ty_REAL) None (str ":real") []); [apply marks; [reflexivity|discriminate]| |reflexivity].
      exists (str "real"). split; [reflexivity|]. split; [apply marks; [reflexivity|discriminate]|]. exists "REAL"%string.
      split; [right; right; now left|]. unfold in_capitals, str. cbn [String.list_ascii_of_string List.map]. repeat (apply Forall2_cons; [cbn; lia|]); apply Forall2_nil.
    + apply (as_assignment to_seven (str "x") (Some ty_INTEGER) (Some (z2d 7)) (str ":INTEGER") (str "=7")); [apply marks; [reflexivity|discriminate]| |].
      * exists (str "INTEGER"). split; [reflexivity|]. split; [apply marks; [reflexivity|discriminate]|]. exists "INTEGER"%string.
        split; [right; now left|]. unfold in_capitals, str. cbn [String.list_ascii_of_string List.map]. repeat (apply Forall2_cons; [cbn; lia|]); apply Forall2_nil.
      * exists (str "7"). split; [reflexivity|]. split; [intros c [<-|[]]; cbn; lia|]. split; [discriminate|].
        apply vw_number; [intros b; apply not_quoted; reflexivity|reflexivity|discriminate].
Qed.

Lemma msuits : suits doubles mchs (snd mf).
Proof.
  eapply (C54_encoded doubles doubles LE odc_tag quick 2 mcols mdata [] mchs (fst mf)).
  - exact quick_length.
  - exact C54_table.
  - vm_compute. reflexivity.
  - exact mf_frame.
  - apply Forall_cons; [|apply Forall_cons; [|apply Forall_nil]].
    + exists 0%nat. eexists. split; [reflexivity|]. split; [|intros _; vm_compute; tauto].
      intros j c' E. destruct j as [|[|[|j]]]; cbn in E; try (injection E as <-; vm_compute; split; intros; congruence). destruct j; discriminate.
    + exists 1%nat. eexists. split; [reflexivity|]. split; [|intros _; vm_compute; tauto].
      intros j c' E. destruct j as [|[|[|j]]]; cbn in E; try (injection E as <-; vm_compute; split; intros; congruence). destruct j; discriminate.
  - now left.
Qed.

(** The hypotheses of C54_tables and C54_cut, with a file of two frames; and those of C54_values. *)
Theorem C54_witness :
  asks to_seven marg mchs /\ (forall w v, to_seven w = Ok v -> is64 v) /\ bytes_ok marg /\
  made_of quick doubles [mf; mf] /\ bytes_ok (bytes_of [mf; mf]) /\
  Forall (fun p => suits doubles mchs (snd p)) [mf; mf] /\
  (forall c v, In c (t_cols (snd mf)) -> said ch_value mchs (col_name c) = Some v ->
     constant_kind (c_kind (col_coder c)) /\ value_for (col_type c) v) /\
  (forall c, In c (t_cols (snd mf)) -> said ch_type mchs (col_name c) = None) /\
  map (fun c => said ch_value mchs (col_name c)) (t_cols (snd mf)) = [Some (z2d 7); Some xy; None].
Proof.
  split; [apply C54_text|]. split.
  { intros w v. unfold to_seven. destruct (bytes_eqb w (str "7")); [|discriminate]. intros [= <-]. vm_compute. split; [discriminate|reflexivity]. }
  split; [apply bytes_okb_ok; reflexivity|].
  split; [apply Forall_cons; [exact mf_frame|apply Forall_cons; [exact mf_frame|apply Forall_nil]]|].
  split; [apply bytes_okb_ok; vm_compute; reflexivity|].
  split; [apply Forall_cons; [exact msuits|apply Forall_cons; [exact msuits|apply Forall_nil]]|]. split; [|split].
  - intros c v Hc Hs. destruct Hc as [<-|[<-|[<-|[]]]]; vm_compute in Hs.
    + injection Hs as <-. split; [vm_compute; tauto|]. split; [|intros [Q|Q]; discriminate Q]. intros _. exists 7. split; [unfold mid; lia|vm_compute; reflexivity].
    + injection Hs as <-. split; [vm_compute; tauto|]. split; intros [Q|Q]; discriminate Q.
    + discriminate.
  - intros c [<-|[<-|[<-|[]]]]; vm_compute; reflexivity.
  - vm_compute. reflexivity.
Qed.

(** By evaluation: the file read back after the command. *)
Definition out_file : list Z := fst (mdset quick doubles 0 to_seven 9 marg (fst mf)).
Definition blank (n : nat) : facade := {| f_size := 8; f_elems := repeat (repeat 0 8) n |}.
Theorem C54_computed :
  snd (mdset quick doubles 0 to_seven 9 marg (fst mf)) = Ok tt /\
  (match read_table quick doubles 0 out_file 0 with
   | Ok (Some t) => decode_target out_file t [str "x"; str "s"; str "d"] [blank 2; blank 2; blank 2]
   | _ => UB end) =
   Ok [Some {| f_size := 8; f_elems := map (int_cell false) [7; MDI] |};
       Some {| f_size := 8; f_elems := [str "      xy"; str "      xy"] |};
       Some {| f_size := 8; f_elems := map (le_bytes 8) [z2d 3; z2d 4] |}].
Proof. vm_compute. repeat split. Qed.

Theorem C54_misfit_computed :
  mdset quick doubles 0 to_seven 9 (str "d=7") (fst mf) = ([], Throw UserError) /\
  mdset quick doubles 0 to_seven 9 (str "q=7") (fst mf) = ([], Throw ColumnNotFound) /\
  mdset quick doubles 0 to_seven 9 (str "x:[ab]") (fst mf) = ([], UB).
Proof. vm_compute. repeat split. Qed.
